(** Lost bytes in the body of a response. *)
From Verif Require Import ProofsUrl ProofsUri.
From Verif Require Import Base Spec SpecTx SpecConn SpecMsg SpecResp SpecConnect SpecLoss SpecRLoss ModelUtil ModelBstr ModelParsers ModelUrl ModelUri ModelHeaders ModelState ModelTx ModelConn ModelHook
  ProofsBase ProofsBstr ProofsParsers ProofsHeaders ProofsTx ProofsConn ProofsCore ProofsStep ProofsStepResp ProofsLoop ProofsHist ProofsQuiet ProofsEval ProofsBody ProofsHead ProofsFrame ProofsStream ProofsChunk ProofsMsg ProofsRStream ProofsRHead ProofsRBody ProofsRMsg ProofsTalk ProofsConnect4 ProofsLoss.

(** The state once [n] bytes that are missing were passed over. *)
Definition rskipped (n m : N) (t : tx) (s : st) : st :=
  let s1 := set_s_txs (tx_set (s_pidx s) (rspent n t) (s_txs s)) s in
  let s2 := body_hooks SResp (s_pidx s) (PlGap n) s1 in
  let s3 := set_s_input (set_pd_pos n (s_input s)) s2 in
  set_s_resp (set_d_left (Some m) (set_d_consumed n (s_resp s))) s3.
Lemma gap_len n : pd_len (pd_gapped n) = n. Proof. unfold pd_len; cbn [pd_gap pd_gapped pd_pos]; destruct (n <=? 0) eqn:E; lia. Qed.
Lemma rgap_eval e s t n m k : yes e -> tx_get (s_pidx s) (s_txs s) = Some t -> rlive (d_status (s_resp s)) -> d_state (s_resp s) = StClKnown -> d_left (s_resp s) = Some m ->
  s_input s = pd_gapped n -> k = N.min n m -> 0 < k ->
  handle_response_state e s = (if 0 <? m - k then fail SData else set_state SResp StFinalize ;; body_data SResp None) e (rskipped k (m - k) t s).
Proof.
  intros Y B Lv D1 D3 I -> L. set (k := N.min n m) in *. unfold handle_response_state. unfold bind at 1, get_d at 1. cbn [s_dir]. rewrite D1.
  unfold response_body_identity_cl_known. unfold bind at 1, input at 1. unfold bind at 1, get_d at 1. cbn [s_dir]. rewrite (rlive_closed_eqb _ Lv), D3, I, gap_len. fold k. cbv zeta. destruct (k =? 0) eqn:E0; [lia|].
  change (pd_is_gap (pd_gapped n)) with true. cbv iota. unfold bind at 1. unfold bind at 1. rewrite (need_tx_get SResp _ _ _ B). unfold bind at 1. rewrite (radd_mlen_eval k e s t B).
  set (s1 := set_s_txs _ s). assert (B1 : tx_get (s_pidx s1) (s_txs s1) = Some (rspent k t)) by exact (tx_get_set_eq _ _ _ _ B).
  unfold run_hook_body_data at 1. cbn [by_side]. unfold bind at 1. unfold ret at 1. cbn [payload_len]. rewrite E0. cbv zeta iota beta. unfold bind at 1. rewrite (the_tx_get SResp _ _ _ B1).
  unfold bind at 1, ModelConn.get at 1. unfold bind at 1. rewrite (data_hook_yes e _ _ _ _ Y). rewrite (data_hook_yes e _ _ _ _ Y).
  clearbody k. clear L E0. set (F := if 0 <? m - k then _ else _). clearbody F.
  unfold rskipped, body_hooks, push, s1. destruct s as [rq rs oe cc ci ri pi txs cf si so tr lg inp]. destruct rs as [d1 d2 d3 d4 d5 d6 d7 d8 d9 d10]. cbn in I, D1, D3, B. subst.
  ev. reflexivity.
Qed.
Lemma rskipped_mile C n m t tr i s : rmile StClKnown None [] None i t tr C s -> rmile StClKnown None [] None i (rspent n t) (rpiece i (PlGap n) ++ tr) C (rskipped n m t s).
Proof.
  intros [M1 M2 M3 M4 M5 M6 M7 M8 M9 M10 M11 M12]. unfold rskipped, body_hooks, push. rewrite M7. constructor; cbn; try assumption; try reflexivity.
  - apply (tx_get_set_eq _ _ _ _ M8).
  - now rewrite M9.
  - intros j Hj. rewrite tx_get_set_other by congruence. now apply M11.
  - now apply stocked_set.
Qed.
(** * Calls with a gap *)
Definition rflagged (t : tx) : tx := add_flag RESPONSE_MISSING_BYTES t.
Definition is_rdata_loop (e : env) (p : pdata) (s s1 : st) : Prop := data_call SResp p e s = data_loop SResp (loop_fuel SResp s1) e s1.
Lemma rgap_call e C s tr n i t m : rmile StClKnown None [] None i t tr C s -> d_left (s_resp s) = Some m -> s_ridx s <> 0 -> 0 < n ->
  exists s1, is_rdata_loop e (pd_gapped n) s s1 /\ s_input s1 = pd_gapped n /\ rmile StClKnown None [] None i (rflagged t) tr C s1 /\ d_left (s_resp s1) = Some m.
Proof.
  intros [M1 M2 M3 M4 M5 M6 M7 M8 M9 M10 M11 M12] L P Ln. unfold is_rdata_loop, data_call. unfold bind at 1, modify at 1. unfold bind at 1, upd_d at 1. unfold modify at 1. cbv beta iota. unfold bind at 1, get_d at 1. cbn [s_dir].
  set (s0 := set_s_dir SResp (set_d_consumed 0 (s_resp (set_s_input (pd_gapped n) s))) (set_s_input (pd_gapped n) s)). assert (Es : d_status (s_resp s0) = d_status (s_resp s)) by reflexivity. rewrite Es.
  assert (E0 : pd_is_empty (pd_gapped n) = false) by (unfold pd_is_empty; rewrite gap_len; destruct (n =? 0) eqn:E1; lia). rewrite E0. cbn [andb].
  set (body := bind (modify (count_data SResp (pd_len (pd_gapped n)))) _).
  assert (Eb : match d_status (s_resp s) with SsStop => log LvInfo "PARSER_STATE_ERROR" ;; ret SsStop | SsError => log LvError "PARSER_STATE_ERROR" ;; ret SsError | _ => body end e s0 = body e s0) by (destruct M3 as [-> | ->]; reflexivity).
  rewrite Eb. clear Eb. unfold body. clear body. unfold bind at 1, modify at 1. replace (sstate_eqb (d_status (s_resp s)) SsTunnel) with false by (destruct M3 as [-> | ->]; reflexivity).
  set (s1 := count_data SResp _ s0). unfold bind at 1. cbn [by_side].
  unfold ret at 1. change (pd_is_gap (pd_gapped n)) with true. cbv iota. unfold bind at 1. unfold mark_gap. unfold bind at 1, ModelConn.get at 1. unfold bind at 1.
  assert (B1 : tx_get (s_idx SResp s1) (s_txs s1) = Some t) by (cbn [s_idx]; rewrite <- M7 in M8; exact M8). unfold cur_tx at 1. rewrite B1. cbn [fst snd]. unfold bind at 1. rewrite (mod_tx_get SResp _ _ _ _ B1). cbn [x_dir].
  replace (s_ridx s1 =? 0) with false by (symmetry; apply N.eqb_neq; exact P). rewrite Bool.andb_false_l. unfold ret at 1. unfold bind at 1, ModelConn.get at 1.
  eexists. split; [reflexivity|]. split; [reflexivity|]. split; [|exact L]. rewrite <- M7 in *.
  constructor; cbn; try assumption; try reflexivity; [exact (tx_get_set_eq _ _ _ _ M8)| |now apply stocked_set]. intros j Hj. rewrite tx_get_set_other by congruence. now apply M11.
Qed.
Lemma rs_gap_part e C s tr n i t m : yes e -> rmile StClKnown None [] None i t tr C s -> d_left (s_resp s) = Some m -> s_input s = pd_gapped n -> 0 < n < m ->
  exists s', step SResp e s = (ROk (Some SsData), s') /\ rmile StClKnown None [] None i (rspent n t) (rpiece i (PlGap n) ++ tr) C s' /\ d_left (s_resp s') = Some (m - n).
Proof.
  intros Y M L I Ln. pose proof (rskipped_mile C n (m - n) t tr i s M) as M2'. destruct M as [M1 M2 M3 M4 M5 M6 M7 M8 M9 M10 M11 M12]. rewrite <- M7 in M8.
  pose proof (rgap_eval e s t n m n Y M8 M3 M1 L I ltac:(lia) ltac:(lia)) as H. destruct (0 <? m - n) eqn:E; [|lia].
  apply (gap_step_err SResp) in H; [|cbn [s_dir]; rewrite M1; reflexivity]. clear M1 M2 M3 M4 M5 M6 M9 M10 M11 M12.
  assert (L2 : d_left (s_resp (rskipped n (m - n) t s)) = Some (m - n)) by reflexivity.
  set (s1 := rskipped n (m - n) t s) in *. clearbody s1. destruct M2' as [M1 M2 M3 M4 M5 M6 M7' M8' M9 M10 M11 M12].
  destruct (after_step_data SResp SData e s1) as (p & l & H3 & H4 & _); [now left|exact M4|]. rewrite H3 in H. clear H3. cbn [s_idx] in H4. rewrite M7' in H4.
  destruct H4 as [-> | (H4 & _)]; [|congruence].
  eexists. split; [exact H|]. split; [constructor; cbn; try assumption; try reflexivity; now left|exact L2].
Qed.
Lemma rs_gap_last e C s tr n i t m : yes e -> rmile StClKnown None [] None i t tr C s -> t_cep (x_resp t) = CeNone -> d_left (s_resp s) = Some m -> s_input s = pd_gapped n -> 0 < m <= n ->
  exists s', step SResp e s = (ROk None, s') /\ pd_is_gap (s_input s') = true /\
    rmile StFinalize None [] None i (grow SResp 0 (rspent m t)) (rpiece i (PlGap m) ++ tr) C s'.
Proof.
  intros Y M Ce L I Ln. pose proof (rskipped_mile C m (m - m) t tr i s M) as M'. destruct M as [M1 M2 M3 M4 M5 M6 M7 M8 M9 M10 M11 M12]. rewrite <- M7 in M8.
  pose proof (rgap_eval e s t n m m Y M8 M3 M1 L I ltac:(lia) ltac:(lia)) as H. assert (I2 : s_input (rskipped m (m - m) t s) = mk_pdata None (Some n) m 0) by (cbn; rewrite I; reflexivity).
  set (s1 := rskipped m (m - m) t s) in *. clearbody s1. rewrite N.sub_diag in H. change (0 <? 0) with false in H. cbv iota in H. assert (G : gap_allowed SResp (d_state (s_dir SResp s)) = true) by (cbn [s_dir]; rewrite M1; reflexivity).
  clear M1 M2 M3 M4 M5 M6 M7 M8 M9 M10 M11 M12. destruct M' as [M1 M2 M3 M4 M5 M6 M7 M8 M9 M10 M11 M12].
  unfold bind at 1, set_state, upd_d, modify in H. rewrite (body_data_plain SResp e _ (rspent m t) None Y) in H by (cbn; rewrite ?M7; assumption). cbv zeta iota in H.
  apply (gap_step_next SResp) in H; [|exact G|exact (rlive_not_tunnel _ M3)|discriminate].
  eexists. split; [exact H|]. split; [cbn; rewrite I2; reflexivity|]. constructor; cbn; try assumption; try reflexivity; rewrite ?M7.
  - apply (tx_get_set_eq _ _ _ _ M8).
  - intros j Hj. rewrite tx_get_set_other by congruence. now apply M11.
  - now apply stocked_set.
Qed.
(** A gap that ends the body completes the response and is then refused. *)
Lemma rs_gap_final e C s i t tr : yes e -> rmile StFinalize None [] None i t tr C s -> snd (cx_rest C) = false -> pd_is_gap (s_input s) = true -> rclosable t -> i + 1 < 2 ^ 64 ->
  exists s', step SResp e s = (ROk None, s') /\ pd_is_gap (s_input s') = true /\
    rresting [] (i + 1) ((mk_ev HTransactionComplete i PlNone, SOk) :: (mk_ev HResponseComplete i PlNone, SOk) :: tr) (rnext_ctx (c_auto_destroy (e_cfg e)) i (rcompleted_tx t) C) s'.
Proof.
  intros Y [M1 M2 M3 M4 M5 M6 M7 M8 M9 M10 M11 M12] Ot G Cl Li. rewrite <- M7 in M8.
  assert (H : handle_response_state e s = state_response_complete e s).
  { unfold handle_response_state. unfold bind at 1, get_d at 1. cbn [s_dir]. rewrite M1. unfold response_finalize. unfold bind at 1, input at 1. unfold bind at 1, get_d at 1. rewrite G. reflexivity. }
  rewrite (response_complete_eval e s t Y M8 Cl M4 ltac:(destruct M3 as [-> | ->]; discriminate)) in H by (rewrite <- M10 in Ot; exact Ot).
  assert (Wi : wadd (s_pidx s) 1 = i + 1) by (rewrite M7; unfold wadd; apply N.mod_small; exact Li).
  apply (gap_step_next SResp) in H; [|cbn [s_dir]; rewrite M1; reflexivity|exact (rlive_not_tunnel _ M3)|discriminate].
  eexists. split; [exact H|]. split; [destruct (c_auto_destroy _); exact G|].
  rewrite M7 in *. clear H. unfold rnext_ctx. set (t2 := rcompleted_tx t). clearbody t2.
  assert (St : stocked (cx_size C) (tx_set i t2 (s_txs s))) by now apply stocked_set.
  assert (Os : forall j, j <> i -> tx_get j (tx_set i t2 (s_txs s)) = cx_table C j) by (intros j Hj; rewrite tx_get_set_other by congruence; now apply M11).
  assert (Et : tx_get i (tx_set i t2 (s_txs s)) = Some t2) by apply (tx_get_set_eq _ _ _ _ M8).
  destruct (c_auto_destroy (e_cfg e)); constructor; cbn; try assumption; try reflexivity; try (now left); try (now rewrite M9).
  - left. split; [|now apply stocked_del; [rewrite Et|]]. destruct (i + 1 =? i) eqn:E; [lia|]. rewrite tx_get_del by lia. apply Os. lia.
  - intros j Hj. destruct (j =? i) eqn:E.
    + apply N.eqb_eq in E. subst j. apply get_del, St.
    + rewrite tx_get_del by lia. apply Os. lia.
  - left. split; [|exact St]. destruct (i + 1 =? i) eqn:E; [lia|]. apply Os. lia.
  - intros j Hj. destruct (j =? i) eqn:E; [apply N.eqb_eq in E; now subst j|apply Os; lia].
Qed.
Lemma rs_gap_refused e C s i tr : rresting [] i tr C s -> pd_is_gap (s_input s) = true -> exists s', step SResp e s = (ROk (Some SsClosed), s') /\ rresting [] i tr C s'.
Proof.
  intros [D1 D2 D3 D4 D5 D6 D7 T D8 D9 D10] G. unfold step. unfold bind at 1, input at 1. unfold bind at 1, get_d at 1. cbn [s_dir]. rewrite D1, G. cbn [gap_allowed negb andb].
  eexists. split; [reflexivity|]. destruct (LvError <=? c_log_level (e_cfg e)); constructor; assumption.
Qed.
Lemma rthree_steps e s s1 s2 s3 : step SResp e s = (ROk None, s1) -> step SResp e s1 = (ROk None, s2) -> step SResp e s2 = (ROk (Some SsClosed), s3) -> data_loop SResp (loop_fuel SResp s) e s = (ROk SsClosed, s3).
Proof. intros H1 H2 H3. destruct (loop_fuel_S3 SResp s) as [k ->]. cbn [data_loop]. unfold bind. rewrite H1, H2, H3. reflexivity. Qed.
Lemma rone_step e s s1 : step SResp e s = (ROk (Some SsData), s1) -> data_loop SResp (loop_fuel SResp s) e s = (ROk SsData, s1).
Proof. intros H1. destruct (loop_fuel_S3 SResp s) as [k ->]. cbn [data_loop]. unfold bind. rewrite H1. reflexivity. Qed.
(** * The parts of a body *)
Definition rsaid (t : tx) : Prop := N.lor (x_flags t) RESPONSE_MISSING_BYTES = x_flags t.
Lemma rflagged_said t : rsaid (rflagged t).
Proof. unfold rsaid, rflagged, add_flag. cbn [x_flags set_x_flags]. unfold fset. rewrite <- N.lor_assoc, N.lor_diag. reflexivity. Qed.
Lemma rready_flagged m r ls n k t : rready m r ls n k t -> rready m r ls n k (rflagged t).
Proof. intros [R1 R2 R3 R4 R5 R6 R7 R8 R9 R10 R11]. constructor; try assumption. apply (asked_same _ _ _ R1). repeat split; reflexivity. Qed.
Lemma rmile_ridx x rv b h i t tr C s : rmile x rv b h i t tr C s -> s_ridx s = fst (fst (cx_rest C)).
Proof. intro M. rewrite <- (rm_outside _ _ _ _ _ _ _ _ _ M). reflexivity. Qed.
Lemma rmile_calm e i t tr C s : rmile StClKnown None [] None i t tr C s -> bufsum (s_resp s) <= c_field_limit (e_cfg e) /\ live_status (d_status (s_resp s)).
Proof.
  intros [M1 M2 M3 M4 M5 M6 M7 M8 M9 M10 M11 M12]. unfold bufsum. rewrite M5, M6. change (blen []) with 0. split; [lia|]. destruct M3 as [-> | ->]; [now left|right; now left].
Qed.
Lemma rparts_run e i C m r b : yes e -> rp_content r = Plain b -> snd (cx_rest C) = false -> fst (fst (cx_rest C)) <> 0 -> i + 1 < 2 ^ 64 ->
  forall rest ps ds, lossy rest ps ds -> forall n k t tr s, n + blen rest < 2 ^ 64 -> k + blen rest < 2 ^ 64 -> rready m r (rp_lines r) n k t ->
  rmile StClKnown None [] None i t tr C s -> d_left (s_resp s) = Some (blen rest) ->
  exists s' t', run_ops (part_ops SResp ps) e s = (ROk (part_calls ps), s') /\ rready m r (rp_lines r) (n + blen (arrived ps)) (k + blen rest) t' /\
    (rsaid t \/ some_lost ps -> rsaid t') /\
    rresting [] (i + 1) (tr_of (flat_map (reply_piece i) ds ++ rclose_events i) tr) (rnext_ctx (c_auto_destroy (e_cfg e)) i (rcompleted_tx t') C) s'.
Proof.
  intros Y Ec Aw Nx Li rest ps ds H. induction H as [b0 Nb|b0 n0 Nb Ln|b0 rest ps ds Nb H IH|b0 rest ps ds Nb H IH]; intros n k t tr s Ln1 Lk Rd M L.
  - assert (Lb : 0 < blen b0) by (destruct b0; [congruence|unfold blen; cbn [length]; lia]).
    destruct (ropened_mile _ _ _ _ _ _ _ _ b0 s M) as (M1 & L1 & _). rewrite L in L1.
    destruct (rs_body_last e C _ b0 tr b0 [] 0 0 i t Y M1 (ry_cep _ _ _ _ _ _ Rd) L1) as (s1 & H1 & R1 & M2); [rewrite app_nil_r; apply ropened_rest|exact Nb|].
    set (t' := grow SResp 0 (grow SResp (blen b0) t)) in *.
    assert (Rd' : rready m r (rp_lines r) (n + blen b0) (k + blen b0) t').
    { rewrite <- (N.add_0_r (n + blen b0)), <- (N.add_0_r (k + blen b0)). apply rready_grow; [lia..|]. now apply rready_grow. }
    destruct (rs_final_end e C s1 _ _ _ _ i t' Y M2 Aw (rready_closable _ _ _ _ _ _ Rd') Li R1) as (s2 & H2 & R2 & M3).
    destruct (rs_rest e _ _ _ s2 _ _ _ M3 R2) as (s3 & H3 & M4). destruct (rmile_calm e _ _ _ _ _ M) as [B Lv].
    assert (D : data_call SResp (pd_slice b0) e s = (ROk SsData, s3)).
    { apply rruns_data_call; [exact Nb|exact B|exact Lv|]. eapply rruns_next; [exact H1|]. eapply rruns_next; [exact H2|exact H3]. }
    exists s3, t'. split; [unfold part_ops; cbn [map part_op run_ops part_calls]; unfold bind at 1; cbn [run_op]; unfold bind at 1; rewrite D; reflexivity|].
    split; [cbn [arrived]; rewrite app_nil_r; exact Rd'|]. split; [intros [Z | (x & [Z | []])]; [exact Z|discriminate]|].
    cbn [flat_map]. rewrite app_nil_r, tr_of_app, <- tr_of_rpiece. exact M4.
  - assert (Lb : 0 < blen b0) by (destruct b0; [congruence|unfold blen; cbn [length]; lia]).
    destruct (rgap_call e C s tr n0 i t _ M L) as (s1 & D & I & M1 & L1); [rewrite (rmile_ridx _ _ _ _ _ _ _ _ _ M); exact Nx|lia|].
    destruct (rs_gap_last e C s1 tr n0 i _ _ Y M1 (ry_cep _ _ _ _ _ _ Rd) L1 I) as (s2 & H2 & G2 & M2); [lia|].
    set (t' := grow SResp 0 (rspent (blen b0) (rflagged t))) in *.
    assert (Rd' : rready m r (rp_lines r) n (k + blen b0) t').
    { rewrite <- (N.add_0_r n), <- (N.add_0_r (k + blen b0)). apply rready_grow; [lia..|]. apply rready_spent; [lia|]. now apply rready_flagged. }
    destruct (rs_gap_final e C s2 i t' _ Y M2 Aw G2 (rready_closable _ _ _ _ _ _ Rd') Li) as (s3 & H3 & G3 & M3).
    destruct (rs_gap_refused e _ s3 _ _ M3 G3) as (s4 & H4 & M4).
    unfold is_rdata_loop in D. rewrite (rthree_steps e s1 s2 s3 s4 H2 H3 H4) in D.
    exists s4, t'. split; [unfold part_ops; cbn [map part_op run_ops part_calls]; unfold bind at 1; cbn [run_op]; unfold bind at 1; rewrite D; reflexivity|].
    split; [cbn [arrived]; change (blen []) with 0; rewrite N.add_0_r; exact Rd'|]. split; [intros _; exact (rflagged_said t)|].
    cbn [flat_map]. rewrite app_nil_r, tr_of_app, <- tr_of_rpiece. exact M4.
  - pose proof (lossy_full _ _ _ H) as Lr. assert (Lb : 0 < blen b0) by (destruct b0; [congruence|unfold blen; cbn [length]; lia]). assert (Ls : blen (b0 ++ rest) = blen b0 + blen rest) by (unfold blen; rewrite app_length; lia). rewrite Ls in *.
    destruct (ropened_mile _ _ _ _ _ _ _ _ b0 s M) as (M1 & L1 & _). rewrite L in L1.
    destruct (rs_body_part e C _ b0 tr b0 0 0 i t _ Y M1 (ry_cep _ _ _ _ _ _ Rd) L1 (ropened_rest b0 s)) as (s1 & H1 & M2 & L2); [lia|]. destruct (rmile_calm e _ _ _ _ _ M) as [B Lv].
    assert (D : data_call SResp (pd_slice b0) e s = (ROk SsData, s1)) by (apply rruns_data_call; [exact Nb|exact B|exact Lv|exact H1]).
    destruct (IH (n + blen b0) (k + blen b0) (grow SResp (blen b0) t) (rpiece i (PlData b0) ++ tr) s1) as (s2 & t' & H2 & Rd' & Sa & Q); [lia|lia|apply rready_grow; [lia..|exact Rd]|exact M2|rewrite L2; f_equal; lia|].
    exists s2, t'. split; [|split; [|split]].
    + unfold part_ops in *. cbn [map part_op run_ops part_calls]. unfold bind at 1. cbn [run_op]. unfold bind at 1. rewrite D. unfold ret at 1. unfold bind at 1. rewrite H2. reflexivity.
    + cbn [arrived]. replace (blen (b0 ++ arrived ps)) with (blen b0 + blen (arrived ps)) by (unfold blen; rewrite app_length; lia). rewrite !N.add_assoc. exact Rd'.
    + intros [Z | (x & [Z | Z])]; [apply Sa; left; exact Z|discriminate|apply Sa; right; now exists x].
    + cbn [flat_map]. rewrite <- app_assoc, tr_of_app, <- tr_of_rpiece. exact Q.
  - pose proof (lossy_full _ _ _ H) as Lr. assert (Lb : 0 < blen b0) by (destruct b0; [congruence|unfold blen; cbn [length]; lia]). assert (Ls : blen (b0 ++ rest) = blen b0 + blen rest) by (unfold blen; rewrite app_length; lia). rewrite Ls in *.
    destruct (rgap_call e C s tr (blen b0) i t _ M L) as (s1 & D & I & M1 & L1); [rewrite (rmile_ridx _ _ _ _ _ _ _ _ _ M); exact Nx|exact Lb|].
    destruct (rs_gap_part e C s1 tr (blen b0) i _ _ Y M1 L1 I) as (s2 & H2 & M2 & L2); [lia|]. unfold is_rdata_loop in D. rewrite (rone_step e s1 s2 H2) in D.
    destruct (IH n (k + blen b0) (rspent (blen b0) (rflagged t)) (rpiece i (PlGap (blen b0)) ++ tr) s2) as (s3 & t' & H3 & Rd' & Sa & Q); [lia|lia|apply rready_spent; [lia|now apply rready_flagged]|exact M2|rewrite L2; f_equal; lia|].
    exists s3, t'. split; [|split; [|split]].
    + unfold part_ops in *. assert (Np : ps <> []) by (destruct H; discriminate). destruct ps as [|p ps]; [congruence|]. remember (p :: ps) as qs. cbn [map part_op run_ops]. unfold bind at 1. cbn [run_op]. unfold bind at 1. rewrite D. unfold ret at 1. unfold bind at 1. rewrite H3. subst qs. reflexivity.
    + cbn [arrived]. rewrite N.add_assoc. exact Rd'.
    + intros _. apply Sa. left. exact (rflagged_said t).
    + cbn [flat_map]. rewrite <- app_assoc, tr_of_app, <- tr_of_rpiece. exact Q.
Qed.

(** * The response *)
Lemma rpaused_body i C tr m r b0 rest s : rp_content r = Plain (b0 ++ rest) -> rest <> [] -> rpaused i C tr [(m, r)] rest s ->
  exists t es, rready m r (rp_lines r) (blen b0) (blen b0) t /\ rbody_events i r b0 es /\ rmile StClKnown None [] None i t (tr_of es tr) C s /\ d_left (s_resp s) = Some (blen rest).
Proof.
  intros Ec Nr P. assert (Lc : length (content_text (rp_content r)) = (length b0 + length rest)%nat) by (rewrite Ec; unfold content_text; cbn [coded_text trailer_of]; rewrite ?app_nil_r, app_length; reflexivity).
  remember [(m, r)] as xs eqn:Em in P. remember rest as X eqn:EX in P.
  destruct P as [xs s Q|m1 r1 xs p l t s El Ct M|m1 r1 xs ls1 ls2 p q t hs s El Eq Nq Hp Eh Rd Tp M|m1 r1 xs b1 b2 t es s Ec1 Nb Rd Be M L|m1 r1 xs cs la trl ds l t es s Ec1 Ep Nl Rd Be M|m1 r1 xs cs la trl ds ck l d1 d2 t es s Ec1 Ep Ed Nd Rd Be M L|m1 r1 xs cs la trl ds ck l x y t es s Ec1 Ep Nd Ex Ny Rd Be M|m1 r1 xs cs la trl ls1 ls2 p q t es hs s Ec1 El Eq Nq Hp Eh Rd Tp Be M|m1 r1 m' r' xs p l t es s El Np Rd Es M];
    try (injection Em as -> -> ->); try congruence.
  - subst xs. exfalso. apply (f_equal (@length N)) in EX. rewrite xtexts_cons in EX. unfold rafter_line in EX. rewrite !app_length in EX. rewrite Lc in EX. cbn [length] in EX. lia.
  - exfalso. apply (f_equal (@length N)) in EX. unfold rafter_line in EX. rewrite !app_length in EX. rewrite Lc in EX. cbn [length] in EX. lia.
  - exfalso. apply (f_equal (@length N)) in EX. rewrite !app_length in EX. rewrite Lc in EX. destruct q; [congruence|]. cbn [length] in EX. lia.
  - change (xtexts []) with (@nil N) in EX. rewrite app_nil_r in EX. subst b2. rewrite Ec in Ec1. injection Ec1 as Ec1. apply app_inv_tail in Ec1. subst b1. exists t, es. auto.
Qed.
Lemma torn_done q i t es : good_torn q -> rready (tn_asked q) (tn_reply q) (rp_lines (tn_reply q)) (blen (tn_seen q) + blen (arrived (tn_parts q))) (blen (tn_seen q) + blen (tn_rest q)) t ->
  (some_lost (tn_parts q) -> rsaid t) -> rbody_events i (tn_reply q) (tn_seen q) es ->
  asked (tn_asked q) (rcompleted_tx t) /\ lossily_answered q (rcompleted_tx t) /\ torn_events i q (es ++ flat_map (reply_piece i) (tn_told q) ++ rclose_events i).
Proof.
  intros (G & _ & _ & _ & Ec & _ & _ & _ & Ly & _) [R1 R2 R3 R4 R5 [R6 _] R7 R8 R9 R10 R11] Sa (he & bs & (hs & H1 & ->) & H2 & H3 & ->).
  inversion_clear G as [|? ? [_ Gr] _]. cbn [fst snd] in Gr. destruct (good_reply_small _ _ Gr) as [Ls _]. rewrite Ec in Ls. cbn [coded_text] in Ls.
  assert (Lb : blen (tn_seen q ++ tn_rest q) = blen (tn_seen q) + blen (tn_rest q)) by (unfold blen; rewrite app_length; lia). rewrite Lb in Ls. pose proof (lossy_arrived _ _ _ Ly) as La.
  assert (Lb' : blen (tn_seen q ++ arrived (tn_parts q)) = blen (tn_seen q) + blen (arrived (tn_parts q))) by (unfold blen; rewrite app_length; lia). split; [|split].
  - apply (asked_same _ _ _ R1). unfold rcompleted_tx. destruct (coding_eqb _ _); repeat split; reflexivity.
  - unfold rcompleted_tx. destruct (coding_eqb _ _); constructor; cbn; try assumption; try reflexivity; rewrite ?R8, ?R9, ?Lb, ?Lb'; try reflexivity; apply wadd_small; lia.
  - exists hs, bs. split; [exact H1|]. split; [exact H2|]. split; [exact H3|]. unfold rline_events, rclose_events, ev_rheader, ev_rstart. rewrite <- !app_assoc. reflexivity.
Qed.
Lemma torn_runs e n tr T z s q : yes e -> level n tr T z s -> good_torn q -> Forall (line_limits e) (tn_exchanges q) -> n + N.of_nat (length (tn_exchanges q)) < 2 ^ 64 ->
  N.of_nat z + N.of_nat (length (tn_exchanges q)) <= c_max_tx (e_cfg e) ->
  exists s' T' es1 es2 es3, run_ops (torn_ops q) e s = (ROk (torn_calls q), s') /\
    stream_events (e_cfg e) n (map fst (tn_exchanges q)) es1 /\ torn_events n q es2 /\ reply_events (n + 1) (map snd (tn_others q)) es3 /\
    level (n + N.of_nat (length (tn_exchanges q))) (tr_of (es1 ++ es2 ++ es3) tr) T' (if c_auto_destroy (e_cfg e) then z else (z + length (tn_exchanges q))%nat) s' /\
    (forall j, j < n -> T' j = T j) /\
    (forall k f, nth_error (outcomes (Torn q)) k = Some f -> if c_auto_destroy (e_cfg e) then T' (n + N.of_nat k) = None else exists t, T' (n + N.of_nat k) = Some t /\ f t).
Proof.
  intros Y [Lq (P1 & P2 & P3 & P4 & P5 & P6) Lf Lk] Gq Lim Ix Sz. assert (Gq' := Gq). destruct Gq' as (G & Eu & Nu & Cu & Ec & Eh & Nh & Ch & Ly & Ed & Nd & Cd & Ad). set (xs := tn_exchanges q) in *. set (d := c_auto_destroy (e_cfg e)).
  assert (Ln : length (map fst xs) = length xs) by apply map_length.
  assert (R1 : room e n (mk_ctx T (n, s_resp s, false) z) (map fst xs)).
  { constructor; cbn [cx_rest cx_size cx_table fst snd]; rewrite ?Ln; try assumption.
    - apply Forall_forall. intros m I. apply in_map_iff in I as (x & <- & I). rewrite Forall_forall in G. now apply G.
    - apply Forall_forall. intros m I. apply in_map_iff in I as (x & <- & I). rewrite Forall_forall in Lim. destruct (Lim x I) as (L1 & L2 & _). now split.
    - intro Z. rewrite Z in P3. destruct P3; discriminate. }
  pose proof (@pa_idle (e_cfg e) n _ tr (map fst xs) s Lq) as P. rewrite <- Eu, <- (app_nil_r (concat _)) in P.
  destruct (stream_calls e (tn_up q) Y n _ tr (map fst xs) [] s R1 Nu) as (s1 & done & ms' & i1 & C1 & tr1 & H1 & E1 & T1 & Q1); [|exact P|].
  { intros a b Eab _ before m after y Em. exact (Cu a b before m after y Eab Em). }
  apply paused_end in Q1 as [-> Q1]. rewrite app_nil_r in E1. subst done. destruct (told_facts _ _ _ _ _ _ _ T1) as (Ei & (es1 & -> & Se) & Tx & Ti). destruct (told_more _ _ _ _ _ _ _ T1) as (Tm & Tr & Ts). cbn [cx_rest cx_size cx_table] in *. rewrite Ln in *. clear P R1.
  pose proof (keys_run (map (fun c => OpReq (pd_slice c)) (tn_up q)) e s Lk) as K1. rewrite H1 in K1. cbn [snd] in K1. subst i1.
  destruct Q1 as [D1 D2 D3 D4 D5 D6 D7 D8 D9 D10 D11]. rewrite Tr in D10. unfold outside in D10. injection D10 as O1 O2 O3.
  set (C2 := mk_ctx (fun j => tx_get j (s_txs s1)) (n + N.of_nat (length xs), s_req s1, false) (length (s_txs s1))).
  assert (Qr : rresting [] n (tr_of es1 tr) C2 s1) by (constructor; rewrite ?O2; try assumption; [left; split; [reflexivity|split; [exact K1|apply Nat.le_refl]]|unfold r_outside, C2; cbn [cx_rest]; congruence|reflexivity]).
  assert (R2 : rroom e n C2 xs).
  { constructor; [exact G| |exact Ix|reflexivity|].
    - apply Forall_forall. intros x I. rewrite Forall_forall in Lim. destruct (Lim x I) as (_ & _ & L). exact L.
    - intros k x Hk. destruct (Tx k (fst x)) as (t & Ht & Ho); [now apply map_nth_error|]. exists t. split; [|exact (holds_awaits _ _ Ho)]. unfold C2. cbn [cx_table]. rewrite D11; [exact Ht|].
      assert (k < length xs)%nat by (apply nth_error_Some; congruence). lia. }
  (* up to the place in the body *)
  set (m := tn_asked q) in *. set (r := tn_reply q) in *. set (ys := tn_others q) in *. change xs with ((m, r) :: ys) in *. clear xs. cbn [length] in *.
  pose proof (lossy_full _ _ _ Ly) as Lfu. assert (Nr : tn_rest q <> []) by (intro Z; rewrite Z in Lfu; cbn in Lfu; lia).
  assert (R3 : rroom e n C2 [(m, r)]).
  { destruct R2 as [U1 U2 U3 U4 U5]. inversion_clear U1 as [|? ? U1' _]. inversion_clear U2 as [|? ? U2' _]. constructor; [constructor; [exact U1'|constructor]|constructor; [exact U2'|constructor]|cbn [length]; lia|exact U4|].
    intros [|k] x Hk; [exact (U5 0%nat x Hk)|destruct k; discriminate]. }
  pose proof (ra_idle n C2 (tr_of es1 tr) [(m, r)] s1 Qr) as P.
  replace (xtexts [(m, r)]) with (concat (tn_head q) ++ tn_rest q) in P.
  2:{ rewrite Eh. unfold xtexts, rtexts. cbn [map concat snd]. rewrite app_nil_r. unfold response_text, content_text. fold r. rewrite Ec. cbn [coded_text]. rewrite app_nil_r, <- app_assoc. reflexivity. }
  destruct (rstream_calls e (tn_head q) Y n C2 (tr_of es1 tr) [(m, r)] (tn_rest q) s1 R3 Nh) as (s2 & done & xs' & i2 & C3 & tr2 & H2 & E2 & T2 & Q2); [| |exact P|].
  { intros a b Eab _ before x after y Em Hy. apply (Ch a b (map snd before) (snd x) (map snd after) y Eab); [|exact Hy]. change [r] with (map snd [(m, r)]). rewrite Em. now rewrite map_app. }
  { intros a c b Eab before x after y tl Em Hb -> Ny Et. exfalso. assert (Ea : after = []) by (apply (f_equal (@length _)) in Em; rewrite app_length in Em; cbn [length] in Em; destruct after; [reflexivity|cbn [length] in Em; lia]).
    rewrite Ea in Et. change (xtexts []) with (@nil N) in Et. apply app_eq_nil in Et as [_ Et]. apply app_eq_nil in Et as [_ Et]. contradiction. }
  assert (Ee : done = [] /\ xs' = [(m, r)]).
  { destruct done as [|x done]; [split; [reflexivity|symmetry; exact E2]|]. exfalso. injection E2 as _ E2. symmetry in E2. apply app_eq_nil in E2 as [-> ->].
    remember (@nil (message * response)) as ms0 eqn:Em0 in Q2. destruct Q2; try discriminate Em0. subst xs. apply Nr. reflexivity. }
  destruct Ee as [-> ->]. assert (Zt : i2 = n /\ C3 = C2 /\ tr2 = tr_of es1 tr) by (inversion T2; auto). destruct Zt as (-> & -> & ->). clear T2 E2 P R3.
  pose proof (keys_run (map (fun c => OpResp (pd_slice c)) (tn_head q)) e s1 K1) as K2. rewrite H2 in K2. cbn [snd] in K2.
  destruct (rpaused_body _ _ _ m r (tn_seen q) (tn_rest q) s2 Ec Nr Q2) as (t1 & es & Rd & Be & M & Lft).
  (* the parts *)
  assert (Ls : blen (tn_seen q) + blen (tn_rest q) < 2 ^ 64).
  { inversion_clear G as [|? ? [_ Gr] _]. cbn [fst snd] in Gr. destruct (good_reply_small _ _ Gr) as [Ls _]. rewrite Ec in Ls. cbn [coded_text] in Ls. unfold blen in *. rewrite app_length in Ls. lia. }
  destruct (rparts_run e n C2 m r _ Y Ec eq_refl ltac:(cbn [C2 cx_rest fst]; lia) ltac:(lia) _ _ _ Ly (blen (tn_seen q)) (blen (tn_seen q)) t1 _ s2 ltac:(lia) ltac:(lia) Rd M Lft) as (s3 & t & H3 & Rd2 & Sa & Q3).
  destruct (torn_done q n t es Gq Rd2 (fun h => Sa (or_intror h)) Be) as (At & La & Le). rewrite <- tr_of_app in Q3. set (es2 := es ++ flat_map (reply_piece n) (tn_told q) ++ rclose_events n) in *.
  pose proof (keys_run (part_ops SResp (tn_parts q)) e s2 K2) as K3. rewrite H3 in K3. cbn [snd] in K3.
  (* the other responses *)
  set (C4 := rnext_ctx (c_auto_destroy (e_cfg e)) n (rcompleted_tx t) C2) in *.
  pose proof (rroom_next d e n C2 (rcompleted_tx t) (m, r) ys R2) as R4. unfold d in R4. fold C4 in R4.
  pose proof (ra_idle (n + 1) C4 _ ys s3 Q3) as P. replace (xtexts ys) with (concat (tn_down q) ++ []) in P by (rewrite app_nil_r, Ed; reflexivity).
  destruct (rstream_calls e (tn_down q) Y (n + 1) C4 (tr_of es2 (tr_of es1 tr)) ys [] s3 R4 Nd) as (s4 & done & xs' & i2 & C5 & tr2 & H4 & E2 & T2 & Q4); [| |exact P|].
  { intros a b Eab _ before x after y Em Hy. rewrite Em in *. apply (Cd a b (map snd before) (snd x) (map snd after) y Eab); [|exact Hy]. now rewrite map_app. }
  { intros a c b Eab before x after y tl Em Hb -> Ny Et. apply (Ad a y tl b (map snd before) (snd x) (map snd after) Eab Ny); [|exact Hb|exact Et]. rewrite Em. now rewrite map_app. }
  apply rpaused_end in Q4 as [-> Q4]. rewrite app_nil_r in E2. subst done. destruct (rtold_facts _ _ _ _ _ _ _ _ T2) as (Ei & (es3 & -> & Re) & Ux & Ui & Ur & Us). subst i2. fold d in Ux, Us. clear P R4.
  pose proof (keys_run (map (fun c => OpResp (pd_slice c)) (tn_down q)) e s3 K3) as K4. rewrite H4 in K4. cbn [snd] in K4.
  unfold C4, rnext_ctx, C2 in Ui, Ur, Us. cbn [cx_rest cx_size cx_table] in Ui, Ur, Us. fold d in Ui, Us.
  destruct Q4 as [F1 F2 F3 F4 F5 F6 F7 F8 F9 F10 F11]. rewrite Ur in F10. unfold r_outside in F10. injection F10 as V1 V2 V3.
  replace (n + 1 + N.of_nat (length ys)) with (n + N.of_nat (S (length ys))) in * by lia.
  exists s4, (cx_table C5), es1, es2, es3. split; [|split; [exact Se|split; [exact Le|split; [exact Re|split; [|split]]]]].
  - unfold torn_ops, torn_calls, more, reqs, resps. rewrite !map_map. eapply run_ops_app; [exact H1|]. eapply run_ops_app; [exact H2|]. eapply run_ops_app; [exact H3|exact H4].
  - assert (Uo : cx_table C5 (n + N.of_nat (S (length ys))) = tx_get (n + N.of_nat (S (length ys))) (s_txs s1)) by (rewrite Ui by lia; destruct (_ =? n) eqn:E; [lia|reflexivity]).
    constructor; [|repeat split; assumption| |exact K4].
    + constructor; rewrite ?V2; try assumption.
      * cbn [cx_size]. rewrite Uo in F8. assert (W : (length (s_txs s1) <= (if tx_get (n + N.of_nat (S (length ys))) (s_txs s1) then 1 else 0) + (z + S (length ys)))%nat) by (destruct D8 as [[D8 D8'] | [D8 D8']]; rewrite D8; lia).
        destruct F8 as [(F8 & _ & F8') | (F8 & F8' & _ & F8'')].
        { rewrite F8. destruct D8 as [[D8 _] | [D8 _]]; rewrite D8 in *; [left|right]; (split; [reflexivity|]); destruct d; lia. }
        { rewrite F8 in W. left. split; [exact F8'|]. destruct d; lia. }
      * rewrite !tr_of_app. exact F9.
      * unfold outside. cbn [cx_rest]. congruence.
    + intros j Hj. rewrite Ui by lia. destruct (j =? n) eqn:E; [lia|]. rewrite D11 by lia. rewrite Tm by lia. apply Lf. lia.
  - intros j Hj. rewrite Ui by lia. destruct (j =? n) eqn:E; [lia|]. rewrite D11 by lia. now apply Ti.
  - intros [|k] f Hk; cbn [outcomes nth_error] in Hk.
    + injection Hk as <-. rewrite N.add_0_r. rewrite Ui by lia. rewrite N.eqb_refl. fold d. destruct d; [reflexivity|]. exists (rcompleted_tx t). auto.
    + rewrite nth_error_map in Hk. fold ys in Hk. destruct (nth_error ys k) as [x|] eqn:Ex; [|discriminate Hk]. injection Hk as <-. specialize (Ux k x Ex). fold d. replace (n + N.of_nat (S k)) with (n + 1 + N.of_nat k) by lia. exact Ux.
Qed.

(** * Conversations *)
Lemma outcomes_length g : length (outcomes g) = length (stage_exchanges g).
Proof. destruct g as [rd|q]; cbn [outcomes stage_exchanges tn_exchanges length]; now rewrite map_length. Qed.
Lemma stage_runs e n tr T z s g : yes e -> level n tr T z s -> good_stage g -> Forall (line_limits e) (stage_exchanges g) -> n + N.of_nat (length (stage_exchanges g)) < 2 ^ 64 ->
  N.of_nat z + N.of_nat (length (stage_exchanges g)) <= c_max_tx (e_cfg e) ->
  exists s' T' es, run_ops (stage_ops g) e s = (ROk (stage_calls g), s') /\
    (forall gs es', staged_events (e_cfg e) (n + N.of_nat (length (stage_exchanges g))) gs es' -> staged_events (e_cfg e) n (g :: gs) (es ++ es')) /\
    level (n + N.of_nat (length (stage_exchanges g))) (tr_of es tr) T' (if c_auto_destroy (e_cfg e) then z else (z + length (stage_exchanges g))%nat) s' /\
    (forall j, j < n -> T' j = T j) /\
    (forall k f, nth_error (outcomes g) k = Some f -> if c_auto_destroy (e_cfg e) then T' (n + N.of_nat k) = None else exists t, T' (n + N.of_nat k) = Some t /\ f t).
Proof.
  intros Y L G Lim Ix Sz. destruct g as [rd|q]; cbn [stage_exchanges stage_ops stage_calls good_stage] in *.
  - destruct (round_runs e n tr T z s rd Y L G Lim Ix Sz) as (s' & T' & es1 & es2 & H & Se & Re & L' & Ot & X). exists s', T', (es1 ++ es2). split; [exact H|]. split; [intros gs es' S; rewrite <- app_assoc; now apply sv_whole|].
    split; [exact L'|]. split; [exact Ot|]. intros k f Hk. cbn [outcomes] in Hk. rewrite nth_error_map in Hk. destruct (nth_error (rd_exchanges rd) k) as [x|] eqn:Ex; [|discriminate Hk]. injection Hk as <-. exact (X k x Ex).
  - destruct (torn_runs e n tr T z s q Y L G Lim Ix Sz) as (s' & T' & es1 & es2 & es3 & H & Se & Le & Re & L' & Ot & X). exists s', T', (es1 ++ es2 ++ es3). split; [exact H|].
    split; [intros gs es' S; rewrite <- !app_assoc; now apply sv_torn|]. split; [exact L'|]. split; [exact Ot|exact X].
Qed.
Lemma staged_runs e gs : yes e -> forall n tr T z s, level n tr T z s -> Forall good_stage gs -> Forall (line_limits e) (staged_exchanges gs) -> n + N.of_nat (length (staged_exchanges gs)) < 2 ^ 64 ->
  (if c_auto_destroy (e_cfg e) then Forall (fun g => N.of_nat z + N.of_nat (length (stage_exchanges g)) <= c_max_tx (e_cfg e)) gs else N.of_nat z + N.of_nat (length (staged_exchanges gs)) <= c_max_tx (e_cfg e)) ->
  exists s' T' z' es, run_ops (concat (map stage_ops gs)) e s = (ROk (concat (map stage_calls gs)), s') /\
    staged_events (e_cfg e) n gs es /\ level (n + N.of_nat (length (staged_exchanges gs))) (tr_of es tr) T' z' s' /\
    (forall j, j < n -> T' j = T j) /\
    (forall k f, nth_error (staged_outcomes gs) k = Some f -> if c_auto_destroy (e_cfg e) then T' (n + N.of_nat k) = None else exists t, T' (n + N.of_nat k) = Some t /\ f t).
Proof.
  intro Y. induction gs as [|g gs IH]; intros n tr T z s L G Lim Ix Sz.
  - exists s, T, z, []. split; [reflexivity|]. split; [constructor|]. split; [cbn; rewrite N.add_0_r; exact L|]. split; [reflexivity|]. intros [|k]; discriminate.
  - inversion_clear G as [|? ? G1 G2]. unfold staged_exchanges in Lim, Ix, Sz |- *. cbn [map concat] in *. rewrite app_length in *. fold (staged_exchanges gs) in *. apply Forall_app in Lim as [Lim1 Lim2].
    destruct (stage_runs e n tr T z s g Y L G1 Lim1) as (s1 & T1 & es1 & H1 & S1 & L1 & O1 & X1); [lia|destruct (c_auto_destroy _); [now inversion_clear Sz|lia]|].
    destruct (IH _ _ _ _ _ L1 G2 Lim2) as (s2 & T2 & z2 & es2 & H2 & S2 & L2 & O2 & X2); [lia|destruct (c_auto_destroy _); [now inversion_clear Sz|lia]|].
    exists s2, T2, z2, (es1 ++ es2). split; [exact (run_ops_app _ _ _ _ _ _ _ _ H1 H2)|]. split; [now apply S1|]. split; [|split].
    + rewrite tr_of_app. replace (n + N.of_nat (length (stage_exchanges g) + length (staged_exchanges gs))) with (n + N.of_nat (length (stage_exchanges g)) + N.of_nat (length (staged_exchanges gs))) by lia. exact L2.
    + intros j Hj. rewrite O2 by lia. now apply O1.
    + intros k f Hk. unfold staged_outcomes in Hk. cbn [map concat] in Hk. pose proof (outcomes_length g) as Lo. destruct (Nat.lt_ge_cases k (length (outcomes g))) as [Lk | Lk].
      * rewrite nth_error_app1 in Hk by exact Lk. specialize (X1 k f Hk). rewrite O2 by lia. exact X1.
      * rewrite nth_error_app2 in Hk by exact Lk. specialize (X2 _ f Hk). rewrite Lo in X2. replace (n + N.of_nat (length (stage_exchanges g)) + N.of_nat (k - length (stage_exchanges g))) with (n + N.of_nat k) in X2 by lia. exact X2.
Qed.
Definition staged_run (e : env) (gs : list stage) : Prop :=
  exists s, history e (staged_talk gs) = (ROk (staged_calls gs), s) /\ staged_events (e_cfg e) 0 gs (events s) /\
    (forall k f, nth_error (staged_outcomes gs) k = Some f ->
      if c_auto_destroy (e_cfg e) then tx_get (N.of_nat k) (s_txs s) = None else exists t, tx_get (N.of_nat k) (s_txs s) = Some t /\ f t).
Lemma staged_outcomes_length gs : length (staged_outcomes gs) = length (staged_exchanges gs).
Proof. induction gs as [|g gs IH]; [reflexivity|]. unfold staged_outcomes, staged_exchanges in *. cbn [map concat]. rewrite !app_length, IH, outcomes_length. reflexivity. Qed.
Lemma staged_parsed_yes e gs : yes e -> Forall good_stage gs -> staged_fits e gs -> staged_run e gs.
Proof.
  intros Y G (F1 & F2 & F3). destruct (open_level e) as (s0 & H0 & L0).
  destruct (staged_runs e gs Y 0 [] _ 0%nat s0 L0 G F1 F2 F3) as (s1 & T1 & z & es & H1 & Ce & [Lq _ _ _] & _ & X). rewrite N.add_0_l in Lq.
  exists s1. split; [|split].
  - unfold history, staged_talk, staged_calls. cbn [run_ops]. unfold bind at 1. rewrite H0. unfold bind at 1. rewrite H1. reflexivity.
  - rewrite (events_tr_of _ _ (rs_trace _ _ _ _ _ Lq)). exact Ce.
  - intros k f Hk. assert (k < length (staged_exchanges gs))%nat by (rewrite <- staged_outcomes_length; apply nth_error_Some; congruence). rewrite (rs_others _ _ _ _ _ Lq) by lia. specialize (X k f Hk). rewrite N.add_0_l in X. exact X.
Qed.
Lemma staged_events_mute e i gs es : staged_events (e_cfg (mute e)) i gs es -> staged_events (e_cfg e) i gs es.
Proof. intro H. induction H; [constructor|apply sv_whole|apply sv_torn]; try assumption; now apply stream_events_mute. Qed.
Lemma staged_parsed e gs : accepting e -> Forall good_stage gs -> staged_fits e gs -> staged_run e gs.
Proof.
  intros A G F. destruct (staged_parsed_yes (mute e) gs (yes_mute e) G F) as (s & H & Ee & D).
  match type of H with history _ ?l = _ => destruct (history_mute e l A) as [H1 H2] end. rewrite H in H1, H2. cbn [fst snd] in H1, H2. apply similar_txs in H2 as [H2 H3].
  match type of H with history _ ?l = _ => exists (snd (history e l)) end. split; [rewrite <- H1; apply surjective_pairing|]. rewrite H3. split; [now apply staged_events_mute|].
  intros k f Hk. rewrite H2. exact (D k f Hk).
Qed.
