(** Lost bytes in the body of a request. *)
From Verif Require Import ProofsUrl ProofsUri.
From Verif Require Import Base Spec SpecTx SpecConn SpecMsg SpecResp SpecConnect SpecLoss ModelUtil ModelBstr ModelParsers ModelUrl ModelUri ModelHeaders ModelState ModelTx ModelConn ModelHook
  ProofsBase ProofsBstr ProofsParsers ProofsHeaders ProofsTx ProofsConn ProofsCore ProofsStep ProofsStepResp ProofsLoop ProofsHist ProofsQuiet ProofsEval ProofsBody ProofsHead ProofsFrame ProofsStream ProofsChunk ProofsMsg ProofsRStream ProofsRHead ProofsRMsg ProofsTalk ProofsConnect4.

(** * Steps with a gap *)
Lemma gap_step_next sd e s s1 : gap_allowed sd (d_state (s_dir sd s)) = true -> handle_state sd e s = (ROk tt, s1) ->
  d_status (s_dir sd s1) <> SsTunnel -> d_state (s_dir sd s1) <> StHeaders ->
  step sd e s = (ROk None, set_s_dir sd (set_d_prev (d_state (s_dir sd s1)) (s_dir sd s1)) s1).
Proof.
  intros G H T N1. unfold step. unfold bind at 1, input at 1. unfold bind at 1, get_d at 1. rewrite G. cbn [negb]. rewrite Bool.andb_false_r.
  unfold bind at 1, try at 1. rewrite H. unfold bind at 1, get_d at 1.
  replace (sstate_eqb (d_status (s_dir sd s1)) SsTunnel) with false by (destruct (d_status (s_dir sd s1)); congruence || reflexivity).
  unfold bind at 1, try at 1, handle_state_change. unfold bind at 1, get_d at 1.
  destruct (pstate_eqb (d_prev (s_dir sd s1)) (d_state (s_dir sd s1))) eqn:E.
  - assert (Eq : d_prev (s_dir sd s1) = d_state (s_dir sd s1)) by (clear G H; destruct (d_prev _), (d_state _); try discriminate; reflexivity).
    cbn. f_equal. rewrite <- Eq. destruct s1, sd; cbn; [destruct s_req|destruct s_resp]; reflexivity.
  - replace (pstate_eqb (d_state (s_dir sd s1)) StHeaders) with false by (destruct (d_state (s_dir sd s1)); congruence || reflexivity).
    reflexivity.
Qed.
Lemma gap_step_err sd e s s1 x : gap_allowed sd (d_state (s_dir sd s)) = true -> handle_state sd e s = (RErr x, s1) -> step sd e s = after_step sd (inr x) e s1.
Proof.
  intros G H. unfold step. unfold bind at 1, input at 1. unfold bind at 1, get_d at 1. rewrite G. cbn [negb]. rewrite Bool.andb_false_r.
  unfold bind at 1, try at 1. rewrite H. reflexivity.
Qed.
(** The state once [n] bytes that are missing were passed over. *)
Definition skipped (n m : N) (t : tx) (s : st) : st :=
  let s1 := set_s_txs (tx_set (s_ridx s) (spent n t) (s_txs s)) s in
  let s2 := body_hooks SReq (s_ridx s) (PlGap n) s1 in
  let s3 := set_s_input (set_pd_pos n (s_input s)) s2 in
  set_s_req (set_d_left (Some m) (set_d_consumed n (s_req s))) s3.
Lemma gap_more e s t n m : yes e -> tx_get (s_ridx s) (s_txs s) = Some t -> d_state (s_req s) = StIdentity -> d_left (s_req s) = Some m ->
  s_input s = pd_gapped n -> 0 < n < m -> handle_request_state e s = (RErr SData, skipped n (m - n) t s).
Proof.
  intros Y B D1 D3 I L. unfold handle_request_state. unfold bind at 1, get_d at 1. cbn [s_dir]. rewrite D1.
  unfold request_body_identity. unfold bind at 1, get_d at 1. cbn [s_dir]. rewrite D3. unfold bind at 1, input at 1. rewrite I.
  replace (pd_len (pd_gapped n)) with n by (unfold pd_len; cbn [pd_gap pd_gapped pd_pos]; destruct (n <=? 0) eqn:E; lia). replace (N.min n m) with n by lia. destruct (n =? 0) eqn:E0; [lia|].
  change (pd_is_gap (pd_gapped n)) with true. cbv iota. unfold bind at 1. unfold bind at 1. rewrite (need_tx_get SReq _ _ _ B). unfold bind at 1. rewrite (add_mlen_eval n e s t B).
  set (s1 := set_s_txs _ s). assert (B1 : tx_get (s_ridx s1) (s_txs s1) = Some (spent n t)) by exact (tx_get_set_eq _ _ _ _ B).
  unfold run_hook_body_data at 1. cbn [by_side]. unfold bind at 1. unfold bind at 1. rewrite (the_tx_get SReq _ _ _ B1). unfold ret at 1. cbv zeta iota beta. unfold bind at 1. rewrite (the_tx_get SReq _ _ _ B1).
  unfold bind at 1, ModelConn.get at 1. unfold bind at 1. rewrite (data_hook_yes e _ _ _ _ Y). rewrite (data_hook_yes e _ _ _ _ Y).
  unfold skipped, body_hooks, push, s1. destruct s as [rq rs oe cc ci ri pi txs cf si so tr lg inp]. destruct rq as [d1 d2 d3 d4 d5 d6 d7 d8 d9 d10]. cbn in I, D1, D3, B. subst.
  ev. destruct (0 <? m - n) eqn:E1; [|lia]. reflexivity.
Qed.
Lemma gap_end e s t n m : yes e -> tx_get (s_ridx s) (s_txs s) = Some t -> t_cep (x_req t) = CeNone -> d_state (s_req s) = StIdentity -> d_left (s_req s) = Some m ->
  s_input s = pd_gapped n -> 0 < m <= n ->
  handle_request_state e s =
    (ROk tt, let s1 := skipped m 0 t s in
             let s2 := set_s_req (set_d_state StFinalize (s_req s1)) s1 in
             body_hooks SReq (s_ridx s) PlNone (set_s_txs (tx_set (s_ridx s) (grow SReq 0 (spent m t)) (s_txs s)) s2)).
Proof.
  intros Y B Ce D1 D3 I L. unfold handle_request_state. unfold bind at 1, get_d at 1. cbn [s_dir]. rewrite D1.
  unfold request_body_identity. unfold bind at 1, get_d at 1. cbn [s_dir]. rewrite D3. unfold bind at 1, input at 1. rewrite I.
  replace (pd_len (pd_gapped n)) with n by (unfold pd_len; cbn [pd_gap pd_gapped pd_pos]; destruct (n <=? 0) eqn:E; lia). replace (N.min n m) with m by lia. destruct (m =? 0) eqn:E0; [lia|].
  change (pd_is_gap (pd_gapped n)) with true. cbv iota. unfold bind at 1. unfold bind at 1. rewrite (need_tx_get SReq _ _ _ B). unfold bind at 1. rewrite (add_mlen_eval m e s t B).
  set (s1 := set_s_txs _ s). assert (B1 : tx_get (s_ridx s1) (s_txs s1) = Some (spent m t)) by exact (tx_get_set_eq _ _ _ _ B).
  unfold run_hook_body_data at 1. cbn [by_side]. unfold bind at 1. unfold bind at 1. rewrite (the_tx_get SReq _ _ _ B1). unfold ret at 1. cbv zeta iota beta. unfold bind at 1. rewrite (the_tx_get SReq _ _ _ B1).
  unfold bind at 1, ModelConn.get at 1. unfold bind at 1. rewrite (data_hook_yes e _ _ _ _ Y). rewrite (data_hook_yes e _ _ _ _ Y).
  unfold skipped, body_hooks, push, s1. destruct s as [rq rs oe cc ci ri pi txs cf si so tr lg inp]. destruct rq as [d1 d2 d3 d4 d5 d6 d7 d8 d9 d10]. cbn in I, D1, D3, B. subst.
  ev. replace (m - m) with 0 by lia. change (0 <? 0) with false. ev.
  match goal with |- body_data SReq None e ?z = _ => rewrite (body_data_plain SReq e z (spent m t) None Y) end.
  - cbn. rewrite tx_set_set. reflexivity.
  - exact (tx_get_set_eq _ _ _ _ B).
  - exact Ce.
Qed.
(** * Calls with a gap *)
Definition flagged (t : tx) : tx := add_flag REQUEST_MISSING_BYTES t.
Definition is_data_loop (e : env) (p : pdata) (s s1 : st) : Prop := data_call SReq p e s = data_loop SReq (loop_fuel SReq s1) e s1.
Lemma gap_call e C s tr n i t m : mile StIdentity None [] None i t tr C s -> d_left (s_req s) = Some m -> t_prog (x_req t) <> PNotStarted -> d_status (snd (fst (cx_rest C))) <> SsDataOther -> 0 < n ->
  exists s1, is_data_loop e (pd_gapped n) s s1 /\ s_input s1 = pd_gapped n /\ mile StIdentity None [] None i (flagged t) tr C s1 /\ d_left (s_req s1) = Some m.
Proof.
  intros [M1 M2 M3 M4 M5 M6 M7 M8 M9 M10 M11 M12] L P A Ln. unfold is_data_loop, data_call. unfold bind at 1, modify at 1. unfold bind at 1, upd_d at 1. unfold modify at 1. cbv beta iota. unfold bind at 1, get_d at 1. cbn [s_dir].
  set (s0 := set_s_dir SReq (set_d_consumed 0 (s_req (set_s_input (pd_gapped n) s))) (set_s_input (pd_gapped n) s)). assert (Es : d_status (s_req s0) = d_status (s_req s)) by reflexivity. rewrite Es.
  assert (E0 : pd_is_empty (pd_gapped n) = false) by (unfold pd_is_empty, pd_len; cbn [pd_gap pd_gapped pd_pos]; destruct (n <=? 0) eqn:E; [lia|]; destruct (n - 0 =? 0) eqn:E1; lia). rewrite E0. cbn [andb].
  set (body := bind (modify (count_data SReq (pd_len (pd_gapped n)))) _).
  assert (Eb : match d_status (s_req s) with SsStop => log LvInfo "PARSER_STATE_ERROR" ;; ret SsStop | SsError => log LvError "PARSER_STATE_ERROR" ;; ret SsError | _ => body end e s0 = body e s0) by (destruct M3 as [-> | [-> | ->]]; reflexivity).
  rewrite Eb. clear Eb. unfold body. clear body. unfold bind at 1, modify at 1. replace (sstate_eqb (d_status (s_req s)) SsTunnel) with false by (destruct M3 as [-> | [-> | ->]]; reflexivity).
  set (s1 := count_data SReq _ s0). unfold bind at 1. cbn [by_side]. unfold bind at 1, get_d at 1. cbn [s_dir].
  assert (Er : s_resp s1 = snd (fst (cx_rest C))) by (rewrite <- M10; reflexivity). rewrite Er. replace (sstate_eqb (d_status (snd (fst (cx_rest C)))) SsDataOther) with false by (clear - A; destruct (d_status (snd (fst (cx_rest C)))); try reflexivity; congruence).
  cbn [when]. unfold ret at 1. change (pd_is_gap (pd_gapped n)) with true. cbv iota. unfold bind at 1. unfold mark_gap. unfold bind at 1, ModelConn.get at 1. unfold bind at 1.
  assert (B1 : tx_get (s_idx SReq s1) (s_txs s1) = Some t) by (cbn [s_idx]; rewrite <- M7 in M8; exact M8). unfold cur_tx at 1. rewrite B1. cbn [fst snd]. unfold bind at 1. rewrite (mod_tx_get SReq _ _ _ _ B1). cbn [x_dir].
  replace (prog_eqb (t_prog (x_req t)) PNotStarted) with false by (destruct (t_prog (x_req t)); try reflexivity; congruence). rewrite Bool.andb_false_r. unfold ret at 1. unfold bind at 1, ModelConn.get at 1.
  eexists. split; [reflexivity|]. split; [reflexivity|]. split; [|exact L]. rewrite <- M7 in *.
  constructor; cbn; try assumption; try reflexivity; [exact (tx_get_set_eq _ _ _ _ M8)| |now rewrite length_set]. intros j Hj. rewrite tx_get_set_other by congruence. now apply M11.
Qed.
Lemma ph_gap_part e C s tr n i t m : yes e -> mile StIdentity None [] None i t tr C s -> d_left (s_req s) = Some m -> s_input s = pd_gapped n -> 0 < n < m ->
  exists s', step SReq e s = (ROk (Some SsData), s') /\ mile StIdentity None [] None i (spent n t) (piece i (PlGap n) ++ tr) C s' /\ d_left (s_req s') = Some (m - n).
Proof.
  intros Y M L I Ln. destruct M as [M1 M2 M3 M4 M5 M6 M7 M8 M9 M10 M11 M12]. rewrite <- M7 in M8.
  pose proof (gap_more e s t n m Y M8 M1 L I Ln) as H. rewrite M7 in *.
  assert (M2' : mile StIdentity None [] None i (spent n t) (piece i (PlGap n) ++ tr) C (skipped n (m - n) t s)).
  { unfold skipped, body_hooks, push. rewrite M7. constructor; cbn; try assumption; try reflexivity.
    - exact (tx_get_set_eq _ _ _ _ M8).
    - now rewrite M9.
    - intros j Hj. rewrite tx_get_set_other by congruence. now apply M11.
    - now rewrite length_set. }
  apply (gap_step_err SReq) in H; [|cbn [s_dir]; rewrite M1; reflexivity]. clear M1 M2 M3 M4 M5 M6 M9 M10 M11 M12.
  assert (L2 : d_left (s_req (skipped n (m - n) t s)) = Some (m - n)) by reflexivity.
  set (s1 := skipped n (m - n) t s) in *. clearbody s1. destruct M2' as [M1 M2 M3 M4 M5 M6 M7' M8' M9 M10 M11 M12].
  destruct (after_step_data SReq SData e s1) as (p & l & H3 & H4 & _); [now left|exact M4|]. rewrite H3 in H. clear H3. cbn [s_idx] in H4. rewrite M7' in H4.
  destruct H4 as [-> | (H4 & _)]; [|congruence].
  eexists. split; [exact H|]. split; [constructor; cbn; try assumption; try reflexivity; now left|exact L2].
Qed.
Lemma ph_gap_last e C s tr n i t m : yes e -> mile StIdentity None [] None i t tr C s -> t_cep (x_req t) = CeNone -> d_left (s_req s) = Some m -> s_input s = pd_gapped n -> 0 < m <= n ->
  exists s', step SReq e s = (ROk None, s') /\ pd_is_gap (s_input s') = true /\
    mile StFinalize None [] None i (grow SReq 0 (spent m t)) (piece i PlNone ++ piece i (PlGap m) ++ tr) C s'.
Proof.
  intros Y [M1 M2 M3 M4 M5 M6 M7 M8 M9 M10 M11 M12] Ce L I Ln. rewrite <- M7 in M8.
  pose proof (gap_end e s t n m Y M8 Ce M1 L I Ln) as H.
  apply (gap_step_next SReq) in H; [|cbn [s_dir]; rewrite M1; reflexivity|exact (live_not_tunnel _ M3)|discriminate].
  eexists. split; [exact H|]. split; [cbn; rewrite I; reflexivity|].
  unfold skipped, body_hooks, push. rewrite M7 in *. constructor; cbn; rewrite ?M7; try assumption; try reflexivity.
  - exact (tx_get_set_eq _ _ _ _ M8).
  - now rewrite M9.
  - intros j Hj. rewrite tx_get_set_other by congruence. now apply M11.
  - now rewrite length_set.
Qed.
(** A gap that ends the body completes the request and is then refused. *)
Lemma ph_gap_final e C s i t tr : yes e -> mile StFinalize None [] None i t tr C s -> pd_is_gap (s_input s) = true -> closable t -> cx_table C (i + 1) = None -> i + 1 < 2 ^ 64 ->
  exists s', step SReq e s = (ROk None, s') /\ pd_is_gap (s_input s') = true /\
    resting [] (i + 1) ((mk_ev HRequestComplete i PlNone, SOk) :: concat (repeat (piece i PlNone) (closing t)) ++ tr) (next_ctx i (completed_tx t) C) s'.
Proof.
  intros Y [M1 M2 M3 M4 M5 M6 M7 M8 M9 M10 M11 M12] G [Ce Pq Ps I9] Nx Li. rewrite <- M7 in M8.
  assert (H : handle_request_state e s = state_request_complete e s).
  { unfold handle_request_state. unfold bind at 1, get_d at 1. cbn [s_dir]. rewrite M1. unfold request_finalize. unfold bind at 1, input at 1. unfold bind at 1, get_d at 1. rewrite G. reflexivity. }
  rewrite (request_complete_eval e s t Y M8 Ce) in H; [|destruct (t_prog (x_req t)); try reflexivity; congruence|exact M4].
  assert (Oc : is_complete (completed_tx t) = false).
  { unfold is_complete, completed_tx. destruct (request_has_body t); cbn [x_resp upd_dir set_x_dir set_x_req x_dir grow]; destruct (t_prog (x_resp t)); try (cbn; reflexivity); congruence. }
  unfold completed in H. fold (completed_tx t) in H. rewrite Oc, Bool.andb_false_r, I9 in H.
  assert (Wi : wadd (s_ridx s) 1 = i + 1) by (rewrite M7; unfold wadd; apply N.mod_small; exact Li).
  apply (gap_step_next SReq) in H; [|cbn [s_dir]; rewrite M1; reflexivity| |].
  2:{ destruct (request_has_body t), (_ <? _); exact (live_not_tunnel _ M3). }
  2:{ destruct (request_has_body t), (_ <? _); discriminate. }
  eexists. split; [exact H|]. split; [destruct (request_has_body t), (_ <? _); exact G|].
  unfold closing, body_hooks, push. rewrite <- M7 in Nx, M11, Wi |- *.
  assert (Li' : s_ridx s + 1 <> s_ridx s) by lia.
  assert (Ot : forall j, j <> s_ridx s -> tx_get j (tx_set (s_ridx s) (completed_tx t) (s_txs s)) = cx_table C j) by (intros j Hj; rewrite tx_get_set_other by congruence; now apply M11).
  assert (Ol : (length (tx_set (s_ridx s) (completed_tx t) (s_txs s)) <= S (cx_size C))%nat) by now rewrite length_set.
  destruct (request_has_body t) eqn:Eb, (_ <? _); constructor; cbn; try assumption; try reflexivity.
  all: try (right; split; [rewrite Ot by exact Li'; exact Nx|exact Ol]).
  all: try (rewrite M9; reflexivity); try (left; reflexivity).
  all: intros j Hj; destruct (j =? s_ridx s) eqn:E; [apply N.eqb_eq in E; subst j; apply (tx_get_set_eq _ _ _ _ M8)|apply Ot; lia].
Qed.
Lemma ph_gap_refused e C s i tr : yes e -> resting [] i tr C s -> pd_is_gap (s_input s) = true -> exists s', step SReq e s = (ROk (Some SsClosed), s') /\ resting [] i tr C s'.
Proof.
  intros Y [D1 D2 D3 D4 D5 D6 D7 T D8 D9 D10] G. unfold step. unfold bind at 1, input at 1. unfold bind at 1, get_d at 1. cbn [s_dir]. rewrite D1, G. cbn [gap_allowed negb andb].
  eexists. split; [reflexivity|]. destruct (LvError <=? c_log_level (e_cfg e)); constructor; assumption.
Qed.
Lemma loops_closed e s s1 : step SReq e s = (ROk (Some SsClosed), s1) -> forall k, data_loop SReq (S k) e s = (ROk SsClosed, s1).
Proof. intros H k. cbn [data_loop]. unfold bind. rewrite H. reflexivity. Qed.
(** * The parts of a body *)
Definition said (t : tx) : Prop := N.lor (x_flags t) REQUEST_MISSING_BYTES = x_flags t.
Lemma flagged_said t : said (flagged t).
Proof. unfold said, flagged, add_flag. cbn [x_flags set_x_flags]. unfold fset. rewrite <- N.lor_assoc, N.lor_diag. reflexivity. Qed.
Lemma ready_flagged m ls n k t : ready m ls n k t -> ready m ls n k (flagged t).
Proof. intros [R1 R2 R3 R4 R5 Rh R6 R7 R8 R9 R10 R11 R12 R13 R14 R15]. constructor; assumption. Qed.
Lemma lossy_full rest ps ds : lossy rest ps ds -> 0 < blen rest.
Proof. intro H. assert (P : forall b : bytes, b <> [] -> 0 < blen b) by (intros b Nb; destruct b; [congruence|unfold blen; cbn [length]; lia]). destruct H; try (now apply P); unfold blen; rewrite app_length; specialize (P b); unfold blen in P; assert (0 < N.of_nat (length b)) by auto; lia. Qed.
Lemma lossy_arrived rest ps ds : lossy rest ps ds -> blen (arrived ps) <= blen rest.
Proof. intro H. induction H; cbn [arrived]; unfold blen in *; rewrite ?app_nil_r, ?app_length; cbn [length]; lia. Qed.
Lemma loop_fuel_S e s s1 s2 s3 : step SReq e s = (ROk None, s1) -> step SReq e s1 = (ROk None, s2) -> step SReq e s2 = (ROk (Some SsClosed), s3) -> data_loop SReq (loop_fuel SReq s) e s = (ROk SsClosed, s3).
Proof. intros H1 H2 H3. destruct (loop_fuel_S3 SReq s) as [k ->]. cbn [data_loop]. unfold bind. rewrite H1, H2, H3. reflexivity. Qed.
Lemma one_step e s s1 : step SReq e s = (ROk (Some SsData), s1) -> data_loop SReq (loop_fuel SReq s) e s = (ROk SsData, s1).
Proof. intros H1. destruct (loop_fuel_S3 SReq s) as [k ->]. cbn [data_loop]. unfold bind. rewrite H1. reflexivity. Qed.
Definition end_of (i : N) (t : tx) : list event := body_piece i PlNone ++ concat (repeat (body_piece i PlNone) (closing t)) ++ [mk_ev HRequestComplete i PlNone].
Lemma end_of_trace i t tr : (mk_ev HRequestComplete i PlNone, SOk) :: concat (repeat (piece i PlNone) (closing t)) ++ piece i PlNone ++ tr = tr_of (end_of i t) tr.
Proof. unfold end_of. rewrite tr_of_piece, tr_of_pieces, !tr_of_app. reflexivity. Qed.
Lemma parts_run e i C m b : yes e -> m_content m = Plain b -> d_status (snd (fst (cx_rest C))) <> SsDataOther -> cx_table C (i + 1) = None -> i + 1 < 2 ^ 64 ->
  forall rest ps ds, lossy rest ps ds -> forall n k t tr s, n + blen rest < 2 ^ 64 -> k + blen rest < 2 ^ 64 -> ready m (rq_lines (m_req m)) n k t ->
  mile StIdentity None [] None i t tr C s -> d_left (s_req s) = Some (blen rest) ->
  exists s' t', run_ops (part_ops SReq ps) e s = (ROk (part_calls ps), s') /\ ready m (rq_lines (m_req m)) (n + blen (arrived ps)) (k + blen rest) t' /\
    (said t \/ some_lost ps -> said t') /\
    resting [] (i + 1) (tr_of (flat_map (body_piece i) ds ++ end_of i t') tr) (next_ctx i (completed_tx t') C) s'.
Proof.
  intros Y Ec Aw Nx Li rest ps ds H. induction H as [b0 Nb|b0 n0 Nb Ln|b0 rest ps ds Nb H IH|b0 rest ps ds Nb H IH]; intros n k t tr s Ln1 Lk Rd M L.
  - assert (Lb : 0 < blen b0) by (destruct b0; [congruence|unfold blen; cbn [length]; lia]).
    destruct (opened_mile _ _ _ _ _ _ _ _ b0 s Aw M) as (M1 & L1 & _). rewrite L in L1.
    destruct (ph_body_last e C _ b0 tr b0 [] 0 0 i t Y M1 (rd_cep _ _ _ _ _ Rd) L1) as (s1 & H1 & R1 & M2); [rewrite app_nil_r; apply opened_rest|exact Lb|].
    set (t' := grow SReq 0 (grow SReq (blen b0) t)) in *.
    assert (Rd' : ready m (rq_lines (m_req m)) (n + blen b0) (k + blen b0) t').
    { rewrite <- (N.add_0_r (n + blen b0)), <- (N.add_0_r (k + blen b0)). apply ready_grow; [lia..|]. now apply ready_grow. }
    destruct (ph_final_end e C s1 _ _ _ _ i t' Y M2 (ready_closable _ _ _ _ _ Rd') Nx Li R1) as (s2 & H2 & R2 & M3).
    destruct (ph_rest e _ _ _ s2 _ _ _ Y M3 R2) as (s3 & H3 & M4).
    assert (D : data_call SReq (pd_slice b0) e s = (ROk SsData, s3)).
    { apply runs_data_call; [exact Nb|unfold bufsum; rewrite (ml_buf _ _ _ _ _ _ _ _ _ M), (ml_header _ _ _ _ _ _ _ _ _ M); change (blen []) with 0; lia|exact (ml_live _ _ _ _ _ _ _ _ _ M)|].
      eapply runs_next; [exact H1|]. eapply runs_next; [exact H2|exact H3]. }
    exists s3, t'. split; [unfold part_ops; cbn [map part_op run_ops part_calls]; unfold bind at 1; cbn [run_op]; unfold bind at 1; rewrite D; reflexivity|].
    split; [cbn [arrived]; rewrite app_nil_r; exact Rd'|]. split; [intros [Z | (x & [Z | []])]; [exact Z|discriminate]|].
    cbn [flat_map]. rewrite app_nil_r, tr_of_app, <- tr_of_piece, <- end_of_trace. exact M4.
  - assert (Lb : 0 < blen b0) by (destruct b0; [congruence|unfold blen; cbn [length]; lia]).
    destruct (gap_call e C s tr n0 i t _ M L (rd_begun _ _ _ _ _ Rd) Aw) as (s1 & D & I & M1 & L1); [lia|].
    destruct (ph_gap_last e C s1 tr n0 i _ _ Y M1 (rd_cep _ _ _ _ _ Rd) L1 I) as (s2 & H2 & G2 & M2); [lia|].
    set (t' := grow SReq 0 (spent (blen b0) (flagged t))) in *.
    assert (Rd' : ready m (rq_lines (m_req m)) n (k + blen b0) t').
    { rewrite <- (N.add_0_r n), <- (N.add_0_r (k + blen b0)). apply ready_grow; [lia..|]. apply ready_spent; [lia|]. now apply ready_flagged. }
    destruct (ph_gap_final e C s2 i t' _ Y M2 G2 (ready_closable _ _ _ _ _ Rd') Nx Li) as (s3 & H3 & G3 & M3).
    destruct (ph_gap_refused e _ s3 _ _ Y M3 G3) as (s4 & H4 & M4).
    unfold is_data_loop in D. rewrite (loop_fuel_S e s1 s2 s3 s4 H2 H3 H4) in D.
    exists s4, t'. split; [unfold part_ops; cbn [map part_op run_ops part_calls]; unfold bind at 1; cbn [run_op]; unfold bind at 1; rewrite D; reflexivity|].
    split; [cbn [arrived]; change (blen []) with 0; rewrite N.add_0_r; exact Rd'|]. split; [intros _; exact (flagged_said t)|].
    cbn [flat_map]. rewrite app_nil_r, tr_of_app, <- tr_of_piece, <- end_of_trace. exact M4.
  - pose proof (lossy_full _ _ _ H) as Lr. assert (Lb : 0 < blen b0) by (destruct b0; [congruence|unfold blen; cbn [length]; lia]). assert (Ls : blen (b0 ++ rest) = blen b0 + blen rest) by (unfold blen; rewrite app_length; lia). rewrite Ls in *.
    destruct (opened_mile _ _ _ _ _ _ _ _ b0 s Aw M) as (M1 & L1 & _). rewrite L in L1.
    destruct (ph_body_part e C _ b0 tr b0 0 0 i t _ Y M1 (rd_cep _ _ _ _ _ Rd) L1 (opened_rest b0 s)) as (s1 & H1 & M2 & L2); [lia|].
    assert (D : data_call SReq (pd_slice b0) e s = (ROk SsData, s1)).
    { apply runs_data_call; [exact Nb|unfold bufsum; rewrite (ml_buf _ _ _ _ _ _ _ _ _ M), (ml_header _ _ _ _ _ _ _ _ _ M); change (blen []) with 0; lia|exact (ml_live _ _ _ _ _ _ _ _ _ M)|exact H1]. }
    destruct (IH (n + blen b0) (k + blen b0) (grow SReq (blen b0) t) (piece i (PlData b0) ++ tr) s1) as (s2 & t' & H2 & Rd' & Sa & Q); [lia|lia|apply ready_grow; [lia..|exact Rd]|exact M2|rewrite L2; f_equal; lia|].
    exists s2, t'. split; [|split; [|split]].
    + unfold part_ops in *. cbn [map part_op run_ops part_calls]. unfold bind at 1. cbn [run_op]. unfold bind at 1. rewrite D. unfold ret at 1. unfold bind at 1. rewrite H2. reflexivity.
    + cbn [arrived]. replace (blen (b0 ++ arrived ps)) with (blen b0 + blen (arrived ps)) by (unfold blen; rewrite app_length; lia). rewrite !N.add_assoc. exact Rd'.
    + intros [Z | (x & [Z | Z])]; [apply Sa; left; exact Z|discriminate|apply Sa; right; now exists x].
    + cbn [flat_map]. rewrite <- app_assoc, tr_of_app, <- tr_of_piece. exact Q.
  - pose proof (lossy_full _ _ _ H) as Lr. assert (Lb : 0 < blen b0) by (destruct b0; [congruence|unfold blen; cbn [length]; lia]). assert (Ls : blen (b0 ++ rest) = blen b0 + blen rest) by (unfold blen; rewrite app_length; lia). rewrite Ls in *.
    destruct (gap_call e C s tr (blen b0) i t _ M L (rd_begun _ _ _ _ _ Rd) Aw Lb) as (s1 & D & I & M1 & L1).
    destruct (ph_gap_part e C s1 tr (blen b0) i _ _ Y M1 L1 I) as (s2 & H2 & M2 & L2); [lia|]. unfold is_data_loop in D. rewrite (one_step e s1 s2 H2) in D.
    destruct (IH n (k + blen b0) (spent (blen b0) (flagged t)) (piece i (PlGap (blen b0)) ++ tr) s2) as (s3 & t' & H3 & Rd' & Sa & Q); [lia|lia|apply ready_spent; [lia|now apply ready_flagged]|exact M2|rewrite L2; f_equal; lia|].
    exists s3, t'. split; [|split; [|split]].
    + unfold part_ops in *. assert (Np : ps <> []) by (destruct H; discriminate). destruct ps as [|p ps]; [congruence|]. remember (p :: ps) as qs. cbn [map part_op run_ops]. unfold bind at 1. cbn [run_op]. unfold bind at 1. rewrite D. unfold ret at 1. unfold bind at 1. rewrite H3. subst qs. reflexivity.
    + cbn [arrived]. rewrite N.add_assoc. exact Rd'.
    + intros _. apply Sa. left. exact (flagged_said t).
    + cbn [flat_map]. rewrite <- app_assoc, tr_of_app, <- tr_of_piece. exact Q.
Qed.

(** * The request *)
Lemma paused_body cfg i C tr m b0 rest s : m_content m = Plain (b0 ++ rest) -> rest <> [] -> paused cfg i C tr [m] rest s ->
  exists t es, ready m (rq_lines (m_req m)) (blen b0) (blen b0) t /\ body_events cfg i m b0 es /\ mile StIdentity None [] None i t (tr_of es tr) C s /\ d_left (s_req s) = Some (blen rest).
Proof.
  intros Ec Nr P. assert (Lc : length (content_text (m_content m)) = (length b0 + length rest)%nat) by (rewrite Ec; unfold content_text; cbn [coded_text trailer_of]; rewrite ?app_nil_r, app_length; reflexivity).
  remember [m] as ms eqn:Em in P. remember rest as X eqn:EX in P.
  destruct P as [ms s Q|m1 ms p q s Eq Nq M|m1 ms ls1 ls2 p q t hs s El K Eq Nq Hp Eh M|m1 ms b1 b2 t es s Ec1 Nb Rd Be M L|m1 ms cs la trl ds l t es s Ec1 Ep Nl Rd Be M|m1 ms cs la trl ds c l d1 d2 t es s Ec1 Ep Ed Nd Rd Be M L|m1 ms cs la trl ds c l t es s Ec1 Ep Nd Rd Be M|m1 ms cs la trl ls1 ls2 p q t es hs s Ec1 El Eq Nq Hp Eh Rd Tp Be M|m1 m' ms p q t es s Eq Np Nq Rd Es M];
    try (injection Em as -> ->); try congruence.
  - subst ms. exfalso. apply (f_equal (@length N)) in EX. unfold texts in EX. cbn [map concat] in EX. rewrite app_nil_r in EX. unfold message_text in EX. rewrite app_length in EX. rewrite Lc in EX. unfold request_text, request_line_text in EX. rewrite !app_length in EX. cbn [length] in EX. lia.
  - exfalso. apply (f_equal (@length N)) in EX. unfold after_line in EX. rewrite !app_length in EX. rewrite Lc in EX. cbn [length] in EX. lia.
  - exfalso. apply (f_equal (@length N)) in EX. rewrite !app_length in EX. rewrite Lc in EX. destruct q; [congruence|]. cbn [length] in EX. lia.
  - change (texts []) with (@nil N) in EX. rewrite app_nil_r in EX. subst b2. rewrite Ec in Ec1. injection Ec1 as Ec1. apply app_inv_tail in Ec1. subst b1. exists t, es. auto.
Qed.
Lemma lossily_done {cfg} q i t es : good_lossy_request q -> ready (lq_message q) (rq_lines (m_req (lq_message q))) (blen (lq_seen q) + blen (arrived (lq_parts q))) (blen (lq_seen q) + blen (lq_rest q)) t ->
  (some_lost (lq_parts q) -> said t) -> body_events cfg i (lq_message q) (lq_seen q) es ->
  lossily_asked q (completed_tx t) /\ lossy_events cfg i q (es ++ flat_map (body_piece i) (lq_told q) ++ end_of i t).
Proof.
  intros (Gm & Ec & Eu & Nu & Cl & Ly) [R1 R2 R3 R4 [R5 _] Rh R6 R7 R8 R9 R10 R11 R12 R13 R14 R15] Sa (he & bs & (hs & H1 & ->) & H2 & H3 & ->).
  pose proof (good_body_small _ Gm) as Ls. unfold m_body in Ls. rewrite Ec in Ls. cbn in Ls. pose proof (lossy_full _ _ _ Ly) as Lf. pose proof (lossy_arrived _ _ _ Ly) as La.
  assert (Lb : blen (lq_seen q ++ lq_rest q) = blen (lq_seen q) + blen (lq_rest q)) by (unfold blen; rewrite app_length; lia). rewrite Lb in Ls.
  assert (Lb' : blen (lq_seen q ++ arrived (lq_parts q)) = blen (lq_seen q) + blen (arrived (lq_parts q))) by (unfold blen; rewrite app_length; lia).
  rewrite Ec in R12. destruct R12 as [(_ & Eb & _) | (Hn & Rc & _)]; [exfalso; apply app_eq_nil in Eb as [_ Eb]; rewrite Eb in Lf; cbn in Lf; lia|].
  assert (Hb : request_has_body t = true) by (unfold request_has_body; rewrite Rc; reflexivity). split.
  - unfold completed_tx. rewrite Hb. constructor; cbn; try assumption; try reflexivity.
    + eexists. split; [exact R13|apply located_parse].
    + rewrite R6, Lb'. apply wadd_small. lia.
    + rewrite R7, Lb. now apply wadd_small.
  - exists (sent_params cfg (rq_target (m_req (lq_message q)))), hs, bs. split; [apply sent_reported|]. split; [exact H1|]. split; [exact H2|]. split; [exact H3|].
    unfold end_of, closing. rewrite Hb. cbn [repeat concat]. rewrite app_nil_r. unfold line_events, ev_header, ev_start. rewrite <- !app_assoc. reflexivity.
Qed.

Lemma lossy_runs e n tr T z s q ms cs : yes e -> level n tr T z s -> good_lossy_request q -> good_requests ms cs ->
  Forall (fun m => blen (request_text (m_req m)) <= c_field_limit (e_cfg e) /\ blen (block_text (trailer_of (m_content m))) + 2 <= c_field_limit (e_cfg e)) (lq_message q :: ms) ->
  n + N.of_nat (length (lq_message q :: ms)) < 2 ^ 64 -> N.of_nat z + N.of_nat (length (lq_message q :: ms)) <= c_max_tx (e_cfg e) ->
  exists s' t es1 es2, run_ops (lossy_ops q cs) e s = (ROk (lossy_calls q cs), s') /\ lossy_events (e_cfg e) n q es1 /\ stream_events (e_cfg e) (n + 1) ms es2 /\
    s_trace s' = tr_of (es1 ++ es2) tr /\ (forall j, j < n -> tx_get j (s_txs s') = T j) /\ tx_get n (s_txs s') = Some t /\ lossily_asked q t /\
    (forall k m, nth_error ms k = Some m -> exists t, tx_get (n + 1 + N.of_nat k) (s_txs s') = Some t /\ holds m t).
Proof.
  intros Y [Lq (P1 & P2 & P3 & P4 & P5 & P6) Lf Lk] Gq (Gs & Es & Ns & Cs) Lim Ix Sz. assert (Gq' := Gq). destruct Gq' as (Gm & Ec & Eu & Nu & Cl & Ly). set (m := lq_message q) in *. set (C := mk_ctx T (n, s_resp s, false) z) in *.
  inversion_clear Lim as [|? ? Lim0 Lims]. cbn [length] in Ix, Sz.
  assert (Aw : d_status (snd (fst (cx_rest C))) <> SsDataOther) by (cbn; intro Z; rewrite Z in P3; destruct P3; discriminate).
  assert (R1 : room e n C [m]).
  { constructor; unfold C; cbn [cx_rest cx_size cx_table fst snd length]; try assumption; try lia; constructor; try assumption; constructor. }
  pose proof (@pa_idle (e_cfg e) n C tr [m] s Lq) as P.
  replace (texts [m]) with (concat (lq_up q) ++ lq_rest q) in P by (rewrite Eu; unfold texts; cbn [map concat]; rewrite app_nil_r; unfold message_text, content_text; rewrite Ec; cbn [coded_text]; rewrite app_nil_r, <- app_assoc; reflexivity).
  destruct (stream_calls e (lq_up q) Y n C tr [m] (lq_rest q) s R1 Nu) as (s1 & done & ms' & i1 & C1 & tr1 & H1 & E1 & T1 & Q1); [|exact P|].
  { intros a b Eab _ before x after y Em. exact (Cl a b before x after y Eab Em). }
  pose proof (lossy_full _ _ _ Ly) as Lfu. assert (Nr : lq_rest q <> []) by (intro Z; rewrite Z in Lfu; cbn in Lfu; lia).
  assert (Ed : done = [] /\ ms' = [m]).
  { destruct done as [|d done]; [split; [reflexivity|symmetry; exact E1]|]. exfalso. injection E1 as _ E1. symmetry in E1. apply app_eq_nil in E1 as [-> ->].
    remember (@nil message) as ms0 eqn:Em0 in Q1. destruct Q1; try discriminate Em0. subst ms0. apply Nr. reflexivity. }
  destruct Ed as [-> ->]. assert (Zt : i1 = n /\ C1 = C /\ tr1 = tr) by (inversion T1; auto). destruct Zt as (-> & -> & ->). clear T1 E1 P R1.
  destruct (paused_body _ _ _ _ m (lq_seen q) (lq_rest q) s1 Ec Nr Q1) as (t1 & es & Rd & Be & M & Lft).
  pose proof (good_body_small _ Gm) as Ls. unfold m_body in Ls. rewrite Ec in Ls. cbn in Ls. unfold blen in Ls. rewrite app_length in Ls.
  destruct (parts_run e n C m _ Y Ec Aw (Lf (n + 1) ltac:(lia)) ltac:(lia) _ _ _ Ly (blen (lq_seen q)) (blen (lq_seen q)) t1 _ s1 ltac:(unfold blen; lia) ltac:(unfold blen; lia) Rd M Lft) as (s2 & t & H2 & Rd2 & Sa & Q2).
  destruct (lossily_done q n t es Gq Rd2 (fun h => Sa (or_intror h)) Be) as [La Le]. rewrite <- tr_of_app in Q2. set (es1 := es ++ flat_map (body_piece n) (lq_told q) ++ end_of n t) in *.
  set (C2 := next_ctx n (completed_tx t) C) in *.
  assert (R2 : room e (n + 1) C2 ms).
  { constructor; unfold C2, C; cbn [next_ctx cx_rest cx_size cx_table fst snd]; try assumption; try lia. intros j Hj. destruct (j =? n) eqn:E; [lia|]. apply Lf. lia. }
  pose proof (@pa_idle (e_cfg e) (n + 1) C2 (tr_of es1 tr) ms s2 Q2) as P. rewrite <- Es, <- (app_nil_r (concat _)) in P.
  destruct (stream_calls e cs Y (n + 1) C2 (tr_of es1 tr) ms [] s2 R2 Ns) as (s3 & done & ms' & i3 & C3 & tr3 & H3 & E3 & T3 & Q3); [|exact P|].
  { intros a b Eab _ before x after y Em. exact (Cs a b before x after y Eab Em). }
  apply paused_end in Q3 as [-> Q3]. rewrite app_nil_r in E3. subst done. destruct (told_facts _ _ _ _ _ _ _ T3) as (Ei & (es2 & -> & Se) & Tx & Ti).
  exists s3, (completed_tx t), es1, es2. split; [|split; [exact Le|split; [exact Se|split; [|split; [|split; [|split; [exact La|]]]]]]].
  - unfold lossy_ops, lossy_calls, more, reqs. rewrite !map_map. eapply run_ops_app; [exact H1|]. eapply run_ops_app; [exact H2|exact H3].
  - rewrite tr_of_app. apply (rs_trace _ _ _ _ _ Q3).
  - intros j Hj. rewrite (rs_others _ _ _ _ _ Q3) by lia. rewrite Ti by lia. unfold C2, C; cbn [next_ctx cx_table]. destruct (j =? n) eqn:E; [lia|reflexivity].
  - rewrite (rs_others _ _ _ _ _ Q3) by lia. rewrite Ti by lia. unfold C2; cbn [next_ctx cx_table]. now rewrite N.eqb_refl.
  - intros k m' Hk. assert (k < length ms)%nat by (apply nth_error_Some; congruence). rewrite (rs_others _ _ _ _ _ Q3) by lia. exact (Tx k m' Hk).
Qed.

(** * Histories *)
Definition lossy_run (e : env) (before : list round) (q : lossy_request) (ms : list message) (cs : list bytes) : Prop :=
  exists s t es1 es2 es3, history e (conversation before ++ lossy_ops q cs) = (ROk (all_calls before ++ lossy_calls q cs), s) /\
    events s = es1 ++ es2 ++ es3 /\ conversation_events (e_cfg e) 0 before es1 /\ lossy_events (e_cfg e) (N.of_nat (length (exchanges before))) q es2 /\
    stream_events (e_cfg e) (N.of_nat (length (exchanges before)) + 1) ms es3 /\ done_with e s 0 before /\
    tx_get (N.of_nat (length (exchanges before))) (s_txs s) = Some t /\ lossily_asked q t /\
    (forall k m, nth_error ms k = Some m -> exists t, tx_get (N.of_nat (length (exchanges before)) + 1 + N.of_nat k) (s_txs s) = Some t /\ holds m t).
Lemma lossy_parsed_yes e before q ms cs : yes e -> Forall good_round before -> good_lossy_request q -> good_requests ms cs -> lossy_fits e before q ms -> lossy_run e before q ms cs.
Proof.
  intros Y G Gq Gs ((F1 & F2 & F3) & B1 & B2 & B3). destruct (open_level e) as (s0 & H0 & L0).
  destruct (talk_runs_size e before Y 0 [] _ 0%nat s0 L0 G F1 F2 F3) as (s1 & T1 & z & es1 & H1 & Ce & L & _ & X & Z). rewrite N.add_0_l in L.
  destruct (lossy_runs e _ _ _ _ _ q ms cs Y L Gq Gs B1 B2) as (s2 & t & es2 & es3 & H2 & Le & Se & Tr & Ot & Gt & La & Hs); [rewrite Z; destruct (c_auto_destroy _); lia|].
  set (n := N.of_nat (length (exchanges before))) in *.
  exists s2, t, es1, es2, es3. split; [|split; [|split; [exact Ce|split; [exact Le|split; [exact Se|split; [|auto]]]]]].
  - unfold history, conversation, all_calls. cbn [run_ops app map]. unfold bind at 1. rewrite H0. unfold bind at 1. erewrite run_ops_app; [|exact H1|exact H2]. reflexivity.
  - apply events_tr_of. rewrite Tr, <- tr_of_app. reflexivity.
  - intros k m r Hk. assert (k < length (exchanges before))%nat by (apply nth_error_Some; congruence). rewrite N.add_0_l, Ot by (unfold n; lia). specialize (X k (m, r) Hk). rewrite N.add_0_l in X. exact X.
Qed.
Lemma lossy_parsed e before q ms cs : accepting e -> Forall good_round before -> good_lossy_request q -> good_requests ms cs -> lossy_fits e before q ms -> lossy_run e before q ms cs.
Proof.
  intros A G Gq Gs F. destruct (lossy_parsed_yes (mute e) before q ms cs (yes_mute e) G Gq Gs F) as (s & t & es1 & es2 & es3 & H & Ee & Ce & Le & Se & D & Ht & La & Hs).
  match type of H with history _ ?l = _ => destruct (history_mute e l A) as [H1 H2] end. rewrite H in H1, H2. cbn [fst snd] in H1, H2. apply similar_txs in H2 as [H2 H3].
  match type of H with history _ ?l = _ => exists (snd (history e l)) end. exists t, es1, es2, es3. split; [rewrite <- H1; apply surjective_pairing|]. rewrite H3. split; [exact Ee|]. split; [now apply conversation_events_mute|]. split; [exact Le|]. split; [now apply stream_events_mute|].
  split; [eapply done_mute; [exact H2|exact D]|]. rewrite H2. auto.
Qed.
