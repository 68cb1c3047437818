(** Interim responses, in segments of their own. *)
From Verif Require Import Base Spec SpecTx SpecMsg SpecResp SpecConnect SpecInterim ModelUtil ModelBstr ModelParsers ModelHeaders ModelState ModelTx ModelConn SpecConn ProofsBase ProofsBytes ProofsParsers ProofsHeaders ProofsTx ProofsConn ProofsCore ProofsLoop ProofsHist ProofsEval ProofsBody ProofsHead ProofsFrame ProofsStream ProofsChunk ProofsMsg ProofsRStream ProofsRHead ProofsRBody ProofsRMsg.

Lemma interim_status r : interim_head r -> good_status r.
Proof.
  intros (H1 & H2 & H3 & _). unfold good_status, rp_status. rewrite H1. split; [reflexivity|]. split; [repeat constructor; discriminate|]. split; [vm_compute; discriminate|]. split; assumption.
Qed.
Lemma same_refl x : same x x = true. Proof. unfold same. now apply bytes_eqb_eq. Qed.
Lemma uses_app x a b : uses x (a ++ b) = (uses x a + uses x b)%nat.
Proof. unfold uses. now rewrite filter_app, app_length. Qed.
Lemma kept_few l : (forall x, In x l -> (uses x l <= 2)%nat) -> kept l = l /\ extra [] l = 0%nat.
Proof.
  intro H. split.
  - unfold kept. enough (Z : forall b a, (forall x, In x b -> (uses x (a ++ b) <= 2)%nat) -> fold_left keep b a = a ++ b) by exact (Z l [] H).
    induction b as [|x b IH]; intros a Hb; [now rewrite app_nil_r|]. cbn [fold_left].
    assert (E : keep a x = a ++ [x]).
    { unfold keep. pose proof (Hb x (or_introl eq_refl)) as U. rewrite uses_app in U. unfold uses at 2 in U. cbn [filter] in U. rewrite same_refl in U. cbn [length] in U.
      replace (uses x a <? 2)%nat with true by (symmetry; apply Nat.ltb_lt; lia). reflexivity. }
    rewrite E, IH; [now rewrite <- app_assoc|]. intros y Hy. rewrite <- app_assoc. apply Hb. now right.
  - enough (Z : forall b a, (forall x, In x b -> (uses x (a ++ b) <= 2)%nat) -> extra a b = 0%nat) by exact (Z l [] H).
    induction b as [|x b IH]; intros a Hb; [reflexivity|]. cbn [extra]. rewrite IH; [|intros y Hy; rewrite <- app_assoc; apply Hb; now right].
    pose proof (Hb x (or_introl eq_refl)) as U. rewrite uses_app in U. unfold uses at 2 in U. cbn [filter] in U. rewrite same_refl in U. cbn [length] in U.
    replace (2 <=? uses x a)%nat with false by (symmetry; apply Nat.leb_gt; lia). reflexivity.
Qed.
(** The transaction when the head was read. *)
Definition told_on (t : tx) : tx := set_x_seen100 true (upd_dir SResp (fun d => set_t_prog PLine (set_t_headers [] d)) t).
Definition unstarted (t : tx) : tx := upd_dir SResp (set_t_prog PNotStarted) t.
Lemma started_unstarted t : started (unstarted (told_on t)) = told_on t.
Proof. destruct t. destruct x_resp. reflexivity. Qed.
Lemma told_on_awaits m r t : interim_head r -> rready m r (rp_lines r) 0 0 t -> awaits m (unstarted (told_on t)).
Proof.
  intros G [R1 R2 R3 R4 R5 [R6 R6'] R7 R8 R9 R10 R11]. split.
  - apply (asked_same _ _ _ R1). repeat split; reflexivity.
  - destruct G as (_ & _ & _ & _ & _ & _ & Few & _). destruct (kept_few _ Few) as [K1 K2]. rewrite K1, K2 in R6'.
    split; [|cbn; auto]. split; [reflexivity|exact R6'].
Qed.
Lemma is_determine e C s a m r tr q k cb i t : yes e -> good_message m -> interim_head r ->
  rmile StBodyDetermine (Some HResponseHeaderData) [] None i t tr C s -> rest_of a [] k cb s -> cb + blen q = k -> skipn (N.to_nat cb) a = q ->
  rready m r (rp_lines r) 0 0 t ->
  exists s', rruns e s s' /\ rmile StLine (Some HResponseHeaderData) [] None i (told_on t) ((mk_ev HResponseHeaderData i (PlData q), SOk) :: tr) C s'.
Proof.
  intros Y Gm G [M1 M2 M3 M4 M5 M6 M7 M8 M9 M10 M11 M12] R Ek Sk Ry. rewrite <- M7 in M8.
  pose proof (ho_number _ _ (ry_asked _ _ _ _ _ _ Ry)) as Mn. pose proof (ry_number _ _ _ _ _ _ Ry) as Sn.
  assert (St : rp_status r = 100) by (unfold rp_status; destruct G as (-> & _); reflexivity). rewrite St in Sn.
  assert (V : map view (t_headers (x_resp t)) = merged_table (map kv_of (rp_lines r))) by apply Ry.
  assert (H : exists lg, handle_state SResp e s = (ROk tt, set_s_logs lg (set_s_txs (tx_set (s_pidx s) (told_on t) (s_txs s)) (set_s_resp (set_d_state StLine (s_resp s)) s)))).
  { unfold handle_state, by_side, handle_response_state. unfold bind at 1, get_d at 1. cbn [s_dir]. rewrite M1.
    unfold response_body_determine. unfold bind at 1. rewrite (need_tx_get SResp _ _ t) by exact M8. rewrite Mn, Sn.
    assert (Nc : is_method (MKnown (rq_method (m_req m))) "CONNECT" = false).
    { cbn [is_method]. apply Bool.not_true_is_false. intro Z. apply bytes_eqb_eq in Z. destruct Gm as ((_ & Hc & _) & _). now apply Hc. }
    rewrite Nc. cbn [andb when]. unfold bind at 1, ret at 1. unfold bind at 1. rewrite (the_tx_get SResp _ _ t) by exact M8. cbv zeta. unfold bind at 1, get_d at 1. rewrite Sn.
    change (eq_num (RnValid 100) 101) with false. change (eq_num (RnValid 100) 100) with true.
    destruct G as (_ & _ & _ & Gl & Ncl & Nte & _).
    rewrite (get_lacks _ (s2b "transfer-encoding")) by (eapply table_lacks; eassumption). rewrite (get_lacks _ (s2b "content-length")) by (eapply table_lacks; eassumption).
    cbn [is_some negb andb positive logs for_each].
    destruct (x_seen100 t).
    - cbn [when]. unfold bind, log. cbn. destruct (_ <=? _); unfold set_state, upd_d, modify; cbn; erewrite (mod_tx_get SResp) by exact M8; eexists; reflexivity.
    - cbn [when]. unfold bind, ret, set_state, upd_d, modify. cbn. erewrite (mod_tx_get SResp) by exact M8. exists (s_logs s). destruct s; reflexivity. }
  destruct H as [lg H]. apply (step_next SResp) in H; [|exact (rest_no_gap _ _ _ _ _ R)|exact (rlive_not_tunnel _ M3)|discriminate].
  match type of H with step _ _ _ = (_, ?z) => set (s1 := z) in H end.
  assert (R1 : rest_of a [] k cb s1) by exact R. pose proof (rest_len _ _ _ _ _ R1) as Ll. 
  assert (T1 : tx_get (s_pidx s1) (s_txs s1) = Some (told_on t)) by apply (tx_get_set_eq _ _ _ _ M8).
  assert (H1 : handle_state SResp e s1 = absent_lf SResp e s1).
  { unfold handle_state, by_side, handle_response_state. unfold bind at 1, get_d at 1. cbn [s_dir]. change (d_state (s_resp s1)) with StLine. unfold response_line. unfold bind at 1, input at 1. unfold bind at 1, get_d at 1.
    rewrite (rest_slice _ _ _ _ _ R1). change (take_till_eol []) with (@PInc (bytes * eol)). cbn [s_dir]. now rewrite (rlive_closed_eqb (d_status (s_resp s1)) M3). }
  rewrite (rabsent_lf_eval e s1 a [] k cb R1 M6) in H1 by (change (d_buf (s_resp s1)) with (d_buf (s_resp s)); rewrite M5; cbn; lia).
  apply (step_err SResp) in H1; [|exact (rest_no_gap _ _ _ _ _ R1)].
  erewrite (after_step_recv SResp) in H1; [|exact Y|now right|cbn; exact M4|cbn; exact T1|reflexivity|change (blen []) with 0 in *; lia|change (blen []) with 0; lia].
  eexists. split; [eapply rruns_next; [exact H|]; apply rruns_last; exact H1|].
  change (blen []) with 0. rewrite N.add_0_r. fold (between a cb k). subst k. rewrite (between_app a cb q []) by (rewrite app_nil_r; exact Sk).
  unfold s1 in *. cbn [s_pidx s_txs set_s_txs set_s_logs set_s_resp set_s_dir] in T1. constructor; cbn; try assumption; try reflexivity.
  - now left.
  - rewrite M5. reflexivity.
  - rewrite <- M7. exact T1.
  - now rewrite M7, M9.
  - intros j Hj. rewrite M7, tx_get_set_other by congruence. now apply M11.
  - now apply stocked_set.
Qed.

(** * From call to call *)
(** The parser waits for a status line: between responses, or after a head that was no final one. *)
Inductive iready (i : N) (C : ctx) (t : tx) (tr : list (event * status)) (s : st) : Prop :=
| ir_idle tr0 : rresting [] i tr0 C s -> cx_table C i = Some t -> tr = tr_of [ev_rstart i] tr0 -> iready i C t tr s
| ir_line rv : rmile StLine rv [] None i (started t) tr C s -> iready i C t tr s.
Lemma iready_opened e i C t tr s m c : yes e -> awaits m t -> c <> [] -> iready i C t tr s ->
  exists s1 rv, (s1 = opened SResp c s \/ step SResp e (opened SResp c s) = (ROk None, s1)) /\ rest_of c c 0 0 s1 /\ rmile StLine rv [] None i (started t) tr C s1.
Proof.
  intros Y [A _] Nc P. pose proof (ropened_rest c s) as R. destruct P as [tr0 Q Ct -> | rv M].
  - destruct (rs_start e i tr0 C _ c c 0 0 [] t m Y (ropened_resting _ _ _ _ c _ Q) Ct A R Nc) as (s1 & H1 & R1 & M1). exists s1, None. auto.
  - exists (opened SResp c s), rv. split; [now left|]. split; [exact R|exact (proj1 (ropened_mile _ _ _ _ _ _ _ _ c _ M))].
Qed.
Lemma iready_bufsum e i C t tr s : iready i C t tr s -> bufsum (s_resp s) <= c_field_limit (e_cfg e) /\ live_status (d_status (s_resp s)).
Proof.
  unfold bufsum. intros [tr0 Q Ct _ | rv M].
  - rewrite (rr_buf _ _ _ _ _ Q), (rr_header _ _ _ _ _ Q). split; [change (blen []) with 0; lia|exact (rlive_live _ (rr_live _ _ _ _ _ Q))].
  - rewrite (ProofsRStream.rm_buf _ _ _ _ _ _ _ _ _ M), (ProofsRStream.rm_header _ _ _ _ _ _ _ _ _ M). split; [change (blen []) with 0; lia|exact (rlive_live _ (ProofsRStream.rm_live _ _ _ _ _ _ _ _ _ M))].
Qed.
Section Interim.
Variables (e : env) (m : message) (r : response) (i : N) (C : ctx) (tr : list (event * status)).
Hypothesis Y : yes e.
Hypothesis Gm : good_message m.
Hypothesis Gr : interim_head r.
Hypothesis Lim : blen (head_text r) <= c_field_limit (e_cfg e).
Definition iline_events (hs : list bytes) : list event := mk_ev HResponseLine i PlNone :: map (ev_rheader i) hs.
(** The bytes [S] of the head are still to come. *)
Inductive ipaused : bytes -> st -> Prop :=
| ip_headers ls1 ls2 p q t hs s : rp_lines r = ls1 ++ ls2 -> p ++ q = block_text ls2 ++ [13; 10] -> q <> [] -> ls2 <> [] \/ rp_lines r = [] -> concat hs = block_text ls1 ++ p ->
    rready m r ls1 0 0 t -> t_prog (x_resp t) = PHeaders ->
    rmile StHeaders (Some HResponseHeaderData) [] (Some p) i t (tr_of (iline_events hs) tr) C s -> ipaused q s
| ip_done t hs s : awaits m t -> concat hs = block_text (rp_lines r) ++ [13; 10] -> rmile StLine (Some HResponseHeaderData) [] None i (started t) (tr_of (iline_events hs) tr) C s -> ipaused [] s.
Definition ioutcome (S : bytes) (s : st) : Prop := exists s', rruns e s s' /\ ipaused S s'.
Lemma ioutcome_next S s s1 : step SResp e s = (ROk None, s1) -> ioutcome S s1 -> ioutcome S s.
Proof using. intros H (s' & R & P). exists s'. split; [exact (rruns_next _ _ _ _ H R)|exact P]. Qed.
Lemma ifrom_headers S s a rest k t p q ls1 ls2 hs : rp_lines r = ls1 ++ ls2 ->
  opt_text p ++ q = block_text ls2 ++ [13; 10] -> q <> [] -> ls2 <> [] \/ rp_lines r = [] -> concat hs = block_text ls1 ++ opt_text p ->
  rready m r ls1 0 0 t -> t_prog (x_resp t) = PHeaders ->
  rmile StHeaders (Some HResponseHeaderData) [] p i t (tr_of (iline_events hs) tr) C s ->
  rest_of a rest k k s -> rest ++ S = q -> ioutcome S s.
Proof using Y Gm Gr Lim.
  intros El Eq Nq Hp Eh Rd Tp M R E. assert (Gl : Forall good_hline (rp_lines r)) by apply Gr. rewrite El in Gl. apply Forall_app in Gl as [Gl1 Gl].
  destruct S as [|y0 y].
  - rewrite app_nil_r in E. subst q. assert (Eb : ends_block ls2 []).
    { destruct ls2; [right; auto|left; split; [discriminate|]]. right. split; intros; discriminate. }
    rewrite <- (app_nil_r rest) in R.
    destruct (rs_headers e C s a ls2 _ p rest [] k i t Gl Eb M (ry_hpc _ _ _ _ _ _ Rd) Tp R Nq Eq) as (s1 & H1 & R1 & Sk & M1). apply (ioutcome_next _ _ _ H1).
    assert (Rd1 : rready m r (rp_lines r) 0 0 (add_headers SResp (map ph_of ls2) t)) by (rewrite El; now apply rready_more).
    rewrite app_nil_r in Sk.
    destruct (is_determine e C s1 a m r _ rest (k + blen rest) k i _ Y Gm Gr M1 R1 eq_refl Sk Rd1) as (s2 & H2 & M2).
    exists s2. split; [exact H2|]. rewrite <- started_unstarted in M2. eapply (ip_done _ (hs ++ [rest])); [exact (told_on_awaits m r _ Gr Rd1)| |].
    + rewrite concat_app, Eh, El. cbn [concat]. rewrite app_nil_r, <- app_assoc, Eq. unfold block_text. now rewrite map_app, concat_app, <- app_assoc.
    + unfold iline_events in *. rewrite (map_app (ev_rheader i)), app_comm_cons, tr_of_app. exact M2.
  - rewrite <- E, app_assoc in Eq. destruct (rhead_cut ls2 (opt_text p ++ rest) (y0 :: y) Gl Eq) as (l1 & l2 & q' & -> & E3 & E4 & E5 & E6); [discriminate|].
    apply Forall_app in Gl as [Gl2 _].
    destruct (rs_headers_part e C s a l1 _ p rest q' k i _ _ Y Gl2 M (ry_hpc _ _ _ _ _ _ Rd) R E3 E5) as (s1 & H1 & M1).
    { etransitivity; [|exact Lim]. unfold head_text. rewrite El. unfold block_text in *. rewrite !map_app, !concat_app, <- !app_assoc.
      rewrite <- E4. unfold blen. rewrite !app_length. lia. }
    exists s1. split; [exact H1|].
    apply (ip_headers (ls1 ++ l1) l2 q' (y0 :: y) (add_headers SResp (map ph_of l1) t) (hs ++ [rest])); [now rewrite El, app_assoc|exact E4|discriminate| | | | |].
    + destruct E6 as [E6 | E6]; [now left|]. right. destruct Hp as [Hp | Hp]; [congruence|exact Hp].
    + rewrite concat_app, Eh. cbn [concat]. rewrite app_nil_r, <- app_assoc, E3. unfold block_text. now rewrite map_app, concat_app, <- app_assoc.
    + now apply rready_more.
    + destruct (add_headers_rgains (map ph_of l1) t) as ((rr & hh & Eg) & _). rewrite Eg. exact Tp.
    + unfold iline_events in *. rewrite (map_app (ev_rheader i)), app_comm_cons, tr_of_app. exact M1.
Qed.
Lemma ifirst t tail S s : awaits m t -> iready i C t tr s -> tail ++ S = block_text (rp_lines r) ++ [13; 10] -> ioutcome S (opened SResp (status_line_text r ++ tail) s).
Proof using Y Gm Gr Lim.
  intros A P E. pose proof (interim_status _ Gr) as Gs.
  assert (Lim1 : blen (status_line_text r) <= c_field_limit (e_cfg e)) by (etransitivity; [|exact Lim]; unfold head_text, blen; rewrite app_length; lia).
  destruct (iready_opened e i C t tr s m (status_line_text r ++ tail) Y A) as (s1 & rv & H1 & R1 & M1); [discriminate|exact P|].
  assert (O : ioutcome S s1).
  { rewrite status_line_body in R1 at 2. destruct (rs_line_any e C s1 _ r tr [] (line_body r) tail 0 0 i _ rv Y Gs M1 R1 eq_refl Lim1) as (s2 & H2 & R2 & M2). apply (ioutcome_next _ _ _ H2).
    eapply (ifrom_headers S s2 _ tail _ (lined r (started t)) None (block_text (rp_lines r) ++ [13; 10]) [] (rp_lines r) []); [reflexivity|reflexivity|destruct (block_text _); discriminate| |reflexivity|exact (rready_fresh m r t A)|reflexivity|exact M2|exact R2|exact E].
    destruct (rp_lines r); [now right|left; discriminate]. }
  destruct H1 as [-> | H1]; [exact O|exact (ioutcome_next _ _ _ H1 O)].
Qed.
Lemma igoes c S s : c <> [] -> ipaused (c ++ S) s -> ioutcome S (opened SResp c s).
Proof using Y Gm Gr Lim.
  intros Nc P. remember (c ++ S) as X eqn:EX. pose proof (ropened_rest c s) as R.
  destruct P as [ls1 ls2 p q t hs s El Eq Nq Hp Eh Rd Tp M|t hs s A Eh M].
  - apply (ifrom_headers S _ c c 0 t (Some p) q ls1 ls2 hs El Eq Nq Hp Eh Rd Tp (proj1 (ropened_mile _ _ _ _ _ _ _ _ c _ M)) R). now symmetry.
  - destruct c; [congruence|discriminate].
Qed.
Lemma ibufsum S s : ipaused S s -> bufsum (s_resp s) <= c_field_limit (e_cfg e) /\ live_status (d_status (s_resp s)).
Proof using Lim.
  intro P. unfold bufsum. destruct P as [ls1 ls2 p q t hs s El Eq Nq Hp Eh Rd Tp M|t hs s A Eh M];
  rewrite (ProofsRStream.rm_buf _ _ _ _ _ _ _ _ _ M), (ProofsRStream.rm_header _ _ _ _ _ _ _ _ _ M); (split; [|exact (rlive_live _ (ProofsRStream.rm_live _ _ _ _ _ _ _ _ _ M))]).
  - change (blen []) with 0. rewrite N.add_0_l. etransitivity; [|apply Lim].
    unfold head_text. rewrite El. unfold block_text in *. rewrite !map_app, !concat_app, <- !app_assoc, <- Eq. unfold blen. rewrite !app_length. lia.
  - change (blen []) with 0. lia.
Qed.
Lemma icalls cs : forall s, ~ In [] cs -> ipaused (concat cs) s ->
  exists s', run_ops (resps cs) e s = (ROk (more (resps cs)), s') /\ ipaused [] s'.
Proof using Y Gm Gr Lim.
  induction cs as [|c cs IH]; intros s Ne P; [exists s; split; [reflexivity|exact P]|].
  cbn [concat] in P. assert (Nc : c <> []) by (intros ->; apply Ne; now left).
  destruct (ibufsum _ _ P) as [B L]. destruct (igoes c _ s Nc P) as (s1 & R1 & P1).
  apply (rruns_data_call e c s s1 Nc B L) in R1. destruct (IH s1) as (s2 & R2 & P2); [intro Z; apply Ne; now right|exact P1|].
  exists s2. split; [|exact P2]. unfold resps in *. cbn [map run_ops]. unfold bind at 1. cbn [run_op]. unfold bind at 1. rewrite R1. unfold ret at 1. unfold bind at 1. rewrite R2. reflexivity.
Qed.
Lemma ihead cs t s : concat cs = head_text r -> ~ In [] cs -> line_first r cs -> awaits m t -> iready i C t tr s ->
  exists s' t' ds, run_ops (resps cs) e s = (ROk (more (resps cs)), s') /\ concat ds = block_text (rp_lines r) ++ [13; 10] /\ awaits m t' /\
    rmile StLine (Some HResponseHeaderData) [] None i (started t') (tr_of (iline_events ds) tr) C s'.
Proof using Y Gm Gr Lim.
  intros Ec Ne (tail & rest & ->) A P. cbn [concat] in Ec. unfold head_text in Ec. rewrite <- app_assoc in Ec. apply app_inv_head in Ec.
  destruct (iready_bufsum e i C t tr s P) as [B L]. destruct (ifirst t tail (concat rest) s A P Ec) as (s1 & R1 & P1).
  apply (rruns_data_call e _ s s1) in R1; [|discriminate|exact B|exact L].
  destruct (icalls rest s1) as (s2 & R2 & P2); [intro Z; apply Ne; now right|exact P1|]. exists s2.
  remember (@nil N) as X eqn:EX in P2. destruct P2 as [ls1 ls2 p q t1 hs s2 El Eq Nq Hp Eh Rd Tp M|t1 hs s2 A1 Eh M]; [congruence|].
  exists t1, hs. split; [|split; [exact Eh|split; [exact A1|exact M]]].
  unfold resps in *. cbn [map run_ops]. unfold bind at 1. cbn [run_op]. unfold bind at 1. rewrite R1. unfold ret at 1. unfold bind at 1. rewrite R2. reflexivity.
Qed.
End Interim.
Lemma iheads e m i C ns : yes e -> good_message m -> Forall good_interim ns -> Forall (fun n => blen (head_text (in_head n)) <= c_field_limit (e_cfg e)) ns ->
  forall t tr s, awaits m t -> iready i C t tr s ->
  exists s' t' es, run_ops (interim_ops ns) e s = (ROk (more (interim_ops ns)), s') /\ interim_events i ns es /\ awaits m t' /\ iready i C t' (tr_of es tr) s' /\
    (ns <> [] \/ (exists rv, rmile StLine rv [] None i (started t) tr C s) -> exists rv, rmile StLine rv [] None i (started t') (tr_of es tr) C s').
Proof.
  intros Y Gm. induction ns as [|n ns IH]; intros G Lim t tr s A P.
  - exists s, t, []. split; [reflexivity|]. split; [constructor|]. split; [exact A|]. split; [exact P|]. intros [H | H]; [congruence|exact H].
  - inversion_clear G as [|? ? G0 Gs]. destruct G0 as (G1 & G2 & G3 & G4). inversion_clear Lim as [|? ? L1 Ls].
    destruct (ihead e m (in_head n) i C tr Y Gm G1 L1 (in_segments n) t s G2 G3 G4 A P) as (s1 & t1 & ds & H1 & E1 & A1 & P1).
    destruct (IH Gs Ls t1 _ s1 A1 (ir_line _ _ _ _ _ _ P1)) as (s2 & t2 & es & H2 & E2 & A2 & P2 & L2). exists s2, t2, (iline_events i ds ++ es).
    split; [|split; [|split; [exact A2|]]].
    + unfold interim_ops. cbn [map concat]. fold (interim_ops ns). rewrite (run_ops_app _ _ _ _ _ _ _ _ H1 H2). unfold more. now rewrite map_app.
    + constructor; [|exact E2]. exists ds. split; [exact E1|reflexivity].
    + rewrite tr_of_app. split; [exact P2|]. intros _. apply L2. right. eexists. exact P1.
Qed.
