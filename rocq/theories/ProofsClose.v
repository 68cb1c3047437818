(** The end of a connection: what closing it does. *)
From Verif Require Import Base Spec SpecTx SpecMsg SpecResp SpecEnd ModelUtil ModelBstr ModelParsers ModelHeaders ModelState ModelTx ModelConn SpecConn ProofsBase ProofsBytes ProofsParsers ProofsHeaders ProofsTx ProofsConn ProofsCore ProofsLoop ProofsHist ProofsEval ProofsBody ProofsHead ProofsFrame ProofsStream ProofsChunk ProofsMsg ProofsRStream ProofsRHead ProofsRBody ProofsRMsg ProofsTalk ProofsEnd.

(** * The call that a direction gets when the connection is closed *)
Definition shut (sd : side) (s : st) : st := set_s_dir sd (set_d_status SsClosed (s_dir sd s)) s.
Lemma close_status_eval sd e s : d_status (s_dir sd s) <> SsError -> close_status sd e s = (ROk tt, shut sd s).
Proof. intro H. unfold close_status. unfold bind, get_d. replace (sstate_eqb (d_status (s_dir sd s)) SsError) with false by (destruct (d_status _); congruence || reflexivity). reflexivity. Qed.
Definition given (sd : side) (s : st) : st := count_data sd 0 (offer sd pd_default s).
Lemma call_closed sd e s : d_status (s_dir sd s) = SsClosed -> d_status (s_resp s) <> SsDataOther ->
  exists n, data_call sd pd_default e s = data_loop sd (S (S (S n))) e (given sd s).
Proof.
  intros H Hr. exists (16 * (length (pd_as_slice (s_input (given sd s))) + 2 * length (d_buf (s_dir sd (given sd s))) + 2) - 3)%nat.
  replace (S (S (S _))) with (loop_fuel sd (given sd s)) by (unfold loop_fuel; lia).
  rewrite data_call_eval, H. change (pd_is_empty pd_default) with true. cbn [sstate_eqb negb andb]. change (pd_len pd_default) with 0. cbv zeta.
  unfold data_tail. fold (given sd s). change (pd_is_gap pd_default) with false. destruct sd; cbn [by_side].
  - unfold bind at 1. unfold bind at 1, get_d at 1. cbn [s_dir]. change (d_status (s_resp (given SReq s))) with (d_status (s_resp s)).
    replace (sstate_eqb (d_status (s_resp s)) SsDataOther) with false by (destruct (d_status (s_resp s)); congruence || reflexivity). reflexivity.
  - reflexivity.
Qed.
(** Nothing is left of a request. *)
Lemma close_req e s : d_status (s_req s) = SsClosed -> d_status (s_resp s) <> SsDataOther -> d_state (s_req s) = StIdle -> d_recv (s_req s) = None -> d_buf (s_req s) = [] ->
  exists s', data_call SReq pd_default e s = (ROk SsData, s') /\ outside s' = outside s /\ s_trace s' = s_trace s /\ s_ridx s' = s_ridx s /\ looked e (s_ridx s) (s_txs s) (s_txs s').
Proof.
  intros D1 D2 D3 D4 D5. destruct (call_closed SReq e s D1 D2) as [n ->].
  assert (H : handle_state SReq e (given SReq s) = (RErr SData, given SReq s)).
  { unfold handle_state, by_side, handle_request_state. unfold bind at 1, get_d at 1. change (d_state (s_dir SReq (given SReq s))) with (d_state (s_req s)). rewrite D3. unfold request_idle.
    unfold bind at 1, input at 1. unfold bind at 1, get_d at 1. change (d_buf (s_dir SReq (given SReq s))) with (d_buf (s_req s)). rewrite D5. change (pd_is_empty (s_input (given SReq s))) with true. cbn [is_nil andb]. rewrite Bool.orb_true_r. reflexivity. }
  apply (step_err SReq) in H; [|reflexivity]. destruct (after_step_data SReq SData e (given SReq s)) as (p & l & H3 & H4 & _); [now left|exact D4|].
  rewrite H3 in H. rewrite (loop_last _ _ _ _ _ _ H). eexists. split; [reflexivity|]. repeat (split; [reflexivity|]). exact H4.
Qed.
(** Nothing is left of a response. *)
Lemma idle_closed e s : d_state (s_resp s) = StIdle -> d_recv (s_resp s) = None -> s_input s = pd_default ->
  exists s', step SResp e s = (ROk (Some SsData), s') /\ s_trace s' = s_trace s /\ looked e (s_pidx s) (s_txs s) (s_txs s').
Proof.
  intros D3 D4 I. assert (H : handle_state SResp e s = (RErr SData, s)).
  { unfold handle_state, by_side, handle_response_state. unfold bind at 1, get_d at 1. cbn [s_dir]. rewrite D3. unfold response_idle. unfold bind at 1, input at 1. rewrite I. reflexivity. }
  apply (step_err SResp) in H; [|rewrite I; reflexivity]. destruct (after_step_data SResp SData e s) as (p & l & H3 & H4 & _); [now left|exact D4|].
  rewrite H3 in H. eexists. split; [exact H|]. split; [reflexivity|exact H4].
Qed.
Lemma close_resp e s : d_status (s_resp s) = SsClosed -> d_state (s_resp s) = StIdle -> d_recv (s_resp s) = None ->
  exists s', data_call SResp pd_default e s = (ROk SsData, s') /\ s_trace s' = s_trace s /\ looked e (s_pidx s) (s_txs s) (s_txs s').
Proof.
  intros D1 D3 D4. destruct (call_closed SResp e s D1 ltac:(rewrite D1; discriminate)) as [n ->]. destruct (idle_closed e (given SResp s) D3 D4 eq_refl) as (s' & H & T & L).
  rewrite (loop_last _ _ _ _ _ _ H). exists s'. split; [reflexivity|]. split; [exact T|exact L].
Qed.
(** The response that was going on ends. *)
Lemma close_open e s i t : yes e -> d_status (s_resp s) = SsClosed -> d_state (s_resp s) = StStreamClose -> d_recv (s_resp s) = None -> d_buf (s_resp s) = [] -> s_other_at_end s = false ->
  s_pidx s = i -> i + 1 < 2 ^ 64 -> tx_get i (s_txs s) = Some t -> rclosable t ->
  exists s', data_call SResp pd_default e s = (ROk SsData, s') /\ s_trace s' = tr_of (rclose_events i) (s_trace s) /\
    looked e (i + 1) (if c_auto_destroy (e_cfg e) then tx_del i (tx_set i (rcompleted_tx t) (s_txs s)) else tx_set i (rcompleted_tx t) (s_txs s)) (s_txs s').
Proof.
  intros Y D1 D3 D4 D5 D6 D7 Li T Rc. destruct (call_closed SResp e s D1 ltac:(rewrite D1; discriminate)) as [n ->].
  set (g := given SResp s). assert (G1 : d_status (s_resp g) = SsClosed) by exact D1. assert (G3 : d_state (s_resp g) = StStreamClose) by exact D3. assert (G4 : d_recv (s_resp g) = None) by exact D4.
  assert (G5 : d_buf (s_resp g) = []) by exact D5. assert (G6 : s_other_at_end g = false) by exact D6. assert (G7 : s_pidx g = i) by exact D7. assert (G8 : s_input g = pd_default) by reflexivity.
  assert (G9 : s_txs g = s_txs s) by reflexivity. assert (G10 : s_trace g = s_trace s) by reflexivity. clearbody g. rewrite <- G9 in *. rewrite <- G10. clear D1 D3 D4 D5 D6 D7 G9 G10 s.
  assert (H1 : handle_state SResp e g = (ROk tt, set_s_resp (set_d_state StFinalize (s_resp g)) g)).
  { unfold handle_state, by_side, handle_response_state. unfold bind at 1, get_d at 1. cbn [s_dir]. rewrite G3. unfold response_body_identity_stream_close. unfold bind at 1, input at 1. rewrite G8.
    change (pd_is_gap pd_default) with false. change (pd_is_empty pd_default) with true. cbn [negb when]. unfold bind at 1, ret at 1. unfold bind at 1, get_d at 1. cbn [s_dir]. rewrite G1. reflexivity. }
  apply (step_next SResp) in H1; [|rewrite G8; reflexivity|cbn; rewrite G1; discriminate|discriminate]. rewrite (loop_next _ _ _ _ _ H1). clear H1.
  set (g1 := set_s_dir SResp _ _).
  assert (F1 : d_status (s_resp g1) = SsClosed) by exact G1. assert (F3 : d_state (s_resp g1) = StFinalize) by reflexivity. assert (F4 : d_recv (s_resp g1) = None) by exact G4.
  assert (F5 : d_buf (s_resp g1) = []) by exact G5. assert (F6 : s_other_at_end g1 = false) by exact G6. assert (F7 : s_pidx g1 = i) by exact G7. assert (F8 : s_input g1 = pd_default) by exact G8.
  assert (F9 : s_txs g1 = s_txs g) by reflexivity. assert (F10 : s_trace g1 = s_trace g) by reflexivity. clearbody g1. rewrite <- F9 in *. rewrite <- F10. clear F9 F10 G1 G3 G4 G5 G6 G7 G8 g.
  assert (H2 : handle_state SResp e g1 = state_response_complete e g1).
  { unfold handle_state, by_side, handle_response_state. unfold bind at 1, get_d at 1. cbn [s_dir]. rewrite F3. unfold response_finalize. unfold bind at 1, input at 1. unfold bind at 1, get_d at 1. cbn [s_dir]. rewrite F8, F1.
    change (pd_is_gap pd_default) with false. cbn [sstate_eqb]. change (pd_as_slice pd_default) with (@nil N). unfold response_finalize_work. unfold check_limit_if_buffered, take_buf. unfold bind at 1. unfold bind at 1, get_d at 1. cbn [s_dir]. rewrite F5. cbn [is_nil negb when]. unfold ret at 1.
    unfold bind at 1. unfold bind at 1, get_d at 1. unfold bind at 1, upd_d at 1, modify at 1. unfold ret at 1. cbn [s_dir]. rewrite F5. cbn [app is_nil].
    destruct g1 as [rq rs oe cc ci ri pi txs cf si so tr lg inp]. destruct rs as [d1 d2 d3 d4 d5 d6 d7 d8 d9 d10]. cbn in F5. subst d3. reflexivity. }
  rewrite <- F7 in T. rewrite (response_complete_eval e g1 t Y T Rc F4) in H2; [|rewrite F1; discriminate|exact F6].
  apply (step_next SResp) in H2; [|rewrite F8; reflexivity|cbn; rewrite F1; discriminate|discriminate]. rewrite (loop_next _ _ _ _ _ H2). clear H2.
  match goal with |- context [data_loop SResp (S n) e ?z] => destruct (idle_closed e z) as (s' & H & Tr & L); [reflexivity|exact F4|exact F8|] end.
  rewrite (loop_last _ _ _ _ _ _ H). exists s'. split; [reflexivity|]. rewrite F7 in *. split; [exact Tr|].
  cbn in L. unfold wadd in L. rewrite N.mod_small in L by exact Li. exact L.
Qed.

(** * The transactions that are not complete are told about; there are none *)
Definition settled (l : list (N * tx)) : Prop := forall j t, tx_get j l = Some t -> t = tx_new \/ is_complete t = true.
Lemma keyed_get l : NoDup (map fst l) -> forall j t, In (j, t) l -> tx_get j l = Some t.
Proof.
  induction l as [|[j0 t0] l IH]; intros Nd j t I; [destruct I|]. cbn [map fst] in Nd. apply NoDup_cons_iff in Nd as [N1 N2]. cbn [tx_get]. destruct I as [I | I].
  - injection I as <- <-. now rewrite N.eqb_refl.
  - destruct (j =? j0) eqn:E; [|now apply IH]. apply N.eqb_eq in E. subst j0. elim N1. apply (in_map fst) in I. exact I.
Qed.
Lemma flush_none e s : NoDup (map fst (s_txs s)) -> settled (s_txs s) -> when (c_flush (e_cfg e)) flush_incomplete_transactions e s = (ROk tt, s).
Proof.
  intros Nd St. destruct (c_flush _); [|reflexivity]. cbn [when]. unfold flush_incomplete_transactions. unfold bind at 1, ask at 1. unfold bind at 1, get at 1.
  replace (filter _ (s_txs s)) with (@nil (N * tx)); [reflexivity|]. symmetry.
  assert (Z : forall l, (forall x, In x l -> snd x = tx_new \/ is_complete (snd x) = true) -> filter (fun it : N * tx => is_started (snd it) && negb (is_complete (snd it))) l = []).
  { induction l as [|x l IH]; intro H; [reflexivity|]. cbn [filter]. rewrite IH by (intros y I; apply H; now right). destruct (H x (or_introl eq_refl)) as [-> | ->]; [reflexivity|]. now rewrite Bool.andb_false_r. }
  apply Z. intros [j t] I. exact (St j t (keyed_get _ Nd j t I)).
Qed.
Lemma looked_keys e i l l' : looked e i l l' -> NoDup (map fst l) -> NoDup (map fst l').
Proof. intros [-> | (H & _ & ->)] Nd; [exact Nd|now apply keys_put]. Qed.
Lemma looked_settled e i l l' : looked e i l l' -> settled l -> settled l'.
Proof.
  intros [-> | (H & _ & ->)] Sl; [exact Sl|]. intros j t G. destruct (N.eq_dec j i) as [-> | Nj]; [rewrite tx_get_put in G; injection G as <-; now left|].
  rewrite tx_get_put_other in G by exact Nj. now apply (Sl j).
Qed.

(** * Closing between responses *)
Lemma is_complete_of m r t : asked m t -> answered r t -> is_complete t = true.
Proof. intros A B. unfold is_complete. rewrite (ho_progress _ _ A), (an_progress _ _ B). reflexivity. Qed.
Definition all_over (n : N) (T : N -> option tx) : Prop := forall j t, j < n -> T j = Some t -> is_complete t = true.
Lemma level_settled n tr T z s : level n tr T z s -> all_over n T -> settled (s_txs s).
Proof.
  intros [Lq _ Lf _] Al j t G. destruct (N.lt_trichotomy j n) as [H | [-> | H]].
  - right. rewrite (rs_others _ _ _ _ _ Lq) in G by lia. exact (Al j t H G).
  - left. destruct (rs_tx _ _ _ _ _ Lq) as [[E _] | [E _]]; rewrite E in G; [now injection G|discriminate].
  - rewrite (rs_others _ _ _ _ _ Lq) in G by lia. cbn [cx_table] in G. rewrite Lf in G by exact H. discriminate.
Qed.
Lemma live_fine x : live_status x -> x <> SsError. Proof. intros [-> | [-> | ->]]; discriminate. Qed.
Lemma rlive_fine x : rlive x -> x <> SsError. Proof. intros [-> | ->]; discriminate. Qed.
(** The first half: both directions are closed and the request parser has nothing to do. *)
Lemma close_first e s : live_status (d_status (s_req s)) -> rlive (d_status (s_resp s)) -> d_state (s_req s) = StIdle -> d_recv (s_req s) = None -> d_buf (s_req s) = [] ->
  exists s', (close_status SReq ;; close_status SResp ;; data_call SReq pd_default) e s = (ROk SsData, s') /\
    outside s' = (s_pidx s, set_d_status SsClosed (s_resp s), s_other_at_end s) /\ s_trace s' = s_trace s /\ looked e (s_ridx s) (s_txs s) (s_txs s').
Proof.
  intros Lq Lp D1 D2 D3. unfold bind at 1. rewrite close_status_eval by exact (live_fine _ Lq). unfold bind at 1. rewrite close_status_eval by exact (rlive_fine _ Lp).
  destruct (close_req e (shut SResp (shut SReq s))) as (s' & H & O & T & _ & L); [reflexivity|discriminate|exact D1|exact D2|exact D3|].
  exists s'. split; [exact H|]. split; [exact O|]. split; [exact T|exact L].
Qed.
Lemma close_last e s s1 x s2 : (close_status SReq ;; close_status SResp ;; data_call SReq pd_default) e s = (ROk x, s1) ->
  data_call SResp pd_default e s1 = (ROk SsData, s2) -> NoDup (map fst (s_txs s2)) -> settled (s_txs s2) -> run_op OpClose e s = (ROk None, s2).
Proof.
  intros H1 H2 Nd Sl. cbn [run_op]. unfold bind in H1 |- *. destruct (close_status SReq e s) as [[u|u| |] a]; try discriminate H1. destruct (close_status SResp e a) as [[v|v| |] b]; try discriminate H1.
  rewrite H1, H2. unfold ask. now rewrite (flush_none e s2 Nd Sl).
Qed.
Lemma close_idle e n tr T z s : level n tr T z s -> all_over n T -> exists s', run_op OpClose e s = (ROk None, s') /\ s_trace s' = tr /\ forall j, j <> n -> tx_get j (s_txs s') = T j.
Proof.
  intros L Al. pose proof (level_settled _ _ _ _ _ L Al) as Sl. destruct L as [Lq (P1 & P2 & P3 & P4 & P5 & P6) Lf Lk].
  pose proof (rs_outside _ _ _ _ _ Lq) as Out. cbn [cx_rest] in Out. unfold outside in Out. injection Out as O1 _.
  destruct (close_first e s (rs_live _ _ _ _ _ Lq) P3 (rs_state _ _ _ _ _ Lq) (rs_recv _ _ _ _ _ Lq) (rs_buf _ _ _ _ _ Lq)) as (s1 & H1 & Os & T1 & L1).
  unfold outside in Os. injection Os as E1 E2 E3. rewrite (rs_idx _ _ _ _ _ Lq) in L1.
  destruct (close_resp e s1) as (s2 & H2 & T2 & L2); [rewrite E2; reflexivity|rewrite E2; exact P1|rewrite E2; exact P4|]. rewrite E1, O1 in L2.
  exists s2. split; [|split].
  - apply (close_last e s s1 SsData s2 H1 H2); [exact (looked_keys _ _ _ _ L2 (looked_keys _ _ _ _ L1 Lk))|exact (looked_settled _ _ _ _ L2 (looked_settled _ _ _ _ L1 Sl))].
  - rewrite T2, T1. apply Lq.
  - intros j Hj. rewrite (looked_other _ _ _ _ j L2 Hj), (looked_other _ _ _ _ j L1 Hj). apply (rs_others _ _ _ _ _ Lq). exact Hj.
Qed.

(** * The last round *)
Lemma open_done m r i t es body : rp_content r = Plain body -> blen body < 2 ^ 64 -> rready m r (rall_lines r) (blen (rp_body r)) (blen (coded_text (rp_content r))) t -> rseen_events i r es ->
  asked m (rcompleted_tx t) /\ answered r (rcompleted_tx t) /\ response_events i r (es ++ rclose_events i).
Proof.
  intros Ec Lb [R1 R2 R3 R4 R5 [R6 _] R7 R8 R9 R10 R11] (be & ts & (he & bs & (hs & H1 & ->) & H2 & H3 & ->) & Ht & ->).
  assert (L1 : blen (coded_text (rp_content r)) < 2 ^ 64) by (rewrite Ec; exact Lb). assert (L2 : blen (rp_body r) < 2 ^ 64) by (unfold rp_body; rewrite Ec; exact Lb). split; [|split].
  - apply (asked_same _ _ _ R1). unfold rcompleted_tx. destruct (coding_eqb _ _); repeat split; reflexivity.
  - unfold rcompleted_tx. destruct (coding_eqb _ _); constructor; cbn; try assumption; try reflexivity; rewrite ?R8, ?R9; now apply wadd_small.
  - exists hs, bs, ts. split; [exact H1|]. split; [exact H2|]. split; [exact H3|]. split; [exact Ht|]. unfold rline_events, rclose_events. now rewrite <- !app_assoc.
Qed.
Lemma last_runs e n tr T z s rd : yes e -> level n tr T z s -> all_over n T -> last_round rd -> Forall (line_limits e) (rd_exchanges rd) -> n + 1 < 2 ^ 64 ->
  N.of_nat z + 1 <= c_max_tx (e_cfg e) ->
  exists s' es1 es2, run_ops (round_ops rd ++ [OpClose]) e s = (ROk (map (fun _ => Some SsData) (round_ops rd) ++ [None]), s') /\
    stream_events (e_cfg e) n (rd_asked rd) es1 /\ reply_events n (rd_answers rd) es2 /\ s_trace s' = tr_of (es1 ++ es2) tr /\
    (forall j, j < n -> tx_get j (s_txs s') = T j) /\ (forall k x, nth_error (rd_exchanges rd) k = Some x -> over (c_auto_destroy (e_cfg e)) (fun j => tx_get j (s_txs s')) (n + N.of_nat k) x).
Proof.
  intros Y [Lq (P1 & P2 & P3 & P4 & P5 & P6) Lf Lk] Al (m & r & Ex & Gm & Gr & Eu & Nu & Cu & Ed & Nd & Cd) Lim Ix Sz. set (d := c_auto_destroy (e_cfg e)).
  unfold rd_asked, rd_answers. rewrite Ex in *. cbn [map fst snd]. inversion_clear Lim as [|? ? (M1 & M2 & M3 & M4) _]. cbn [fst snd] in *.
  assert (R1 : room e n (mk_ctx T (n, s_resp s, false) z) [m]).
  { constructor; cbn [cx_rest cx_size cx_table fst snd length]; try assumption.
    - constructor; [exact Gm|constructor].
    - constructor; [split; assumption|constructor].
    - intro Z. rewrite Z in P3. destruct P3; discriminate. }
  pose proof (@pa_idle (e_cfg e) n _ tr [m] s Lq) as P. rewrite <- Eu, <- (app_nil_r (concat _)) in P.
  destruct (stream_calls e (rd_up rd) Y n _ tr [m] [] s R1 Nu) as (s1 & done & ms' & i1 & C1 & tr1 & H1 & E1 & T1 & Q1); [|exact P|].
  { intros a b Eab _ before m' after y Em. exact (Cu a b before m' after y Eab Em). }
  apply paused_end in Q1 as [-> Q1]. rewrite app_nil_r in E1. subst done. destruct (told_facts _ _ _ _ _ _ _ T1) as (Ei & (es1 & -> & Se) & Tx & Ti). destruct (told_more _ _ _ _ _ _ _ T1) as (Tm & Tr & Ts). cbn [cx_rest cx_size cx_table length] in *. clear P R1.
  pose proof (keys_run (map (fun c => OpReq (pd_slice c)) (rd_up rd)) e s Lk) as K1. rewrite H1 in K1. cbn [snd] in K1. change (N.of_nat 1) with 1 in Ei. subst i1.
  destruct Q1 as [D1 D2 D3 D4 D5 D6 D7 D8 D9 D10 D11]. rewrite Tr in D10. unfold outside in D10. injection D10 as O1 O2 O3.
  set (C2 := mk_ctx (fun j => tx_get j (s_txs s1)) (n + 1, s_req s1, false) (length (s_txs s1))).
  assert (Qr : rresting [] n (tr_of es1 tr) C2 s1) by (constructor; rewrite ?O2; try assumption; [left; split; [reflexivity|split; [exact K1|apply Nat.le_refl]]|unfold r_outside, C2; cbn [cx_rest]; congruence|reflexivity]).
  destruct (Tx 0%nat m eq_refl) as (t0 & Ht0 & Ho). rewrite N.add_0_r in Ht0. assert (Ct : cx_table C2 n = Some t0) by (unfold C2; cbn [cx_table]; rewrite D11 by lia; exact Ht0).
  assert (Gb : exists body, rp_content r = Plain body /\ blen body < 2 ^ 64 /\ smooth body) by apply Gr. destruct Gb as (body & Ec & Lb & Sm).
  pose proof (lp_idle m r body n C2 (tr_of es1 tr) t0 s1 Qr) as P. rewrite <- Ed, <- (app_nil_r (concat (rd_down rd))) in P.
  destruct (lstream_calls e m r body n C2 (tr_of es1 tr) t0 Y Gm Gr Ec Lb Sm M3 Ct Ho (rd_down rd) [] s1 Nd) as (s2 & H2 & P2'); [|exact P|].
  { intros a b Eab _ Z. apply (Cd a b [] r [] ([10] ++ block_text (rp_lines r) ++ [13; 10] ++ content_text (rp_content r)) Eab eq_refl (rn_line r)). rewrite Z. unfold rtexts. cbn [map concat]. now rewrite app_nil_r. }
  clear P. apply (lpaused_end m r body n C2 (tr_of es1 tr) t0 Ec) in P2' as (t & es & Rd & Se2 & Mi).
  destruct (open_done m r n t es body Ec Lb Rd Se2) as (Fa & Fb & Fe). destruct Mi as [F1 F2 F3 F4 F5 F6 F7 F8 F9 F10 F11 F12].
  unfold r_outside, C2 in F10. cbn [cx_rest] in F10. injection F10 as V1 V2 V3. cbn [cx_table C2] in F11.
  destruct (close_first e s2) as (s3 & H3 & Os & T3 & L3); try (rewrite V2; assumption); [exact F3|].
  unfold outside in Os. injection Os as W1 W2 W3. rewrite V1 in L3. rewrite F7 in W1.
  destruct (close_open e s3 n t Y) as (s4 & H4 & T4 & L4); try (rewrite W2; first [reflexivity|assumption]); [now rewrite W3|exact W1|exact Ix|exact (looked_some _ _ _ _ _ _ L3 F8)|exact (rready_closable _ _ _ _ _ _ Rd)|].
  fold d in L4. set (l4 := if d then _ else _) in L4.
  assert (K2 : NoDup (map fst l4)) by (unfold l4; destruct d; [apply keys_del|]; rewrite keys_set; apply (looked_keys _ _ _ _ L3); apply F12).
  assert (Gn : tx_get n (s_txs s3) = Some t) by exact (looked_some _ _ _ _ _ _ L3 F8).
  assert (Gc : tx_get n l4 = if d then None else Some (rcompleted_tx t)).
  { unfold l4. destruct d; [apply get_del; rewrite keys_set; apply (looked_keys _ _ _ _ L3); apply F12|apply (tx_get_set_eq _ _ _ _ Gn)]. }
  assert (Go : forall j, j <> n -> tx_get j l4 = tx_get j (s_txs s3)).
  { intros j Hj. unfold l4. destruct d; [rewrite tx_get_del by exact Hj|]; now apply tx_get_set_other. }
  assert (Gl : forall j, j < n -> tx_get j (s_txs s4) = T j).
  { intros j Hj. rewrite (looked_other _ _ _ _ j L4), Go, (looked_other _ _ _ _ j L3), F11, D11, Ti by lia. reflexivity. }
  assert (Sl : settled (s_txs s4)).
  { apply (looked_settled _ _ _ _ L4). intros j u G. destruct (N.eq_dec j n) as [-> | Nj].
    - rewrite Gc in G. destruct d; [discriminate|]. injection G as <-. right. exact (is_complete_of _ _ _ Fa Fb).
    - rewrite Go in G by exact Nj. assert (S3 : settled (filter (fun x => negb (fst x =? n)) (s_txs s2))).
      { intros j' u' G'. assert (G2 : j' <> n /\ tx_get j' (s_txs s2) = Some u').
        { clear - G'. revert G'. induction (s_txs s2) as [|[a b] l IH]; [discriminate|]. cbn [filter fst tx_get]. destruct (a =? n) eqn:E; cbn [negb].
          - intro G'. destruct (IH G') as [H1 H2]. split; [exact H1|]. destruct (j' =? a) eqn:E2; [lia|exact H2].
          - cbn [tx_get]. destruct (j' =? a) eqn:E2; [intro G'; split; [lia|exact G']|exact IH]. }
        destruct G2 as [Nj' G2]. rewrite F11 in G2 by exact Nj'. destruct (N.lt_trichotomy j' (n + 1)) as [Lj | [-> | Lj]].
        - right. apply (Al j' u'); [lia|]. rewrite <- (Ti j') by lia. rewrite <- D11 by lia. exact G2.
        - left. destruct D8 as [[D8 _] | [D8 _]]; rewrite D8 in G2; [now injection G2|discriminate].
        - exfalso. rewrite D11 in G2 by lia. rewrite Tm in G2 by lia. rewrite Lf in G2 by lia. discriminate. }
      destruct L3 as [L3 | (L3 & _ & L3')]; [rewrite L3 in G|rewrite L3' in G].
      + apply (S3 j u). clear - G Nj. revert G. induction (s_txs s2) as [|[a b] l IH]; [discriminate|]. cbn [filter fst tx_get]. destruct (j =? a) eqn:E; intro G; [destruct (a =? n) eqn:E2; [lia|]; cbn [negb tx_get]; now rewrite E|].
        destruct (a =? n); cbn [negb tx_get]; rewrite ?E; now apply IH.
      + destruct (N.eq_dec j (n + 1)) as [-> | Nj2]; [rewrite tx_get_put in G; injection G as <-; now left|]. rewrite tx_get_put_other in G by exact Nj2.
        apply (S3 j u). clear - G Nj. revert G. induction (s_txs s2) as [|[a b] l IH]; [discriminate|]. cbn [filter fst tx_get]. destruct (j =? a) eqn:E; intro G; [destruct (a =? n) eqn:E2; [lia|]; cbn [negb tx_get]; now rewrite E|].
        destruct (a =? n); cbn [negb tx_get]; rewrite ?E; now apply IH. }
  exists s4, es1, (es ++ rclose_events n). split; [|split; [exact Se|split; [|split; [|split; [exact Gl|]]]]].
  - assert (Hc : run_ops [OpClose] e s2 = (ROk [None], s4)) by (cbn [run_ops]; unfold bind; rewrite (close_last e s2 s3 SsData s4 H3 H4 (looked_keys _ _ _ _ L4 K2) Sl); reflexivity).
    unfold round_ops. rewrite (run_ops_app _ _ _ _ _ _ _ _ (run_ops_app _ _ _ _ _ _ _ _ H1 H2) Hc), map_app, !map_map. reflexivity.
  - rewrite <- (app_nil_r (es ++ _)). constructor; [exact Fe|constructor].
  - rewrite T4, T3, F9. now rewrite !tr_of_app.
  - intros [|k] xk Hk; [|destruct k; discriminate]. injection Hk as <-. rewrite N.add_0_r. unfold over. cbn [fst snd]. fold d.
    rewrite (looked_other _ _ _ _ n L4) by lia. rewrite Gc. destruct d; [reflexivity|]. eauto.
Qed.

(** * Conversations and their end *)
Definition ended (e : env) (rds : list round) : Prop :=
  exists s, history e (closed_after rds) = (ROk (closed_calls rds), s) /\ conversation_events (e_cfg e) 0 rds (events s) /\
    (forall k x, nth_error (exchanges rds) k = Some x -> over (c_auto_destroy (e_cfg e)) (fun i => tx_get i (s_txs s)) (N.of_nat k) x).
Lemma over_complete d rds T : (forall k x, nth_error (exchanges rds) k = Some x -> over d T (N.of_nat k) x) -> all_over (N.of_nat (length (exchanges rds))) T.
Proof.
  intros X j t Hj G. destruct (nth_error (exchanges rds) (N.to_nat j)) as [x|] eqn:E; [|apply nth_error_None in E; lia]. specialize (X _ _ E). rewrite N2Nat.id in X.
  unfold over in X. destruct d; [congruence|]. destruct X as (t' & G' & A & B). rewrite G in G'. injection G' as ->. exact (is_complete_of _ _ _ A B).
Qed.
Lemma ended_quiet_yes e rds : yes e -> Forall good_round rds -> talk_fits e rds -> ended e rds.
Proof.
  intros Y G (F1 & F2 & F3). destruct (open_level e) as (s0 & H0 & L0).
  destruct (talk_runs e rds Y 0 [] _ 0%nat s0 L0 G F1 F2 F3) as (s & T & z & es & H & Ce & L & _ & X). cbn [N.add] in L, X. rewrite N.add_0_l in L.
  assert (X' : forall k x, nth_error (exchanges rds) k = Some x -> over (c_auto_destroy (e_cfg e)) T (N.of_nat k) x) by (intros k x Hk; specialize (X k x Hk); now rewrite N.add_0_l in X).
  destruct (close_idle e _ _ _ _ _ L (over_complete _ _ _ X')) as (s' & Hc & Tr & Ot).
  exists s'. split; [|split].
  - assert (Hc' : run_ops [OpClose] e s = (ROk [None], s')) by (cbn [run_ops]; unfold bind; rewrite Hc; reflexivity).
    unfold history, closed_after, conversation, closed_calls, all_calls. cbn [run_ops app]. unfold bind at 1. rewrite H0. unfold bind at 1. rewrite (run_ops_app _ _ _ _ _ _ _ _ H Hc'). reflexivity.
  - rewrite (events_tr_of es s' Tr). exact Ce.
  - intros k x Hk. specialize (X' k x Hk). unfold over in *. rewrite Ot; [exact X'|]. assert (k < length (exchanges rds))%nat by (apply nth_error_Some; congruence). lia.
Qed.
Lemma conversation_events_app {cfg} a b : forall i es1 es2, conversation_events cfg i a es1 -> conversation_events cfg (i + N.of_nat (length (exchanges a))) b es2 -> conversation_events cfg i (a ++ b) (es1 ++ es2).
Proof.
  intros i es1 es2 H. revert es2. induction H as [i|i r rs x1 x2 x3 H1 H2 _ IH]; intros es2 H'; [cbn in H'; now rewrite N.add_0_r in H'|].
  rewrite <- !app_assoc. cbn [app]. apply cv_cons; [exact H1|exact H2|]. apply IH. unfold exchanges in H'. cbn [map concat] in H'. rewrite app_length in H'. fold (exchanges rs) in H'.
  replace (i + N.of_nat (length (rd_exchanges r)) + N.of_nat (length (exchanges rs))) with (i + N.of_nat (length (rd_exchanges r) + length (exchanges rs))) by lia. exact H'.
Qed.
Lemma exchanges_app a b : exchanges (a ++ b) = exchanges a ++ exchanges b.
Proof. unfold exchanges. now rewrite map_app, concat_app. Qed.
Lemma ended_open_yes e rds rd : yes e -> Forall good_round rds -> last_round rd -> talk_fits e (rds ++ [rd]) -> ended e (rds ++ [rd]).
Proof.
  intros Y G Gl (F1 & F2 & F3). unfold ended. rewrite exchanges_app in *. assert (E1 : exchanges [rd] = rd_exchanges rd) by (unfold exchanges; cbn [map concat]; apply app_nil_r). rewrite E1 in *.
  assert (Ln : length (rd_exchanges rd) = 1%nat) by (destruct Gl as (m & r & -> & _); reflexivity). rewrite app_length, Ln in F2, F3. apply Forall_app in F1 as [F1 F1'].
  destruct (open_level e) as (s0 & H0 & L0). set (d := c_auto_destroy (e_cfg e)) in *.
  assert (F3' : if d then Forall (fun r => N.of_nat 0 + N.of_nat (length (rd_exchanges r)) <= c_max_tx (e_cfg e)) rds else N.of_nat 0 + N.of_nat (length (exchanges rds)) <= c_max_tx (e_cfg e)).
  { destruct d; [apply Forall_app in F3 as [F3 _]; exact F3|lia]. }
  destruct (talk_runs_size e rds Y 0 [] _ 0%nat s0 L0 G F1 ltac:(lia) F3') as (s & T & z & es & H & Ce & L & _ & X & Z). rewrite N.add_0_l in L. fold d in X, Z.
  assert (X' : forall k x, nth_error (exchanges rds) k = Some x -> over d T (N.of_nat k) x) by (intros k x Hk; specialize (X k x Hk); now rewrite N.add_0_l in X).
  destruct (last_runs e _ _ _ _ _ rd Y L (over_complete _ _ _ X') Gl F1') as (s' & es1 & es2 & Hl & S1 & S2 & Tr & Ot & Xl); [lia| |].
  { rewrite Z. destruct d; [apply Forall_app in F3 as [_ F3]; inversion_clear F3 as [|? ? F4 _]; rewrite Ln in F4; exact F4|lia]. }
  fold d in Xl. exists s'. split; [|split].
  - unfold history, closed_after, conversation, closed_calls, all_calls, conversation. rewrite map_app, concat_app. cbn [map concat run_ops app]. rewrite app_nil_r. unfold bind at 1. rewrite H0. unfold bind at 1. rewrite <- app_assoc, (run_ops_app _ _ _ _ _ _ _ _ H Hl). rewrite map_app, app_assoc. reflexivity.
  - rewrite (events_tr_of (es ++ es1 ++ es2) s'); [|rewrite Tr; now rewrite !tr_of_app]. apply conversation_events_app; [exact Ce|]. rewrite <- (app_nil_r es2). apply cv_cons; [exact S1|exact S2|constructor].
  - intros k x Hk. destruct (Nat.lt_ge_cases k (length (exchanges rds))) as [Lk | Lk].
    + rewrite nth_error_app1 in Hk by exact Lk. specialize (X' k x Hk). unfold over in *. rewrite Ot by lia. exact X'.
    + rewrite nth_error_app2 in Hk by exact Lk. specialize (Xl _ x Hk). replace (N.of_nat (length (exchanges rds)) + N.of_nat (k - length (exchanges rds))) with (N.of_nat k) in Xl by lia. exact Xl.
Qed.
Lemma ended_mute e rds : accepting e -> ended (mute e) rds ->
  exists s, history e (closed_after rds) = (ROk (closed_calls rds), s) /\ conversation_events (e_cfg e) 0 rds (events s) /\
    (forall k m r, nth_error (exchanges rds) k = Some (m, r) ->
      if c_auto_destroy (e_cfg e) then tx_get (N.of_nat k) (s_txs s) = None else exists t, tx_get (N.of_nat k) (s_txs s) = Some t /\ asked m t /\ answered r t).
Proof.
  intros A (s & H & Se & Tx). destruct (history_mute e (closed_after rds) A) as [H1 H2]. rewrite H in H1, H2. cbn [fst snd] in H1, H2. apply similar_txs in H2 as [H2 H3].
  exists (snd (history e (closed_after rds))). split; [rewrite <- H1; apply surjective_pairing|]. rewrite H3, H2. split; [now apply conversation_events_mute|].
  intros k m r Hk. exact (Tx k (m, r) Hk).
Qed.
Lemma ended_quiet e rds : accepting e -> Forall good_round rds -> talk_fits e rds ->
  exists s, history e (closed_after rds) = (ROk (closed_calls rds), s) /\ conversation_events (e_cfg e) 0 rds (events s) /\
    (forall k m r, nth_error (exchanges rds) k = Some (m, r) ->
      if c_auto_destroy (e_cfg e) then tx_get (N.of_nat k) (s_txs s) = None else exists t, tx_get (N.of_nat k) (s_txs s) = Some t /\ asked m t /\ answered r t).
Proof. intros A G F. apply (ended_mute e rds A). exact (ended_quiet_yes (mute e) rds (yes_mute e) G F). Qed.
Lemma ended_open e rds rd : accepting e -> Forall good_round rds -> last_round rd -> talk_fits e (rds ++ [rd]) ->
  exists s, history e (closed_after (rds ++ [rd])) = (ROk (closed_calls (rds ++ [rd])), s) /\ conversation_events (e_cfg e) 0 (rds ++ [rd]) (events s) /\
    (forall k m r, nth_error (exchanges (rds ++ [rd])) k = Some (m, r) ->
      if c_auto_destroy (e_cfg e) then tx_get (N.of_nat k) (s_txs s) = None else exists t, tx_get (N.of_nat k) (s_txs s) = Some t /\ asked m t /\ answered r t).
Proof. intros A G Gl F. apply (ended_mute e (rds ++ [rd]) A). exact (ended_open_yes (mute e) rds rd (yes_mute e) G Gl F). Qed.
Lemma ended_bodies e rds rd : accepting e -> Forall good_round rds -> last_round rd -> talk_fits e (rds ++ [rd]) ->
  exists s, history e (closed_after (rds ++ [rd])) = (ROk (closed_calls (rds ++ [rd])), s) /\
    forall k m r, nth_error (exchanges (rds ++ [rd])) k = Some (m, r) -> body_of (N.of_nat k) (events s) = m_body m /\ reply_body_of (N.of_nat k) (events s) = rp_body r.
Proof.
  intros A G Gl F. destruct (ended_open e rds rd A G Gl F) as (s & H & Ce & _). exists s. split; [exact H|].
  intros k m r Hk. apply (proj2 (talk_bodies _ _ _ Ce (N.of_nat k))); [lia|]. rewrite <- Hk. f_equal. lia.
Qed.
