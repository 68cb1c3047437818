(** Conversations that are closed between their rounds. *)
From Verif Require Import Base Spec SpecTx SpecMsg SpecResp SpecIdle SpecPause SpecEnd ModelUtil ModelBstr ModelParsers ModelHeaders ModelState ModelTx ModelConn SpecConn ProofsBase ProofsBytes ProofsParsers ProofsHeaders ProofsTx ProofsConn ProofsCore ProofsLoop ProofsHist ProofsEval ProofsBody ProofsHead ProofsFrame ProofsStream ProofsChunk ProofsMsg ProofsRStream ProofsRHead ProofsRBody ProofsRMsg ProofsTalk ProofsEnd ProofsClose ProofsHalf ProofsIdle.

Lemma looked_slot e i z l l' : looked e i l l' -> (tx_get i l = Some tx_new /\ (length l <= S z)%nat) \/ (tx_get i l = None /\ (length l <= z)%nat) ->
  (tx_get i l' = Some tx_new /\ (length l' <= S z)%nat) \/ (tx_get i l' = None /\ (length l' <= z)%nat).
Proof.
  intros [-> | (E1 & _ & ->)] D; [exact D|]. left. split; [apply tx_get_put|]. destruct D as [[D _] | [_ D]]; [congruence|]. pose proof (ProofsHist.length_put i tx_new l). lia.
Qed.
Lemma close_level e n tr T z s : level n tr T z s -> all_over n T -> exists s', run_op OpClose e s = (ROk None, s') /\ level n tr T z s'.
Proof.
  intros L Al. pose proof (level_settled _ _ _ _ _ L Al) as Sl. destruct L as [[D1 D2 D3 D4 D5 D6 D7 D8 D9 D10 D11] (P1 & P2 & P3 & P4 & P5 & P6) Lf Lk].
  cbn [cx_rest cx_size cx_table] in *. unfold outside in D10. injection D10 as O1 O3.
  cbn [run_op]. unfold bind at 1. rewrite close_status_eval by exact (live_fine _ D3). unfold bind at 1. rewrite close_status_eval by exact (rlive_fine _ P3). unfold bind at 1.
  set (s0 := shut SResp (shut SReq s)). destruct (call_closed SReq e s0) as [k Hk]; [reflexivity|discriminate|]. rewrite Hk. clear Hk.
  assert (H : handle_state SReq e (given SReq s0) = (RErr SData, given SReq s0)).
  { unfold handle_state, by_side, handle_request_state. unfold bind at 1, get_d at 1. change (d_state (s_dir SReq (given SReq s0))) with (d_state (s_req s)). rewrite D1. unfold request_idle.
    unfold bind at 1, input at 1. unfold bind at 1, get_d at 1. change (d_buf (s_dir SReq (given SReq s0))) with (d_buf (s_req s)). rewrite D5. change (pd_is_empty (s_input (given SReq s0))) with true. cbn [is_nil andb]. rewrite Bool.orb_true_r. reflexivity. }
  apply (step_err SReq) in H; [|reflexivity]. destruct (after_step_data SReq SData e (given SReq s0)) as (p & l & H3 & H4 & _); [now left|exact D4|].
  rewrite H3 in H. rewrite (loop_last _ _ _ _ _ _ H). clear H H3. change (looked e (s_ridx s) (s_txs s) l) in H4. rewrite D7 in H4.
  set (s1 := set_s_dir SReq _ _). unfold bind at 1. destruct (call_closed SResp e s1) as [k' Hk]; [reflexivity|discriminate|]. rewrite Hk. clear Hk.
  assert (H : handle_state SResp e (given SResp s1) = (RErr SData, given SResp s1)).
  { unfold handle_state, by_side, handle_response_state. unfold bind at 1, get_d at 1. change (d_state (s_dir SResp (given SResp s1))) with (d_state (s_resp s)). rewrite P1. reflexivity. }
  apply (step_err SResp) in H; [|reflexivity]. destruct (after_step_data SResp SData e (given SResp s1)) as (p' & l' & H3 & H5 & _); [now left|exact P4|].
  rewrite H3 in H. rewrite (loop_last _ _ _ _ _ _ H). clear H H3. change (looked e (s_pidx s) l l') in H5. rewrite O1 in H5.
  set (s2 := set_s_dir SResp _ _). unfold bind at 1, ask at 1. unfold bind at 1.
  rewrite (flush_none e s2); [|exact (looked_keys _ _ _ _ H5 (looked_keys _ _ _ _ H4 Lk))|exact (looked_settled _ _ _ _ H5 (looked_settled _ _ _ _ H4 Sl))].
  exists s2. split; [reflexivity|]. constructor.
  - constructor; try assumption; try (now left); cbn [cx_rest cx_size cx_table].
    + change (s_txs s2) with l'. exact (looked_slot _ _ _ _ _ H5 (looked_slot _ _ _ _ _ H4 D8)).
    + unfold outside. change (s_pidx s2) with (s_pidx s). change (s_other_at_end s2) with (s_other_at_end s). congruence.
    + intros j Hj. change (s_txs s2) with l'. rewrite (looked_other _ _ _ _ _ H5 Hj), (looked_other _ _ _ _ _ H4 Hj). now apply D11.
  - repeat (split; [assumption || (now left)|]). assumption.
  - exact Lf.
  - exact (looked_keys _ _ _ _ H5 (looked_keys _ _ _ _ H4 Lk)).
Qed.
Lemma idle_level e n tr T z s o : idle o -> level n tr T z s -> exists s', run_op o e s = (ROk (idle_result o), s') /\ level n tr T z s'.
Proof.
  intros I [Lq R Lf Lk]. destruct (idle_step e o _ _ _ _ I Lq R) as (s' & H & Q & R' & O1 & O3). exists s'. split; [exact H|].
  pose proof (rs_outside _ _ _ _ _ Lq) as Out. cbn [cx_rest] in Out. unfold outside in Out. injection Out as V1 V3. cbn [cx_table cx_size] in Q. rewrite V1, V3 in Q.
  constructor; [exact Q|exact R'|exact Lf|]. pose proof (keys_run [o] e s Lk) as K. cbn [run_ops] in K. unfold bind in K. rewrite H in K. exact K.
Qed.
Lemma pauses_level e l : forall n tr T z s, Forall pausing_op l -> level n tr T z s -> all_over n T -> exists s', run_ops l e s = (ROk (map idle_result l), s') /\ level n tr T z s'.
Proof.
  induction l as [|o l IH]; intros n tr T z s I L Al; [exists s; split; [reflexivity|exact L]|]. inversion_clear I as [|? ? I1 I2].
  assert (X : exists s', run_op o e s = (ROk (idle_result o), s') /\ level n tr T z s') by (destruct I1 as [o I1|]; [now apply idle_level|now apply close_level]).
  destruct X as (s1 & H1 & L1). destruct (IH _ _ _ _ _ I2 L1 Al) as (s2 & H2 & L2). exists s2. split; [cbn [run_ops map]; unfold bind; rewrite H1, H2; reflexivity|exact L2].
Qed.
Lemma pause_runs e rds : Forall (fun x => Forall pausing_op (snd x)) rds -> yes e -> forall n tr T z s, level n tr T z s -> all_over n T -> Forall good_round (map fst rds) -> Forall (line_limits e) (exchanges (map fst rds)) -> n + N.of_nat (length (exchanges (map fst rds))) < 2 ^ 64 ->
  (if c_auto_destroy (e_cfg e) then Forall (fun r => N.of_nat z + N.of_nat (length (rd_exchanges r)) <= c_max_tx (e_cfg e)) (map fst rds) else N.of_nat z + N.of_nat (length (exchanges (map fst rds))) <= c_max_tx (e_cfg e)) ->
  exists s' T' z' es, run_ops (concat (map pause_ops rds)) e s = (ROk (map idle_result (concat (map pause_ops rds))), s') /\
    conversation_events (e_cfg e) n (map fst rds) es /\ level (n + N.of_nat (length (exchanges (map fst rds)))) (tr_of es tr) T' z' s' /\
    (forall j, j < n -> T' j = T j) /\ (forall k x, nth_error (exchanges (map fst rds)) k = Some x -> over (c_auto_destroy (e_cfg e)) T' (n + N.of_nat k) x).
Proof.
  intros Id Y. induction rds as [|[rd l] rds IH]; intros n tr T z s L Al G Lim Ix Sz.
  - exists s, T, z, []. split; [reflexivity|]. split; [constructor|]. split; [cbn; rewrite N.add_0_r; exact L|]. split; [reflexivity|]. intros [|k]; discriminate.
  - inversion_clear Id as [|? ? I1 I2]. cbn [snd] in I1. inversion_clear G as [|? ? G1 G2]. unfold exchanges in Lim, Ix, Sz |- *. cbn [map concat fst snd] in *. rewrite app_length in *. fold (exchanges (map fst rds)) in *. apply Forall_app in Lim as [Lim1 Lim2].
    destruct (round_runs e n tr T z s rd Y L G1 Lim1) as (s1 & T1 & es1 & es2 & H1 & S1 & R1 & L1 & O1 & X1); [lia|destruct (c_auto_destroy _); [now inversion_clear Sz|lia]|].
    assert (Al1 : all_over (n + N.of_nat (length (rd_exchanges rd))) T1).
    { intros j t Hj Gj. destruct (N.lt_ge_cases j n) as [Lj | Lj]; [rewrite O1 in Gj by exact Lj; exact (Al j t Lj Gj)|].
      destruct (nth_error (rd_exchanges rd) (N.to_nat (j - n))) as [x|] eqn:Ek; [|apply nth_error_None in Ek; lia]. specialize (X1 _ _ Ek). replace (n + N.of_nat (N.to_nat (j - n))) with j in X1 by lia. unfold over in X1.
      destruct (c_auto_destroy _); [congruence|]. destruct X1 as (t' & G' & A1 & A2). rewrite Gj in G'. injection G' as <-. exact (is_complete_of _ _ _ A1 A2). }
    destruct (pauses_level e l _ _ _ _ _ I1 L1 Al1) as (sp & Hp & Lp).
    destruct (IH I2 _ _ _ _ _ Lp Al1 G2 Lim2) as (s2 & T2 & z2 & es3 & H2 & S2 & L2 & O2 & X2); [lia|destruct (c_auto_destroy _); [now inversion_clear Sz|lia]|].
    exists s2, T2, z2, (es1 ++ es2 ++ es3). split; [|split; [|split; [|split]]].
    + assert (Hx : run_ops (pause_ops (rd, l)) e s = (ROk (map idle_result (pause_ops (rd, l))), sp)).
      { unfold pause_ops. cbn [fst snd]. rewrite (run_ops_app _ _ _ _ _ _ _ _ H1 Hp). rewrite map_app. f_equal. f_equal. f_equal. destruct G1 as (_ & _ & Nu & _ & _ & Nd & _).
        unfold round_ops. rewrite !map_app, !map_map. cbn [idle_result]. f_equal; apply map_ext_in; intros c I; rewrite slice_size by (intros ->; contradiction); reflexivity. }
      rewrite (run_ops_app _ _ _ _ _ _ _ _ Hx H2), map_app. reflexivity.
    + now apply cv_cons.
    + rewrite app_assoc, tr_of_app. replace (n + N.of_nat (length (rd_exchanges rd) + length (exchanges (map fst rds)))) with (n + N.of_nat (length (rd_exchanges rd)) + N.of_nat (length (exchanges (map fst rds)))) by lia. exact L2.
    + intros j Hj. rewrite O2 by lia. now apply O1.
    + intros k x Hk. destruct (Nat.lt_ge_cases k (length (rd_exchanges rd))) as [Lk | Lk].
      * rewrite nth_error_app1 in Hk by exact Lk. specialize (X1 k x Hk). unfold over in *. rewrite O2 by lia. exact X1.
      * rewrite nth_error_app2 in Hk by exact Lk. specialize (X2 _ x Hk). replace (n + N.of_nat (length (rd_exchanges rd)) + N.of_nat (k - length (rd_exchanges rd))) with (n + N.of_nat k) in X2 by lia. exact X2.
Qed.
Lemma pause_parsed_yes e rds : Forall (fun x => Forall pausing_op (snd x)) rds -> yes e -> Forall good_round (map fst rds) -> talk_fits e (map fst rds) ->
  exists s, history e (pause_conversation rds) = (ROk (map idle_result (pause_conversation rds)), s) /\ conversation_events (e_cfg e) 0 (map fst rds) (events s) /\
    (forall k x, nth_error (exchanges (map fst rds)) k = Some x -> over (c_auto_destroy (e_cfg e)) (fun i => tx_get i (s_txs s)) (N.of_nat k) x).
Proof.
  intros Id Y G (F1 & F2 & F3). destruct (open_level e) as (s0 & H0 & L0).
  destruct (pause_runs e rds Id Y 0 [] _ 0%nat s0 L0 ltac:(intros j t Hj; lia) G F1 F2 F3) as (s & T & z & es & H & Ce & [Lq _ _ _] & _ & X).
  exists s. split; [unfold history, pause_conversation; cbn [run_ops map]; unfold bind at 1; rewrite H0; unfold bind at 1; rewrite H; reflexivity|].
  split; [rewrite (events_tr_of es s (rs_trace _ _ _ _ _ Lq)); exact Ce|].
  intros k x Hk. specialize (X k x Hk). rewrite N.add_0_l in X. unfold over in *.
  rewrite (rs_others _ _ _ _ _ Lq); [exact X|]. assert (k < length (exchanges (map fst rds)))%nat by (apply nth_error_Some; congruence). lia.
Qed.
Lemma pause_parsed e rds : Forall (fun x => Forall pausing_op (snd x)) rds -> accepting e -> Forall good_round (map fst rds) -> talk_fits e (map fst rds) ->
  exists s, history e (pause_conversation rds) = (ROk (map idle_result (pause_conversation rds)), s) /\ conversation_events (e_cfg e) 0 (map fst rds) (events s) /\
    (forall k m r, nth_error (exchanges (map fst rds)) k = Some (m, r) ->
      if c_auto_destroy (e_cfg e) then tx_get (N.of_nat k) (s_txs s) = None else exists t, tx_get (N.of_nat k) (s_txs s) = Some t /\ asked m t /\ answered r t).
Proof.
  intros Id A G F. destruct (pause_parsed_yes (mute e) rds Id (yes_mute e) G F) as (s & H & Se & Tx).
  destruct (history_mute e (pause_conversation rds) A) as [H1 H2]. rewrite H in H1, H2. cbn [fst snd] in H1, H2. apply similar_txs in H2 as [H2 H3].
  exists (snd (history e (pause_conversation rds))). split; [rewrite <- H1; apply surjective_pairing|]. rewrite H3, H2. split; [now apply conversation_events_mute|].
  intros k m r Hk. exact (Tx k (m, r) Hk).
Qed.
