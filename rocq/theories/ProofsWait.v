(** Conversations that are closed while responses are awaited. *)
From Verif Require Import Base Spec SpecTx SpecMsg SpecResp SpecIdle SpecPause SpecWait SpecEnd ModelUtil ModelBstr ModelParsers ModelHeaders ModelState ModelTx ModelConn SpecConn ProofsBase ProofsBytes ProofsParsers ProofsHeaders ProofsTx ProofsConn ProofsCore ProofsLoop ProofsHist ProofsEval ProofsBody ProofsHead ProofsFrame ProofsStream ProofsChunk ProofsMsg ProofsRStream ProofsRHead ProofsRBody ProofsRMsg ProofsTalk ProofsEnd ProofsClose ProofsHalf ProofsIdle ProofsPause.

Lemma close_step e i tr C s : c_flush (e_cfg e) = false -> resting [] i tr C s -> rquiet (s_resp s) -> s_pidx s = i \/ cx_table C (s_pidx s) <> None -> exists s', run_op OpClose e s = (ROk None, s') /\
  resting [] i tr (mk_ctx (cx_table C) (s_pidx s, s_resp s', s_other_at_end s) (cx_size C)) s' /\ rquiet (s_resp s') /\ s_pidx s' = s_pidx s /\ s_other_at_end s' = s_other_at_end s.
Proof.
  intros Nf [D1 D2 D3 D4 D5 D6 D7 D8 D9 D10 D11] (P1 & P2 & P3 & P4 & P5 & P6) Px.
  cbn [run_op]. unfold bind at 1. rewrite close_status_eval by exact (live_fine _ D3). unfold bind at 1. rewrite close_status_eval by exact (rlive_fine _ P3). unfold bind at 1.
  set (s0 := shut SResp (shut SReq s)). destruct (call_closed SReq e s0) as [k Hk]; [reflexivity|discriminate|]. rewrite Hk. clear Hk.
  assert (H : handle_state SReq e (given SReq s0) = (RErr SData, given SReq s0)).
  { unfold handle_state, by_side, handle_request_state. unfold bind at 1, get_d at 1. change (d_state (s_dir SReq (given SReq s0))) with (d_state (s_req s)). rewrite D1. unfold request_idle.
    unfold bind at 1, input at 1. unfold bind at 1, get_d at 1. change (d_buf (s_dir SReq (given SReq s0))) with (d_buf (s_req s)). rewrite D5. change (pd_is_empty (s_input (given SReq s0))) with true. cbn [is_nil andb]. rewrite Bool.orb_true_r. reflexivity. }
  apply (step_err SReq) in H; [|reflexivity]. destruct (after_step_data SReq SData e (given SReq s0)) as (p & l & H3 & H4 & _); [now left|exact D4|].
  rewrite H3 in H. rewrite (loop_last _ _ _ _ _ _ H). clear H H3. change (looked e (s_ridx s) (s_txs s) l) in H4. rewrite D7 in H4.
  set (s1 := set_s_dir SReq _ _). unfold bind at 1. destruct (call_closed SResp e s1) as [k' Hk]; [reflexivity|discriminate|]. rewrite Hk. clear Hk.
  assert (H : handle_state SResp e (given SResp s1) = (RErr SData, given SResp s1)).
  { unfold handle_state, by_side, handle_response_state. unfold bind at 1, get_d at 1. change (d_state (s_dir SResp (given SResp s1))) with (d_state (s_resp s)). rewrite P1. reflexivity. }
  apply (step_err SResp) in H; [|reflexivity]. destruct (after_step_data SResp SData e (given SResp s1)) as (p' & l' & H3 & H5 & _); [now left|exact P4|].
  rewrite H3 in H. rewrite (loop_last _ _ _ _ _ _ H). clear H H3. change (looked e (s_pidx s) l l') in H5.
  set (s2 := set_s_dir SResp _ _). unfold bind at 1, ask at 1. unfold bind at 1. rewrite Nf. cbn [when].
  assert (Px' : looked e i l l').
  { destruct (N.eq_dec (s_pidx s) i) as [Ei | Ni]; [rewrite <- Ei at 1; exact H5|]. destruct Px as [Px | Px]; [contradiction|].
    destruct H5 as [-> | (H5 & _)]; [now left|]. rewrite (looked_other _ _ _ _ _ H4 Ni), (D11 _ Ni) in H5. contradiction. }
  exists s2. split; [reflexivity|]. split; [|split; [repeat (split; [assumption || (now left)|]); assumption|split; reflexivity]].
  constructor; try assumption; try reflexivity; try (now left); cbn [cx_rest cx_size cx_table].
  - change (s_txs s2) with l'. exact (looked_slot _ _ _ _ _ Px' (looked_slot _ _ _ _ _ H4 D8)).
  - intros j Hj. change (s_txs s2) with l'. rewrite (looked_other _ _ _ _ _ Px' Hj), (looked_other _ _ _ _ _ H4 Hj). now apply D11.
Qed.
Lemma waits_steps e l : forall i tr C s, Forall (waiting_op e) l -> resting [] i tr C s -> rquiet (s_resp s) -> s_pidx s = i \/ cx_table C (s_pidx s) <> None -> exists s', run_ops l e s = (ROk (map idle_result l), s') /\
  resting [] i tr (mk_ctx (cx_table C) (s_pidx s, s_resp s', s_other_at_end s) (cx_size C)) s' /\ rquiet (s_resp s').
Proof.
  induction l as [|o l IH]; intros i tr C s I Q R Px.
  - exists s. split; [reflexivity|]. split; [|exact R]. destruct Q as [E1 E2 E3 E4 E5 E6 E7 E8 E9 E10 E11]. constructor; assumption || reflexivity.
  - inversion_clear I as [|? ? I1 I2].
    assert (X : exists s', run_op o e s = (ROk (idle_result o), s') /\ resting [] i tr (mk_ctx (cx_table C) (s_pidx s, s_resp s', s_other_at_end s) (cx_size C)) s' /\ rquiet (s_resp s') /\ s_pidx s' = s_pidx s /\ s_other_at_end s' = s_other_at_end s).
    { destruct I1 as [o I1|Nf]; [now apply idle_step|now apply close_step]. }
    destruct X as (s1 & H1 & Q1 & R1 & O1 & O3). destruct (IH _ _ _ _ I2 Q1 R1) as (s2 & H2 & Q2 & R2); [rewrite O1; exact Px|]. cbn [cx_table cx_size] in Q2. rewrite O1, O3 in Q2.
    exists s2. split; [cbn [run_ops map]; unfold bind; rewrite H1, H2; reflexivity|]. split; [exact Q2|exact R2].
Qed.
Lemma pause_round_runs e n tr T z s rd idles : Forall (waiting_op e) idles -> yes e -> level n tr T z s -> good_round rd -> Forall (line_limits e) (rd_exchanges rd) -> n + N.of_nat (length (rd_exchanges rd)) < 2 ^ 64 ->
  N.of_nat z + N.of_nat (length (rd_exchanges rd)) <= c_max_tx (e_cfg e) ->
  exists s' T' es1 es2, run_ops (idle_ops (rd, idles)) e s = (ROk (map idle_result (idle_ops (rd, idles))), s') /\
    stream_events (e_cfg e) n (rd_asked rd) es1 /\ reply_events n (rd_answers rd) es2 /\
    level (n + N.of_nat (length (rd_exchanges rd))) (tr_of (es1 ++ es2) tr) T' (if c_auto_destroy (e_cfg e) then z else (z + length (rd_exchanges rd))%nat) s' /\
    (forall j, j < n -> T' j = T j) /\ (forall k x, nth_error (rd_exchanges rd) k = Some x -> over (c_auto_destroy (e_cfg e)) T' (n + N.of_nat k) x).
Proof.
  intros Il Y [Lq (P1 & P2 & P3 & P4 & P5 & P6) Lf Lk] (G & Eu & Nu & Cu & Ed & Nd & Cd & Ad) Lim Ix Sz. set (xs := rd_exchanges rd) in *. set (d := c_auto_destroy (e_cfg e)).
  assert (Ln : length (rd_asked rd) = length xs) by apply map_length.
  assert (R1 : room e n (mk_ctx T (n, s_resp s, false) z) (rd_asked rd)).
  { constructor; cbn [cx_rest cx_size cx_table fst snd]; rewrite ?Ln; try assumption.
    - apply Forall_forall. intros m I. apply in_map_iff in I as (x & <- & I). rewrite Forall_forall in G. now apply G.
    - apply Forall_forall. intros m I. apply in_map_iff in I as (x & <- & I). rewrite Forall_forall in Lim. destruct (Lim x I) as (L1 & L2 & _). now split.
    - intro Z. rewrite Z in P3. destruct P3; discriminate. }
  pose proof (@pa_idle (e_cfg e) n _ tr (rd_asked rd) s Lq) as P. rewrite <- Eu, <- (app_nil_r (concat _)) in P.
  destruct (stream_calls e (rd_up rd) Y n _ tr (rd_asked rd) [] s R1 Nu) as (s1 & done & ms' & i1 & C1 & tr1 & H1 & E1 & T1 & Q1); [|exact P|].
  { intros a b Eab _ before m after y Em. exact (Cu a b before m after y Eab Em). }
  apply paused_end in Q1 as [-> Q1]. rewrite app_nil_r in E1. subst done. destruct (told_facts _ _ _ _ _ _ _ T1) as (Ei & (es1 & -> & Se) & Tx & Ti). destruct (told_more _ _ _ _ _ _ _ T1) as (Tm & Tr & Ts). cbn [cx_rest cx_size cx_table] in *. rewrite Ln in *. clear P R1.
  pose proof (rs_outside _ _ _ _ _ Q1) as Out. rewrite Tr in Out. unfold outside in Out. injection Out as O1' O2' O3'.
  destruct (waits_steps e idles _ _ _ s1 Il Q1) as (s1' & Hc & Q1' & P'); [rewrite O2'; repeat split; assumption|rewrite O1', Ei; destruct (nth_error xs 0) as [x0|] eqn:E0x; [right; destruct (Tx 0%nat (fst x0)) as (t0 & Ht0 & _); [unfold rd_asked; now apply map_nth_error|]; rewrite N.add_0_r in Ht0; congruence|left; apply nth_error_None in E0x; lia]|]. pose proof (run_ops_app _ _ _ _ _ _ _ _ H1 Hc) as H1'. rewrite O1', O3' in Q1'. clear H1 Q1 Hc O1' O2' O3'. clear s1. rename s1' into s1, H1' into H1, Q1' into Q1.
  clear P1 P2 P4 P5 P6. destruct P' as (P1 & P2 & P3' & P4 & P5 & P6).
  pose proof (keys_run (map (fun c => OpReq (pd_slice c)) (rd_up rd) ++ idles) e s Lk) as K1. rewrite H1 in K1. cbn [snd] in K1. subst i1.
  destruct Q1 as [D1 D2 D3 D4 D5 D6 D7 D8 D9 D10 D11]. cbn [cx_rest cx_size cx_table] in D8, D10, D11. unfold outside in D10. injection D10 as O1 O3.
  set (C2 := mk_ctx (fun j => tx_get j (s_txs s1)) (n + N.of_nat (length xs), s_req s1, false) (length (s_txs s1))).
  assert (Qr : rresting [] n (tr_of es1 tr) C2 s1) by (constructor; try assumption; [left; split; [reflexivity|split; [exact K1|apply Nat.le_refl]]|unfold r_outside, C2; cbn [cx_rest]; congruence|reflexivity]).
  assert (R2 : rroom e n C2 xs).
  { constructor; [exact G| |exact Ix|reflexivity|].
    - apply Forall_forall. intros x I. rewrite Forall_forall in Lim. destruct (Lim x I) as (_ & _ & L). exact L.
    - intros k x Hk. destruct (Tx k (fst x)) as (t & Ht & Ho); [unfold rd_asked; now apply map_nth_error|]. exists t. split; [|exact (holds_awaits _ _ Ho)]. unfold C2. cbn [cx_table]. rewrite D11; [exact Ht|].
      assert (k < length xs)%nat by (apply nth_error_Some; congruence). lia. }
  pose proof (ra_idle n C2 (tr_of es1 tr) xs s1 Qr) as P. replace (xtexts xs) with (concat (rd_down rd) ++ []) in P by (rewrite app_nil_r, Ed; reflexivity).
  destruct (rstream_calls e (rd_down rd) Y n C2 (tr_of es1 tr) xs [] s1 R2 Nd) as (s2 & done & xs' & i2 & C3 & tr2 & H2 & E2 & T2 & Q2); [| |exact P|].
  { intros a b Eab _ before x after y Em Hy. rewrite Em in *. apply (Cd a b (map snd before) (snd x) (map snd after) y Eab); [|exact Hy]. unfold rd_answers. fold xs. rewrite Em. now rewrite map_app. }
  { intros a c b Eab before x after y tl Em Hb -> Ny Et. apply (Ad a y tl b (map snd before) (snd x) (map snd after) Eab Ny); [|exact Hb|exact Et]. unfold rd_answers. fold xs. rewrite Em. now rewrite map_app. }
  apply rpaused_end in Q2 as [-> Q2]. rewrite app_nil_r in E2. subst done. destruct (rtold_facts _ _ _ _ _ _ _ _ T2) as (Ei & (es2 & -> & Re) & Ux & Ui & Ur & Us). subst i2. unfold C2 in Ux, Ui, Ur, Us. cbn [cx_rest cx_size cx_table] in Ux, Ui, Ur, Us. fold d in Ux, Us. clear P R2 Qr.
  pose proof (keys_run (map (fun c => OpResp (pd_slice c)) (rd_down rd)) e s1 K1) as K2. rewrite H2 in K2. cbn [snd] in K2.
  destruct Q2 as [F1 F2 F3 F4 F5 F6 F7 F8 F9 F10 F11]. rewrite Ur in F10. unfold r_outside in F10. injection F10 as V1 V2 V3.
  exists s2, (cx_table C3), es1, es2. split; [|split; [exact Se|split; [exact Re|split; [|split]]]].
  - rewrite idle_results by assumption. unfold idle_ops. cbn [fst snd]. rewrite !app_assoc. rewrite (run_ops_app _ _ _ _ _ _ _ _ H1 H2). rewrite ?map_map. reflexivity.
  - constructor; [|repeat split; assumption| |exact K2].
    + constructor; rewrite ?V2; try assumption.
      * cbn [cx_size]. rewrite Ui in F8 by lia. assert (W : (length (s_txs s1) <= (if tx_get (n + N.of_nat (length xs)) (s_txs s1) then 1 else 0) + (z + length xs))%nat) by (destruct D8 as [[D8 D8'] | [D8 D8']]; rewrite D8; lia).
        destruct F8 as [(F8 & _ & F8') | (F8 & F8' & _ & F8'')].
        { rewrite F8. destruct D8 as [[D8 _] | [D8 _]]; rewrite D8 in *; [left|right]; (split; [reflexivity|]); destruct d; lia. }
        { rewrite F8 in W. left. split; [exact F8'|]. destruct d; lia. }
      * rewrite tr_of_app. exact F9.
      * unfold outside. cbn [cx_rest]. congruence.
    + intros j Hj. rewrite Ui by lia. rewrite D11 by lia. rewrite Tm by lia. apply Lf. lia.
  - intros j Hj. rewrite Ui by lia. rewrite D11 by lia. now apply Ti.
  - intros k x Hk. exact (Ux k x Hk).
Qed.
Lemma wait_runs e rds : Forall (may_wait e) rds -> yes e -> forall n tr T z s, level n tr T z s -> all_over n T -> Forall good_round (map fst rds) -> Forall (line_limits e) (exchanges (map fst rds)) -> n + N.of_nat (length (exchanges (map fst rds))) < 2 ^ 64 ->
  (if c_auto_destroy (e_cfg e) then Forall (fun r => N.of_nat z + N.of_nat (length (rd_exchanges r)) <= c_max_tx (e_cfg e)) (map fst rds) else N.of_nat z + N.of_nat (length (exchanges (map fst rds))) <= c_max_tx (e_cfg e)) ->
  exists s' T' z' es, run_ops (concat (map wait_ops rds)) e s = (ROk (map idle_result (concat (map wait_ops rds))), s') /\
    conversation_events (e_cfg e) n (map fst rds) es /\ level (n + N.of_nat (length (exchanges (map fst rds)))) (tr_of es tr) T' z' s' /\
    (forall j, j < n -> T' j = T j) /\ (forall k x, nth_error (exchanges (map fst rds)) k = Some x -> over (c_auto_destroy (e_cfg e)) T' (n + N.of_nat k) x).
Proof.
  intros Id Y. induction rds as [|[rd [w l]] rds IH]; intros n tr T z s L Al G Lim Ix Sz.
  - exists s, T, z, []. split; [reflexivity|]. split; [constructor|]. split; [cbn; rewrite N.add_0_r; exact L|]. split; [reflexivity|]. intros [|k]; discriminate.
  - inversion_clear Id as [|? ? I1 I2]. destruct I1 as [I0 I1]. cbn [fst snd] in I0, I1. inversion_clear G as [|? ? G1 G2]. unfold exchanges in Lim, Ix, Sz |- *. cbn [map concat fst snd] in *. rewrite app_length in *. fold (exchanges (map fst rds)) in *. apply Forall_app in Lim as [Lim1 Lim2].
    destruct (pause_round_runs e n tr T z s rd w I0 Y L G1 Lim1) as (s1 & T1 & es1 & es2 & H1 & S1 & R1 & L1 & O1 & X1); [lia|destruct (c_auto_destroy _); [now inversion_clear Sz|lia]|].
    assert (Al1 : all_over (n + N.of_nat (length (rd_exchanges rd))) T1).
    { intros j t Hj Gj. destruct (N.lt_ge_cases j n) as [Lj | Lj]; [rewrite O1 in Gj by exact Lj; exact (Al j t Lj Gj)|].
      destruct (nth_error (rd_exchanges rd) (N.to_nat (j - n))) as [x|] eqn:Ek; [|apply nth_error_None in Ek; lia]. specialize (X1 _ _ Ek). replace (n + N.of_nat (N.to_nat (j - n))) with j in X1 by lia. unfold over in X1.
      destruct (c_auto_destroy _); [congruence|]. destruct X1 as (t' & G' & A1 & A2). rewrite Gj in G'. injection G' as <-. exact (is_complete_of _ _ _ A1 A2). }
    destruct (pauses_level e l _ _ _ _ _ I1 L1 Al1) as (sp & Hp & Lp).
    destruct (IH I2 _ _ _ _ _ Lp Al1 G2 Lim2) as (s2 & T2 & z2 & es3 & H2 & S2 & L2 & O2 & X2); [lia|destruct (c_auto_destroy _); [now inversion_clear Sz|lia]|].
    exists s2, T2, z2, (es1 ++ es2 ++ es3). split; [|split; [|split; [|split]]].
    + assert (Hx : run_ops (wait_ops (rd, (w, l))) e s = (ROk (map idle_result (wait_ops (rd, (w, l)))), sp)) by (unfold wait_ops; cbn [fst snd]; rewrite (run_ops_app _ _ _ _ _ _ _ _ H1 Hp), map_app; reflexivity).
      rewrite (run_ops_app _ _ _ _ _ _ _ _ Hx H2), map_app. reflexivity.
    + now apply cv_cons.
    + rewrite app_assoc, tr_of_app. replace (n + N.of_nat (length (rd_exchanges rd) + length (exchanges (map fst rds)))) with (n + N.of_nat (length (rd_exchanges rd)) + N.of_nat (length (exchanges (map fst rds)))) by lia. exact L2.
    + intros j Hj. rewrite O2 by lia. now apply O1.
    + intros k x Hk. destruct (Nat.lt_ge_cases k (length (rd_exchanges rd))) as [Lk | Lk].
      * rewrite nth_error_app1 in Hk by exact Lk. specialize (X1 k x Hk). unfold over in *. rewrite O2 by lia. exact X1.
      * rewrite nth_error_app2 in Hk by exact Lk. specialize (X2 _ x Hk). replace (n + N.of_nat (length (rd_exchanges rd)) + N.of_nat (k - length (rd_exchanges rd))) with (n + N.of_nat k) in X2 by lia. exact X2.
Qed.
Lemma wait_parsed_yes e rds : Forall (may_wait e) rds -> yes e -> Forall good_round (map fst rds) -> talk_fits e (map fst rds) ->
  exists s, history e (wait_conversation rds) = (ROk (map idle_result (wait_conversation rds)), s) /\ conversation_events (e_cfg e) 0 (map fst rds) (events s) /\
    (forall k x, nth_error (exchanges (map fst rds)) k = Some x -> over (c_auto_destroy (e_cfg e)) (fun i => tx_get i (s_txs s)) (N.of_nat k) x).
Proof.
  intros Id Y G (F1 & F2 & F3). destruct (open_level e) as (s0 & H0 & L0).
  destruct (wait_runs e rds Id Y 0 [] _ 0%nat s0 L0 ltac:(intros j t Hj; lia) G F1 F2 F3) as (s & T & z & es & H & Ce & [Lq _ _ _] & _ & X).
  exists s. split; [unfold history, wait_conversation; cbn [run_ops map]; unfold bind at 1; rewrite H0; unfold bind at 1; rewrite H; reflexivity|].
  split; [rewrite (events_tr_of es s (rs_trace _ _ _ _ _ Lq)); exact Ce|].
  intros k x Hk. specialize (X k x Hk). rewrite N.add_0_l in X. unfold over in *.
  rewrite (rs_others _ _ _ _ _ Lq); [exact X|]. assert (k < length (exchanges (map fst rds)))%nat by (apply nth_error_Some; congruence). lia.
Qed.
Lemma may_wait_mute e rds : Forall (may_wait e) rds -> Forall (may_wait (mute e)) rds.
Proof. apply Forall_impl. intros x [I1 I2]. split; [|exact I2]. revert I1. apply Forall_impl. intros o [o' I|Nf]; [now apply waiting_idle|now apply waiting_close]. Qed.
Lemma wait_parsed e rds : Forall (may_wait e) rds -> accepting e -> Forall good_round (map fst rds) -> talk_fits e (map fst rds) ->
  exists s, history e (wait_conversation rds) = (ROk (map idle_result (wait_conversation rds)), s) /\ conversation_events (e_cfg e) 0 (map fst rds) (events s) /\
    (forall k m r, nth_error (exchanges (map fst rds)) k = Some (m, r) ->
      if c_auto_destroy (e_cfg e) then tx_get (N.of_nat k) (s_txs s) = None else exists t, tx_get (N.of_nat k) (s_txs s) = Some t /\ asked m t /\ answered r t).
Proof.
  intros Id A G F. destruct (wait_parsed_yes (mute e) rds (may_wait_mute e rds Id) (yes_mute e) G F) as (s & H & Se & Tx).
  destruct (history_mute e (wait_conversation rds) A) as [H1 H2]. rewrite H in H1, H2. cbn [fst snd] in H1, H2. apply similar_txs in H2 as [H2 H3].
  exists (snd (history e (wait_conversation rds))). split; [rewrite <- H1; apply surjective_pairing|]. rewrite H3, H2. split; [now apply conversation_events_mute|].
  intros k m r Hk. exact (Tx k (m, r) Hk).
Qed.
