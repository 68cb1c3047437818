(** Conversations with calls that bring nothing. *)
From Verif Require Import Base Spec SpecTx SpecMsg SpecResp SpecIdle SpecEnd ModelUtil ModelBstr ModelParsers ModelHeaders ModelState ModelTx ModelConn SpecConn ProofsBase ProofsBytes ProofsParsers ProofsHeaders ProofsTx ProofsConn ProofsCore ProofsLoop ProofsHist ProofsEval ProofsBody ProofsHead ProofsFrame ProofsStream ProofsChunk ProofsMsg ProofsRStream ProofsRHead ProofsRBody ProofsRMsg ProofsTalk ProofsEnd ProofsClose ProofsHalf.

Definition rquiet (d : dir) : Prop :=
  d_state d = StIdle /\ (d_prev d = StIdle \/ d_prev d = StNone) /\ rlive (d_status d) /\ d_recv d = None /\ d_buf d = [] /\ d_header d = None.
Lemma logged_fields lv c e s : exists l, logged lv c e s = set_s_logs l s.
Proof. unfold logged, log. cbn [snd]. destruct (_ <=? _); [eexists; reflexivity|]. exists (s_logs s). destruct s. reflexivity. Qed.
Lemma idle_step e o i tr C s : idle o -> resting [] i tr C s -> rquiet (s_resp s) -> exists s', run_op o e s = (ROk (idle_result o), s') /\
  resting [] i tr (mk_ctx (cx_table C) (s_pidx s, s_resp s', s_other_at_end s) (cx_size C)) s' /\ rquiet (s_resp s') /\ s_pidx s' = s_pidx s /\ s_other_at_end s' = s_other_at_end s.
Proof.
  intros I Q R. assert (Q' := Q). destruct Q' as [D1 D2 D3 D4 D5 D6 D7 D8 D9 D10 D11]. assert (R' := R). destruct R' as (P1 & P2 & P3 & P4 & P5 & P6).
  assert (N1 : d_status (s_req s) <> SsClosed) by exact (live_not_closed _ D3).
  destruct I as [| |c Z F|c Z F].
  - cbn [run_op idle_result]. unfold bind at 1, get at 1. replace (sstate_eqb (d_status (s_req s)) SsNew) with false by (destruct D3 as [-> | [-> | ->]]; reflexivity). cbn [andb].
    unfold bind at 1. unfold log at 1. eexists. split; [reflexivity|]. destruct (_ <=? _); (split; [constructor; assumption || reflexivity|]); repeat (split; [exact R || reflexivity|]); reflexivity.
  - destruct (half_close e i tr C s Q) as (s' & H & Qs & E); [intro Z; rewrite Z in P3; destruct P3; discriminate|]. exists s'. split; [exact H|].
    pose proof (rs_outside _ _ _ _ _ Qs) as Out. rewrite <- D10 in Out. unfold outside in Out. injection Out as O1 _ O3. split; [|rewrite E; auto].
    destruct Qs as [E1 E2 E3 E4 E5 E6 E7 E8 E9 E10 E11]. constructor; try assumption. unfold outside. cbn [cx_rest]. congruence.
  - cbn [run_op idle_result]. rewrite Z. unfold bind at 1. rewrite data_call_eval. assert (Em : pd_is_empty c = true) by (unfold pd_is_empty; rewrite (chunk_len _ (fresh_chunk_fresh _ F)), Z; reflexivity). rewrite Em.
    destruct (logged_fields LvError "ZERO_LENGTH_DATA_CHUNKS" e (offer SReq c s)) as [l Hl]. cbn [s_dir]. exists (set_s_logs l (offer SReq c s)). rewrite <- Hl at 1. split; [destruct D3 as [-> | [-> | ->]]; reflexivity|].
    split; [constructor; assumption || reflexivity|]. repeat (split; [exact R || reflexivity|]). reflexivity.
  - cbn [run_op idle_result]. rewrite Z. unfold bind at 1. rewrite data_call_eval. assert (Em : pd_is_empty c = true) by (unfold pd_is_empty; rewrite (chunk_len _ (fresh_chunk_fresh _ F)), Z; reflexivity). rewrite Em.
    destruct (logged_fields LvError "ZERO_LENGTH_DATA_CHUNKS" e (offer SResp c s)) as [l Hl]. cbn [s_dir]. exists (set_s_logs l (offer SResp c s)). rewrite <- Hl at 1. split; [destruct P3 as [-> | ->]; reflexivity|].
    split; [constructor; assumption || reflexivity|]. repeat (split; [exact R || reflexivity|]). reflexivity.
Qed.
Lemma idle_steps e l : forall i tr C s, Forall idle l -> resting [] i tr C s -> rquiet (s_resp s) -> exists s', run_ops l e s = (ROk (map idle_result l), s') /\
  resting [] i tr (mk_ctx (cx_table C) (s_pidx s, s_resp s', s_other_at_end s) (cx_size C)) s' /\ rquiet (s_resp s').
Proof.
  induction l as [|o l IH]; intros i tr C s I Q R.
  - exists s. split; [reflexivity|]. split; [|exact R]. destruct Q as [E1 E2 E3 E4 E5 E6 E7 E8 E9 E10 E11]. constructor; assumption || reflexivity.
  - inversion_clear I as [|? ? I1 I2]. destruct (idle_step e o i tr C s I1 Q R) as (s1 & H1 & Q1 & R1 & O1 & O3). destruct (IH _ _ _ _ I2 Q1 R1) as (s2 & H2 & Q2 & R2). cbn [cx_table cx_size] in Q2. rewrite O1, O3 in Q2.
    exists s2. split; [cbn [run_ops map]; unfold bind; rewrite H1, H2; reflexivity|]. split; [exact Q2|exact R2].
Qed.
Lemma slice_size c : c <> [] -> (chunk_size (pd_slice c) =? 0) = false.
Proof. intro N. unfold chunk_size. cbn. destruct c; [congruence|]. apply N.eqb_neq. unfold blen. cbn [length]. lia. Qed.
Lemma idle_results rd l : ~ In [] (rd_up rd) -> ~ In [] (rd_down rd) -> map idle_result (idle_ops (rd, l)) = map (fun _ => Some SsData) (rd_up rd) ++ map idle_result l ++ map (fun _ => Some SsData) (rd_down rd).
Proof.
  intros Nu Nd. unfold idle_ops. cbn [fst snd]. rewrite !map_app, !map_map. cbn [idle_result]. f_equal; [|f_equal]; apply map_ext_in; intros c I; rewrite slice_size by (intros ->; contradiction); reflexivity.
Qed.
Lemma idle_round_runs e n tr T z s rd idles : Forall idle idles -> yes e -> level n tr T z s -> good_round rd -> Forall (line_limits e) (rd_exchanges rd) -> n + N.of_nat (length (rd_exchanges rd)) < 2 ^ 64 ->
  N.of_nat z + N.of_nat (length (rd_exchanges rd)) <= c_max_tx (e_cfg e) ->
  exists s' T' es1 es2, run_ops (idle_ops (rd, idles)) e s = (ROk (map idle_result (idle_ops (rd, idles))), s') /\
    stream_events (e_cfg e) n (rd_asked rd) es1 /\ reply_events n (rd_answers rd) es2 /\
    level (n + N.of_nat (length (rd_exchanges rd))) (tr_of (es1 ++ es2) tr) T' (if c_auto_destroy (e_cfg e) then z else (z + length (rd_exchanges rd))%nat) s' /\
    (forall j, j < n -> T' j = T j) /\ (forall k x, nth_error (rd_exchanges rd) k = Some x -> over (c_auto_destroy (e_cfg e)) T' (n + N.of_nat k) x).
Proof.
  intros Il Y [Lq (P1 & P2 & P3 & P4 & P5 & P6) Lf Lk] (G & Eu & Nu & Cu & Ed & Nd & Cd & Ad) Lim Ix Sz. set (xs := rd_exchanges rd) in *. set (d := c_auto_destroy (e_cfg e)).
  assert (Ln : length (rd_asked rd) = length xs) by apply map_length.
  assert (R1 : room e n (mk_ctx T (n, s_resp s, false) z) (rd_asked rd)).
  { constructor; cbn [cx_rest cx_size cx_table fst snd]; rewrite ?Ln; try assumption.
    - apply Forall_forall. intros m I. apply in_map_iff in I as (x & <- & I). rewrite Forall_forall in G. now apply G.
    - apply Forall_forall. intros m I. apply in_map_iff in I as (x & <- & I). rewrite Forall_forall in Lim. destruct (Lim x I) as (L1 & L2 & _). now split.
    - intro Z. rewrite Z in P3. destruct P3; discriminate. }
  pose proof (@pa_idle (e_cfg e) n _ tr (rd_asked rd) s Lq) as P. rewrite <- Eu, <- (app_nil_r (concat _)) in P.
  destruct (stream_calls e (rd_up rd) Y n _ tr (rd_asked rd) [] s R1 Nu) as (s1 & done & ms' & i1 & C1 & tr1 & H1 & E1 & T1 & Q1); [|exact P|].
  { intros a b Eab _ before m after y Em. exact (Cu a b before m after y Eab Em). }
  apply paused_end in Q1 as [-> Q1]. rewrite app_nil_r in E1. subst done. destruct (told_facts _ _ _ _ _ _ _ T1) as (Ei & (es1 & -> & Se) & Tx & Ti). destruct (told_more _ _ _ _ _ _ _ T1) as (Tm & Tr & Ts). cbn [cx_rest cx_size cx_table] in *. rewrite Ln in *. clear P R1.
  pose proof (rs_outside _ _ _ _ _ Q1) as Out. rewrite Tr in Out. unfold outside in Out. injection Out as O1' O2' O3'.
  destruct (idle_steps e idles _ _ _ s1 Il Q1) as (s1' & Hc & Q1' & P'); [rewrite O2'; repeat split; assumption|]. pose proof (run_ops_app _ _ _ _ _ _ _ _ H1 Hc) as H1'. rewrite O1', O3' in Q1'. clear H1 Q1 Hc O1' O2' O3'. clear s1. rename s1' into s1, H1' into H1, Q1' into Q1.
  clear P1 P2 P4 P5 P6. destruct P' as (P1 & P2 & P3' & P4 & P5 & P6).
  pose proof (keys_run (map (fun c => OpReq (pd_slice c)) (rd_up rd) ++ idles) e s Lk) as K1. rewrite H1 in K1. cbn [snd] in K1. subst i1.
  destruct Q1 as [D1 D2 D3 D4 D5 D6 D7 D8 D9 D10 D11]. cbn [cx_rest cx_size cx_table] in D8, D10, D11. unfold outside in D10. injection D10 as O1 O3.
  set (C2 := mk_ctx (fun j => tx_get j (s_txs s1)) (n + N.of_nat (length xs), s_req s1, false) (length (s_txs s1))).
  assert (Qr : rresting [] n (tr_of es1 tr) C2 s1) by (constructor; try assumption; [left; split; [reflexivity|split; [exact K1|apply Nat.le_refl]]|unfold r_outside, C2; cbn [cx_rest]; congruence|reflexivity]).
  assert (R2 : rroom e n C2 xs).
  { constructor; [exact G| |exact Ix|reflexivity|].
    - apply Forall_forall. intros x I. rewrite Forall_forall in Lim. destruct (Lim x I) as (_ & _ & L). exact L.
    - intros k x Hk. destruct (Tx k (fst x)) as (t & Ht & Ho); [unfold rd_asked; now apply map_nth_error|]. exists t. split; [|exact (holds_awaits _ _ Ho)]. unfold C2. cbn [cx_table]. rewrite D11; [exact Ht|].
      assert (k < length xs)%nat by (apply nth_error_Some; congruence). lia. }
  pose proof (ra_idle n C2 (tr_of es1 tr) xs s1 Qr) as P. replace (xtexts xs) with (concat (rd_down rd) ++ []) in P by (rewrite app_nil_r, Ed; reflexivity).
  destruct (rstream_calls e (rd_down rd) Y n C2 (tr_of es1 tr) xs [] s1 R2 Nd) as (s2 & done & xs' & i2 & C3 & tr2 & H2 & E2 & T2 & Q2); [| |exact P|].
  { intros a b Eab _ before x after y Em Hy. rewrite Em in *. apply (Cd a b (map snd before) (snd x) (map snd after) y Eab); [|exact Hy]. unfold rd_answers. fold xs. rewrite Em. now rewrite map_app. }
  { intros a c b Eab before x after y tl Em Hb -> Ny Et. apply (Ad a y tl b (map snd before) (snd x) (map snd after) Eab Ny); [|exact Hb|exact Et]. unfold rd_answers. fold xs. rewrite Em. now rewrite map_app. }
  apply rpaused_end in Q2 as [-> Q2]. rewrite app_nil_r in E2. subst done. destruct (rtold_facts _ _ _ _ _ _ _ _ T2) as (Ei & (es2 & -> & Re) & Ux & Ui & Ur & Us). subst i2. unfold C2 in Ux, Ui, Ur, Us. cbn [cx_rest cx_size cx_table] in Ux, Ui, Ur, Us. fold d in Ux, Us. clear P R2 Qr.
  pose proof (keys_run (map (fun c => OpResp (pd_slice c)) (rd_down rd)) e s1 K1) as K2. rewrite H2 in K2. cbn [snd] in K2.
  destruct Q2 as [F1 F2 F3 F4 F5 F6 F7 F8 F9 F10 F11]. rewrite Ur in F10. unfold r_outside in F10. injection F10 as V1 V2 V3.
  exists s2, (cx_table C3), es1, es2. split; [|split; [exact Se|split; [exact Re|split; [|split]]]].
  - rewrite idle_results by assumption. unfold idle_ops. cbn [fst snd]. rewrite !app_assoc. rewrite (run_ops_app _ _ _ _ _ _ _ _ H1 H2). rewrite ?map_map. reflexivity.
  - constructor; [|repeat split; assumption| |exact K2].
    + constructor; rewrite ?V2; try assumption.
      * cbn [cx_size]. rewrite Ui in F8 by lia. assert (W : (length (s_txs s1) <= (if tx_get (n + N.of_nat (length xs)) (s_txs s1) then 1 else 0) + (z + length xs))%nat) by (destruct D8 as [[D8 D8'] | [D8 D8']]; rewrite D8; lia).
        destruct F8 as [(F8 & _ & F8') | (F8 & F8' & _ & F8'')].
        { rewrite F8. destruct D8 as [[D8 _] | [D8 _]]; rewrite D8 in *; [left|right]; (split; [reflexivity|]); destruct d; lia. }
        { rewrite F8 in W. left. split; [exact F8'|]. destruct d; lia. }
      * rewrite tr_of_app. exact F9.
      * unfold outside. cbn [cx_rest]. congruence.
    + intros j Hj. rewrite Ui by lia. rewrite D11 by lia. rewrite Tm by lia. apply Lf. lia.
  - intros j Hj. rewrite Ui by lia. rewrite D11 by lia. now apply Ti.
  - intros k x Hk. exact (Ux k x Hk).
Qed.
Lemma idle_runs e rds : Forall (fun x => Forall idle (snd x)) rds -> yes e -> forall n tr T z s, level n tr T z s -> Forall good_round (map fst rds) -> Forall (line_limits e) (exchanges (map fst rds)) -> n + N.of_nat (length (exchanges (map fst rds))) < 2 ^ 64 ->
  (if c_auto_destroy (e_cfg e) then Forall (fun r => N.of_nat z + N.of_nat (length (rd_exchanges r)) <= c_max_tx (e_cfg e)) (map fst rds) else N.of_nat z + N.of_nat (length (exchanges (map fst rds))) <= c_max_tx (e_cfg e)) ->
  exists s' T' z' es, run_ops (concat (map idle_ops rds)) e s = (ROk (map idle_result (concat (map idle_ops rds))), s') /\
    conversation_events (e_cfg e) n (map fst rds) es /\ level (n + N.of_nat (length (exchanges (map fst rds)))) (tr_of es tr) T' z' s' /\
    (forall j, j < n -> T' j = T j) /\ (forall k x, nth_error (exchanges (map fst rds)) k = Some x -> over (c_auto_destroy (e_cfg e)) T' (n + N.of_nat k) x) /\
    z' = (if c_auto_destroy (e_cfg e) then z else z + length (exchanges (map fst rds)))%nat.
Proof.
  intros Id Y. induction rds as [|[rd b] rds IH]; intros n tr T z s L G Lim Ix Sz.
  - exists s, T, z, []. split; [reflexivity|]. split; [constructor|]. split; [cbn; rewrite N.add_0_r; exact L|]. split; [reflexivity|]. split; [intros [|k]; discriminate|]. cbn. destruct (c_auto_destroy _); lia.
  - inversion_clear Id as [|? ? I1 I2]. cbn [snd] in I1. inversion_clear G as [|? ? G1 G2]. unfold exchanges in Lim, Ix, Sz |- *. cbn [map concat fst snd] in *. rewrite app_length in *. fold (exchanges (map fst rds)) in *. apply Forall_app in Lim as [Lim1 Lim2].
    destruct (idle_round_runs e n tr T z s rd b I1 Y L G1 Lim1) as (s1 & T1 & es1 & es2 & H1 & S1 & R1 & L1 & O1 & X1); [lia|destruct (c_auto_destroy _); [now inversion_clear Sz|lia]|].
    destruct (IH I2 _ _ _ _ _ L1 G2 Lim2) as (s2 & T2 & z2 & es3 & H2 & S2 & L2 & O2 & X2 & Z2); [lia|destruct (c_auto_destroy _); [now inversion_clear Sz|lia]|].
    exists s2, T2, z2, (es1 ++ es2 ++ es3). split; [|split; [|split; [|split; [|split]]]].
    + rewrite (run_ops_app _ _ _ _ _ _ _ _ H1 H2), map_app. reflexivity.
    + now apply cv_cons.
    + rewrite app_assoc, tr_of_app. replace (n + N.of_nat (length (rd_exchanges rd) + length (exchanges (map fst rds)))) with (n + N.of_nat (length (rd_exchanges rd)) + N.of_nat (length (exchanges (map fst rds)))) by lia. exact L2.
    + intros j Hj. rewrite O2 by lia. now apply O1.
    + intros k x Hk. destruct (Nat.lt_ge_cases k (length (rd_exchanges rd))) as [Lk | Lk].
      * rewrite nth_error_app1 in Hk by exact Lk. specialize (X1 k x Hk). unfold over in *. rewrite O2 by lia. exact X1.
      * rewrite nth_error_app2 in Hk by exact Lk. specialize (X2 _ x Hk). replace (n + N.of_nat (length (rd_exchanges rd)) + N.of_nat (k - length (rd_exchanges rd))) with (n + N.of_nat k) in X2 by lia. exact X2.
    + rewrite Z2. destruct (c_auto_destroy _); lia.
Qed.

Lemma idle_parsed_yes e rds : Forall (fun x => Forall idle (snd x)) rds -> yes e -> Forall good_round (map fst rds) -> talk_fits e (map fst rds) ->
  exists s, history e (idle_conversation rds) = (ROk (map idle_result (idle_conversation rds)), s) /\ conversation_events (e_cfg e) 0 (map fst rds) (events s) /\
    (forall k x, nth_error (exchanges (map fst rds)) k = Some x -> over (c_auto_destroy (e_cfg e)) (fun i => tx_get i (s_txs s)) (N.of_nat k) x).
Proof.
  intros Id Y G (F1 & F2 & F3). destruct (open_level e) as (s0 & H0 & L0).
  destruct (idle_runs e rds Id Y 0 [] _ 0%nat s0 L0 G F1 F2 F3) as (s & T & z & es & H & Ce & [Lq _ _ _] & _ & X & _).
  exists s. split; [unfold history, idle_conversation; cbn [run_ops map]; unfold bind at 1; rewrite H0; unfold bind at 1; rewrite H; reflexivity|].
  split; [rewrite (events_tr_of es s (rs_trace _ _ _ _ _ Lq)); exact Ce|].
  intros k x Hk. specialize (X k x Hk). rewrite N.add_0_l in X. unfold over in *.
  rewrite (rs_others _ _ _ _ _ Lq); [exact X|]. assert (k < length (exchanges (map fst rds)))%nat by (apply nth_error_Some; congruence). lia.
Qed.
Lemma idle_parsed e rds : Forall (fun x => Forall idle (snd x)) rds -> accepting e -> Forall good_round (map fst rds) -> talk_fits e (map fst rds) ->
  exists s, history e (idle_conversation rds) = (ROk (map idle_result (idle_conversation rds)), s) /\ conversation_events (e_cfg e) 0 (map fst rds) (events s) /\
    (forall k m r, nth_error (exchanges (map fst rds)) k = Some (m, r) ->
      if c_auto_destroy (e_cfg e) then tx_get (N.of_nat k) (s_txs s) = None else exists t, tx_get (N.of_nat k) (s_txs s) = Some t /\ asked m t /\ answered r t).
Proof.
  intros Id A G F. destruct (idle_parsed_yes (mute e) rds Id (yes_mute e) G F) as (s & H & Se & Tx).
  destruct (history_mute e (idle_conversation rds) A) as [H1 H2]. rewrite H in H1, H2. cbn [fst snd] in H1, H2. apply similar_txs in H2 as [H2 H3].
  exists (snd (history e (idle_conversation rds))). split; [rewrite <- H1; apply surjective_pairing|]. rewrite H3, H2. split; [now apply conversation_events_mute|].
  intros k m r Hk. exact (Tx k (m, r) Hk).
Qed.
