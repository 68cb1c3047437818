(** Interim responses: whole conversations. *)
From Verif Require Import Base Spec SpecTx SpecMsg SpecResp SpecConnect SpecInterim ModelUtil ModelBstr ModelParsers ModelHeaders ModelUri ModelState ModelTx ModelConn SpecConn ProofsBase ProofsBytes ProofsParsers ProofsHeaders ProofsTx ProofsConn ProofsCore ProofsLoop ProofsHist ProofsEval ProofsBody ProofsHead ProofsFrame ProofsStream ProofsChunk ProofsMsg ProofsRStream ProofsRHead ProofsRBody ProofsRMsg.
From Verif Require Import ProofsQuiet ProofsInterim ProofsInterim2.

Lemma held_round_runs e n tr T z s h : yes e -> accepting e -> level n tr T z s -> good_held h -> Forall (line_limits e) (rd_exchanges (hd_round h)) -> n + N.of_nat (length (rd_exchanges (hd_round h))) < 2 ^ 64 ->
  N.of_nat z + N.of_nat (length (rd_exchanges (hd_round h))) <= c_max_tx (e_cfg e) -> Forall (fun n => blen (head_text (in_head n)) <= c_field_limit (e_cfg e)) (hd_interims h) ->
  exists s' T' es1 es2 ies, run_ops (held_ops h) e s = (ROk (more (held_ops h)), s') /\
    stream_events (e_cfg e) n (rd_asked (hd_round h)) es1 /\ interim_events n (hd_interims h) ies /\ reply_events n (rd_answers (hd_round h)) (held_start n (hd_interims h) ++ es2) /\
    events s' = traced tr ++ es1 ++ held_start n (hd_interims h) ++ ies ++ es2 /\
    level (n + N.of_nat (length (rd_exchanges (hd_round h)))) (s_trace s') T' (if c_auto_destroy (e_cfg e) then z else (z + length (rd_exchanges (hd_round h)))%nat) s' /\
    (forall j, j < n -> T' j = T j) /\ (forall k x, nth_error (rd_exchanges (hd_round h)) k = Some x -> over (c_auto_destroy (e_cfg e)) T' (n + N.of_nat k) x).
Proof.
  intros Y A L (G & Gi & Lf) Lim Ix Sz Li. destruct h as [rd ns]. cbn [hd_round hd_interims] in *. unfold held_ops. cbn [hd_round hd_interims]. destruct ns as [|n0 ns].
  - destruct (round_runs e n tr T z s rd Y L G Lim Ix Sz) as (s1 & T1 & es1 & es2 & H1 & S1 & R1 & L1 & O1 & X1). exists s1, T1, es1, es2, [].
    split; [exact H1|]. split; [exact S1|]. split; [constructor|]. split; [exact R1|]. split; [|split; [|split; [exact O1|exact X1]]].
    + pose proof (rs_trace _ _ _ _ _ (lv_req _ _ _ _ _ L1)) as E. unfold events. change (rev (map fst (s_trace s1))) with (traced (s_trace s1)). rewrite E, traced_of. reflexivity.
    + pose proof (rs_trace _ _ _ _ _ (lv_req _ _ _ _ _ L1)) as E. rewrite E. exact L1.
  - destruct Lf as (r & rs & Ea & Lf); [discriminate|].
    destruct (interim_round_runs e n tr T z s rd (n0 :: ns) r rs Y A L G Lim Ix Sz) as (s1 & T1 & es1 & es2 & ies & H1 & S1 & I1 & R1 & E1 & L1 & O1 & X1); try assumption; [discriminate|].
    exists s1, T1, es1, es2, ies. repeat (split; [assumption|]). exact X1.
Qed.
Lemma held_talk_runs e hs : yes e -> accepting e -> forall n tr T z s, level n tr T z s -> Forall good_held hs -> Forall (line_limits e) (exchanges (map hd_round hs)) ->
  n + N.of_nat (length (exchanges (map hd_round hs))) < 2 ^ 64 -> Forall (fun h => Forall (fun n => blen (head_text (in_head n)) <= c_field_limit (e_cfg e)) (hd_interims h)) hs ->
  (if c_auto_destroy (e_cfg e) then Forall (fun r => N.of_nat z + N.of_nat (length (rd_exchanges r)) <= c_max_tx (e_cfg e)) (map hd_round hs) else N.of_nat z + N.of_nat (length (exchanges (map hd_round hs))) <= c_max_tx (e_cfg e)) ->
  exists s' T' z' es, run_ops (concat (map held_ops hs)) e s = (ROk (more (concat (map held_ops hs))), s') /\ events s' = traced tr ++ es /\
    held_events (e_cfg e) n hs es /\ level (n + N.of_nat (length (exchanges (map hd_round hs)))) (s_trace s') T' z' s' /\
    (forall j, j < n -> T' j = T j) /\ (forall k x, nth_error (exchanges (map hd_round hs)) k = Some x -> over (c_auto_destroy (e_cfg e)) T' (n + N.of_nat k) x).
Proof.
  intros Y A. induction hs as [|h hs IH]; intros n tr T z s L G Lim Ix Li Sz.
  - exists s, T, z, []. pose proof (rs_trace _ _ _ _ _ (lv_req _ _ _ _ _ L)) as E. split; [reflexivity|]. split; [unfold events; rewrite E; symmetry; apply app_nil_r|]. split; [constructor|]. split; [cbn; rewrite N.add_0_r, E; exact L|]. split; [reflexivity|]. intros [|k]; discriminate.
  - inversion_clear G as [|? ? G1 G2]. inversion_clear Li as [|? ? Li1 Li2]. unfold exchanges in Lim, Ix, Sz |- *. cbn [map concat] in *. rewrite app_length in *. fold (exchanges (map hd_round hs)) in *. apply Forall_app in Lim as [Lim1 Lim2].
    destruct (held_round_runs e n tr T z s h Y A L G1 Lim1) as (s1 & T1 & es1 & es2 & ies & H1 & S1 & I1 & R1 & E1 & L1 & O1 & X1); [lia|destruct (c_auto_destroy _); [now inversion_clear Sz|lia]|exact Li1|].
    destruct (IH _ _ _ _ _ L1 G2 Lim2) as (s2 & T2 & z2 & es3 & H2 & E2 & S2 & L2 & O2 & X2); [lia|exact Li2|destruct (c_auto_destroy _); [now inversion_clear Sz|lia]|].
    exists s2, T2, z2, (es1 ++ held_start n (hd_interims h) ++ ies ++ es2 ++ es3). split; [|split; [|split; [|split; [|split]]]].
    + rewrite (run_ops_app _ _ _ _ _ _ _ _ H1 H2). unfold more. rewrite map_app. reflexivity.
    + rewrite E2. change (traced (s_trace s1)) with (events s1). rewrite E1, <- !app_assoc. reflexivity.
    + now apply hv_cons.
    + replace (n + N.of_nat (length (rd_exchanges (hd_round h)) + length (exchanges (map hd_round hs)))) with (n + N.of_nat (length (rd_exchanges (hd_round h))) + N.of_nat (length (exchanges (map hd_round hs)))) by lia. exact L2.
    + intros j Hj. rewrite O2 by lia. now apply O1.
    + intros k x Hk. destruct (Nat.lt_ge_cases k (length (rd_exchanges (hd_round h)))) as [Lk | Lk].
      * rewrite nth_error_app1 in Hk by exact Lk. specialize (X1 k x Hk). unfold over in *. rewrite O2 by lia. exact X1.
      * rewrite nth_error_app2 in Hk by exact Lk. specialize (X2 _ x Hk). replace (n + N.of_nat (length (rd_exchanges (hd_round h))) + N.of_nat (k - length (rd_exchanges (hd_round h)))) with (n + N.of_nat k) in X2 by lia. exact X2.
Qed.
Lemma held_events_mute e i hs es : held_events (e_cfg (mute e)) i hs es -> held_events (e_cfg e) i hs es.
Proof. intro H. induction H as [i|i h hs es1 ies es2 es3 H1 H2 H3 _ IH]; [constructor|]. constructor; [now apply stream_events_mute|exact H2|exact H3|exact IH]. Qed.
Lemma held_parsed_yes e hs : yes e -> accepting e -> Forall good_held hs -> held_fits e hs ->
  exists s, history e (held_talk hs) = (ROk (None :: more (concat (map held_ops hs))), s) /\ held_events (e_cfg e) 0 hs (events s) /\
    (forall k x, nth_error (exchanges (map hd_round hs)) k = Some x -> over (c_auto_destroy (e_cfg e)) (fun i => tx_get i (s_txs s)) (N.of_nat k) x).
Proof.
  intros Y A G ((F1 & F2 & F3) & F4). destruct (open_level e) as (s0 & H0 & L0).
  destruct (held_talk_runs e hs Y A 0 [] _ 0%nat s0 L0 G F1 F2 F4 F3) as (s & T & z & es & H & Ee & Ce & L & _ & X).
  exists s. split; [unfold history, held_talk; cbn [run_ops]; unfold bind at 1; rewrite H0; unfold bind at 1; rewrite H; reflexivity|].
  split; [rewrite Ee; exact Ce|]. intros k x Hk. specialize (X k x Hk). rewrite N.add_0_l in X. unfold over in *.
  rewrite (rs_others _ _ _ _ _ (lv_req _ _ _ _ _ L)); [exact X|]. assert (k < length (exchanges (map hd_round hs)))%nat by (apply nth_error_Some; congruence). lia.
Qed.
Lemma held_parsed e hs : accepting e -> Forall good_held hs -> held_fits e hs ->
  exists s, history e (held_talk hs) = (ROk (None :: more (concat (map held_ops hs))), s) /\ held_events (e_cfg e) 0 hs (events s) /\
    (forall k m r, nth_error (exchanges (map hd_round hs)) k = Some (m, r) ->
      if c_auto_destroy (e_cfg e) then tx_get (N.of_nat k) (s_txs s) = None else exists t, tx_get (N.of_nat k) (s_txs s) = Some t /\ asked m t /\ answered r t).
Proof.
  intros A G F. destruct (held_parsed_yes (mute e) hs (yes_mute e) (accepting_mute e A) G F) as (s & H & Se & Tx).
  destruct (history_mute e (held_talk hs) A) as [H1 H2]. rewrite H in H1, H2. cbn [fst snd] in H1, H2. apply similar_txs in H2 as [H2 H3].
  exists (snd (history e (held_talk hs))). split; [rewrite <- H1; apply surjective_pairing|]. rewrite H3, H2. split; [now apply held_events_mute|].
  intros k m r Hk. exact (Tx k (m, r) Hk).
Qed.
