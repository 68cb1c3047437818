(** Conversations in which the user removes transactions. *)
From Verif Require Import Base Spec SpecTx SpecMsg SpecResp SpecClear SpecEnd ModelUtil ModelBstr ModelParsers ModelHeaders ModelState ModelTx ModelConn SpecConn ProofsBase ProofsBytes ProofsParsers ProofsHeaders ProofsTx ProofsConn ProofsCore ProofsLoop ProofsHist ProofsEval ProofsBody ProofsHead ProofsFrame ProofsStream ProofsChunk ProofsMsg ProofsRStream ProofsRHead ProofsRBody ProofsRMsg ProofsTalk ProofsEnd ProofsClose.

(** [T] without the transactions in [l]. *)
Definition without (l : list N) (T : N -> option tx) : N -> option tx := fun j => if existsb (N.eqb j) l then None else T j.
Lemma in_existsb j l : existsb (N.eqb j) l = true <-> In j l.
Proof. rewrite existsb_exists. split; [intros (x & I & E); apply N.eqb_eq in E; now subst|intro I; exists j; split; [exact I|apply N.eqb_refl]]. Qed.
Lemma not_in_existsb j l : ~ In j l -> existsb (N.eqb j) l = false.
Proof. intro H. destruct (existsb (N.eqb j) l) eqn:E; [apply in_existsb in E; contradiction|reflexivity]. Qed.
Lemma nodup_parts {A} (a b : list A) : NoDup (a ++ b) -> NoDup a /\ NoDup b.
Proof. induction a as [|x a IH]; cbn [app]; intro H; [split; [constructor|exact H]|]. inversion_clear H as [|? ? N1 N2]. destruct (IH N2) as [Na Nb]. split; [constructor; [intro I; apply N1; apply in_or_app; now left|exact Na]|exact Nb]. Qed.
Lemma remove_level (e : env) n tr T z s i (p : bool) : level n tr T z s -> i < n -> (p = true -> T i <> None) ->
  level n tr (without [i] T) (if p then z - 1 else z)%nat (set_s_txs (tx_del i (s_txs s)) s).
Proof.
  intros [[D1 D2 D3 D4 D5 D6 D7 D8 D9 D10 D11] R Lf Lk] Li Hp. constructor; [|exact R| |cbn; now apply keys_del].
  - constructor; try assumption.
    + cbn [s_txs set_s_txs cx_size]. rewrite tx_get_del by lia. pose proof (ProofsHist.length_del i (s_txs s)) as Le. destruct p.
      * assert (Gi : tx_get i (s_txs s) <> None) by (rewrite D11 by lia; now apply Hp). pose proof (length_del_lt _ _ Gi) as Ld. cbn [cx_size] in D8.
        destruct D8 as [[G L] | [G L]]; [left|right]; (split; [exact G|]); [|lia]. destruct z as [|z]; [|lia]. exfalso.
        assert (E : tx_del i (s_txs s) = []) by (destruct (tx_del i (s_txs s)); [reflexivity|cbn [length] in Ld; lia]).
        assert (Gn : tx_get n (tx_del i (s_txs s)) = Some tx_new) by (rewrite tx_get_del by lia; exact G). rewrite E in Gn. discriminate.
      * cbn [cx_size] in D8. destruct D8 as [[G L] | [G L]]; [left|right]; (split; [exact G|lia]).
    + intros j Hj. cbn [s_txs set_s_txs cx_table]. unfold without. cbn [existsb]. rewrite Bool.orb_false_r. destruct (N.eqb_spec j i) as [-> | N]; [now apply get_del|]. rewrite tx_get_del by exact N. now apply D11.
  - intros j Hj. unfold without. destruct (existsb _ _); [reflexivity|]. now apply Lf.
Qed.
Lemma level_ext n tr T T' z s : (forall j, T j = T' j) -> level n tr T z s -> level n tr T' z s.
Proof.
  intros E [[D1 D2 D3 D4 D5 D6 D7 D8 D9 D10 D11] R Lf Lk]. constructor; [constructor; try assumption|exact R| |exact Lk].
  - intros j Hj. cbn [cx_table]. rewrite <- E. now apply D11.
  - intros j Hj. rewrite <- E. now apply Lf.
Qed.
Lemma removes_level e n tr p l : forall T z s, level n tr T z s -> (forall i, In i l -> i < n) -> NoDup l -> (p = true -> forall i, In i l -> T i <> None) ->
  exists s', run_ops (map OpRemove l) e s = (ROk (map (fun _ => None) l), s') /\ level n tr (without l T) (if p then z - length l else z)%nat s'.
Proof.
  induction l as [|i l IH]; intros T z s L Ll Nd Hp.
  - exists s. split; [reflexivity|]. destruct p; cbn [length]; rewrite ?Nat.sub_0_r; exact L.
  - inversion_clear Nd as [|? ? Ni Nl]. pose proof (remove_level e n tr T z s i p L (Ll i (or_introl eq_refl)) (fun E => Hp E i (or_introl eq_refl))) as L1.
    destruct (IH _ _ _ L1) as (s' & H & L2); [intros j I; apply Ll; now right|exact Nl| |].
    { intros E j I. unfold without. cbn [existsb]. rewrite Bool.orb_false_r. destruct (N.eqb_spec j i) as [-> | _]; [contradiction|]. apply Hp; [exact E|now right]. }
    exists s'. split; [cbn [map run_ops]; unfold bind; cbn [run_op]; unfold bind, modify, ret; rewrite H; reflexivity|].
    apply (level_ext _ _ (without l (without [i] T))).
    + intro j. unfold without. cbn [existsb]. rewrite Bool.orb_false_r. destruct (j =? i), (existsb (N.eqb j) l); reflexivity.
    + destruct p; [|exact L2]. replace (z - length (i :: l))%nat with (z - 1 - length l)%nat by (cbn [length]; lia). exact L2.
Qed.
Lemma clear_runs e rds : yes e -> forall n tr T z s, level n tr T z s -> Forall good_round (map fst rds) -> Forall (line_limits e) (exchanges (map fst rds)) -> n + N.of_nat (length (exchanges (map fst rds))) < 2 ^ 64 ->
  NoDup (removed rds) -> clears (e_cfg e) n (N.of_nat z) rds -> (c_auto_destroy (e_cfg e) = true -> z = 0%nat) ->
  (c_auto_destroy (e_cfg e) = false -> forall j, In j (removed rds) -> j < n -> T j <> None) ->
  exists s' T' z' es, run_ops (concat (map clear_ops rds)) e s = (ROk (map clear_result (concat (map clear_ops rds))), s') /\
    conversation_events (e_cfg e) n (map fst rds) es /\ level (n + N.of_nat (length (exchanges (map fst rds)))) (tr_of es tr) T' z' s' /\
    (forall j, j < n -> T' j = without (removed rds) T j) /\
    (forall k x, nth_error (exchanges (map fst rds)) k = Some x -> over (c_auto_destroy (e_cfg e) || existsb (N.eqb (n + N.of_nat k)) (removed rds)) T' (n + N.of_nat k) x).
Proof.
  intro Y. set (d := c_auto_destroy (e_cfg e)). induction rds as [|[rd l] rds IH]; intros n tr T z s L G Lim Ix Nd Cl Dz Pr.
  - exists s, T, z, []. split; [reflexivity|]. split; [constructor|]. split; [cbn; rewrite N.add_0_r; exact L|]. split; [reflexivity|]. intros [|k]; discriminate.
  - cbn [map fst] in G. inversion_clear G as [|? ? G1 G2]. unfold exchanges in Lim, Ix |- *. unfold removed in Nd, Pr |- *. cbn [map concat fst snd clears] in *. rewrite app_length in *. fold (exchanges (map fst rds)) in *. fold (removed rds) in *. apply Forall_app in Lim as [Lim1 Lim2].
    destruct Cl as (C1 & C2 & C3). fold d in C3. set (k := length (rd_exchanges rd)) in *.
    destruct (round_runs e n tr T z s rd Y L G1 Lim1) as (s1 & T1 & es1 & es2 & H1 & S1 & R1 & L1 & O1 & X1); [fold k; lia|fold k; lia|]. fold k d in L1, X1.
    assert (Hd : forall j, In j l \/ In j (removed rds) -> d = false -> j < n + N.of_nat k -> T1 j <> None).
    { intros j I Ed Hj. destruct (N.lt_ge_cases j n) as [L' | L']; [rewrite O1 by exact L'; apply Pr; [exact Ed|apply in_or_app; exact I|exact L']|].
      destruct (nth_error (rd_exchanges rd) (N.to_nat (j - n))) as [x|] eqn:Ek; [|apply nth_error_None in Ek; fold k in Ek; lia].
      specialize (X1 _ _ Ek). unfold over in X1. rewrite Ed in X1. destruct X1 as (t & Gt & _). replace (n + N.of_nat (N.to_nat (j - n))) with j in Gt by lia. rewrite Gt. discriminate. }
    destruct (nodup_parts _ _ Nd) as [Nl Nr].
    assert (Dj : forall j, In j l -> ~ In j (removed rds)).
    { clear - Nd. intros j I J. induction l as [|i l IHl]; [destruct I|]. cbn [app] in Nd. inversion_clear Nd as [|? ? A B]. destruct I as [-> | I]; [apply A; apply in_or_app; now right|now apply IHl]. }
    destruct (removes_level e _ _ (negb d) l _ _ _ L1) as (s2 & H2 & L2); [exact C2|exact Nl|intros E j I; apply Hd; [now left|now destruct d|now apply C2]|].
    set (z2 := (if negb d then (if d then z else z + k) - length l else if d then z else z + k)%nat) in *.
    destruct (IH _ _ _ z2 _ L2 G2 Lim2) as (s3 & T3 & z3 & es3 & H3 & S3 & L3 & O3 & X3); [lia|exact Nr| | | |].
    { replace (N.of_nat z2) with (if d then 0 else N.of_nat z + N.of_nat k - N.of_nat (length l)); [exact C3|]. unfold z2. destruct d; cbn [negb]; [rewrite (Dz eq_refl); reflexivity|lia]. }
    { intro E. unfold z2. rewrite E. cbn [negb]. now apply Dz. }
    { intros E j I Hj. unfold without. rewrite not_in_existsb by (intro J; exact (Dj j J I)). apply Hd; [now right|exact E|exact Hj]. }
    exists s3, T3, z3, (es1 ++ es2 ++ es3). split; [|split; [|split; [|split]]].
    + assert (Hx : run_ops (clear_ops (rd, l)) e s = (ROk (map clear_result (clear_ops (rd, l))), s2)).
      { unfold clear_ops. cbn [fst snd]. rewrite (run_ops_app _ _ _ _ _ _ _ _ H1 H2). rewrite map_app. unfold round_ops. rewrite !map_app, !map_map. reflexivity. }
      rewrite (run_ops_app _ _ _ _ _ _ _ _ Hx H3), map_app. reflexivity.
    + now apply cv_cons.
    + rewrite app_assoc, tr_of_app. replace (n + N.of_nat (k + length (exchanges (map fst rds)))) with (n + N.of_nat k + N.of_nat (length (exchanges (map fst rds)))) by lia. exact L3.
    + intros j Hj. rewrite O3 by lia. unfold without. rewrite existsb_app. destruct (existsb (N.eqb j) l), (existsb (N.eqb j) (removed rds)); cbn [orb]; try reflexivity. now apply O1.
    + intros q x Hq. rewrite existsb_app. destruct (Nat.lt_ge_cases q k) as [Lk | Lk].
      * rewrite nth_error_app1 in Hq by exact Lk. specialize (X1 q x Hq). unfold over in *. rewrite O3 by lia. unfold without. destruct d; cbn [orb]; [destruct (existsb _ _); [reflexivity|]; destruct (existsb _ l); [reflexivity|exact X1]|].
        destruct (existsb _ l), (existsb _ (removed rds)); cbn [orb]; try reflexivity. exact X1.
      * rewrite nth_error_app2 in Hq by exact Lk. specialize (X3 _ x Hq). fold k in X3. replace (n + N.of_nat k + N.of_nat (q - k)) with (n + N.of_nat q) in X3 by lia.
        rewrite (not_in_existsb (n + N.of_nat q) l) by (intro I; apply C2 in I; lia). exact X3.
Qed.
Lemma clear_parsed_yes e rds : yes e -> Forall good_round (map fst rds) -> clear_fits e rds ->
  exists s, history e (clear_conversation rds) = (ROk (map clear_result (clear_conversation rds)), s) /\ conversation_events (e_cfg e) 0 (map fst rds) (events s) /\
    (forall k x, nth_error (exchanges (map fst rds)) k = Some x -> over (c_auto_destroy (e_cfg e) || existsb (N.eqb (N.of_nat k)) (removed rds)) (fun i => tx_get i (s_txs s)) (N.of_nat k) x).
Proof.
  intros Y G (F1 & F2 & F3 & F4). destruct (open_level e) as (s0 & H0 & L0).
  destruct (clear_runs e rds Y 0 [] _ 0%nat s0 L0 G F1 F2 F3 F4) as (s & T & z & es & H & Ce & [Lq _ _ _] & _ & X); [reflexivity|intros _ j _ Hj; lia|].
  exists s. split; [unfold history, clear_conversation; cbn [run_ops map]; unfold bind at 1; rewrite H0; unfold bind at 1; rewrite H; reflexivity|].
  split; [rewrite (events_tr_of es s (rs_trace _ _ _ _ _ Lq)); exact Ce|].
  intros k x Hk. specialize (X k x Hk). rewrite N.add_0_l in X. unfold over in *.
  rewrite (rs_others _ _ _ _ _ Lq); [exact X|]. assert (k < length (exchanges (map fst rds)))%nat by (apply nth_error_Some; congruence). lia.
Qed.
Lemma clear_fits_mute e rds : clear_fits e rds -> clear_fits (mute e) rds.
Proof.
  intros (F1 & F2 & F3 & F4). split; [exact F1|]. split; [exact F2|]. split; [exact F3|]. revert F4. clear. generalize 0 at 1 3 as n. generalize 0 as z. induction rds as [|[r l] rds IH]; intros z n F; [exact I|].
  destruct F as (A & B & C). split; [exact A|]. split; [exact B|]. apply IH. exact C.
Qed.
Lemma clear_parsed e rds : accepting e -> Forall good_round (map fst rds) -> clear_fits e rds ->
  exists s, history e (clear_conversation rds) = (ROk (map clear_result (clear_conversation rds)), s) /\ conversation_events (e_cfg e) 0 (map fst rds) (events s) /\
    (forall k m r, nth_error (exchanges (map fst rds)) k = Some (m, r) ->
      if c_auto_destroy (e_cfg e) || existsb (N.eqb (N.of_nat k)) (removed rds) then tx_get (N.of_nat k) (s_txs s) = None
      else exists t, tx_get (N.of_nat k) (s_txs s) = Some t /\ asked m t /\ answered r t).
Proof.
  intros A G F. destruct (clear_parsed_yes (mute e) rds (yes_mute e) G (clear_fits_mute e rds F)) as (s & H & Se & Tx).
  destruct (history_mute e (clear_conversation rds) A) as [H1 H2]. rewrite H in H1, H2. cbn [fst snd] in H1, H2. apply similar_txs in H2 as [H2 H3].
  exists (snd (history e (clear_conversation rds))). split; [rewrite <- H1; apply surjective_pairing|]. rewrite H3, H2. split; [now apply conversation_events_mute|].
  intros k m r Hk. exact (Tx k (m, r) Hk).
Qed.
