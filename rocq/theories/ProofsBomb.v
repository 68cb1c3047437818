(** The bomb limit bounds what the body callbacks get. *)
From Verif Require Import Base ModelState ModelTx ModelConn ModelDecomp SpecConn SpecDecomp ProofsHist ProofsDecomp.
From Coq Require Import Lia.
Open Scope N_scope.

(** * The decompressors of libhtp are orderly *)
Lemma tree_ends {A} (ok : A -> bool) (bad : A -> Prop) slow (m : dm A) : (forall a, bad a -> ok a = false) -> ends_at_failure bad m -> run_ends (tree ok slow m).
Proof.
  intro Hb. induction m as [a|d k IH|]; cbn; auto. intros [Hf Ht]. split; [|now apply IH]. exists slow. destruct (k false) as [a| |]; [|contradiction|contradiction]. cbn. now rewrite (Hb a Hf).
Qed.
Lemma tree_within {A} (ok : A -> bool) slow n (m : dm A) : calls_within n m -> run_within n (tree ok slow m).
Proof. induction m as [a|d k IH|]; cbn; auto. intros (Hd & H1 & H2). split; [|split; now apply IH]. destruct d as [b|]; [exact Hd|cbn; lia]. Qed.
Lemma libhtp_orderly r lz f slow n e : buffers_within n r -> e_codec e = libhtp_codec r lz f slow -> orderly n e.
Proof.
  intros [Hb Hf] Ee s dc d. rewrite Ee. unfold libhtp_codec. destruct (chain_of r lz f dc) as [c|]; [|split; exact I].
  destruct d as [b|]; split.
  - eapply tree_ends; [|apply ends_decompress]. intros [[|] ?]; cbn; [contradiction|reflexivity].
  - apply tree_within. apply within_decompress with (B := n); [split; assumption|cbn [opt_len]; lia|cbn [opt_len]; lia].
  - eapply tree_ends; [|apply ends_finish]. intros [|]; cbn; [contradiction|reflexivity].
  - apply tree_within. cbn [opt_len]. eapply within_mono; [|apply within_finish with (B := n); split; assumption]. lia.
Qed.

Lemma by_side_the sd e s t : tx_get (s_idx sd s) (s_txs s) = Some t -> by_side sd (the_tx SReq ;; ret tt) (ret tt) e s = (ROk tt, s).
Proof. intro H. destruct sd; [|reflexivity]. cbn [by_side]. unfold the_tx, cur_tx, bind. rewrite H. reflexivity. Qed.
Section Bomb.
Variables (sd : side) (i : N) (h : hook) (e : env) (D0 : N).
Hypothesis Hh : h = by_side sd HRequestBodyTx HResponseBodyTx \/ h = by_side sd HRequestBody HResponseBody.
Definition allowed (d : txdir) : N := N.max (c_bomb_limit (e_cfg e)) (c_bomb_ratio (e_cfg e) * t_mlen d).
(** The transaction [i] is the current one, its fields are those of [d], and the callbacks have got at most the entity length. *)
Definition holds (d : txdir) (s : st) : Prop :=
  s_idx sd s = i /\ (exists t, tx_get i (s_txs s) = Some t /\ x_dir sd t = d) /\ body_bytes h i s <= D0 + t_elen d.
Definition outcome {A} (m : M A) (s : st) (Q : res A -> st -> Prop) : Prop := Q (fst (m e s)) (snd (m e s)).
Lemma o_bind {A B} (m : M A) (k : A -> M B) s (Q : res B -> st -> Prop) :
  outcome m s (fun r s' => match r with ROk a => outcome (k a) s' Q | RErr x => Q (RErr x) s' | RPanic => Q RPanic s' | RFuel => Q RFuel s' end) -> outcome (bind m k) s Q.
Proof using Hh. unfold outcome, bind. destruct (m e s) as [[a|x| |] s']; cbn; auto. Qed.
Lemma o_weaken {A} (m : M A) s (Q Q' : res A -> st -> Prop) : outcome m s Q -> (forall r s', Q r s' -> Q' r s') -> outcome m s Q'.
Proof using Hh. unfold outcome. auto. Qed.
Lemma o_the d s (Q : res tx -> st -> Prop) : holds d s -> (forall t, x_dir sd t = d -> Q (ROk t) s) -> outcome (the_tx sd) s Q.
Proof using Hh. intros (Ei & (t & Et & Ed) & _) H. unfold outcome, the_tx, cur_tx, bind. rewrite Ei, Et. cbn. auto. Qed.
Lemma o_need d s (Q : res tx -> st -> Prop) : holds d s -> (forall t, x_dir sd t = d -> Q (ROk t) s) -> outcome (need_tx sd) s Q.
Proof using Hh. intros (Ei & (t & Et & Ed) & _) H. unfold outcome, need_tx, cur_tx, bind. rewrite Ei, Et. cbn. auto. Qed.
Lemma o_mod d s f (Q : res unit -> st -> Prop) n : holds d s -> t_elen d + n <= t_elen (f d) ->
  (forall s', holds (f d) s' -> body_bytes h i s' + n <= D0 + t_elen (f d) -> Q (ROk tt) s') -> outcome (mod_txd sd f) s Q.
Proof using Hh.
  intros (Ei & (t & Et & Ed) & Hb) Hn H. unfold outcome, mod_txd. rewrite (mod_tx_eval sd _ e s t) by (now rewrite Ei). cbn [fst snd].
  assert (Eb : body_bytes h i (set_s_txs (tx_set (s_idx sd s) (upd_dir sd f t) (s_txs s)) s) = body_bytes h i s) by reflexivity.
  apply H; [|rewrite Eb; lia]. split; [destruct sd; exact Ei|]. split; [|rewrite Eb; lia]. exists (upd_dir sd f t). split; [|rewrite <- Ed; destruct sd; reflexivity].
  cbn [s_txs set_s_txs]. rewrite Ei. apply tx_get_set. congruence.
Qed.
Lemma bytes_push ev a s : body_bytes h i (set_s_trace ((ev, a) :: s_trace s) s) =
  (if hook_eqb (ev_hook ev) h && (ev_tx ev =? i) then payload_len (ev_data ev) else 0) + body_bytes h i s.
Proof using Hh. reflexivity. Qed.
Lemma hook_eqb_true a b : hook_eqb a b = true -> a = b.
Proof using Hh. unfold hook_eqb. destruct (_ : {a = b} + {a <> b}); congruence. Qed.
(** [n]: what is still allowed to be delivered *)
Lemma o_hook d s hk p (Q : res unit -> st -> Prop) n : holds d s -> (hk = h -> body_bytes h i s + payload_len p <= D0 + t_elen d) -> (hk <> h -> body_bytes h i s + n <= D0 + t_elen d) ->
  (forall r s', holds d s' -> (hk <> h -> body_bytes h i s' + n <= D0 + t_elen d) -> r <> RPanic /\ r <> RFuel -> Q r s') -> outcome (data_hook hk i p) s Q.
Proof using Hh.
  intros (Ei & (t & Et & Ed) & Hb) H1 H2 H. unfold outcome, data_hook, bind, call. cbv zeta. cbn beta iota.
  assert (K : holds d (set_s_trace ((mk_ev hk i p, e_cb e s (mk_ev hk i p)) :: s_trace s) s) /\ (hk <> h -> body_bytes h i (set_s_trace ((mk_ev hk i p, e_cb e s (mk_ev hk i p)) :: s_trace s) s) + n <= D0 + t_elen d)).
  { unfold holds. rewrite !bytes_push. cbn [ev_hook ev_tx ev_data]. split.
    - split; [destruct sd; exact Ei|]. split; [exists t; auto|]. destruct (hook_eqb hk h) eqn:E; cbn [andb]; [|lia]. apply hook_eqb_true in E. specialize (H1 E). destruct (i =? i); lia.
    - intro Nh. specialize (H2 Nh). destruct (hook_eqb hk h) eqn:E; cbn [andb]; [|lia]. now apply hook_eqb_true in E. }
  destruct K as [K1 K2]. unfold check. destruct (e_cb e s (mk_ev hk i p)); cbn [fst snd ret fail]; apply H; auto; split; discriminate.
Qed.
Lemma o_run_hook d s p (Q : res unit -> st -> Prop) : holds d s -> body_bytes h i s + payload_len p <= D0 + t_elen d ->
  (forall r s', holds d s' -> r <> RPanic /\ r <> RFuel -> Q r s') -> outcome (run_hook_body_data sd p) s Q.
Proof using Hh.
  intros Hs Hb H. unfold run_hook_body_data. apply o_bind. apply o_weaken with (Q := fun r s' => r = ROk tt /\ s' = s).
  { destruct Hs as (Ei & (t & Et & _) & _). unfold outcome. rewrite (by_side_the sd e s t) by (now rewrite Ei). split; reflexivity. }
  intros r s' [-> ->]. cbv zeta. match goal with |- outcome (if ?b then _ else _) _ _ => destruct b end.
  { apply H; [exact Hs|]. split; discriminate. }
  apply o_bind. apply (o_the d); [exact Hs|]. intros t _. apply o_bind. unfold outcome at 1. cbn [get fst snd]. destruct Hs as (Ei & Ht & Hc). rewrite Ei.
  apply o_bind. apply (o_hook d s _ p _ (payload_len p)); [split; auto|auto|auto|]. intros r1 s1 H1 H2 H3.
  destruct r1 as [[]|x| |]; try (apply H; [exact H1|exact H3]).
  apply (o_hook d s1 _ p _ 0); [exact H1| | |].
  - intro E. apply H2. intro E2. rewrite <- E in E2. destruct sd; discriminate.
  - destruct H1 as (_ & _ & H1). intros _. lia.
  - intros r2 s2 K1 _ K3. apply H; [exact K1|exact K3].
Qed.
Definition grown (n : N) (d : txdir) : txdir := set_t_elen (wadd (t_elen d) n) d.
Lemma o_add d s n (Q : res unit -> st -> Prop) : holds d s -> t_elen d + n < u64_mod ->
  (forall s', holds (grown n d) s' -> body_bytes h i s' + n <= D0 + t_elen (grown n d) -> Q (ROk tt) s') -> outcome (add_elen sd n) s Q.
Proof using Hh.
  intros Hs Hn H. unfold add_elen. apply (o_mod d s _ _ n); auto. cbn [t_elen set_t_elen]. unfold wadd. rewrite N.mod_small by exact Hn. lia.
Qed.
Lemma allowed_grown n d : allowed (grown n d) = allowed d. Proof using Hh. reflexivity. Qed.
Lemma elen_grown n d : t_elen d + n < u64_mod -> t_elen (grown n d) = t_elen d + n.
Proof using Hh. intro H. unfold grown. cbn [t_elen set_t_elen]. unfold wadd. now rewrite N.mod_small. Qed.
Lemma o_try {A} (m : M A) s (Q : res (A + status) -> st -> Prop) :
  outcome m s (fun r s' => match r with ROk a => Q (ROk (inl a)) s' | RErr x => Q (ROk (inr x)) s' | RPanic => Q RPanic s' | RFuel => Q RFuel s' end) -> outcome (try m) s Q.
Proof using Hh. unfold outcome, try. destruct (m e s) as [[a|x| |] s']; cbn; auto. Qed.
Lemma o_log d s lv c (Q : res unit -> st -> Prop) : holds d s -> (forall s', holds d s' -> Q (ROk tt) s') -> outcome (log lv c) s Q.
Proof using Hh. intros Hs H. unfold outcome, log. cbn [fst snd]. apply H. destruct (_ <=? _); [|exact Hs]. destruct Hs as (Ei & Ht & Hb). split; [destruct sd; exact Ei|]. split; [exact Ht|exact Hb]. Qed.
Lemma o_cb C d s p (Q : res bool -> st -> Prop) : holds d s -> t_elen d <= allowed d -> opt_len p <= C -> allowed d + C < u64_mod ->
  (forall b d' s', holds d' s' -> d' = grown (opt_len p) d -> t_elen d' <= allowed d' + C -> (b = true -> t_elen d' <= allowed d') -> Q (ROk b) s') ->
  outcome (decompressor_callback sd p) s Q.
Proof using Hh.
  intros Hs Hd Hp Hc H. unfold decompressor_callback. apply o_bind. apply (o_add d); [exact Hs|lia|]. intros s1 H1 H1b.
  assert (He : t_elen (grown (opt_len p) d) = t_elen d + opt_len p) by (apply elen_grown; lia).
  apply o_bind, o_try. apply (o_run_hook (grown (opt_len p) d)); [exact H1|destruct p; exact H1b|]. intros r s2 H2 H2r.
  destruct r as [[]|x| |]; try (exfalso; destruct H2r; congruence).
  - apply o_bind. apply (o_the (grown (opt_len p) d)); [exact H2|]. intros t Et. apply o_bind. unfold outcome at 1. cbn [ask fst snd]. rewrite Et. destruct (bomb (e_cfg e) (grown (opt_len p) d)) eqn:Eb.
    + apply o_bind. apply (o_log (grown (opt_len p) d)); [exact H2|]. intros s3 H3. eapply H; eauto; [|discriminate]. rewrite allowed_grown. lia.
    + eapply H; eauto; rewrite allowed_grown; [lia|]. intros _. unfold bomb in Eb. unfold allowed.
      change (t_mlen (grown (opt_len p) d)) with (t_mlen d) in Eb. apply andb_false_iff in Eb. destruct Eb as [Eb|Eb]; [apply N.ltb_ge in Eb; lia|].
      apply orb_false_iff in Eb. destruct Eb as [_ Eb]. apply N.ltb_ge in Eb. lia.
  - eapply H; eauto; [rewrite allowed_grown; lia|discriminate].
Qed.
Lemma o_tree C : forall t d s (Q : res (bool * bool) -> st -> Prop), run_ends t -> run_within C t -> holds d s -> t_elen d <= allowed d -> allowed d + C < u64_mod ->
  (forall ok slow d' s', holds d' s' -> t_mlen d' = t_mlen d -> t_dec d' = t_dec d -> t_cep d' = t_cep d -> t_elen d' <= allowed d' + C -> (ok = true -> t_elen d' <= allowed d') -> Q (ROk (ok, slow)) s') ->
  outcome (run_tree sd t) s Q.
Proof using Hh.
  induction t as [ok slow|p k IH]; intros d s Q He Hw Hs Hd Hc H; cbn [run_tree].
  - eapply H; eauto. lia.
  - destruct He as [(sl & Ef) Ht], Hw as (Hp & Hw1 & Hw2). apply o_bind. apply (o_cb C d); auto. intros b d' s' K1 -> K3 K4. destruct b.
    + apply (IH true (grown (opt_len p) d)); auto. 
    + rewrite Ef. cbn [run_tree]. eapply H; eauto; discriminate.
Qed.
Definition took (n : N) (d : txdir) : txdir := set_t_mlen (wadd (t_mlen d) n) d.
Lemma o_body n C d s b (Q : res unit -> st -> Prop) : orderly n e -> t_cep d <> CeNone -> holds d s -> t_elen d <= allowed d ->
  n <= C -> blen b <= C -> t_mlen d + blen b < u64_mod -> N.max (c_bomb_limit (e_cfg e)) (c_bomb_ratio (e_cfg e) * (t_mlen d + blen b)) + C < u64_mod ->
  (forall d' s' r, holds d' s' -> t_mlen d' = t_mlen d + blen b -> t_cep d' = t_cep d -> t_elen d' <= allowed d' + C -> (t_elen d' <= allowed d' \/ t_dec d' = None /\ r <> ROk tt) -> Q r s') ->
  outcome (body_data sd (Some b)) s Q.
Proof using Hh.
  intros Ho Hz Hs Hd Hn Hb Hm Hc H. unfold body_data. apply o_bind. apply (o_need d); [exact Hs|]. intros t0 _. apply o_bind. unfold add_mlen.
  apply (o_mod d s _ _ 0 Hs); [cbn [t_elen set_t_mlen]; lia|]. intros s1 H1 _. change (set_t_mlen (wadd (t_mlen d) (opt_len (Some b))) d) with (took (blen b) d) in H1.
  assert (Em : t_mlen (took (blen b) d) = t_mlen d + blen b) by (unfold took; cbn [t_mlen set_t_mlen]; unfold wadd; now rewrite N.mod_small).
  assert (Ea : allowed (took (blen b) d) = N.max (c_bomb_limit (e_cfg e)) (c_bomb_ratio (e_cfg e) * (t_mlen d + blen b))) by (unfold allowed; now rewrite Em).
  assert (Hd1 : t_elen (took (blen b) d) <= allowed (took (blen b) d)).
  { rewrite Ea. change (t_elen (took (blen b) d)) with (t_elen d). unfold allowed in Hd. pose proof (N.mul_add_distr_l (c_bomb_ratio (e_cfg e)) (t_mlen d) (blen b)). lia. }
  assert (Hcase : t_elen (took (blen b) d) <= allowed (took (blen b) d) + C) by lia.
  apply o_bind. apply (o_the (took (blen b) d)); [exact H1|]. intros t Et. rewrite Et.
  assert (Hcodec : outcome (match t_dec (took (blen b) d), Some b with
      | None, None => ret tt
      | None, Some _ => fail SError
      | Some dc, Some b => mod_txd sd (set_t_dec None) ;; (let* e := ask in let* s := get in
          let* (ok, slow) := run_tree sd (e_codec e s dc (Some b)) in
          if ok then when slow (log LvError "COMPRESSION_BOMB") ;; mod_txd sd (set_t_dec (Some (DoFeed b slow :: dc))) else fail SError)
      | Some dc, None => mod_txd sd (set_t_dec None) ;; (let* e := ask in let* s := get in ignore (run_tree sd (e_codec e s dc None)))
      end) s1 Q).
  { destruct (t_dec (took (blen b) d)) as [dc|].
    - apply o_bind. apply (o_mod (took (blen b) d) s1 _ _ 0 H1); [cbn [t_elen set_t_dec]; lia|]. intros s2 H2 _.
      apply o_bind. unfold outcome at 1. cbn [ask fst snd]. apply o_bind. unfold outcome at 1. cbn [get fst snd]. apply o_bind.
      destruct (Ho s2 dc (Some b)) as [O1 O2]. cbn [opt_len] in O2.
      assert (O3 : run_within C (e_codec e s2 dc (Some b))).
      { revert O2. generalize (e_codec e s2 dc (Some b)). induction d0 as [|p k IH]; cbn; auto. intros (P1 & P2 & P3). split; [lia|]. split; now apply IH. }
      apply (o_tree C _ (set_t_dec None (took (blen b) d))); auto; [rewrite <- Ea in Hc; exact Hc|].
      intros ok slow d' s' K1 K2 K3 K4 K5 K6. destruct ok.
      + apply o_bind. apply o_weaken with (Q := fun r s' => r = ROk tt /\ holds d' s').
        { destruct slow; cbn [when]; [|split; [reflexivity|exact K1]]. apply (o_log d'); [exact K1|]. auto. }
        intros r s3 [-> K7]. apply (o_mod d' s3 _ _ 0 K7); [cbn [t_elen set_t_dec]; lia|]. intros s4 K8 _. eapply H; [exact K8| |exact K4| |].
        * cbn [t_mlen set_t_dec]. rewrite K2. exact Em.
        * exact K5.
        * left. apply K6. reflexivity.
      + apply (H d'); auto; [rewrite K2; exact Em|]. right. split; [exact K3|discriminate].
    - apply (H (took (blen b) d)); auto. }
  change (t_cep (took (blen b) d)) with (t_cep d). destruct (t_cep d) eqn:Ez; try exact Hcodec.
  - (* identity *) contradiction (Hz eq_refl).
  - (* error *) apply o_bind. apply (o_log (took (blen b) d)); [exact H1|]. intros s2 H2. apply (H (took (blen b) d)); auto.
Qed.
End Bomb.

Lemma body_pieces_bounded n C sd h e bs : orderly n e -> n <= C -> (forall b, In b bs -> blen b <= C) ->
  h = by_side sd HRequestBodyTx HResponseBodyTx \/ h = by_side sd HRequestBody HResponseBody ->
  forall i D0 d s, holds sd i h D0 d s -> t_cep d <> CeNone -> t_elen d <= allowed e d -> t_mlen d + total_len bs < u64_mod ->
  forall most, most = N.max (c_bomb_limit (e_cfg e)) (c_bomb_ratio (e_cfg e) * (t_mlen d + total_len bs)) -> most + C < u64_mod ->
  outcome e (body_pieces sd bs) s (fun r s' => exists d', holds sd i h D0 d' s' /\ t_cep d' <> CeNone /\ allowed e d' <= most /\ t_mlen d' < u64_mod /\
    t_elen d' <= allowed e d' + C /\ (t_elen d' <= allowed e d' \/ t_dec d' = None /\ r <> ROk tt)).
Proof.
  intros Ho Hn HC Hh i D0. induction bs as [|b bs IH]; intros d s Hs Hz Hd Hm most Em Hb.
  - unfold body_pieces, outcome. cbn [for_each ret fst snd total_len fold_right] in *. rewrite N.add_0_r in *. exists d. split; [exact Hs|]. split; [exact Hz|]. unfold allowed in *. lia.
  - change (total_len (b :: bs)) with (blen b + total_len bs) in *. unfold body_pieces. cbn [for_each].
    pose proof (N.mul_add_distr_l (c_bomb_ratio (e_cfg e)) (t_mlen d + blen b) (total_len bs)) as Ed.
    replace (t_mlen d + (blen b + total_len bs)) with (t_mlen d + blen b + total_len bs) in * by lia.
    apply o_bind with (sd := sd) (h := h); [exact Hh|]. apply (o_body sd i h e D0 Hh n C d); auto; try lia; [apply HC; now left|].
    intros d' s' r K1 K2 K3 K4 K5.
    assert (Ha : allowed e d' <= most) by (unfold allowed; rewrite K2; lia).
    destruct r as [[]|x| |]; try (exists d'; rewrite K2, K3; repeat split; auto; try apply K1; lia).
    apply (IH (fun b' H => HC b' (or_intror H)) d'); auto; try (rewrite K2; lia); try (rewrite K3; exact Hz); try (destruct K5 as [K5|[_ K5]]; [exact K5|congruence]).
Qed.
Lemma o_ignore {A} e (m : M A) s (Q : res unit -> st -> Prop) : outcome e m s (fun r s' => match r with ROk _ | RErr _ => Q (ROk tt) s' | RPanic => Q RPanic s' | RFuel => Q RFuel s' end) -> outcome e (ignore m) s Q.
Proof. unfold outcome, ignore. destruct (m e s) as [[a|x| |] s']; cbn; auto. Qed.
Lemma o_end n C sd i h e D0 d s (Q : res unit -> st -> Prop) : h = by_side sd HRequestBodyTx HResponseBodyTx \/ h = by_side sd HRequestBody HResponseBody ->
  orderly n e -> n <= C -> t_cep d <> CeNone -> holds sd i h D0 d s -> t_elen d <= allowed e d + C -> (t_elen d <= allowed e d \/ t_dec d = None) -> t_mlen d < u64_mod ->
  allowed e d + C < u64_mod -> (forall s' r, body_bytes h i s' <= D0 + allowed e d + C -> Q r s') -> outcome e (body_data sd None) s Q.
Proof.
  intros Hh Ho Hn Hz Hs He Hd Hm Hc H. unfold body_data. apply (o_bind sd h e Hh). apply (o_need sd i h e D0 Hh d); [exact Hs|]. intros t0 _. apply (o_bind sd h e Hh). unfold add_mlen.
  apply (o_mod sd i h e D0 Hh d s _ _ 0 Hs); [cbn [t_elen set_t_mlen]; lia|]. intros s1 H1 _. cbn [opt_len] in H1.
  assert (Em : set_t_mlen (wadd (t_mlen d) 0) d = d) by (unfold wadd; rewrite N.add_0_r, N.mod_small by exact Hm; destruct d; reflexivity). rewrite Em in H1.
  assert (Hw : forall s' d', holds sd i h D0 d' s' -> t_elen d' <= allowed e d + C -> forall r, Q r s') by (intros s' d' (_ & _ & K) Hl r; apply H; lia).
  apply (o_bind sd h e Hh). apply (o_the sd i h e D0 Hh d); [exact H1|]. intros t Et. rewrite Et.
  assert (Hcodec : outcome e (match t_dec d with
      | None => ret tt
      | Some dc => mod_txd sd (set_t_dec None) ;; (let* e := ask in let* s := get in ignore (run_tree sd (e_codec e s dc None)))
      end) s1 Q).
  { destruct (t_dec d) as [dc|]; [|now apply (Hw s1 d)]. destruct Hd as [Hd|]; [|congruence].
    apply (o_bind sd h e Hh). apply (o_mod sd i h e D0 Hh d s1 _ _ 0 H1); [cbn [t_elen set_t_dec]; lia|]. intros s2 H2 _.
    apply (o_bind sd h e Hh). unfold outcome at 1. cbn [ask fst snd]. apply (o_bind sd h e Hh). unfold outcome at 1. cbn [get fst snd]. apply o_ignore.
    destruct (Ho s2 dc None) as [O1 O2]. cbn [opt_len] in O2.
    assert (O3 : run_within C (e_codec e s2 dc None)).
    { revert O2. generalize (e_codec e s2 dc None). induction d0 as [|p k IH]; cbn; auto. intros (P1 & P2 & P3). split; [lia|]. split; now apply IH. }
    apply (o_tree sd i h e D0 Hh C _ (set_t_dec None d)); auto.
    intros ok slow d' s' K1 K2 K3 K4 K5 K6. apply (Hw s' d'); [exact K1|]. unfold allowed in *. rewrite K2 in K5. exact K5. }
  destruct (t_cep d); try contradiction; try (destruct (t_dec d); exact Hcodec).
  apply (o_bind sd h e Hh). apply (o_log sd i h e D0 Hh d); [exact H1|]. intros s2 H2. now apply (Hw s2 d).
Qed.
Lemma whole_body_bounded n C sd h e bs : orderly n e -> n <= C -> (forall b, In b bs -> blen b <= C) ->
  h = by_side sd HRequestBodyTx HResponseBodyTx \/ h = by_side sd HRequestBody HResponseBody ->
  forall s t, tx_get (s_idx sd s) (s_txs s) = Some t -> t_cep (x_dir sd t) <> CeNone -> t_elen (x_dir sd t) = 0 -> t_mlen (x_dir sd t) = 0 ->
  N.max (c_bomb_limit (e_cfg e)) (c_bomb_ratio (e_cfg e) * total_len bs) + C < u64_mod -> total_len bs < u64_mod ->
  let most := N.max (c_bomb_limit (e_cfg e)) (c_bomb_ratio (e_cfg e) * total_len bs) in
  let s1 := snd (body_pieces sd bs e s) in let s2 := snd (whole_body sd bs e s) in
  body_bytes h (s_idx sd s) s2 <= body_bytes h (s_idx sd s) s + most + C /\
  (fst (body_pieces sd bs e s) = ROk tt -> body_bytes h (s_idx sd s) s1 <= body_bytes h (s_idx sd s) s + most).
Proof.
  intros Ho Hn HC Hh s t Ht Hz He Hm Hb Hs. cbv zeta.
  assert (H0 : holds sd (s_idx sd s) h (body_bytes h (s_idx sd s) s) (x_dir sd t) s) by (split; [reflexivity|split; [exists t; auto|lia]]).
  pose proof (body_pieces_bounded n C sd h e bs Ho Hn HC Hh _ _ _ s H0 Hz) as K. rewrite He, Hm in K. specialize (K ltac:(lia) ltac:(lia) _ eq_refl). rewrite !N.add_0_l in K. specialize (K Hb).
  unfold outcome in K. unfold whole_body, bind, ignore at 1. destruct (body_pieces sd bs e s) as [r s1]. cbn [fst snd] in *. destruct K as (d' & K1 & K2 & K3 & Kml & K4 & K5). split.
  - assert (body_bytes h (s_idx sd s) s1 <= body_bytes h (s_idx sd s) s + N.max (c_bomb_limit (e_cfg e)) (c_bomb_ratio (e_cfg e) * total_len bs) + C) by (destruct K1 as (_ & _ & K1); lia).
    assert (outcome e (ignore (body_data sd None)) s1 (fun _ s' => body_bytes h (s_idx sd s) s' <= body_bytes h (s_idx sd s) s + N.max (c_bomb_limit (e_cfg e)) (c_bomb_ratio (e_cfg e) * total_len bs) + C)) as Hend.
    { apply o_ignore. apply (o_end n C sd (s_idx sd s) h e (body_bytes h (s_idx sd s) s) d'); auto; try lia; [destruct K5 as [K5|[K5 _]]; auto|]. intros s' [[]|x'| |]; lia. }
    destruct r as [[]|x| |]; cbn [snd]; assumption.
  - intros ->. destruct K5 as [K5|[_ K5]]; [|congruence]. destruct K1 as (_ & _ & K1). lia.
Qed.
