(** Proofs for C79. *)
From Verif Require Import ProofsUrl ProofsUri.
From Verif Require Import Base ModelUtil ModelBstr ModelParsers ModelUri Spec ProofsBase ProofsParsers SpecHost SpecSplit.

(** [reads p part]: the parser finds the part exactly when it is there. *)
Definition reads {A} (p : parser A) (part : bytes -> A -> bytes -> Prop) : Prop :=
  forall i, p i <> PInc /\ forall r a, p i = POk r a <-> part i a r.
Lemma opt_reads {A} (p : parser A) part : reads p part -> forall i,
  exists o r, p_opt p i = POk r o /\ maybe (part i) i o r.
Proof.
  intros R i. destruct (R i) as [NI E]. unfold p_opt. destruct (p i) as [r a| |] eqn:P; [| |congruence].
  - exists (Some a), r. split; [reflexivity|]. constructor. now apply E.
  - exists None, i. split; [reflexivity|]. constructor. intros a r K. apply E in K. discriminate.
Qed.
Lemma opt_maybe {A} (p : parser A) part : reads p part -> forall i o r, maybe (part i) i o r -> p_opt p i = POk r o.
Proof.
  intros R i o r M. destruct (R i) as [NI E]. unfold p_opt. destruct M as [a r' K|K].
  - apply E in K. now rewrite K.
  - destruct (p i) as [r a| |] eqn:P; [|reflexivity|congruence]. elim (K a r). now apply E.
Qed.
Lemma memb_not b s : negb (memb b s) = true <-> ~ In b s.
Proof. rewrite <- memb_In. destruct (memb b s); cbn; split; congruence. Qed.
Lemma until_reads s : reads (is_not_c (s2b s)) (fun i a r => until s i a r).
Proof.
  intro i. unfold is_not_c, take_while1_c. destruct (span (fun b => negb (memb b (s2b s))) i) as [a0 r0] eqn:S.
  pose proof (proj1 (span_max_run _ _ i a0 r0 (fun b => memb_not b (s2b s))) S) as M. split.
  - destruct a0; discriminate.
  - intros r a. split.
    + destruct a0 as [|x a0]; [discriminate|]. intro E. injection E as <- <-. split; [exact M|discriminate].
    + intros [M' Na]. destruct (max_run_unique _ _ _ _ _ _ M M') as [-> ->]. destruct a; [congruence|reflexivity].
Qed.
Lemma tag_reads s : reads (tag_c (s2b s)) (fun i a r => a = s2b s /\ i = s2b s ++ r).
Proof.
  intro i. unfold tag_c. destruct (strip_prefix (s2b s) i) as [r0|] eqn:E.
  - apply strip_prefix_Some in E. split; [discriminate|]. intros r a. split.
    + intro K. injection K as <- <-. auto.
    + intros [-> K]. rewrite K in E. apply app_inv_head in E. now subst.
  - split; [discriminate|]. intros r a. split; [discriminate|]. intros [_ ->]. assert (K : strip_prefix (s2b s) (s2b s ++ r) = Some r) by now apply strip_prefix_Some. congruence.
Qed.

Lemma not_starting_dec b i : (exists x, i = b :: x) \/ not_starting b i.
Proof. destruct i as [|c i]; [right; discriminate|]. destruct (c =? b) eqn:E; [left; apply N.eqb_eq in E; subst; eauto|right]. intros r K. injection K as -> _. lia. Qed.
Lemma not_slash_dec i : (exists x, i = 47 :: x) \/ not_starting 47 i.
Proof. destruct i as [|b i]; [right; discriminate|]. destruct (b =? 47) eqn:E; [left; apply N.eqb_eq in E; subst; eauto|right]. intros r K. injection K as -> _. lia. Qed.
Lemma peek_slash x : p_peek (p_not (tag_c (s2b "/"))) (47 :: x) = PErr.
Proof. reflexivity. Qed.
(** Up to the first [c]. *)
Definition before (c : N) (i a r : bytes) : Prop := i = a ++ c :: r /\ ~ In c a.
Lemma before_dec c i : (exists a r, before c i a r) \/ ~ In c i.
Proof.
  destruct (in_dec N.eq_dec c i) as [H|H]; [left|now right]. induction i as [|x i IH]; [contradiction|]. destruct (N.eq_dec x c) as [->|Nx].
  - exists [], i. split; [reflexivity|intros []].
  - destruct IH as (a & r & -> & K). { destruct H; [congruence|assumption]. } exists (x :: a), r. split; [reflexivity|]. intros [E|E]; [congruence|contradiction].
Qed.
Lemma before_one c i a r a' r' : before c i a r -> before c i a' r' -> a = a' /\ r = r'.
Proof.
  intros [-> H] [E H']. revert a' E H'. induction a as [|x a IH]; intros [|y a'] E H'; cbn in E.
  - injection E as E. auto.
  - injection E as Ex E. elim H'. left. congruence.
  - injection E as Ex E. elim H. left. congruence.
  - injection E as Ex E. subst y. destruct (IH (fun K => H (or_intror K)) a' E (fun K => H' (or_intror K))) as [-> ->]. auto.
Qed.
Lemma before_reads c s : s2b s = [c] -> reads (plet a := take_until_c (s2b s) in plet _t := tag_c (s2b s) in pret a) (before c).
Proof.
  intros E i. rewrite E. destruct (before_dec c i) as [(a & r & B)|Hn].
  - assert (P : (plet a := take_until_c [c] in plet _t := tag_c [c] in pret a) i = POk r a).
    { destruct B as [-> Na]. unfold pbind. rewrite take_until_byte by assumption. change (c :: r) with ([c] ++ r). rewrite tag_c_app. reflexivity. }
    rewrite P. split; [discriminate|]. intros r' a'. split; [intro K; injection K as <- <-; exact B|]. intro K. destruct (before_one c i a r a' r' B K) as [-> ->]. reflexivity.
  - unfold pbind. rewrite take_until_byte_none by assumption. split; [discriminate|]. intros r a. split; [discriminate|]. intros [-> _]. elim Hn. apply in_app_iff. right. now left.
Qed.
Lemma scheme_reads : reads scheme scheme_part.
Proof.
  intro i. destruct (before_reads 58 ":" eq_refl i) as [NI R].
  assert (E : scheme i = match p_peek (p_not (tag_c (s2b "/"))) i with
    | POk r _ => (plet a := take_until_c (s2b ":") in plet _t := tag_c (s2b ":") in pret a) r | PErr => PErr | PInc => PInc end) by reflexivity.
  rewrite E. clear E. destruct (not_slash_dec i) as [(x & ->)|Ns].
  - rewrite peek_slash. split; [discriminate|]. intros r a. split; [discriminate|]. intros (_ & _ & K). now elim (K x).
  - rewrite peek_not_slash by assumption. split; [exact NI|]. intros r a. rewrite R. unfold before, scheme_part. change (s2b ":" ++ r) with (58 :: r). tauto.
Qed.
Lemma user_reads : reads credentials user_part.
Proof.
  intro i.
  assert (E0 : credentials i = match tag_c (s2b "//") i with
    | POk j _ => match p_peek (p_not (tag_c (s2b "/"))) j with
        | POk j _ => match (plet c := take_until_c (s2b "@") in plet _t := tag_c (s2b "@") in pret c) j with
            | POk rest creds => match p_opt (plet u := take_until_c (s2b ":") in plet _t := tag_c (s2b ":") in pret u) creds with
                | POk password (Some username) => POk rest (username, Some password)
                | POk _ None => POk rest (creds, None) | PErr => PErr | PInc => PInc end
            | PErr => PErr | PInc => PInc end
        | PErr => PErr | PInc => PInc end
    | PErr => PErr | PInc => PInc end).
  { unfold credentials. unfold pbind at 1. destruct (tag_c (s2b "//") i) as [j x| |]; try reflexivity. unfold pbind at 1.
    destruct (p_peek (p_not (tag_c (s2b "/"))) j) as [j' y| |]; reflexivity. }
  rewrite E0. clear E0. destruct (tag_reads "//" i) as [N1 T]. destruct (tag_c (s2b "//") i) as [j x| |] eqn:E1; [| |congruence].
  2: { split; [discriminate|]. intros r a. split; [discriminate|]. intros (w & -> & _). assert (K : PErr = POk (w ++ s2b "@" ++ r) (s2b "//")) by now apply T. discriminate. }
  destruct (proj1 (T j x) eq_refl) as [-> ->]. destruct (not_slash_dec j) as [(x & ->)|Ns].
  { rewrite peek_slash. split; [discriminate|]. intros r a. split; [discriminate|]. intros (w & E & _ & K & _). apply app_inv_head in E. destruct w as [|y w]; [discriminate|].
    injection E as <- _. now elim (K w). }
  rewrite peek_not_slash by assumption. destruct (before_reads 64 "@" eq_refl j) as [N2 R2].
  destruct ((plet c := take_until_c (s2b "@") in plet _t := tag_c (s2b "@") in pret c) j) as [r0 a0| |] eqn:E2; [| |congruence].
  2: { split; [discriminate|]. intros r a. split; [discriminate|]. intros (w & E & Nw & _). apply app_inv_head in E. assert (K : before 64 j w r) by (split; [exact E|exact Nw]). apply R2 in K. discriminate. }
  pose proof (proj1 (R2 r0 a0) eq_refl) as B. assert (Na0 : not_starting 47 a0). { intros y ->. destruct B as [-> _]. now elim (Ns (y ++ 64 :: r0)). }
  assert (Un : forall w r, s2b "//" ++ j = s2b "//" ++ w ++ s2b "@" ++ r -> ~ In 64 w -> w = a0 /\ r = r0).
  { intros w r E Nw. apply app_inv_head in E. apply (before_one 64 j w r a0 r0); [split; [exact E|exact Nw]|exact B]. }
  destruct (opt_reads _ _ (before_reads 58 ":" eq_refl) a0) as (o & pw & P & M). rewrite P. destruct M as [u pw Bu|Nn].
  - split; [discriminate|]. intros r a. split.
    + intro K. injection K as <- <-. exists a0. destruct B as [-> Nat]. split; [reflexivity|]. split; [exact Nat|]. split; [exact Na0|]. right. exists pw. cbn [fst snd]. destruct Bu as [-> Nu]. auto.
    + intros (w & E & Nw & _ & F). destruct (Un w r E Nw) as [-> ->]. destruct F as [[F _]|(v & F1 & F2 & F3)].
      * elim F. destruct Bu as [-> _]. apply in_app_iff. right. now left.
      * destruct (before_one 58 a0 u pw (fst a) v Bu (conj F1 F2)) as [-> ->]. destruct a as [a1 a2]. cbn in *. now subst.
  - assert (N58 : ~ In 58 a0). { destruct (before_dec 58 a0) as [(u & v & K)|K]; [now elim (Nn u v)|exact K]. }
    split; [discriminate|]. intros r a. split.
    + intro K. injection K as <- <-. exists a0. destruct B as [-> Nat]. split; [reflexivity|]. split; [exact Nat|]. split; [exact Na0|]. now left.
    + intros (w & E & Nw & _ & F). destruct (Un w r E Nw) as [-> ->]. destruct F as [[_ ->]|(v & F1 & F2 & F3)]; [reflexivity|].
      elim N58. rewrite F1. apply in_app_iff. right. now left.
Qed.
Lemma space_spec x : (x =? 32) = true <-> 32 = x.
Proof. lia. Qed.
Lemma spaces_run i : exists sp r, many_sp i = POk r sp /\ max_run (eq 32) i sp r.
Proof.
  unfold many_sp, take_while_c. destruct (span (fun c => c =? 32) i) as [a b] eqn:E. exists a, b. split; [reflexivity|].
  now apply (span_max_run _ _ _ _ _ space_spec).
Qed.
Lemma ipv6_reads : reads ipv6 (fun i h r => exists a u, i = s2b "[" ++ u /\
  (until "/?#]" u a (s2b "]" ++ r) /\ h = s2b "[" ++ a ++ s2b "]" \/ until "/?#]" u a r /\ not_starting 93 r /\ h = s2b "[" ++ a)).
Proof.
  intro i.
  assert (E0 : ipv6 i = match tag_c (s2b "[") i with
    | POk j _ => match is_not_c (s2b "/?#]") j with
        | POk j _ => match p_opt (tag_c (s2b "]")) j with POk rest _ => POk rest (firstn (length i - length rest) i) | PErr => PErr | PInc => PInc end
        | PErr => PErr | PInc => PInc end
    | PErr => PErr | PInc => PInc end).
  { unfold ipv6, pbind. destruct (tag_c (s2b "[") i) as [j x| |]; try reflexivity. destruct (is_not_c (s2b "/?#]") j) as [j' y| |]; reflexivity. }
  rewrite E0. clear E0. destruct (tag_reads "[" i) as [N1 T]. destruct (tag_c (s2b "[") i) as [u x| |] eqn:E1; [| |congruence].
  2: { split; [discriminate|]. intros r h. split; [discriminate|]. intros (a & u & -> & _). assert (K : PErr = POk u (s2b "[")) by now apply T. discriminate. }
  destruct (proj1 (T u x) eq_refl) as [-> ->]. destruct (until_reads "/?#]" u) as [N2 R2].
  destruct (is_not_c (s2b "/?#]") u) as [r0 a0| |] eqn:E2; [| |congruence].
  2: { split; [discriminate|]. intros r h. split; [discriminate|]. intros (a & u' & E & K). apply app_inv_head in E. subst u'.
       destruct K as [[K _]|[K _]]; apply R2 in K; discriminate. }
  pose proof (proj1 (R2 r0 a0) eq_refl) as B.
  assert (F : forall c r, r0 = c ++ r -> firstn (length (s2b "[" ++ u) - length r) (s2b "[" ++ u) = s2b "[" ++ a0 ++ c).
  { intros c r ->. destruct B as [(-> & _) _]. replace (s2b "[" ++ a0 ++ c ++ r) with ((s2b "[" ++ a0 ++ c) ++ r) by (rewrite <- !app_assoc; reflexivity).
    rewrite app_length, Nat.add_sub, firstn_app, Nat.sub_diag, firstn_all. cbn [firstn]. apply app_nil_r. }
  assert (Un : forall a r, until "/?#]" u a r -> a = a0 /\ r = r0) by (intros a r [K _]; destruct B as [B _]; exact (max_run_unique _ _ _ _ _ _ K B)).
  destruct (opt_reads _ _ (tag_reads "]") r0) as (o & r1 & P & M). rewrite P. destruct M as [c r1 [-> ->]|Nc].
  - split; [discriminate|]. rewrite (F (s2b "]") r1 eq_refl). intros r h. split.
    + intro K. injection K as <- <-. exists a0, u. split; [reflexivity|]. left. auto.
    + intros (a & u' & E & K). apply app_inv_head in E. subst u'. destruct K as [[K ->]|(K & Kn & ->)]; destruct (Un _ _ K) as [-> E].
      * apply app_inv_head in E. now subst.
      * subst r. now elim (Kn r1).
  - split; [discriminate|]. rewrite (F [] r0 eq_refl), app_nil_r. intros r h. split.
    + intro K. injection K as <- <-. exists a0, u. split; [reflexivity|]. right. split; [exact B|]. split; [|reflexivity]. intros y ->. apply (Nc (s2b "]") y). split; reflexivity.
    + intros (a & u' & E & K). apply app_inv_head in E. subst u'. destruct K as [[K ->]|(K & Kn & ->)]; destruct (Un _ _ K) as [-> E].
      * elim (Nc (s2b "]") r). split; [reflexivity|now rewrite <- E].
      * now subst.
Qed.
Lemma host_text_reads : reads (p_alt ipv6 (is_not_c (s2b "/?#:"))) host_text.
Proof.
  intro i. unfold p_alt. destruct (ipv6_reads i) as [N1 R1]. destruct (ipv6 i) as [r0 h0| |] eqn:E; [| |congruence].
  - split; [discriminate|]. destruct (proj1 (R1 r0 h0) eq_refl) as (a & u & Ei & B). intros r h. split.
    + intro K. injection K as <- <-. destruct B as [[B ->]|(B & Nr & ->)]; [now apply (ht_closed i a u)|now apply (ht_open i a u)].
    + intro K. destruct K as [a' u' r' Ei' K|a' u' r' Ei' K Nr|h' r' _ K].
      * apply R1. exists a', u'. split; [exact Ei'|]. now left.
      * apply R1. exists a', u'. split; [exact Ei'|]. right. auto.
      * exfalso. destruct B as [[B _]|[B _]]; now apply (K a u _ Ei) in B.
  - destruct (until_reads "/?#:" i) as [N2 R2]. split; [exact N2|]. intros r h. rewrite R2. split.
    + intro K. apply ht_plain; [exact K|]. intros a u r' Ei B.
      destruct (not_starting_dec 93 r') as [(y & ->)|Nr].
      * assert (Q : PErr = POk y (s2b "[" ++ a ++ s2b "]")) by (apply R1; exists a, u; split; [exact Ei|]; now left). discriminate.
      * assert (Q : PErr = POk r' (s2b "[" ++ a)) by (apply R1; exists a, u; split; [exact Ei|]; right; auto). discriminate.
    + intro K. destruct K as [a' u' r' Ei' K|a' u' r' Ei' K Nr|h' r' K _]; [| |exact K].
      * assert (Q : PErr = POk r' (s2b "[" ++ a' ++ s2b "]")) by (apply R1; exists a', u'; split; [exact Ei'|]; now left). discriminate.
      * assert (Q : PErr = POk r' (s2b "[" ++ a')) by (apply R1; exists a', u'; split; [exact Ei'|]; right; auto). discriminate.
Qed.
Lemma end_spaces h : exists m sp, h = m ++ sp /\ Forall (eq 32) sp /\ (forall m', m <> m' ++ [32]) /\ drop_while_end (fun c => c =? 32) h = m.
Proof.
  destruct (drop_while_end_spec (fun c => c =? 32) h) as (b & E & Hb & Hl). exists (drop_while_end (fun c => c =? 32) h), b.
  split; [exact E|]. split; [eapply Forall_impl; [|exact Hb]; intros x Hx; now apply space_spec|]. split; [|reflexivity].
  intros m' K. specialize (Hl 32 m' K). discriminate.
Qed.
Lemma end_spaces_one m sp : Forall (eq 32) sp -> (forall m', m <> m' ++ [32]) -> drop_while_end (fun c => c =? 32) (m ++ sp) = m.
Proof.
  intros Hs Hm. apply (drop_while_end_unique _ _ m sp); [reflexivity| |].
  - eapply Forall_impl; [|exact Hs]. intros x Hx. now apply space_spec.
  - intros x a E. destruct (x =? 32) eqn:X; [|reflexivity]. apply N.eqb_eq in X. subst. now elim (Hm a).
Qed.
Lemma host_reads : reads hostname host_part.
Proof.
  intro i. destruct (opt_reads _ _ (tag_reads "//") i) as (o & t1 & P & M).
  assert (E0 : hostname i = match p_peek (p_not (tag_c (s2b "/"))) t1 with
    | POk j _ => match many_sp j with
        | POk j _ => match p_alt ipv6 (is_not_c (s2b "/?#:")) j with POk r h => POk r (drop_while_end (fun c => c =? 32) h) | PErr => PErr | PInc => PInc end
        | PErr => PErr | PInc => PInc end
    | PErr => PErr | PInc => PInc end).
  { unfold hostname. unfold pbind at 1. rewrite P. unfold pbind at 1. destruct (p_peek (p_not (tag_c (s2b "/"))) t1) as [j x| |]; reflexivity. }
  rewrite E0. clear E0.
  assert (T1 : forall x, (i = s2b "//" ++ x \/ x = i /\ forall y, i <> s2b "//" ++ y) -> x = t1).
  { intros x H. destruct M as [a r [Ea Ei]|Nn].
    - destruct H as [H|[_ H]]; [rewrite Ei in H; now apply app_inv_head in H|now elim (H r)].
    - destruct H as [H|[H _]]; [|exact H]. elim (Nn (s2b "//") x). auto. }
  assert (T1' : i = s2b "//" ++ t1 \/ t1 = i /\ forall y, i <> s2b "//" ++ y).
  { destruct M as [a r [Ea Ei]|Nn]; [now left|]. right. split; [reflexivity|]. intros y E. apply (Nn (s2b "//") y). auto. }
  destruct (not_slash_dec t1) as [(x & Es)|Ns].
  { rewrite Es, peek_slash. split; [discriminate|]. intros r h. split; [discriminate|]. intros (t & sp & t2 & sp' & E & K & _). apply T1 in E. subst t. now elim (K x). }
  rewrite peek_not_slash by assumption. destruct (spaces_run t1) as (sp & t2 & E2 & S2). rewrite E2. destruct (host_text_reads t2) as [N3 R3].
  destruct (p_alt ipv6 (is_not_c (s2b "/?#:")) t2) as [r0 h0| |] eqn:E3; [| |congruence].
  - split; [discriminate|]. destruct (end_spaces h0) as (m & se & -> & Hs & Hm & ->). intros r h. split.
    + intro K. injection K as <- <-. exists t1, sp, t2, se. split; [exact T1'|]. split; [exact Ns|]. split; [exact S2|]. split; [now apply R3|]. auto.
    + intros (t & sp1 & t3 & sp' & E & _ & S & H & Hs' & Hm'). apply T1 in E. subst t. destruct (max_run_unique _ _ _ _ _ _ S2 S) as [<- <-].
      apply R3 in H. injection H as <- H. f_equal. rewrite <- (end_spaces_one m se Hs Hm), H. now apply end_spaces_one.
  - split; [discriminate|]. intros r h. split; [discriminate|]. intros (t & sp1 & t3 & sp' & E & _ & S & H & _). apply T1 in E. subst t.
    destruct (max_run_unique _ _ _ _ _ _ S2 S) as [<- <-]. apply R3 in H. discriminate.
Qed.
Lemma not32 x : negb (memb x [32]) = true <-> x <> 32.
Proof. rewrite memb_not. split; [intros H E; apply H; now left|intros H [E|[]]; congruence]. Qed.
Lemma many_sp_total i : exists r sp, many_sp i = POk r sp.
Proof. destruct (spaces_run i) as (sp & r & E & _). eauto. Qed.
Lemma port_reads : reads port port_part.
Proof.
  intro i. destruct (tag_reads ":" i) as [N1 T].
  assert (E0 : port i = match tag_c (s2b ":") i with
    | POk j _ => match many_sp j with
        | POk j _ => match is_not_c (s2b "/?#") j with
            | POk j q => match many_sp j with POk r _ => match is_not_c [32] q with POk _ p => POk r p | PErr => PErr | PInc => PInc end | PErr => PErr | PInc => PInc end
            | PErr => PErr | PInc => PInc end
        | PErr => PErr | PInc => PInc end
    | PErr => PErr | PInc => PInc end).
  { unfold port, pbind. destruct (tag_c (s2b ":") i) as [j x| |]; try reflexivity. destruct (many_sp j) as [j1 y| |]; try reflexivity.
    destruct (is_not_c (s2b "/?#") j1) as [j2 z| |]; try reflexivity. destruct (many_sp j2); reflexivity. }
  rewrite E0. clear E0. destruct (tag_c (s2b ":") i) as [u x| |] eqn:E1; [| |congruence].
  2: { split; [discriminate|]. intros r p. split; [discriminate|]. intros (u & sp & v & q & dr & -> & _). assert (K : PErr = POk u (s2b ":")) by now apply T. discriminate. }
  destruct (proj1 (T u x) eq_refl) as [-> ->]. destruct (spaces_run u) as (sp & v & E2 & S2). rewrite E2.
  destruct (until_reads "/?#" v) as [N3 R3]. destruct (is_not_c (s2b "/?#") v) as [r0 q| |] eqn:E3; [| |congruence].
  2: { split; [discriminate|]. intros r p. split; [discriminate|]. intros (u' & sp' & v' & q & dr & E & S & K & _). apply app_inv_head in E. subst u'.
       destruct (max_run_unique _ _ _ _ _ _ S2 S) as [<- <-]. apply R3 in K. discriminate. }
  pose proof (proj1 (R3 r0 q) eq_refl) as B.
  assert (E4 : many_sp r0 = POk r0 []).
  { apply many_sp_none. intros y ->. destruct B as [(_ & _ & B) _]. apply (B 32 y eq_refl). cbn. lia. }
  rewrite E4. unfold is_not_c, take_while1_c. destruct (span (fun b => negb (memb b [32])) q) as [p0 dr] eqn:E5.
  apply (span_max_run _ _ _ _ _ not32) in E5.
  assert (Np : p0 <> []).
  { intros ->. destruct E5 as (E5 & _ & H5). cbn in E5. subst dr. destruct q as [|y q]; [now destruct B as [_ []]|]. specialize (H5 y q eq_refl).
    destruct B as [(Ev & _) _]. destruct S2 as (_ & _ & H2). apply (H2 y (q ++ r0)); [now rewrite Ev|]. destruct (N.eq_dec y 32); [congruence|contradiction]. }
  destruct p0 as [|y p0]; [congruence|]. split; [discriminate|]. intros r p. split.
  - intro K. injection K as <- <-. exists u, sp, v, q, dr. auto.
  - intros (u' & sp' & v' & q' & dr' & E & S & K & D). apply app_inv_head in E. subst u'. destruct (max_run_unique _ _ _ _ _ _ S2 S) as [<- <-].
    apply R3 in K. injection K as <- <-. destruct (max_run_unique _ _ _ _ _ _ E5 D) as [<- _]. reflexivity.
Qed.
Lemma path_reads : reads path path_part.
Proof. exact (until_reads "#?"). Qed.
Lemma query_reads : reads query query_part.
Proof.
  intro i. destruct (tag_reads "?" i) as [N1 T].
  assert (E0 : query i = match tag_c (s2b "?") i with POk j _ => is_not_c (s2b "#") j | PErr => PErr | PInc => PInc end) by reflexivity.
  rewrite E0. clear E0. destruct (tag_c (s2b "?") i) as [u x| |] eqn:E1; [| |congruence].
  - destruct (proj1 (T u x) eq_refl) as [-> ->]. destruct (until_reads "#" u) as [N3 R3]. split; [exact N3|]. intros r q. rewrite R3. split; [intro K; now exists u|].
    intros (u' & E & K). apply app_inv_head in E. now subst.
  - split; [discriminate|]. intros r q. split; [discriminate|]. intros (u & -> & _). assert (K : PErr = POk u (s2b "?")) by now apply T. discriminate.
Qed.
Lemma fragment_reads : reads fragment fragment_part.
Proof.
  intro i. destruct (tag_reads "#" i) as [N1 T]. unfold fragment. destruct (tag_c (s2b "#") i) as [u x| |] eqn:E1; [| |congruence].
  - destruct (proj1 (T u x) eq_refl) as [-> ->]. split; [discriminate|]. intros r q. unfold fragment_part. split; [intro K; injection K as <- <-; auto|].
    intros [E ->]. apply app_inv_head in E. now subst.
  - split; [discriminate|]. intros r q. split; [discriminate|]. intros [-> _]. assert (K : PErr = POk q (s2b "#")) by now apply T. discriminate.
Qed.

(** ** The whole target *)
Definition pair_part (i : bytes) (a : bytes * option bytes) (r : bytes) : Prop := exists r1, host_part i (fst a) r1 /\ maybe (port_part r1) r1 (snd a) r.
Lemma hostport_reads : reads (plet h := hostname in plet p := p_opt port in pret (h, p)) pair_part.
Proof.
  intro i. destruct (host_reads i) as [N1 R1].
  assert (E0 : (plet h := hostname in plet p := p_opt port in pret (h, p)) i = match hostname i with
    | POk r h => match p_opt port r with POk r' p => POk r' (h, p) | PErr => PErr | PInc => PInc end | PErr => PErr | PInc => PInc end).
  { unfold pbind. destruct (hostname i) as [r h| |]; try reflexivity. }
  rewrite E0. clear E0. destruct (hostname i) as [r1 h| |] eqn:E1; [| |congruence].
  - destruct (opt_reads _ _ port_reads r1) as (o & r2 & P & M). rewrite P. split; [discriminate|]. intros r [h' p']. unfold pair_part. cbn [fst snd]. split.
    + intro K. injection K as <- <- <-. exists r1. split; [now apply R1|exact M].
    + intros (r1' & H & M'). apply R1 in H. injection H as <- <-. apply (opt_maybe _ _ port_reads) in M'. congruence.
  - split; [discriminate|]. intros r a. split; [discriminate|]. intros (r1 & H & _). apply R1 in H. discriminate.
Qed.
Lemma authority_runs t up h p r : authority t up h p r <-> exists r1,
  p_opt credentials t = POk r1 up /\ exists o, p_opt (plet h := hostname in plet p := p_opt port in pret (h, p)) r1 = POk r o /\
    h = option_map fst o /\ p = match o with Some (_, q) => q | None => None end.
Proof.
  split.
  - intro A. destruct A as [up h p r1 r2 r U H P|up r U H].
    + exists r1. split; [now apply (opt_maybe _ _ user_reads)|]. exists (Some (h, p)). split; [|auto]. apply (opt_maybe _ _ hostport_reads). constructor. now exists r2.
    + exists r. split; [now apply (opt_maybe _ _ user_reads)|]. exists None. split; [|auto]. apply (opt_maybe _ _ hostport_reads). constructor. intros a r' (r1 & K & _). now apply (H (fst a) r1).
  - intros (r1 & U & o & H & -> & ->). destruct (opt_reads _ _ user_reads t) as (up' & r1' & U' & MU). rewrite U in U'. injection U' as <- <-.
    destruct (opt_reads _ _ hostport_reads r1) as (o' & r' & H' & MH). rewrite H in H'. injection H' as <- <-. destruct MH as [[h p] r (r2 & A & B)|Nn]; cbn [option_map fst].
    + cbn [fst snd] in A, B. now apply (au_host t up h p r1 r2 r).
    + apply au_none; [exact MU|]. intros h r' K. destruct (opt_reads _ _ port_reads r') as (p & r3 & _ & MP). apply (Nn (h, p) r3). now exists r'.
Qed.
Lemma authority_reads : reads scheme_authority (fun t a r => let '(s, up, hp) := a in
  exists r0, scheme_part t s r0 /\ exists r1, p_opt credentials r0 = POk r1 up /\ p_opt (plet h := hostname in plet p := p_opt port in pret (h, p)) r1 = POk r hp).
Proof.
  intro i. destruct (scheme_reads i) as [N1 R1].
  assert (E0 : scheme_authority i = match scheme i with
    | POk r0 s => match p_opt credentials r0 with
        | POk r1 up => match p_opt (plet h := hostname in plet p := p_opt port in pret (h, p)) r1 with POk r hp => POk r (s, up, hp) | PErr => PErr | PInc => PInc end
        | PErr => PErr | PInc => PInc end
    | PErr => PErr | PInc => PInc end).
  { unfold scheme_authority. unfold pbind at 1. destruct (scheme i) as [r0 s| |]; reflexivity. }
  rewrite E0. clear E0. destruct (scheme i) as [r0 s| |] eqn:E1; [| |congruence].
  - destruct (opt_reads _ _ user_reads r0) as (up & r1 & U & _). rewrite U. destruct (opt_reads _ _ hostport_reads r1) as (hp & r2 & H & _). rewrite H.
    split; [discriminate|]. intros r [[s' up'] hp']. split.
    + intro K. injection K as <- <- <- <-. exists r0. split; [now apply R1|]. exists r1. auto.
    + intros (r0' & S & r1' & U' & H'). apply R1 in S. injection S as <- <-. rewrite U in U'. injection U' as <- <-. rewrite H in H'. congruence.
  - split; [discriminate|]. intros r [[s' up'] hp']. split; [discriminate|]. intros (r0' & S & _). apply R1 in S. discriminate.
Qed.
Lemma target_split t u : splits t u <-> parse_uri uri_default t = u.
Proof.
  destruct (opt_reads _ _ authority_reads t) as (sa & r & SA & MA). destruct (opt_reads _ _ path_reads r) as (pa & r1 & P & MP).
  destruct (opt_reads _ _ query_reads r1) as (qu & r2 & Q & MQ). destruct (opt_reads _ _ fragment_reads r2) as (fr & r3 & F & MF).
  assert (E : parse_uri uri_default t = let '(s, un, pw, hn, po) :=
        match sa with
        | Some (s, cred, hp) => (Some s, option_map fst cred, match cred with Some (_, Some w) => Some w | _ => None end, option_map fst hp, match hp with Some (_, Some w) => Some w | _ => None end)
        | None => (None, None, None, None, None) end in
      {| u_scheme := s; u_username := un; u_password := pw; u_hostname := hn; u_port := po; u_port_number := None; u_path := pa; u_query := qu; u_fragment := fr |}).
  { unfold parse_uri, uri_tuple. unfold pbind at 1. rewrite SA. unfold pbind at 1. rewrite P. unfold pbind at 1. rewrite Q. unfold pbind at 1. rewrite F. unfold pret. cbv beta iota.
    destruct sa as [[[s up] hp]|].
    - destruct up as [[un [pw|]]|], hp as [[hn [po|]]|], pa, qu, fr; reflexivity.
    - destruct pa, qu, fr; reflexivity. }
  rewrite E. clear E. split.
  - intros (up & r' & r1' & r2' & r3' & A & Un & Pw & MP' & MQ' & MF' & Pn).
    assert (r' = r /\ u_scheme u = option_map (fun x => fst (fst x)) sa /\ up = match sa with Some (_, c, _) => c | None => None end /\
            u_hostname u = match sa with Some (_, _, hp) => option_map fst hp | None => None end /\
            u_port u = match sa with Some (_, _, Some (_, q)) => q | _ => None end) as (-> & S1 & S2 & S3 & S4).
    { destruct A as [(MS & A1 & A2 & A3 & A4)|(s & r0 & S & A1 & AU)].
      - inversion MS as [|Nn]. subst r'. destruct sa as [[[s up0] hp]|].
        + exfalso. inversion MA as [a rr K|]. subst. destruct K as (r0 & K & _). now elim (Nn s r0).
        + inversion MA. subst. auto.
      - apply authority_runs in AU. destruct AU as (r1'' & U & o & H & Eh & Ep).
        assert (K : p_opt scheme_authority t = POk r' (Some (s, up, o))).
        { apply (opt_maybe _ _ authority_reads). constructor. exists r0. split; [exact S|]. exists r1''. auto. }
        rewrite SA in K. injection K as -> ->. cbn [option_map fst]. repeat split; assumption. }
    apply (opt_maybe _ _ path_reads) in MP'. rewrite P in MP'. injection MP' as <- EP. apply (opt_maybe _ _ query_reads) in MQ'. rewrite Q in MQ'. injection MQ' as <- EQ.
    apply (opt_maybe _ _ fragment_reads) in MF'. rewrite F in MF'. injection MF' as <- EF. destruct u as [us uu uw uh upo upn upa uq uf]. cbn in *. subst.
    destruct sa as [[[s up] hp]|]; cbn; [|reflexivity]. destruct up as [[un [pw|]]|], hp as [[hn [po|]]|]; reflexivity.
  - intros <-. exists (match sa with Some (_, c, _) => c | None => None end), r, r1, r2, r3.
    destruct sa as [[[s up] hp]|]; cbv beta iota zeta; cbn [u_scheme u_username u_password u_hostname u_port u_path u_query u_fragment u_port_number].
    + inversion MA as [a rr K|]. subst. destruct K as (r0 & S & r1' & U & H). split.
      * right. exists s, r0. split; [exact S|]. split; [reflexivity|]. apply authority_runs. exists r1'. split; [exact U|]. exists hp. split; [exact H|]. split; [reflexivity|]. destruct hp as [[? [?|]]|]; reflexivity.
      * split; [reflexivity|]. split; [destruct up as [[? [?|]]|]; reflexivity|]. auto 10.
    + inversion MA as [|Nn]. subst. split; [|auto 10]. left. split; [|auto 10]. constructor. intros s r' K.
      destruct (opt_reads _ _ user_reads r') as (up & r1' & U & _). destruct (opt_reads _ _ hostport_reads r1') as (hp & r2' & H & _). apply (Nn (s, up, hp) r2'). exists r'. split; [exact K|]. now exists r1'.
Qed.
Lemma port_number d n : convert_port d = Some n <-> port_text d n.
Proof. rewrite convert_port_spec. reflexivity. Qed.
Lemma connect_split ip6 v fl u fl' : parse_uri_hostport ip6 uri_default v fl = (u, fl') ->
  (exists h r p r', host_part v h r /\ maybe (port_part r) r p r' /\
     u_hostname u = Some (lowers h) /\ u_port u = p /\ (forall n, u_port_number u = Some n <-> exists d, p = Some d /\ port_text d n) /\
     u_scheme u = None /\ u_username u = None /\ u_password u = None /\ u_path u = None /\ u_query u = None /\ u_fragment u = None /\
     (fl' = fl /\ validate_hostname ip6 h = true /\ match p with Some d => exists n, port_text d n | None => r = [] end \/
      fl' = fset fl HOSTU_INVALID /\ ~ (validate_hostname ip6 h = true /\ match p with Some d => exists n, port_text d n | None => r = [] end))) \/
  (forall h r, ~ host_part v h r) /\ u = uri_default /\ fl' = fl.
Proof.
  unfold parse_uri_hostport, parse_hostport. destruct (host_reads v) as [NH RH]. destruct (hostname v) as [r h| |] eqn:EH; [| |congruence].
  2: { intro E. injection E as <- <-. right. split; [|auto]. intros h r K. apply RH in K. discriminate. }
  pose proof (proj1 (RH r h) eq_refl) as HP. destruct (port_reads r) as [NP RP]. intro E. left.
  destruct (port r) as [r' d| |] eqn:EP; [| |congruence].
  - exists h, r, (Some d), r'. split; [exact HP|]. split; [constructor; now apply RP|]. destruct (convert_port d) as [n|] eqn:CP.
    + injection E as <- <-. cbn [u_hostname u_port u_port_number u_scheme u_username u_password u_path u_query u_fragment or_some uri_default].
      split; [reflexivity|]. split; [reflexivity|]. split.
      { intro m. split; [intro K; injection K as <-; exists d; split; [reflexivity|now apply port_number]|]. intros (d' & K & T). injection K as <-. apply port_number in T. congruence. }
      do 6 (split; [reflexivity|]). destruct (validate_hostname ip6 h); [left|right].
      * split; [reflexivity|]. split; [reflexivity|]. exists n. now apply port_number.
      * split; [reflexivity|]. intros [K _]. discriminate.
    + injection E as <- <-. cbn [u_hostname u_port u_port_number u_scheme u_username u_password u_path u_query u_fragment or_some uri_default].
      split; [reflexivity|]. split; [reflexivity|]. split.
      { intro m. split; [discriminate|]. intros (d' & K & T). injection K as <-. apply port_number in T. congruence. }
      do 6 (split; [reflexivity|]). right. split; [reflexivity|]. intros [_ (n & K)]. apply port_number in K. congruence.
  - exists h, r, None, r. split; [exact HP|]. split. { constructor. intros a r' K. apply RP in K. discriminate. }
    injection E as <- <-. cbn [u_hostname u_port u_port_number u_scheme u_username u_password u_path u_query u_fragment or_some uri_default].
    split; [reflexivity|]. split; [reflexivity|]. split. { intro m. split; [discriminate|]. intros (d' & K & _). discriminate. }
    do 6 (split; [reflexivity|]). destruct r as [|y r]; cbn [length Nat.eqb].
    + destruct (validate_hostname ip6 h); [left; auto|right]. split; [reflexivity|]. intros [K _]. discriminate.
    + right. split; [reflexivity|]. intros [_ K]. discriminate.
Qed.
Lemma port_oddities :
  (u_port (parse_uri uri_default (s2b "http://h:/p")) = None /\ u_path (parse_uri uri_default (s2b "http://h:/p")) = Some (s2b ":/p")) /\
  (u_port (parse_uri uri_default (s2b "http://h:80 x/p")) = Some (s2b "80") /\ u_path (parse_uri uri_default (s2b "http://h:80 x/p")) = Some (s2b "/p")) /\
  (u_scheme (parse_uri uri_default (s2b "h.com:80/p")) = Some (s2b "h.com") /\ u_hostname (parse_uri uri_default (s2b "h.com:80/p")) = Some (s2b "80")).
Proof. vm_compute. repeat split; reflexivity. Qed.
