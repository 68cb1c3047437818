(** Lemmas about Base.v. *)
From Verif Require Import Base Spec.

Lemma bytes_eqb_eq a b : bytes_eqb a b = true <-> a = b.
Proof.
  revert b; induction a as [|x a IH]; intros [|y b]; cbn [bytes_eqb]; split; intro H; try easy.
  - apply andb_true_iff in H as [H1 H2]. apply N.eqb_eq in H1. apply IH in H2. congruence.
  - injection H as -> ->. apply andb_true_iff; split; [apply N.eqb_refl | now apply IH].
Qed.
Lemma bytes_eqb_neq a b : bytes_eqb a b = false <-> a <> b.
Proof. rewrite <- bytes_eqb_eq. destruct (bytes_eqb a b); split; congruence. Qed.
Lemma bytes_eqb_refl a : bytes_eqb a a = true.
Proof. now apply bytes_eqb_eq. Qed.

Lemma memb_In b s : memb b s = true <-> In b s.
Proof.
  unfold memb. rewrite existsb_exists. split.
  - intros (x & Hx & E). apply N.eqb_eq in E. now subst.
  - intro H. exists b. split; [assumption | apply N.eqb_refl].
Qed.

Lemma span_spec p l : forall a b, span p l = (a, b) ->
  l = a ++ b /\ Forall (fun x => p x = true) a /\ (forall x b', b = x :: b' -> p x = false).
Proof.
  induction l as [|x l IH]; cbn [span]; intros a b H.
  - injection H as <- <-. repeat split; easy.
  - destruct (p x) eqn:Px.
    + destruct (span p l) as [a' b'] eqn:E. injection H as <- <-.
      destruct (IH _ _ eq_refl) as (-> & Ha & Hb). repeat split; [now constructor | assumption].
    + injection H as <- <-. repeat split; [constructor|]. intros y b' E. now injection E as <- <-.
Qed.

Lemma span_app p a b :
  Forall (fun x => p x = true) a -> (forall x b', b = x :: b' -> p x = false) -> span p (a ++ b) = (a, b).
Proof.
  intros Ha Hb. induction Ha as [|x a Hx Ha IH]; cbn [span app].
  - destruct b as [|y b]; [easy|]. cbn [span]. now rewrite (Hb y b eq_refl).
  - rewrite Hx, IH. reflexivity.
Qed.

Lemma span_all p a : Forall (fun x => p x = true) a -> span p a = (a, []).
Proof. intro H. rewrite <- (app_nil_r a) at 1. apply span_app; [assumption | easy]. Qed.

Lemma span_length p l a b : span p l = (a, b) -> (length a + length b = length l)%nat.
Proof. intro H. apply span_spec in H as (-> & _). now rewrite app_length. Qed.

Lemma drop_while_spec p l : exists a, l = a ++ drop_while p l /\ Forall (fun x => p x = true) a /\
  (forall x b', drop_while p l = x :: b' -> p x = false).
Proof.
  induction l as [|x l (a & E & Ha & Hb)]; cbn [drop_while].
  - exists []. repeat split; easy.
  - destruct (p x) eqn:Px.
    + exists (x :: a). repeat split; [cbn; congruence | now constructor | assumption].
    + exists []. repeat split; [constructor|]. intros y b' H. now injection H as <- <-.
Qed.

Lemma drop_while_end_spec p l : exists b, l = drop_while_end p l ++ b /\ Forall (fun x => p x = true) b /\
  (forall x a', drop_while_end p l = a' ++ [x] -> p x = false).
Proof.
  induction l as [|x l (b & E & Hb & Hl)]; cbn [drop_while_end].
  - exists []. repeat split; [constructor|]. intros x a' H. now destruct a'.
  - destruct (drop_while_end p l) as [|y r] eqn:D.
    + cbn in E. subst b. destruct (p x) eqn:Px.
      * exists (x :: l). repeat split; [now constructor|]. intros z a' H. now destruct a'.
      * exists l. repeat split; [assumption|]. intros z a' H.
        destruct a' as [|? [|? ?]]; cbn in H; [|discriminate|discriminate]. now injection H as <-.
    + exists b. repeat split; [cbn; cbn in E; congruence | assumption |].
      intros z a' H. destruct a' as [|w a']; cbn in H; [now injection H|].
      injection H as -> H. eapply Hl. eassumption.
Qed.

Lemma drop_while_end_unique p l m b :
  l = m ++ b -> Forall (fun x => p x = true) b -> (forall x a', m = a' ++ [x] -> p x = false) ->
  drop_while_end p l = m.
Proof.
  revert l b; induction m as [|x m IH]; intros l b -> Hb Hm; cbn [app].
  - clear Hm. induction Hb as [|y b Hy Hb IH]; [reflexivity|]. cbn [drop_while_end app]. rewrite IH, Hy. reflexivity.
  - cbn [drop_while_end]. rewrite (IH (m ++ b) b eq_refl Hb).
    + destruct m; [|reflexivity]. now rewrite (Hm x []).
    + intros y a' H. apply (Hm y (x :: a')). now rewrite H.
Qed.

Lemma drop_while_unique p l a m :
  l = a ++ m -> Forall (fun x => p x = true) a -> (forall x b', m = x :: b' -> p x = false) ->
  drop_while p l = m.
Proof.
  intros -> Ha Hm. induction Ha as [|x a Hx Ha IH]; cbn [drop_while app].
  - destruct m as [|y m]; [reflexivity|]. cbn. now rewrite (Hm y m).
  - now rewrite Hx.
Qed.

Lemma drop_while_end_length p l : (length (drop_while_end p l) <= length l)%nat.
Proof. destruct (drop_while_end_spec p l) as (b & E & _). rewrite E at 2. rewrite app_length. lia. Qed.
Lemma drop_while_length p l : (length (drop_while p l) <= length l)%nat.
Proof. destruct (drop_while_spec p l) as (b & E & _). rewrite E at 2. rewrite app_length. lia. Qed.

Lemma strip_prefix_Some pre l r : strip_prefix pre l = Some r <-> l = pre ++ r.
Proof.
  revert l; induction pre as [|x pre IH]; intros l; cbn [strip_prefix app].
  - split; congruence.
  - destruct l as [|y l]; [easy|]. destruct (x =? y) eqn:E.
    + apply N.eqb_eq in E. subst. rewrite IH. split; congruence.
    + apply N.eqb_neq in E. split; [easy|]. intro H. now injection H as -> ->.
Qed.
Lemma strip_prefix_None pre l : strip_prefix pre l = None <-> forall r, l <> pre ++ r.
Proof.
  split.
  - intros H r E. apply strip_prefix_Some in E. congruence.
  - intro H. destruct (strip_prefix pre l) as [r|] eqn:E; [|reflexivity].
    apply strip_prefix_Some in E. now elim (H r).
Qed.
Lemma starts_with_true pre l : starts_with pre l = true <-> exists r, l = pre ++ r.
Proof.
  unfold starts_with. destruct (strip_prefix pre l) as [r|] eqn:E.
  - apply strip_prefix_Some in E. split; [eauto|easy].
  - rewrite strip_prefix_None in E. split; [easy|]. intros (r & H). now elim (E r).
Qed.
Lemma starts_with_false pre l : starts_with pre l = false <-> forall r, l <> pre ++ r.
Proof.
  unfold starts_with. destruct (strip_prefix pre l) as [r|] eqn:E.
  - apply strip_prefix_Some in E. split; [easy|]. intro H. now elim (H r).
  - now rewrite strip_prefix_None in E.
Qed.

Lemma find_sub_Some n l a b : find_sub n l = Some (a, b) ->
  l = a ++ b /\ (exists r, b = n ++ r) /\ (forall a' a'' , a = a' ++ a'' -> a'' <> [] -> forall r, a'' ++ b <> n ++ r).
Proof.
  revert a b; induction l as [|x l IH]; cbn [find_sub]; intros a b H.
  - destruct (starts_with n []) eqn:S; [|discriminate]. injection H as <- <-.
    apply starts_with_true in S. repeat split; [assumption|]. intros a' a'' E. symmetry in E. apply app_eq_nil in E. now destruct E; subst.
  - destruct (starts_with n (x :: l)) eqn:S.
    + injection H as <- <-. apply starts_with_true in S. repeat split; [assumption|].
      intros a' a'' E. symmetry in E. apply app_eq_nil in E. now destruct E; subst.
    + destruct (find_sub n l) as [[a0 b0]|] eqn:F; [|discriminate]. injection H as <- <-.
      destruct (IH _ _ eq_refl) as (-> & Hb & Hm). repeat split; [assumption|].
      intros a' a'' E Hne r. destruct a' as [|y a'].
      * cbn in E. subst a''. rewrite starts_with_false in S. apply S.
      * injection E as <- E. eapply Hm; eassumption.
Qed.
Lemma find_sub_None n l : find_sub n l = None <-> forall a r, l <> a ++ n ++ r.
Proof.
  induction l as [|x l IH]; cbn [find_sub].
  - destruct (starts_with n []) eqn:S.
    + apply starts_with_true in S as (r & E). split; [easy|]. intro H. now elim (H [] r).
    + split; [|easy]. intros _ a r E. rewrite starts_with_false in S.
      symmetry in E. apply app_eq_nil in E as [-> E]. now elim (S r).
  - destruct (starts_with n (x :: l)) eqn:S.
    + apply starts_with_true in S as (r & E). split; [easy|]. intro H. now elim (H [] r).
    + rewrite starts_with_false in S. destruct (find_sub n l) as [[a0 b0]|] eqn:F.
      * split; [easy|]. intro H. apply find_sub_Some in F as (-> & (r & ->) & _). now elim (H (x :: a0) r).
      * split; [|easy]. intros _ a r E. destruct a as [|y a]; [now elim (S r)|].
        injection E as <- E. destruct IH as [IH _]. now elim (IH eq_refl a r).
Qed.
(** First-occurrence computation for a single-byte needle. *)
Lemma find_sub_byte c a r : ~ In c a -> find_sub [c] (a ++ c :: r) = Some (a, c :: r).
Proof.
  induction a as [|x a IH]; intro H; cbn [find_sub app].
  - unfold starts_with. cbn [strip_prefix]. now rewrite N.eqb_refl.
  - unfold starts_with. cbn [strip_prefix].
    destruct (c =? x) eqn:E; [apply N.eqb_eq in E; subst; elim H; now left|].
    rewrite IH; [reflexivity|]. intro K. apply H. now right.
Qed.
Lemma find_sub_byte_none c a : ~ In c a -> find_sub [c] a = None.
Proof.
  intro H. apply find_sub_None. intros b r ->. apply H. rewrite in_app_iff. right. now left.
Qed.

Lemma split_on_nonempty p l : split_on p l <> [].
Proof. destruct l as [|x l]; cbn [split_on]; [easy|]. destruct (p x); [easy|]. now destruct (split_on p l). Qed.

Lemma split_on_cons_not p x l : p x = false ->
  exists s ss, split_on p l = s :: ss /\ split_on p (x :: l) = (x :: s) :: ss.
Proof.
  intro Px. cbn [split_on]. rewrite Px. destruct (split_on p l) as [|s ss] eqn:E; [now elim (split_on_nonempty p l)|].
  eauto.
Qed.

Lemma split_on_sep p x a b : p x = true -> split_on p (a ++ x :: b) = split_on p a ++ split_on p b.
Proof.
  intro Px. induction a as [|y a IH]; cbn [app].
  - cbn [split_on]. now rewrite Px.
  - destruct (p y) eqn:Py.
    + cbn [split_on]. rewrite Py. cbn [app]. now rewrite IH.
    + destruct (split_on_cons_not p y a Py) as (s & ss & E1 & E2).
      destruct (split_on_cons_not p y (a ++ x :: b) Py) as (s' & ss' & E3 & E4).
      rewrite E2, E4. rewrite IH, E1 in E3. cbn in E3. injection E3 as <- <-. reflexivity.
Qed.
Lemma split_on_none p a : Forall (fun x => p x = false) a -> split_on p a = [a].
Proof.
  induction 1 as [|x a Hx Ha IH]; [reflexivity|]. cbn [split_on]. now rewrite Hx, IH.
Qed.

Lemma split_last_Some p l a b : split_last p l = Some (a, b) ->
  exists c, p c = true /\ l = a ++ c :: b /\ Forall (fun x => p x = false) b.
Proof.
  revert a b; induction l as [|x l IH]; cbn [split_last]; intros a b H; [discriminate|].
  destruct (split_last p l) as [[a' b']|] eqn:E.
  - injection H as <- <-. destruct (IH _ _ eq_refl) as (c & Pc & -> & Hb). now exists c.
  - destruct (p x) eqn:Px; [|discriminate]. injection H as <- <-. exists x. repeat split; [assumption|].
    clear IH. induction l as [|y l IHl]; [constructor|]. cbn [split_last] in E.
    destruct (split_last p l) as [[? ?]|]; [discriminate|]. destruct (p y) eqn:Py; [discriminate|].
    constructor; [assumption|auto].
Qed.
Lemma split_last_None p l : split_last p l = None <-> Forall (fun x => p x = false) l.
Proof.
  induction l as [|x l IH]; cbn [split_last].
  - split; [constructor|reflexivity].
  - destruct (split_last p l) as [[a' b']|] eqn:E.
    + split; [discriminate|]. intro H. inversion H; subst. now destruct IH as [_ IH]; specialize (IH H3).
    + destruct (p x) eqn:Px.
      * split; [discriminate|]. intro H. inversion H; subst. congruence.
      * split; [|reflexivity]. intros _. constructor; [assumption|]. now apply IH.
Qed.
Lemma split_last_app p a c b : p c = true -> Forall (fun x => p x = false) b -> split_last p (a ++ c :: b) = Some (a, b).
Proof.
  intros Pc Hb. induction a as [|x a IH]; cbn [split_last app].
  - rewrite (proj2 (split_last_None p b) Hb), Pc. reflexivity.
  - now rewrite IH.
Qed.

Lemma split_first_Some p l a b : split_first p l = (a, Some b) ->
  exists c, p c = true /\ l = a ++ c :: b /\ Forall (fun x => p x = false) a.
Proof.
  revert a b; induction l as [|x l IH]; cbn [split_first]; intros a b H; [discriminate|].
  destruct (p x) eqn:Px.
  - injection H as <- <-. exists x. repeat split; [assumption|constructor].
  - destruct (split_first p l) as [a' b'] eqn:E. injection H as <- ->.
    destruct (IH _ _ eq_refl) as (c & Pc & -> & Ha). exists c. repeat split; [assumption|]. now constructor.
Qed.
Lemma split_first_None p l a : split_first p l = (a, None) -> l = a /\ Forall (fun x => p x = false) l.
Proof.
  revert a; induction l as [|x l IH]; cbn [split_first]; intros a H.
  - injection H as <-. split; [reflexivity|constructor].
  - destruct (p x) eqn:Px; [discriminate|]. destruct (split_first p l) as [a' b'] eqn:E.
    injection H as <- ->. destruct (IH _ eq_refl) as (<- & Hl). split; [reflexivity|]. now constructor.
Qed.

(** Case. *)
Lemma letter_eq_lower x y : letter_eq x y <-> lower x = lower y.
Proof.
  unfold letter_eq, lower.
  destruct ((65 <=? x) && (x <=? 90)) eqn:?, ((65 <=? y) && (y <=? 90)) eqn:?; lia.
Qed.
Lemma name_eq_lowers a b : name_eq a b <-> lowers a = lowers b.
Proof.
  unfold name_eq, lowers. split.
  - induction 1 as [|x y a b H _ IH]; [reflexivity|]. cbn. apply letter_eq_lower in H. now rewrite H, IH.
  - revert b; induction a as [|x a IH]; intros [|y b] H; try discriminate; constructor.
    + apply letter_eq_lower. cbn in H. congruence.
    + apply IH. cbn in H. congruence.
Qed.
Lemma name_eq_refl a : name_eq a a. Proof. now apply name_eq_lowers. Qed.
Lemma name_eq_sym a b : name_eq a b -> name_eq b a.
Proof. rewrite !name_eq_lowers. congruence. Qed.
Lemma name_eq_trans a b c : name_eq a b -> name_eq b c -> name_eq a c.
Proof. rewrite !name_eq_lowers. congruence. Qed.
Lemma lower_0 x : lower x = 0 <-> x = 0.
Proof. unfold lower. destruct ((65 <=? x) && (x <=? 90)) eqn:?; lia. Qed.
Lemma lower_idem x : lower (lower x) = lower x.
Proof.
  unfold lower. destruct ((65 <=? x) && (x <=? 90)) eqn:?.
  - destruct ((65 <=? x + 32) && (x + 32 <=? 90)) eqn:?; lia.
  - destruct ((65 <=? x) && (x <=? 90)) eqn:?; lia.
Qed.
Lemma strip_prefix_nocase_Some pre l r :
  strip_prefix_nocase pre l = Some r <-> exists w, l = w ++ r /\ name_eq w pre.
Proof.
  revert l; induction pre as [|x pre IH]; intros l; cbn [strip_prefix_nocase].
  - split.
    + injection 1 as ->. exists []. split; [reflexivity|constructor].
    + intros (w & -> & H). inversion H; subst. reflexivity.
  - destruct l as [|y l].
    + split; [easy|]. intros (w & E & H). inversion H; subst. discriminate.
    + destruct (lower x =? lower y) eqn:E.
      * rewrite IH. apply N.eqb_eq in E. split.
        { intros (w & -> & H). exists (y :: w). split; [reflexivity|]. constructor; [|assumption]. now apply letter_eq_lower. }
        { intros (w & E' & H). inversion H as [|y' ? w' ? ? ?]; subst. injection E' as -> ->. eauto. }
      * split; [easy|]. intros (w & E' & H). inversion H as [|y' ? w' ? L ?]; subst. injection E' as -> ->.
        apply letter_eq_lower in L. apply N.eqb_neq in E. congruence.
Qed.

(** nom combinators. *)
Lemma take_while_c_ok p i : exists r v, take_while_c p i = POk r v /\ span p i = (v, r).
Proof. unfold take_while_c. destruct (span p i) as [a b]. eauto. Qed.

Lemma is_digit_spec b : is_digit b = true <-> digit b.
Proof. unfold is_digit, digit. lia. Qed.
Lemma is_hexdigit_spec b : is_hexdigit b = true <-> hexdigit b.
Proof. unfold is_hexdigit, is_digit, hexdigit. lia. Qed.
Lemma is_ascii_ws_spec b : is_ascii_ws b = true <-> ascii_space b.
Proof. unfold is_ascii_ws, ascii_space. lia. Qed.

Lemma Forall_bool_iff (p : N -> bool) (P : N -> Prop) l :
  (forall x, p x = true <-> P x) -> Forall (fun x => p x = true) l <-> Forall P l.
Proof. intro H. split; apply Forall_impl; intros a; apply H. Qed.

(** Bool/Prop run correspondence. *)
Lemma span_max_run (p : N -> bool) (P : N -> Prop) l r rest :
  (forall x, p x = true <-> P x) -> (span p l = (r, rest) <-> max_run P l r rest).
Proof.
  intro H. split.
  - intro E. apply span_spec in E as (-> & Hr & Hx). repeat split.
    + now apply (Forall_bool_iff p P).
    + intros x rest' E Px. apply H in Px. rewrite (Hx _ _ E) in Px. discriminate.
  - intros (-> & Hr & Hx). apply span_app.
    + now apply (Forall_bool_iff p P).
    + intros x b' E. destruct (p x) eqn:Px; [|reflexivity]. apply H in Px. now elim (Hx _ _ E).
Qed.
Lemma max_run_exists (p : N -> bool) (P : N -> Prop) l :
  (forall x, p x = true <-> P x) -> exists r rest, max_run P l r rest.
Proof. intro H. destruct (span p l) as [r rest] eqn:E. exists r, rest. now apply (span_max_run p). Qed.
Lemma max_run_unique P l r rest r' rest' : max_run P l r rest -> max_run P l r' rest' -> r = r' /\ rest = rest'.
Proof.
  intros (-> & Hr & Hx) (E & Hr' & Hx').
  assert (r = r') as ->.
  { revert r' rest' E Hr' Hx'. induction Hr as [|x r Px Hr IH]; intros r' rest' E Hr' Hx'.
    - destruct r' as [|y r']; [reflexivity|]. cbn in E. inversion Hr'; subst. now elim (Hx y (r' ++ rest')).
    - destruct r' as [|y r'].
      + cbn in E. now elim (Hx' x (r ++ rest)).
      + cbn in E. injection E as <- E. inversion Hr'; subst. f_equal. eapply IH; eassumption. }
  split; [reflexivity|]. now apply app_inv_head in E.
Qed.

(** Numerals. *)
Lemma digit_val_10 b : digit b -> digit_val 10 b = Some (b - 48).
Proof. unfold digit, digit_val, is_digit. intro H. replace ((48 <=? b) && (b <=? 57)) with true by lia. cbn. replace (b - 48 <? 10) with true by lia. reflexivity. Qed.
Lemma digit_val_16 b : hexdigit b -> digit_val 16 b = Some (hex_digit_value b).
Proof.
  unfold hexdigit, digit_val, is_digit, hex_digit_value. intro H.
  destruct ((48 <=? b) && (b <=? 57)) eqn:E1; [|destruct ((65 <=? b) && (b <=? 90)) eqn:E2; [|destruct ((97 <=? b) && (b <=? 122)) eqn:E3]].
  - replace (b <=? 57) with true by lia. cbn. replace (b - 48 <? 16) with true by lia. reflexivity.
  - replace (b <=? 57) with false by lia. replace (b <=? 70) with true by lia. cbn. replace (b - 55 <? 16) with true by lia. reflexivity.
  - replace (b <=? 57) with false by lia. replace (b <=? 70) with false by lia. cbn. replace (b - 87 <? 16) with true by lia. reflexivity.
  - lia.
Qed.

Section Digits.
  Variables (radix : N) (P : N -> Prop) (val : N -> N).
  Hypothesis Hval : forall b, P b -> digit_val radix b = Some (val b).
  Hypothesis Hradix : 1 <= radix.
  Let value acc l := fold_left (fun acc b => acc * radix + val b) l acc.
  Lemma value_ge acc l : acc <= value acc l.
  Proof.
    unfold value. revert acc; induction l as [|b l IH]; intro acc; cbn [fold_left]; [lia|].
    eapply N.le_trans; [|apply IH]. nia.
  Qed.
  Lemma parse_digits_value max acc l : Forall P l -> acc <= max ->
    parse_digits radix max acc l = if value acc l <=? max then Some (value acc l) else None.
  Proof.
    intros Hl. revert acc; induction Hl as [|b l Hb Hl IH]; intros acc Hacc; cbn [parse_digits].
    - unfold value; cbn. replace (acc <=? max) with true by lia. reflexivity.
    - rewrite (Hval b Hb). cbn zeta. unfold value; cbn [fold_left]. fold (value (acc * radix + val b) l).
      destruct (max <? acc * radix + val b) eqn:E.
      + pose proof (value_ge (acc * radix + val b) l). replace (value (acc * radix + val b) l <=? max) with false by lia. reflexivity.
      + apply IH. lia.
  Qed.
End Digits.

Lemma parse_uint_dec max l : l <> [] -> Forall digit l ->
  parse_uint 10 max l = if dec_value l <=? max then Some (dec_value l) else None.
Proof.
  intros Hne H. unfold parse_uint, dec_value. destruct l as [|b l]; [easy|].
  replace (b =? 43) with false by (inversion H; subst; unfold digit in *; lia).
  apply (parse_digits_value 10 digit (fun b => b - 48) digit_val_10); [lia|assumption|lia].
Qed.
Lemma parse_uint_hex max l : l <> [] -> Forall hexdigit l ->
  parse_uint 16 max l = if hex_value l <=? max then Some (hex_value l) else None.
Proof.
  intros Hne H. unfold parse_uint, hex_value. destruct l as [|b l]; [easy|].
  replace (b =? 43) with false by (inversion H; subst; unfold hexdigit in *; lia).
  apply (parse_digits_value 16 hexdigit hex_digit_value digit_val_16); [lia|assumption|lia].
Qed.
