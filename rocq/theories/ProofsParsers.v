(** Proofs about util.rs and parsers.rs. *)
From Verif Require Import Base Spec ModelUtil ModelBstr ModelParsers ProofsBase ProofsBstr.

(** ** Lines (C03). *)
Lemma take_till_incl_s_spec p data :
  (forall rest line, take_till_incl_s p data = POk rest line <->
     data = line ++ rest /\ exists l c, line = l ++ [c] /\ p c = true /\ Forall (fun x => p x = false) l)
  /\ (take_till_incl_s p data = PInc <-> Forall (fun x => p x = false) data)
  /\ take_till_incl_s p data <> PErr.
Proof.
  unfold take_till_incl_s, take_till_s, take_while_s.
  destruct (span (fun b => negb (p b)) data) as [l r] eqn:E.
  pose proof (span_spec _ _ _ _ E) as (-> & Hl & Hr).
  assert (Hl' : Forall (fun x => p x = false) l).
  { eapply Forall_impl; [|exact Hl]. intros a Ha. now apply negb_true_iff. }
  destruct r as [|c r].
  - repeat split; try discriminate.
    + intros (E1 & l' & c & -> & Pc & Hl2). rewrite app_nil_r in E1. subst l.
      apply Forall_app in Hl' as [Hl' _]. apply Forall_app in Hl' as [_ Hl']. inversion Hl'; subst. congruence.
    + now rewrite app_nil_r.
  - assert (Pc : p c = true) by (specialize (Hr c r eq_refl); now apply negb_false_iff).
    replace (skipn (S (length l)) (l ++ c :: r)) with r
      by (rewrite skipn_app, skipn_all2 by lia; replace (S (length l) - length l)%nat with 1%nat by lia; reflexivity).
    replace (firstn (S (length l)) (l ++ c :: r)) with (l ++ [c])
      by (rewrite firstn_app, firstn_all2 by lia; replace (S (length l) - length l)%nat with 1%nat by lia; reflexivity).
    repeat split; try discriminate.
    + injection H as <- <-. now rewrite <- app_assoc.
    + injection H as <- <-. exists l, c. auto.
    + intros (E1 & l' & c' & -> & Pc' & Hl2).
      assert (R1 : max_run (fun x => p x = false) (l ++ c :: r) l (c :: r)).
      { repeat split; [assumption|]. intros x rr Hx. injection Hx as <- _. congruence. }
      assert (R2 : max_run (fun x => p x = false) (l ++ c :: r) l' (c' :: rest)).
      { repeat split; [rewrite E1, <- app_assoc; reflexivity|assumption|]. intros x rr Hx. injection Hx as <- _. congruence. }
      destruct (max_run_unique _ _ _ _ _ _ R1 R2) as [-> K]. now injection K as -> ->.
    + intro H. apply Forall_app in H as [_ H]. inversion H; subst. congruence.
Qed.

Lemma take_till_lf_spec data :
  (forall rest line, take_till_lf data = POk rest line <-> data = line ++ rest /\ exists l, line = l ++ [10] /\ ~ In 10 l)
  /\ (take_till_lf data = PInc <-> ~ In 10 data) /\ take_till_lf data <> PErr.
Proof.
  unfold take_till_lf. destruct (take_till_incl_s_spec (fun c => c =? 10) data) as (H1 & H2 & H3).
  assert (K : forall l, Forall (fun x => (x =? 10) = false) l <-> ~ In 10 l).
  { intro l. rewrite Forall_forall. split.
    - intros H I. specialize (H _ I). discriminate.
    - intros H x I. apply N.eqb_neq. congruence. }
  repeat split; try assumption.
  - apply H1 in H as [H _]. exact H.
  - apply H1 in H as (_ & l & c & -> & Pc & Hl). apply N.eqb_eq in Pc. subst c. exists l. split; [reflexivity|now apply K].
  - intros (E & l & -> & Hl). apply H1. split; [exact E|]. exists l, 10. repeat split. now apply K.
  - intro H. apply K. now apply H2.
  - intro H. apply H2. now apply K.
Qed.

Lemma take_till_lf_null_spec data :
  (forall rest line, take_till_lf_null data = POk rest line <->
     data = line ++ rest /\ exists l c, line = l ++ [c] /\ (c = 10 \/ c = 0) /\ ~ In 10 l /\ ~ In 0 l)
  /\ (take_till_lf_null data = PInc <-> ~ In 10 data /\ ~ In 0 data) /\ take_till_lf_null data <> PErr.
Proof.
  unfold take_till_lf_null. destruct (take_till_incl_s_spec (fun c => (c =? 10) || (c =? 0)) data) as (H1 & H2 & H3).
  assert (K : forall l, Forall (fun x => ((x =? 10) || (x =? 0)) = false) l <-> ~ In 10 l /\ ~ In 0 l).
  { intro l. rewrite Forall_forall. split.
    - intro H. split; intros I; specialize (H _ I); discriminate.
    - intros [Ha Hb] x I. apply orb_false_iff. split; apply N.eqb_neq; congruence. }
  repeat split; try assumption.
  - apply H1 in H as [H _]. exact H.
  - apply H1 in H as (_ & l & c & -> & Pc & Hl). exists l, c. apply K in Hl as [? ?]. repeat split; try assumption. lia.
  - intros (E & l & c & -> & Hc & Hl). apply H1. split; [exact E|]. exists l, c. repeat split; [lia|]. now apply K.
  - apply H2 in H. now apply K in H.
  - apply H2 in H. now apply K in H.
  - intro H. apply H2. now apply K.
Qed.

Lemma chomp_spec l : exists t, l = chomp l ++ t /\ Forall (fun b => b = 10 \/ b = 13) t /\
  (forall x a, chomp l = a ++ [x] -> x <> 10 /\ x <> 13).
Proof.
  destruct (drop_while_end_spec (fun b => (b =? 10) || (b =? 13)) l) as (b & E & Hb & He).
  exists b. repeat split; [exact E| | |].
  - eapply Forall_impl; [|exact Hb]. cbn. intros a Ha. lia.
  - specialize (He _ _ H). cbn in He. lia.
  - specialize (He _ _ H). cbn in He. lia.
Qed.
Lemma is_space_spec b : is_space b = true <-> c_space b.
Proof. unfold is_space, c_space, ascii_space. lia. Qed.
Lemma trimmed_spec l : trims_to c_space l (trimmed l).
Proof. apply (trim_both_spec is_space). apply is_space_spec. Qed.

(** ** End of line (C04). *)
Lemma take_till_s_app p a more r v : take_till_s p a = POk r v -> take_till_s p (a ++ more) = POk (r ++ more) v.
Proof.
  unfold take_till_s, take_while_s. destruct (span (fun b => negb (p b)) a) as [x y] eqn:E. destruct y as [|c y]; [discriminate|].
  intro H; injection H as <- <-. apply span_spec in E as (-> & Hx & Hc).
  rewrite <- app_assoc. rewrite span_app; [reflexivity|assumption|]. cbn. intros z b' K. injection K as <- _. exact (Hc _ _ eq_refl).
Qed.

Ltac eqbs := repeat match goal with |- context [?a =? ?b] =>
  let v := eval vm_compute in (a =? b) in
  match v with true => change (a =? b) with true | false => change (a =? b) with false end end.
Ltac eolx := unfold eol_alternatives, p_alt, pbind, p_not, p_peek, tag_s, pret; cbn [tag_s_aux app]; eqbs; cbv iota; cbn [tag_s_aux app]; eqbs; cbv iota.
Lemma eol_alternatives_cases d : (forall x d', d = x :: d' -> x = 10 \/ x = 13) ->
  match eol_alternatives d with
  | POk r e => d = e ++ r /\ eol_bytes e /\ forall more, eol_alternatives (d ++ more) = POk (r ++ more) e
  | PErr => False
  | PInc => d = [] \/ d = [10] \/ d = [13] \/ d = [10; 13]
  end.
Proof.
  intro Hd. destruct d as [|x d]; [now left|].
  destruct (Hd x d eq_refl) as [-> | ->]; clear Hd.
  - destruct d as [|y d]; [eolx; auto|].
    destruct (N.eq_dec y 13) as [->|Hy].
    + destruct d as [|z d]; [eolx; auto|].
      destruct (N.eq_dec z 10) as [->|Hz].
      * eolx. repeat split; constructor.
      * eolx. replace (10 =? z) with false by lia. repeat split; constructor.
    + eolx. replace (13 =? y) with false by lia. repeat split; constructor.
  - destruct d as [|y d]; [eolx; auto|].
    destruct (N.eq_dec y 10) as [->|Hy].
    + eolx. repeat split; constructor.
    + eolx. replace (10 =? y) with false by lia. repeat split; constructor.
Qed.

Definition eol_kind_bytes (k : eol) : bytes :=
  match k with EolNone => [] | EolLF => [10] | EolCR => [13] | EolCRLF => [13; 10] | EolLFCR => [10; 13] end.

Lemma take_till_eol_cases data :
  match take_till_eol data with
  | POk rest (line, k) =>
      (exists l, data = line ++ rest /\ line = l ++ eol_kind_bytes k /\ k <> EolNone /\ ~ In 10 l /\ ~ In 13 l)
      /\ forall more, take_till_eol (data ++ more) = POk (rest ++ more) (line, k)
  | PErr => False
  | PInc => exists l t, data = l ++ t /\ ~ In 10 l /\ ~ In 13 l /\ (t = [] \/ t = [10] \/ t = [13] \/ t = [10; 13])
  end.
Proof.
  unfold take_till_eol, pbind.
  destruct (take_till_s (fun c => (c =? 10) || (c =? 13)) data) as [r l| |] eqn:E.
  - pose proof (fun more => take_till_s_app _ _ more _ _ E) as Eapp.
    unfold take_till_s, take_while_s in E.
    destruct (span (fun b => negb ((b =? 10) || (b =? 13))) data) as [x y] eqn:S. destruct y as [|c y]; [discriminate|].
    injection E as <- <-. apply span_spec in S as (-> & Hx & Hc).
    assert (Nx : ~ In 10 x /\ ~ In 13 x).
    { rewrite Forall_forall in Hx. split; intro I; specialize (Hx _ I); discriminate. }
    assert (Hstart : forall z d', c :: y = z :: d' -> z = 10 \/ z = 13).
    { intros z d' K. injection K as <- _. specialize (Hc _ _ eq_refl). lia. }
    pose proof (eol_alternatives_cases (c :: y) Hstart) as H.
    destruct (eol_alternatives (c :: y)) as [r e| |] eqn:Ea; [|easy|].
    + destruct H as (Ed & He & Hm). unfold pret.
      assert (G : forall k, e = eol_kind_bytes k -> k <> EolNone ->
        (exists l, x ++ c :: y = firstn (length x + length e) (x ++ c :: y) ++ skipn (length x + length e) (x ++ c :: y) /\
           firstn (length x + length e) (x ++ c :: y) = l ++ eol_kind_bytes k /\ k <> EolNone /\ ~ In 10 l /\ ~ In 13 l)
        /\ forall more, skipn (length x + length e) ((x ++ c :: y) ++ more) = skipn (length x + length e) (x ++ c :: y) ++ more
            /\ firstn (length x + length e) ((x ++ c :: y) ++ more) = firstn (length x + length e) (x ++ c :: y)).
      { intros k Hk Hkn. split.
        - exists x. destruct Nx. repeat split; try assumption; [now rewrite firstn_skipn|].
          rewrite Ed, app_assoc, firstn_app, firstn_all2 by (rewrite app_length; lia).
          replace (length x + length e - length (x ++ e))%nat with 0%nat by (rewrite app_length; lia). cbn. rewrite app_nil_r. now rewrite Hk.
        - intro more. assert (Hlen : (length x + length e <= length (x ++ c :: y))%nat) by (rewrite Ed, !app_length; lia).
          rewrite skipn_app, firstn_app. replace (length x + length e - length (x ++ c :: y))%nat with 0%nat by lia. cbn.
          now rewrite app_nil_r. }
      assert (Gm : forall more, (match take_till_s (fun c0 => (c0 =? 10) || (c0 =? 13)) ((x ++ c :: y) ++ more) with
                 | POk r0 v => match eol_alternatives r0 with POk r1 v0 => POk r1 (v, v0) | PErr => PErr | PInc => PInc end
                 | PErr => PErr | PInc => PInc end) = POk (r ++ more) (x, e)).
      { intro more. rewrite Eapp, Hm. reflexivity. }
      inversion He; subst e; cbn [bytes_eqb];
        repeat match goal with |- context [?a =? ?b] => change (a =? b) with true || change (a =? b) with false end; cbn [andb].
      * destruct (G EolLF eq_refl ltac:(discriminate)) as [G1 G2]. split; [exact G1|]. intro more. rewrite Gm. cbn [length] in G2. cbn.
        destruct (G2 more) as [-> ->]. reflexivity.
      * destruct (G EolCR eq_refl ltac:(discriminate)) as [G1 G2]. split; [exact G1|]. intro more. rewrite Gm. cbn [length] in G2. cbn.
        destruct (G2 more) as [-> ->]. reflexivity.
      * destruct (G EolCRLF eq_refl ltac:(discriminate)) as [G1 G2]. split; [exact G1|]. intro more. rewrite Gm. cbn [length] in G2. cbn.
        destruct (G2 more) as [-> ->]. reflexivity.
      * destruct (G EolLFCR eq_refl ltac:(discriminate)) as [G1 G2]. split; [exact G1|]. intro more. rewrite Gm. cbn [length] in G2. cbn.
        destruct (G2 more) as [-> ->]. reflexivity.
    + destruct H as [K|K]; [discriminate|]. exists x, (c :: y). destruct Nx. repeat split; try assumption. auto.
  - unfold take_till_s, take_while_s in E. destruct (span _ data) as [x [|c y]]; discriminate.
  - unfold take_till_s, take_while_s in E. destruct (span _ data) as [x [|c y]] eqn:S; [|discriminate].
    apply span_spec in S as (-> & Hx & _). exists x, []. rewrite Forall_forall in Hx.
    repeat split; [intro I; specialize (Hx _ I); discriminate|intro I; specialize (Hx _ I); discriminate|now left].
Qed.

Lemma take_till_eol_stable data more rest line k :
  take_till_eol data = POk rest (line, k) -> take_till_eol (data ++ more) = POk (rest ++ more) (line, k).
Proof. intro H. pose proof (take_till_eol_cases data) as K. rewrite H in K. now destruct K. Qed.
Lemma take_till_eol_shape data rest line k : take_till_eol data = POk rest (line, k) ->
  exists l, data = line ++ rest /\ line = l ++ eol_kind_bytes k /\ k <> EolNone /\ ~ In 10 l /\ ~ In 13 l.
Proof. intro H. pose proof (take_till_eol_cases data) as K. rewrite H in K. now destruct K. Qed.
Lemma take_till_eol_no_error data : take_till_eol data <> PErr.
Proof. intro H. pose proof (take_till_eol_cases data) as K. now rewrite H in K. Qed.
Lemma take_till_eol_extend data : take_till_eol data = PInc -> exists more r, take_till_eol (data ++ more) = r /\ r <> PInc.
Proof.
  intro H. pose proof (take_till_eol_cases data) as K. rewrite H in K. destruct K as (l & t & -> & H10 & H13 & Ht).
  set (tail := match t with [10] => [88] | [13] => [10] | [10; 13] => [88] | _ => [10; 88] end).
  exists tail, (take_till_eol ((l ++ t) ++ tail)). split; [reflexivity|]. intro C.
  pose proof (take_till_eol_cases ((l ++ t) ++ tail)) as K. rewrite C in K. destruct K as (l' & t' & E & H10' & H13' & Ht').
  assert (R : forall l t, ~ In 10 l -> ~ In 13 l -> forall x r, t = x :: r -> x = 10 \/ x = 13 ->
             max_run (fun b => b <> 10 /\ b <> 13) (l ++ t) l t).
  { intros l0 t0 A B x r -> Hx. repeat split.
    - apply Forall_forall. intros z I. split; intro; subst; contradiction.
    - intros z r' Z. injection Z as <- <-. lia. }
  assert (Hfull : exists x r, t ++ tail = x :: r /\ (x = 10 \/ x = 13)).
  { subst tail. destruct Ht as [->|[->|[->| ->]]]; cbn; eauto. }
  destruct Hfull as (x & r & Ef & Hx).
  rewrite <- app_assoc in E.
  pose proof (R l (t ++ tail) H10 H13 x r Ef Hx) as R1.
  destruct Ht' as [->|Ht'].
  - rewrite app_nil_r in E. assert (In x l') by (rewrite <- E, Ef; apply in_app_iff; right; now left).
    destruct Hx; subst; contradiction.
  - assert (exists x' r', t' = x' :: r' /\ (x' = 10 \/ x' = 13)) as (x' & r' & Et' & Hx') by (destruct Ht' as [->|[->| ->]]; eauto).
    pose proof (R l' t' H10' H13' x' r' Et' Hx') as R2. rewrite <- E in R2.
    destruct (max_run_unique _ _ _ _ _ _ R1 R2) as [_ K].
    subst tail. destruct Ht as [->|[->|[->| ->]]]; cbn in K; destruct Ht' as [->|[->| ->]]; discriminate.
Qed.

(** ** Numbers (C05-C09). *)
Lemma nom_is_space_spec b : nom_is_space b = true <-> sp_or_tab b.
Proof. unfold nom_is_space, sp_or_tab. lia. Qed.

Lemma ascii_digits_cases v :
  match ascii_digits v with
  | POk trailing (leading, ds) =>
      exists a b, v = a ++ leading ++ ds ++ b ++ trailing /\ Forall sp_or_tab a /\ Forall (fun x => ~ digit x) leading
        /\ ds <> [] /\ Forall digit ds /\ Forall sp_or_tab b
        /\ (forall x r, leading ++ ds ++ b ++ trailing = x :: r -> ~ sp_or_tab x)
        /\ (forall x r, b ++ trailing = x :: r -> ~ digit x)
        /\ (forall x r, trailing = x :: r -> ~ sp_or_tab x)
  | PErr => Forall (fun x => ~ digit x) v
  | PInc => False
  end.
Proof.
  unfold ascii_digits, pbind, nom_take_is_space, take_while_c.
  destruct (span nom_is_space v) as [a v1] eqn:S1. apply span_spec in S1 as (-> & Ha & Hv1).
  destruct (span (fun c => negb (is_digit c)) v1) as [leading v2] eqn:S2. apply span_spec in S2 as (-> & Hl & Hv2).
  assert (Hl' : Forall (fun x => ~ digit x) leading).
  { eapply Forall_impl; [|exact Hl]. cbn. intros x Hx. rewrite <- is_digit_spec. destruct (is_digit x); easy. }
  assert (Ha' : Forall sp_or_tab a) by (now apply (Forall_bool_iff nom_is_space _ _ nom_is_space_spec)).
  unfold take_while1_c. destruct (span is_digit v2) as [ds v3] eqn:S3. pose proof (span_spec _ _ _ _ S3) as (-> & Hd & Hv3).
  destruct ds as [|d ds].
  - cbn in *. rewrite !Forall_app. repeat split.
    + eapply Forall_impl; [|exact Ha']. unfold sp_or_tab, digit. lia.
    + exact Hl'.
    + destruct v3 as [|x v3]; [constructor|]. specialize (Hv2 x v3 eq_refl). specialize (Hv3 x v3 eq_refl).
      rewrite Hv3 in Hv2. discriminate.
  - destruct (span nom_is_space v3) as [b trailing] eqn:S4. apply span_spec in S4 as (-> & Hb & Ht). unfold pret.
    exists a, b. repeat split.
    + exact Ha'. + exact Hl'. + discriminate.
    + now apply (Forall_bool_iff is_digit _ _ is_digit_spec).
    + now apply (Forall_bool_iff nom_is_space _ _ nom_is_space_spec).
    + intros x r E. rewrite <- nom_is_space_spec. rewrite (Hv1 x r E). discriminate.
    + intros x r E. rewrite <- is_digit_spec. rewrite (Hv3 x r E). discriminate.
    + intros x r E. rewrite <- nom_is_space_spec. rewrite (Ht x r E). discriminate.
Qed.

Lemma first_digit_run_unique v ds ds' : first_digit_run v ds -> first_digit_run v ds' -> ds = ds'.
Proof.
  intros (j & r & -> & Hj & Hne & Hd & Hr) (j' & r' & E & Hj' & Hne' & Hd' & Hr').
  assert (R1 : max_run (fun x => ~ digit x) (j ++ ds ++ r) j (ds ++ r)).
  { repeat split; [assumption|]. intros x q Hx. destruct ds; [easy|]. injection Hx as <- _. inversion Hd; subst. auto. }
  assert (R2 : max_run (fun x => ~ digit x) (j ++ ds ++ r) j' (ds' ++ r')).
  { repeat split; [assumption|assumption|]. intros x q Hx. destruct ds'; [easy|]. injection Hx as <- _. inversion Hd'; subst. auto. }
  destruct (max_run_unique _ _ _ _ _ _ R1 R2) as [_ E2].
  assert (R3 : max_run digit (ds ++ r) ds r) by (repeat split; assumption).
  assert (R4 : max_run digit (ds ++ r) ds' r') by (repeat split; assumption).
  now destruct (max_run_unique _ _ _ _ _ _ R3 R4).
Qed.

Lemma parse_content_length_value v n :
  fst (parse_content_length v) = Some n <->
  exists ds, first_digit_run v ds /\ dec_value ds = n /\ n < 2 ^ 64.
Proof.
  unfold parse_content_length. pose proof (ascii_digits_cases v) as H.
  destruct (ascii_digits v) as [trailing [leading ds]| |]; cbn [fst].
  - destruct H as (a & b & E & Ha & Hl & Hne & Hd & Hb & H1 & H2 & H3).
    assert (F : first_digit_run v ds).
    { exists (a ++ leading), (b ++ trailing). repeat split; try assumption.
      - rewrite E, !app_assoc. reflexivity.
      - apply Forall_app. split; [|assumption]. eapply Forall_impl; [|exact Ha]. unfold sp_or_tab, digit. lia. }
    rewrite (parse_uint_dec u64_max ds Hne Hd). change (2 ^ 64) with (u64_max + 1).
    split.
    + intro K. exists ds. destruct (dec_value ds <=? u64_max) eqn:L; [|discriminate]. injection K as <-. repeat split; [assumption|lia].
    + intros (ds' & F' & <- & Hn). rewrite (first_digit_run_unique _ _ _ F' F) in *. replace (dec_value ds <=? u64_max) with true by lia. reflexivity.
  - split; [discriminate|]. intros (ds & (j & r & -> & Hj & Hne & Hd & _) & _).
    rewrite !Forall_app in H. destruct H as (_ & H & _). destruct ds as [|d ds]; [easy|]. inversion H; inversion Hd; subst. contradiction.
  - easy.
Qed.
Lemma parse_content_length_none v :
  fst (parse_content_length v) = None <->
  Forall (fun b => ~ digit b) v \/ exists ds, first_digit_run v ds /\ 2 ^ 64 <= dec_value ds.
Proof.
  unfold parse_content_length. pose proof (ascii_digits_cases v) as H.
  destruct (ascii_digits v) as [trailing [leading ds]| |]; cbn [fst].
  - destruct H as (a & b & E & Ha & Hl & Hne & Hd & Hb & H1 & H2 & H3).
    assert (F : first_digit_run v ds).
    { exists (a ++ leading), (b ++ trailing). repeat split; try assumption.
      - rewrite E, !app_assoc. reflexivity.
      - apply Forall_app. split; [|assumption]. eapply Forall_impl; [|exact Ha]. unfold sp_or_tab, digit. lia. }
    rewrite (parse_uint_dec u64_max ds Hne Hd). change (2 ^ 64) with (u64_max + 1). split.
    + intro K. right. exists ds. destruct (dec_value ds <=? u64_max) eqn:L; [discriminate|]. split; [assumption|lia].
    + intros [K|(ds' & F' & Hn)].
      * rewrite E, !Forall_app in K. destruct K as (_ & _ & K & _). destruct ds as [|d ds]; [easy|]. inversion K; inversion Hd; subst. contradiction.
      * rewrite (first_digit_run_unique _ _ _ F' F) in *. replace (dec_value ds <=? u64_max) with false by lia. reflexivity.
  - split; [intros _; now left|reflexivity].
  - easy.
Qed.

Lemma is_chunked_ctl_char_spec b : is_chunked_ctl_char b = true <-> chunk_ctl b.
Proof. unfold is_chunked_ctl_char, chunk_ctl. lia. Qed.

Lemma chunk_line_exists line : exists hex trail, chunk_line line hex trail.
Proof.
  destruct (max_run_exists is_chunked_ctl_char chunk_ctl line is_chunked_ctl_char_spec) as (ctl & r1 & R1).
  destruct (max_run_exists is_hexdigit hexdigit r1 is_hexdigit_spec) as (hex & r2 & R2).
  destruct (max_run_exists nom_is_space sp_or_tab r2 nom_is_space_spec) as (bl & trail & R3).
  exists hex, trail, ctl, r1, bl, r2. auto.
Qed.
Lemma chunk_line_hex_front line hex trail : chunk_line line hex trail ->
  (plet _c := take_chunked_ctl_chars in hex_digits) line = POk trail hex /\ Forall hexdigit hex.
Proof.
  intros (ctl & r1 & bl & r2 & R1 & R2 & R3).
  unfold pbind, take_chunked_ctl_chars, hex_digits, pbind, nom_take_is_space, take_while_c, pret.
  rewrite (proj2 (span_max_run _ _ _ _ _ is_chunked_ctl_char_spec) R1).
  assert (S : span nom_is_space r1 = ([], r1)).
  { destruct r1 as [|x r1]; [reflexivity|]. cbn. destruct (nom_is_space x) eqn:K; [|reflexivity].
    destruct R1 as (_ & _ & R1). exfalso. apply (R1 x r1 eq_refl). apply nom_is_space_spec in K. unfold sp_or_tab, chunk_ctl in *. lia. }
  rewrite S, (proj2 (span_max_run _ _ _ _ _ is_hexdigit_spec) R2), (proj2 (span_max_run _ _ _ _ _ nom_is_space_spec) R3).
  split; [reflexivity|]. now destruct R2 as (_ & R2 & _).
Qed.
Lemma parse_chunked_length_cases line hex trail : chunk_line line hex trail ->
  parse_chunked_length line =
    if (length hex =? 0)%nat then (if (length trail =? 0)%nat then Some (None, false) else None)
    else if hex_value hex <=? i32_max then Some (Some (hex_value hex), memb 59 trail)
    else if hex_value hex <=? u64_max then Some (None, false) else None.
Proof.
  intro C. destruct (chunk_line_hex_front _ _ _ C) as [E Hh]. unfold parse_chunked_length. rewrite E.
  destruct hex as [|h hex].
  - cbn [length]. rewrite andb_true_r. change (0 =? 0)%nat with true. destruct (length trail =? 0)%nat; reflexivity.
  - rewrite andb_comm. cbn [length]. change (S (length hex) =? 0)%nat with false. cbn [andb].
    rewrite parse_uint_hex by (easy || assumption).
    assert (i32_max < u64_max) by reflexivity.
    destruct (hex_value (h :: hex) <=? u64_max) eqn:L1; destruct (hex_value (h :: hex) <=? i32_max) eqn:L2.
    + replace (i32_max <? hex_value (h :: hex)) with false by lia. reflexivity.
    + replace (i32_max <? hex_value (h :: hex)) with true by lia. reflexivity.
    + lia.
    + reflexivity.
Qed.

Lemma length0_nil {A} (l : list A) : (length l =? 0)%nat = true <-> l = [].
Proof. destruct l; cbn; split; congruence. Qed.

Lemma parse_chunked_length_value line n ext :
  parse_chunked_length line = Some (Some n, ext) <->
  exists hex trail, chunk_line line hex trail /\ hex <> [] /\ hex_value hex = n /\ n <= 2 ^ 31 - 1 /\ (ext = true <-> In 59 trail).
Proof.
  change (2 ^ 31 - 1) with i32_max. split.
  - intro H. destruct (chunk_line_exists line) as (hex & trail & C). exists hex, trail. split; [assumption|].
    rewrite (parse_chunked_length_cases _ _ _ C) in H.
    destruct (length hex =? 0)%nat eqn:L; [destruct (length trail =? 0)%nat; discriminate|].
    assert (hex <> []) by (rewrite <- length0_nil; congruence).
    destruct (hex_value hex <=? i32_max) eqn:V; [|destruct (hex_value hex <=? u64_max); discriminate].
    injection H as <- <-. repeat split; try assumption; try lia; apply memb_In.
  - intros (hex & trail & C & Hne & <- & Hn & Hext). rewrite (parse_chunked_length_cases _ _ _ C).
    replace (length hex =? 0)%nat with false by (symmetry; apply not_true_is_false; now rewrite length0_nil).
    replace (hex_value hex <=? i32_max) with true by lia. do 2 f_equal.
    rewrite <- memb_In in Hext. destruct ext, (memb 59 trail); try reflexivity; destruct Hext as [A B]; [now specialize (A eq_refl)|now specialize (B eq_refl)].
Qed.
Lemma parse_chunked_length_absent line b :
  parse_chunked_length line = Some (None, b) <->
  b = false /\ exists hex trail, chunk_line line hex trail /\
    ((hex = [] /\ trail = []) \/ (hex <> [] /\ 2 ^ 31 <= hex_value hex < 2 ^ 64)).
Proof.
  change (2 ^ 31) with (i32_max + 1). change (2 ^ 64) with (u64_max + 1). split.
  - intro H. destruct (chunk_line_exists line) as (hex & trail & C).
    rewrite (parse_chunked_length_cases _ _ _ C) in H.
    destruct (length hex =? 0)%nat eqn:L.
    + apply length0_nil in L. destruct (length trail =? 0)%nat eqn:L2; [|discriminate]. apply length0_nil in L2. injection H as <-.
      split; [reflexivity|]. exists hex, trail. auto.
    + assert (hex <> []) by (rewrite <- length0_nil; congruence).
      destruct (hex_value hex <=? i32_max) eqn:V; [discriminate|]. destruct (hex_value hex <=? u64_max) eqn:V2; [|discriminate].
      injection H as <-. split; [reflexivity|]. exists hex, trail. split; [assumption|]. right. split; [assumption|lia].
  - intros (-> & hex & trail & C & D). rewrite (parse_chunked_length_cases _ _ _ C). destruct D as [[-> ->]|[Hne Hn]]; [reflexivity|].
    replace (length hex =? 0)%nat with false by (symmetry; apply not_true_is_false; now rewrite length0_nil).
    replace (hex_value hex <=? i32_max) with false by lia. replace (hex_value hex <=? u64_max) with true by lia. reflexivity.
Qed.
Lemma parse_chunked_length_error line :
  parse_chunked_length line = None <->
  exists hex trail, chunk_line line hex trail /\ ((hex = [] /\ trail <> []) \/ 2 ^ 64 <= hex_value hex).
Proof.
  change (2 ^ 64) with (u64_max + 1). split.
  - intro H. destruct (chunk_line_exists line) as (hex & trail & C). exists hex, trail. split; [assumption|].
    rewrite (parse_chunked_length_cases _ _ _ C) in H.
    destruct (length hex =? 0)%nat eqn:L.
    + apply length0_nil in L. destruct (length trail =? 0)%nat eqn:L2; [discriminate|]. left. split; [assumption|]. rewrite <- length0_nil. congruence.
    + destruct (hex_value hex <=? i32_max) eqn:V; [discriminate|]. destruct (hex_value hex <=? u64_max) eqn:V2; [discriminate|]. right. lia.
  - intros (hex & trail & C & D). rewrite (parse_chunked_length_cases _ _ _ C). destruct D as [[-> Hne]|Hn].
    + cbn. destruct trail; [easy|reflexivity].
    + assert (hex <> []) by (intros ->; cbn in Hn; lia).
      replace (length hex =? 0)%nat with false by (symmetry; apply not_true_is_false; now rewrite length0_nil).
      assert (i32_max < u64_max) by reflexivity.
      replace (hex_value hex <=? i32_max) with false by lia. replace (hex_value hex <=? u64_max) with false by lia. reflexivity.
Qed.

Lemma parse_status_spec s n :
  parse_status s = Some n <->
  exists a ds b, s = a ++ ds ++ b /\ Forall sp_or_tab a /\ Forall sp_or_tab b /\ ds <> [] /\ Forall digit ds
    /\ dec_value ds = n /\ 100 <= n <= 999.
Proof.
  unfold parse_status. split.
  - pose proof (ascii_digits_cases s) as H. destruct (ascii_digits s) as [trailing [leading ds]| |]; [|discriminate|easy].
    destruct H as (a & b & E & Ha & Hl & Hne & Hd & Hb & _).
    destruct (length trailing =? 0)%nat eqn:L1; [|discriminate]. apply length0_nil in L1. subst trailing.
    destruct (length leading =? 0)%nat eqn:L2; [|discriminate]. apply length0_nil in L2. subst leading.
    cbn [negb orb]. rewrite (parse_uint_dec u16_max ds Hne Hd). destruct (dec_value ds <=? u16_max); [|discriminate].
    destruct ((100 <=? dec_value ds) && (dec_value ds <=? 999)) eqn:R; [|discriminate]. intro K. injection K as <-.
    exists a, ds, b. cbn in E. rewrite app_nil_r in E. repeat split; try assumption; lia.
  - intros (a & ds & b & -> & Ha & Hb & Hne & Hd & <- & Hr).
    assert (E : ascii_digits (a ++ ds ++ b) = POk [] ([], ds)).
    { unfold ascii_digits, pbind, nom_take_is_space, take_while_c, take_while1_c, pret.
      destruct ds as [|d ds]; [easy|]. inversion Hd as [|? ? Hd1 Hd2]; subst.
      rewrite (span_app nom_is_space a ((d :: ds) ++ b)).
      - cbn [span app]. replace (negb (is_digit d)) with false by (apply is_digit_spec in Hd1; now rewrite Hd1).
        change (d :: ds ++ b) with ((d :: ds) ++ b). rewrite (span_app is_digit (d :: ds) b).
        + rewrite (span_all nom_is_space b); [reflexivity|]. now apply (Forall_bool_iff nom_is_space _ _ nom_is_space_spec).
        + now apply (Forall_bool_iff is_digit _ _ is_digit_spec).
        + intros x r ->. inversion Hb as [|? ? Hx]; subst. unfold is_digit. unfold sp_or_tab in Hx. lia.
      - now apply (Forall_bool_iff nom_is_space _ _ nom_is_space_spec).
      - intros x r K. injection K as <- _. unfold nom_is_space. unfold digit in Hd1. lia. }
    rewrite E. cbn [length Nat.eqb negb orb]. rewrite (parse_uint_dec u16_max ds Hne Hd).
    replace (dec_value ds <=? u16_max) with true by (unfold u16_max; lia).
    replace ((100 <=? dec_value ds) && (dec_value ds <=? 999)) with true by lia. reflexivity.
Qed.

Definition version_text (p : protocol) : option bytes :=
  match p with ProtoV0_9 => Some (s2b ".9") | ProtoV1_0 => Some (s2b "1.0") | ProtoV1_1 => Some (s2b "1.1") | _ => None end.
Lemma name_eq_length a b : name_eq a b -> length a = length b.
Proof. induction 1; cbn; congruence. Qed.
Lemma app_inv_length {A} (a b c d : list A) : length a = length c -> a ++ b = c ++ d -> a = c /\ b = d.
Proof.
  revert c; induction a as [|x a IH]; intros [|y c] L E; try discriminate; cbn in *; [auto|].
  injection E as -> E. destruct (IH c) as [-> ->]; [lia|assumption|]. auto.
Qed.
Lemma tag_no_case_c_ok t i r v : tag_no_case_c t i = POk r v <-> i = v ++ r /\ name_eq v t.
Proof.
  unfold tag_no_case_c. destruct (strip_prefix_nocase t i) as [r'|] eqn:E.
  - apply strip_prefix_nocase_Some in E as (w & -> & Hn). pose proof (name_eq_length _ _ Hn) as L.
    rewrite firstn_app, <- L, Nat.sub_diag, firstn_all, firstn_O, app_nil_r. split.
    + intro K. injection K as <- <-. auto.
    + intros [K Hv]. apply name_eq_length in Hv. destruct (app_inv_length w r' v r) as [-> ->]; [congruence|assumption|reflexivity].
  - split; [discriminate|]. intros [-> Hv]. assert (strip_prefix_nocase t (v ++ r) = Some r) by (apply strip_prefix_nocase_Some; eauto). congruence.
Qed.
Lemma tag_c_ok t i r v : tag_c t i = POk r v <-> v = t /\ i = t ++ r.
Proof.
  unfold tag_c. destruct (strip_prefix t i) as [r'|] eqn:E.
  - apply strip_prefix_Some in E as ->. split; [intro K; injection K as <- <-; auto|]. intros [-> K]. apply app_inv_head in K. now subst.
  - split; [discriminate|]. intros [_ ->]. rewrite strip_prefix_None in E. now elim (E r).
Qed.
Lemma tag_c_app t r : tag_c t (t ++ r) = POk r t.
Proof. now apply tag_c_ok. Qed.

Definition ws_or_zero (c : N) : bool := is_ascii_ws c || (c =? 48).
Lemma protocol_version_ok s r v ex : protocol_version s = POk r (v, ex) ->
  exists w1 h w2 z w3, s = w1 ++ h ++ w2 ++ [47] ++ z ++ v ++ w3 ++ r /\ Forall ascii_space w1 /\ name_eq h (s2b "HTTP") /\
    Forall ascii_space w2 /\ Forall (fun c => ascii_space c \/ c = 48) z /\ Forall ascii_space w3 /\
    (v = s2b ".9" \/ v = s2b "1.0" \/ v = s2b "1.1").
Proof.
  unfold protocol_version, pbind, take_ascii_whitespace, take_while_c, pret.
  destruct (span is_ascii_ws s) as [w1 s1] eqn:S1. apply span_spec in S1 as (-> & H1 & _).
  destruct (tag_no_case_c (s2b "HTTP") s1) as [s2 h| |] eqn:E2; [|discriminate|discriminate]. apply tag_no_case_c_ok in E2 as [-> Hh].
  destruct (span is_ascii_ws s2) as [w2 s3] eqn:S3. apply span_spec in S3 as (-> & H3 & _).
  destruct (tag_c (s2b "/") s3) as [s4 sl| |] eqn:E4; [|discriminate|discriminate]. apply tag_c_ok in E4 as [-> ->].
  destruct (span (fun c => is_ascii_ws c || (c =? 48)) s4) as [z s5] eqn:S5. apply span_spec in S5 as (-> & H5 & _).
  destruct (p_alt (tag_c (s2b ".9")) (p_alt (tag_c (s2b "1.0")) (tag_c (s2b "1.1"))) s5) as [s6 v'| |] eqn:E6; [|discriminate|discriminate].
  assert (Hv : s5 = v' ++ s6 /\ (v' = s2b ".9" \/ v' = s2b "1.0" \/ v' = s2b "1.1")).
  { unfold p_alt in E6. destruct (tag_c (s2b ".9") s5) as [x y| |] eqn:T1.
    - injection E6 as <- <-. apply tag_c_ok in T1 as [-> ->]. auto.
    - destruct (tag_c (s2b "1.0") s5) as [x y| |] eqn:T2.
      + injection E6 as <- <-. apply tag_c_ok in T2 as [-> ->]. auto.
      + apply tag_c_ok in E6 as [-> ->]. auto.
      + discriminate.
    - discriminate. }
  destruct Hv as [-> Hv].
  destruct (span is_ascii_ws s6) as [w3 s7] eqn:S7. apply span_spec in S7 as (-> & H7 & _).
  intro K. injection K as <- <- _. exists w1, h, w2, z, w3. cbn [app s2b].
  change (N_of_ascii "/") with 47. repeat split; try assumption.
  - now apply (Forall_bool_iff is_ascii_ws _ _ is_ascii_ws_spec).
  - now apply (Forall_bool_iff is_ascii_ws _ _ is_ascii_ws_spec).
  - eapply Forall_impl; [|exact H5]. cbn. intros c Hc. rewrite <- is_ascii_ws_spec. lia.
  - now apply (Forall_bool_iff is_ascii_ws _ _ is_ascii_ws_spec).
Qed.

Lemma protocol_version_extra w1 h w2 z v w3 : Forall ascii_space w1 -> name_eq h (s2b "HTTP") -> Forall ascii_space w2 ->
  Forall (fun c => ascii_space c \/ c = 48) z -> Forall ascii_space w3 -> (v = s2b ".9" \/ v = s2b "1.0" \/ v = s2b "1.1") ->
  protocol_version (w1 ++ h ++ w2 ++ [47] ++ z ++ v ++ w3) = POk [] (v, negb (length w2 =? 0)%nat || negb (length z =? 0)%nat).
Proof.
  intros H1 Hh H2 Hz H3 Hv.
  assert (B : forall l, Forall ascii_space l -> Forall (fun x => is_ascii_ws x = true) l).
  { intros l. now apply (Forall_bool_iff is_ascii_ws _ _ is_ascii_ws_spec). }
  unfold protocol_version, pbind, take_ascii_whitespace, take_while_c, pret.
  rewrite (span_app is_ascii_ws w1).
  2: { now apply B. }
  2: { intros x r K. inversion Hh as [|a b ? ? L]; subst. injection K as <- _. cbn in L. apply letter_eq_lower in L.
       destruct (is_ascii_ws a) eqn:W; [|reflexivity]. apply is_ascii_ws_spec in W. unfold ascii_space in W.
       destruct W as [->|[->|[->|[->| ->]]]]; cbv in L; discriminate. }
  assert (E2 : tag_no_case_c (s2b "HTTP") (h ++ w2 ++ [47] ++ z ++ v ++ w3) = POk (w2 ++ [47] ++ z ++ v ++ w3) h) by now apply tag_no_case_c_ok.
  rewrite E2. rewrite (span_app is_ascii_ws w2); [|now apply B|].
  2: { intros x r K. injection K as <- _. reflexivity. }
  change (s2b "/") with [47]. rewrite tag_c_app.
  rewrite (span_app (fun c => is_ascii_ws c || (c =? 48)) z).
  2: { eapply Forall_impl; [|exact Hz]. cbn. intros c Hc. rewrite <- is_ascii_ws_spec in Hc. lia. }
  2: { intros x r K. destruct Hv as [->|[->| ->]]; injection K as <- _; reflexivity. }
  assert (E6 : p_alt (tag_c (s2b ".9")) (p_alt (tag_c (s2b "1.0")) (tag_c (s2b "1.1"))) (v ++ w3) = POk w3 v).
  { unfold p_alt. destruct Hv as [->|[->| ->]]; cbn; reflexivity. }
  rewrite E6. rewrite (span_all is_ascii_ws w3) by now apply B. reflexivity.
Qed.
Lemma protocol_version_complete s v : protocol_text s v -> (v = s2b ".9" \/ v = s2b "1.0" \/ v = s2b "1.1") ->
  exists ex, protocol_version s = POk [] (v, ex).
Proof. intros (w1 & h & w2 & z & w3 & -> & H1 & Hh & H2 & Hz & H3) Hv. eexists. now apply protocol_version_extra. Qed.

Lemma parse_protocol_spec s p v : version_text p = Some v -> (fst (parse_protocol s) = p <-> protocol_text s v).
Proof.
  intro Hp. assert (Hv : v = s2b ".9" \/ v = s2b "1.0" \/ v = s2b "1.1") by (destruct p; cbn in Hp; try discriminate; injection Hp as <-; auto).
  split.
  - unfold parse_protocol. intro H. destruct (protocol_version s) as [r [v' ex]| |] eqn:E.
    + apply protocol_version_ok in E as (w1 & h & w2 & z & w3 & -> & H1 & Hh & H2 & Hz & H3 & Hv').
      destruct r as [|x r]; [|cbn in H; subst p; discriminate]. rewrite app_nil_r. exists w1, h, w2, z, w3. repeat split; try assumption.
      cbn [length Nat.eqb negb fst] in H. destruct Hv' as [->|[->| ->]]; cbn in H; subst p; cbn in Hp; injection Hp as <-; reflexivity.
    + cbn in H. subst p. discriminate.
    + cbn in H. subst p. discriminate.
  - intro H. destruct (protocol_version_complete s v H Hv) as (ex & E). unfold parse_protocol. rewrite E. cbn [length Nat.eqb negb fst].
    destruct p; cbn in Hp; try discriminate; injection Hp as <-; reflexivity.
Qed.
Lemma parse_protocol_extra w1 h w2 z v w3 : Forall ascii_space w1 -> name_eq h (s2b "HTTP") -> Forall ascii_space w2 ->
  Forall (fun c => ascii_space c \/ c = 48) z -> Forall ascii_space w3 -> In v [s2b ".9"; s2b "1.0"; s2b "1.1"] ->
  (snd (parse_protocol (w1 ++ h ++ w2 ++ [47] ++ z ++ v ++ w3)) = true <-> w2 <> [] \/ z <> []).
Proof.
  intros H1 Hh H2 Hz H3 Hv. unfold parse_protocol. rewrite protocol_version_extra; auto.
  2: { cbn in Hv. destruct Hv as [<-|[<-|[<-|[]]]]; auto. }
  cbn [length Nat.eqb negb snd]. destruct w2, z; cbn [length Nat.eqb negb orb]; split; intro H; try discriminate; auto; try (destruct H; congruence); first [left; discriminate|right; discriminate].
Qed.
Lemma parse_protocol_quiet s : fst (parse_protocol s) = ProtoInvalid -> snd (parse_protocol s) = false.
Proof.
  unfold parse_protocol. destruct (protocol_version s) as [r [v ex]| |] eqn:E; auto. destruct (negb _) eqn:Er; auto.
  apply protocol_version_ok in E as (w1 & h & w2 & z & w3 & -> & _ & _ & _ & _ & _ & [->|[->| ->]]); discriminate.
Qed.
Lemma parse_protocol_range s : let p := fst (parse_protocol s) in p = ProtoInvalid \/ p = ProtoV0_9 \/ p = ProtoV1_0 \/ p = ProtoV1_1.
Proof.
  unfold parse_protocol. destruct (protocol_version s) as [r [v ex]| |]; cbn; auto.
  destruct (negb (length r =? 0)%nat); cbn; auto.
  destruct (bytes_eqb v _); cbn; auto. destruct (bytes_eqb v _); cbn; auto. destruct (bytes_eqb v _); cbn; auto.
Qed.

Lemma parse_digits_digits max : forall l acc n, parse_digits 10 max acc l = Some n -> Forall digit l.
Proof.
  induction l as [|b l IH]; intros acc n H; [constructor|]. cbn [parse_digits] in H.
  destruct (digit_val 10 b) as [d|] eqn:E; [|discriminate].
  destruct (max <? acc * 10 + d); [discriminate|]. constructor; [|eauto].
  unfold digit_val in E. destruct (is_digit b) eqn:D; [now apply is_digit_spec|].
  destruct ((65 <=? b) && (b <=? 90)) eqn:U; [|destruct ((97 <=? b) && (b <=? 122)) eqn:V; [|discriminate]].
  - destruct (b - 55 <? 10) eqn:L; [lia|discriminate].
  - destruct (b - 87 <? 10) eqn:L; [lia|discriminate].
Qed.
Lemma convert_port_spec p n :
  convert_port p = Some n <->
  exists ds, (p = ds \/ p = 43 :: ds) /\ ds <> [] /\ Forall digit ds /\ dec_value ds = n /\ 1 <= n <= 65535.
Proof.
  unfold convert_port. split.
  - destruct p as [|b p]; [discriminate|]. intro H.
    destruct (parse_uint 10 u16_max (b :: p)) as [m|] eqn:E; [|discriminate].
    destruct (m =? 0) eqn:M; [discriminate|]. injection H as ->.
    assert (K : forall ds, ds <> [] -> parse_digits 10 u16_max 0 ds = Some n -> Forall digit ds /\ dec_value ds = n /\ 1 <= n <= 65535).
    { intros ds Hne Hp. pose proof (parse_digits_digits _ _ _ _ Hp) as Hd. split; [assumption|].
      rewrite (parse_digits_value 10 digit (fun b => b - 48) digit_val_10) in Hp; [|lia|assumption|lia].
      fold (dec_value ds) in Hp. destruct (dec_value ds <=? u16_max) eqn:L; [|discriminate]. assert (dec_value ds = n) by congruence. unfold u16_max in *. split; [assumption|lia]. }
    cbn [parse_uint] in E. destruct (b =? 43) eqn:B.
    + apply N.eqb_eq in B. subst b. destruct p as [|c p]; [discriminate|]. destruct (K (c :: p) ltac:(easy) E) as (? & ? & ?).
      exists (c :: p). repeat split; auto; lia || easy.
    + destruct (K (b :: p) ltac:(easy) E) as (? & ? & ?). exists (b :: p). repeat split; auto; lia || easy.
  - intros (ds & Hp & Hne & Hd & <- & Hr).
    assert (E : parse_uint 10 u16_max p = Some (dec_value ds)).
    { destruct Hp as [->| ->].
      - rewrite parse_uint_dec by assumption. replace (dec_value ds <=? u16_max) with true by (unfold u16_max; lia). reflexivity.
      - cbn [parse_uint]. change (43 =? 43) with true. cbv iota. destruct ds as [|d ds]; [easy|].
        rewrite (parse_digits_value 10 digit (fun b => b - 48) digit_val_10); [|lia|assumption|lia].
        fold (dec_value (d :: ds)). replace (dec_value (d :: ds) <=? u16_max) with true by (unfold u16_max; lia). reflexivity. }
    destruct p as [|b p]; [destruct Hp; [subst; easy|discriminate]|]. rewrite E. replace (dec_value ds =? 0) with false by lia. reflexivity.
Qed.

(** ** Host names (C10). *)
Lemma latin1_alnum_spec c : c < 256 -> latin1_alnum c = true <-> latin1_letter_or_digit c.
Proof.
  intro Hc. unfold latin1_alnum, latin1_letter_or_digit. rewrite !orb_true_iff, memb_In. unfold is_digit.
  generalize (In c [170; 178; 179; 181; 185; 186; 188; 189; 190]). intro P. rewrite !andb_true_iff, !N.leb_le. split; intuition lia.
Qed.
Lemma host_byte_spec c : c < 256 -> c <> 46 -> ((c =? 95) || (c =? 45) || latin1_alnum c = true <-> host_byte c).
Proof.
  intros Hc Hd. unfold host_byte. rewrite !orb_true_iff, (latin1_alnum_spec c Hc), !N.eqb_eq. intuition.
Qed.

Lemma split_on_pieces p l :
  (forall s, In s (split_on p l) -> exists a b, l = a ++ s ++ b /\ Forall (fun x => p x = false) s) /\
  (forall a s b, l = a ++ s ++ b -> Forall (fun x => p x = false) s -> exists t u v, In t (split_on p l) /\ t = u ++ s ++ v).
Proof.
  split.
  - induction l as [|x l IH]; intros s Hs.
    + cbn in Hs. destruct Hs as [<-|[]]. exists [], []. split; [reflexivity|constructor].
    + destruct (p x) eqn:Px.
      * cbn [split_on] in Hs. rewrite Px in Hs. destruct Hs as [<-|Hs].
        { exists [], (x :: l). split; [reflexivity|constructor]. }
        { destruct (IH s Hs) as (a & b & -> & Hf). exists (x :: a), b. auto. }
      * destruct (split_on_cons_not p x l Px) as (s1 & ss & E1 & E2). rewrite E2 in Hs. destruct Hs as [<-|Hs].
        { destruct (IH s1) as (a & b & Hl & Hf); [rewrite E1; now left|].
          (* the first piece starts at the beginning *)
          assert (exists b', l = s1 ++ b') as (b' & ->).
          { clear -E1. revert s1 ss E1. induction l as [|y l IHl]; intros s1 ss E1.
            - cbn in E1. injection E1 as <- _. now exists [].
            - cbn [split_on] in E1. destruct (p y).
              + injection E1 as <- _. now exists (y :: l).
              + destruct (split_on p l) as [|s2 ss2].
                * injection E1 as <- _. now exists l.
                * injection E1 as <- _. destruct (IHl s2 ss2 eq_refl) as (b' & ->). now exists b'. }
          exists [], b'. split; [reflexivity|]. now constructor. }
        { destruct (IH s) as (a & b & -> & Hf); [rewrite E1; now right|]. exists (x :: a), b. auto. }
  - intros a s b -> Hs. revert s b Hs. 
    assert (Base : forall s b, Forall (fun x => p x = false) s -> exists v ss, split_on p (s ++ b) = (s ++ v) :: ss).
    { intros s b Hs. induction Hs as [|x s Hx Hs IH]; cbn [app].
      - destruct (split_on p b) as [|v ss] eqn:E; [now elim (split_on_nonempty p b)|]. eauto.
      - destruct IH as (v & ss & E). cbn [split_on]. rewrite Hx, E. eauto. }
    induction a as [|x a IH]; intros s b Hs; cbn [app].
    + destruct (Base s b Hs) as (v & ss & E). rewrite E. exists (s ++ v), [], v. split; [now left|reflexivity].
    + destruct (IH s b Hs) as (t & u & v & Ht & ->). destruct (p x) eqn:Px.
      * cbn [split_on]. rewrite Px. exists (u ++ s ++ v), u, v. split; [now right|reflexivity].
      * destruct (split_on_cons_not p x (a ++ s ++ b) Px) as (s1 & ss & E1 & E2). rewrite E2. rewrite E1 in Ht. destruct Ht as [->|Ht].
        { exists (x :: u ++ s ++ v), (x :: u), v. split; [now left|reflexivity]. }
        { exists (u ++ s ++ v), u, v. split; [now right|reflexivity]. }
Qed.

Lemma validate_plain ip6 h : Forall is_byte h -> (forall addr, ~ bracketed h addr) ->
  (validate_hostname ip6 h = true <-> good_hostname h).
Proof.
  intros Hbyte Hnb. unfold validate_hostname.
  assert (Enb : (plet _a := char_c 91 in plet addr := is_not_c (s2b "#?/]") in plet _b := char_c 93 in pret addr) h = PErr).
  { unfold pbind, char_c at 1. destruct h as [|x h]; [reflexivity|]. destruct (x =? 91) eqn:X; [|reflexivity].
    apply N.eqb_eq in X. subst x. unfold is_not_c, take_while1_c.
    destruct (span (fun b => negb (memb b (s2b "#?/]"))) h) as [[|a addr] r] eqn:S; [reflexivity|].
    unfold char_c. destruct r as [|y r]; [reflexivity|]. destruct (y =? 93) eqn:Y; [|reflexivity].
    apply N.eqb_eq in Y. subst y. apply span_spec in S as (-> & Ha & _). elim (Hnb (a :: addr)). exists r. repeat split; [easy|].
    eapply Forall_impl; [|exact Ha]. cbn beta. intros c Hc. rewrite <- memb_In. destruct (memb c (s2b "#?/]")); easy. }
  rewrite Enb. unfold good_hostname.
  destruct ((length h =? 0)%nat || (255 <? length h)%nat) eqn:L.
  { split; [discriminate|]. intros (Hl & _). lia. }
  destruct (starts_with [46] h) eqn:S.
  { split; [discriminate|]. apply starts_with_true in S as (r & ->). intros (_ & H & _). now elim (H r). }
  destruct (find_sub [46; 46] h) as [[a b]|] eqn:F.
  { split; [discriminate|]. apply find_sub_Some in F as (-> & (r & ->) & _). intros (_ & _ & H & _). now elim (H a r). }
  rewrite starts_with_false in S. rewrite find_sub_None in F.
  destruct (split_on_pieces (fun c => c =? 46) h) as [P1 P2].
  assert (Hnodot : forall l, Forall (fun x => (x =? 46) = false) l <-> ~ In 46 l).
  { intro l. rewrite Forall_forall. split.
    - intros H I. specialize (H _ I). discriminate.
    - intros H x I. apply N.eqb_neq. congruence. }
  rewrite forallb_forall. split.
  - intro H. repeat split; try lia; try assumption.
    + intros a l b E Hl. apply Hnodot in Hl. destruct (P2 a l b E Hl) as (t & u & v & Ht & ->).
      specialize (H _ Ht). unfold host_label_ok in H. apply andb_true_iff in H as [H _]. rewrite !app_length in H. lia.
    + apply Forall_forall. intros c Hc. destruct (N.eq_dec c 46) as [->|Hc46]; [now left|].
      apply in_split in Hc as (a & b & ->).
      destruct (P2 a [c] b eq_refl) as (t & u & v & Ht & ->); [repeat constructor; lia|].
      specialize (H _ Ht). unfold host_label_ok in H. apply andb_true_iff in H as [_ H]. rewrite forallb_forall in H.
      specialize (H c). cbn beta in H. apply host_byte_spec; [|assumption|].
      * rewrite Forall_forall in Hbyte. apply Hbyte. rewrite in_app_iff. right. now left.
      * apply H. rewrite !in_app_iff. right. left. now left.
  - intros (_ & _ & _ & Hlab & Hb) s Hs. destruct (P1 s Hs) as (a & b & E & Hf). unfold host_label_ok. apply andb_true_iff. split.
    + apply Nat.leb_le. apply (Hlab a s b E). now apply Hnodot.
    + apply forallb_forall. intros c Hc. subst h. rewrite !Forall_app in Hb, Hbyte. destruct Hb as (_ & Hb & _), Hbyte as (_ & Hbyte & _).
      rewrite Forall_forall in Hb, Hbyte, Hf. apply host_byte_spec; [now apply Hbyte| |now apply Hb].
      specialize (Hf _ Hc). lia.
Qed.
Lemma validate_bracketed ip6 h addr : bracketed h addr -> (length h <= 255)%nat -> ip6 addr <> None ->
  validate_hostname ip6 h = match ip6 addr with Some ok => ok | None => false end.
Proof.
  intros (rest & -> & Hne & Ha) Hl Hip. unfold validate_hostname.
  set (h := [91] ++ addr ++ [93] ++ rest) in *. assert (0 < length h)%nat by (cbn; lia).
  replace ((length h =? 0)%nat || (255 <? length h)%nat) with false by lia. subst h.
  assert (E : (plet _a := char_c 91 in plet addr := is_not_c (s2b "#?/]") in plet _b := char_c 93 in pret addr) ([91] ++ addr ++ [93] ++ rest) = POk rest addr).
  { unfold pbind, char_c at 1. cbn [app]. change (91 =? 91) with true. cbv iota. unfold is_not_c, take_while1_c.
    rewrite span_app.
    - destruct addr as [|a addr]; [easy|]. reflexivity.
    - eapply Forall_impl; [|exact Ha]. cbn beta. intros c Hc. rewrite <- memb_In in Hc. destruct (memb c (s2b "#?/]")); easy.
    - intros x b' K. injection K as <- _. reflexivity. }
  rewrite E. destruct (ip6 addr); [reflexivity|easy].
Qed.

(** ** Digest user names (C47). *)
Lemma find_sub_first n pre rest : n <> [] ->
  (forall a b, pre ++ n = a ++ n ++ b -> b = []) -> find_sub n (pre ++ n ++ rest) = Some (pre, n ++ rest).
Proof.
  intros Hne. induction pre as [|x pre IH]; intro H.
  - cbn [app]. destruct n as [|c n]; [easy|]. cbn [find_sub app].
    assert (S : starts_with (c :: n) (c :: n ++ rest) = true) by (apply starts_with_true; now exists rest). now rewrite S.
  - cbn [app find_sub].
    assert (S : starts_with n (x :: pre ++ n ++ rest) = false).
    { apply starts_with_false. intros r E.
      assert (K : (x :: pre) ++ n = n ++ firstn (S (length pre)) r).
      { apply (f_equal (firstn (S (length pre) + length n))) in E.
        change (x :: pre ++ n ++ rest) with ((x :: pre) ++ (n ++ rest)) in E. rewrite app_assoc in E.
        rewrite firstn_app in E. rewrite firstn_all2 in E by (rewrite app_length; cbn; lia).
        replace (S (length pre) + length n - length ((x :: pre) ++ n))%nat with 0%nat in E by (rewrite app_length; cbn; lia).
        rewrite firstn_O, app_nil_r in E. rewrite E. rewrite firstn_app, firstn_all2 by lia. f_equal. f_equal. lia. }
      apply (H []) in K. apply (f_equal (@length N)) in K. rewrite firstn_length in K.
      apply (f_equal (@length N)) in E. cbn [app length] in E. rewrite !app_length in E. cbn [length] in K. lia. }
    rewrite S, IH; [reflexivity|]. intros a b E. apply (H (x :: a)). cbn. now rewrite E.
Qed.

Lemma last_byte_app l b : last_byte (l ++ [b]) = Some b.
Proof. unfold last_byte. now rewrite rev_app_distr. Qed.
Lemma drop_last_app l b : drop_last (l ++ [b]) = l.
Proof. unfold drop_last. rewrite rev_app_distr. cbn. apply rev_involutive. Qed.
Lemma last_byte_inv l b : last_byte l = Some b -> exists l', l = l' ++ [b].
Proof.
  unfold last_byte. destruct (rev l) as [|x r] eqn:E; [discriminate|]. intro H. injection H as ->. exists (rev r).
  rewrite <- (rev_involutive l), E. reflexivity.
Qed.

(** The user name split at its quotes. *)
Lemma digest_loop_escaped : forall fuel u acc rest,
  (length (escape_quotes u) < fuel)%nat ->
  (forall v, acc ++ u <> v ++ [92]) -> (u = [] -> acc = [] \/ exists w c, acc = w ++ [c] /\ c <> 92) ->
  digest_loop fuel (escape_quotes u ++ 34 :: rest) acc = POk rest (acc ++ u).
Proof.
  induction fuel as [|fuel IH]; intros u acc rest Hf Hend Hacc; [lia|]. cbn [digest_loop].
  destruct (split_first (fun c => c =? 34) u) as [a [b|]] eqn:S.
  - apply split_first_Some in S as (c & Pc & -> & Ha). apply N.eqb_eq in Pc. subst c.
    assert (Ea : escape_quotes (a ++ 34 :: b) = a ++ [92; 34] ++ escape_quotes b).
    { clear -Ha. induction Ha as [|x a Hx Ha IH]; cbn [app escape_quotes]; [reflexivity|]. rewrite Hx, IH. reflexivity. }
    rewrite Ea in *. unfold pbind, take_until_c, pret.
    replace ((a ++ [92; 34] ++ escape_quotes b) ++ 34 :: rest) with ((a ++ [92]) ++ 34 :: (escape_quotes b ++ 34 :: rest)) by now rewrite <- !app_assoc.
    rewrite find_sub_byte.
    2: { rewrite in_app_iff. intros [I|[I|[]]]; [|discriminate]. rewrite Forall_forall in Ha. specialize (Ha _ I). discriminate. }
    change (34 :: escape_quotes b ++ 34 :: rest) with ([34] ++ (escape_quotes b ++ 34 :: rest)). rewrite tag_c_app. cbv beta iota zeta.
    rewrite !app_assoc, last_byte_app. change (92 =? 92) with true. cbv iota. rewrite drop_last_app.
    rewrite IH.
    + f_equal. rewrite <- !app_assoc. reflexivity.
    + rewrite !app_length in Hf. cbn in Hf. lia.
    + intros v K. apply (Hend v). rewrite <- K. rewrite <- !app_assoc. reflexivity.
    + intros _. right. exists (acc ++ a), 34. split; [reflexivity|discriminate].
  - apply split_first_None in S as (<- & Ha).
    assert (Ea : escape_quotes u = u).
    { clear -Ha. induction Ha as [|x a Hx Ha IH]; cbn [escape_quotes]; [reflexivity|]. now rewrite Hx, IH. }
    rewrite Ea. unfold pbind, take_until_c, pret. rewrite find_sub_byte.
    2: { intro I. rewrite Forall_forall in Ha. specialize (Ha _ I). discriminate. }
    change (34 :: rest) with ([34] ++ rest). rewrite tag_c_app. cbv beta iota zeta.
    destruct (last_byte (acc ++ u)) as [b|] eqn:L; [|reflexivity].
    apply last_byte_inv in L as (l' & E). destruct (b =? 92) eqn:B; [|reflexivity].
    apply N.eqb_eq in B. subst b. now elim (Hend l').
Qed.

Lemma digest_roundtrip pre ws u rest :
  (forall a b, pre ++ s2b "username=" = a ++ s2b "username=" ++ b -> b = []) ->
  Forall ascii_space ws -> (forall v, u <> v ++ [92]) ->
  parse_authorization_digest (pre ++ s2b "username=" ++ ws ++ [34] ++ escape_quotes u ++ [34] ++ rest) = POk rest u.
Proof.
  intros Hpre Hws Hu. unfold parse_authorization_digest, pbind, take_until_c, take_ascii_whitespace, take_while_c.
  rewrite (find_sub_first (s2b "username=") pre) by (easy || assumption). rewrite tag_c_app.
  rewrite (span_app is_ascii_ws ws).
  2: { now apply (Forall_bool_iff is_ascii_ws _ _ is_ascii_ws_spec). }
  2: { intros x b' K. injection K as <- _. reflexivity. }
  rewrite tag_c_app. apply digest_loop_escaped.
  - rewrite !app_length. lia.
  - exact Hu.
  - intros _. now left.
Qed.

(** ** Flags (C42). *)
Lemma fset_testbit w f i : N.testbit (fset w f) i = N.testbit w i || N.testbit f i.
Proof. apply N.lor_spec. Qed.
Lemma funset_testbit w f i : N.testbit (funset w f) i = N.testbit w i && negb (N.testbit f i).
Proof. apply N.ldiff_spec. Qed.
Lemma fis_set_spec w f : fis_set w f = true <-> exists i, N.testbit w i = true /\ N.testbit f i = true.
Proof.
  unfold fis_set. rewrite negb_true_iff, N.eqb_neq. split.
  - intro H. exists (N.log2 (N.land w f)). rewrite <- andb_true_iff, <- N.land_spec. now apply N.bit_log2.
  - intros (i & Hw & Hf) E. assert (N.testbit (N.land w f) i = true) by (rewrite N.land_spec, Hw, Hf; reflexivity).
    rewrite E, N.bits_0 in H. discriminate.
Qed.
Lemma fset_is_set w f : f <> 0 -> fis_set (fset w f) f = true.
Proof.
  intro Hf. apply fis_set_spec. exists (N.log2 f). rewrite fset_testbit, (N.bit_log2 f Hf). now rewrite orb_true_r.
Qed.
Lemma funset_is_set w f : fis_set (funset w f) f = false.
Proof.
  destruct (fis_set (funset w f) f) eqn:E; [|reflexivity]. apply fis_set_spec in E as (i & H & K).
  rewrite funset_testbit, K, andb_false_r in H. discriminate.
Qed.

Lemma take_till_eol_line data rest line k : take_till_eol data = POk rest (line, k) ->
  exists l e, data = line ++ rest /\ line = l ++ e /\ ~ In 10 l /\ ~ In 13 l /\
    ((k = EolLF /\ e = [10]) \/ (k = EolCR /\ e = [13]) \/ (k = EolCRLF /\ e = [13; 10]) \/ (k = EolLFCR /\ e = [10; 13])).
Proof.
  intro H. apply take_till_eol_shape in H as (l & E & El & Hk & H10 & H13). exists l, (eol_kind_bytes k).
  repeat split; try assumption. destruct k; cbn; tauto.
Qed.
Lemma take_till_eol_total data : take_till_eol data <> PErr /\
  (take_till_eol data = PInc -> exists more rest line k, take_till_eol (data ++ more) = POk rest (line, k)).
Proof.
  split; [apply take_till_eol_no_error|]. intro H. destruct (take_till_eol_extend data H) as (more & r & E & Hr).
  exists more. destruct r as [rest [line k]| |]; [eauto|now elim (take_till_eol_no_error (data ++ more))|easy].
Qed.
Lemma parse_protocol_exact s :
  (fst (parse_protocol s) = ProtoV0_9 <-> protocol_text s (s2b ".9")) /\
  (fst (parse_protocol s) = ProtoV1_0 <-> protocol_text s (s2b "1.0")) /\
  (fst (parse_protocol s) = ProtoV1_1 <-> protocol_text s (s2b "1.1")) /\
  (fst (parse_protocol s) = ProtoInvalid <-> forall v, In v [s2b ".9"; s2b "1.0"; s2b "1.1"] -> ~ protocol_text s v).
Proof.
  pose proof (parse_protocol_spec s ProtoV0_9 _ eq_refl) as H1. pose proof (parse_protocol_spec s ProtoV1_0 _ eq_refl) as H2.
  pose proof (parse_protocol_spec s ProtoV1_1 _ eq_refl) as H3. split; [assumption|]. split; [assumption|]. split; [assumption|].
  pose proof (parse_protocol_range s) as R. cbv zeta in R. split.
  - intros E v [<-|[<-|[<-|[]]]]; rewrite <- ?H1, <- ?H2, <- ?H3, E; discriminate.
  - intro H. destruct R as [R|[R|[R|R]]]; [assumption|exfalso..].
    + now apply (H (s2b ".9")); [cbn; tauto|apply H1].
    + now apply (H (s2b "1.0")); [cbn; tauto|apply H2].
    + now apply (H (s2b "1.1")); [cbn; tauto|apply H3].
Qed.
Lemma convert_port_plus : exists p n, convert_port p = Some n /\ ~ Forall digit p.
Proof. exists (s2b "+80"), 80. split; [reflexivity|]. intro H. inversion H as [|? ? K]; subst. unfold digit in K. cbn in K. lia. Qed.
Lemma validate_example : good_hostname (s2b "www.ex_ample-1.com") /\ (forall addr, ~ bracketed (s2b "www.ex_ample-1.com") addr)
  /\ validate_hostname (fun _ => None) (s2b "a..b") = false.
Proof.
  assert (N : forall addr, ~ bracketed (s2b "www.ex_ample-1.com") addr) by (intros addr (r & H & _); discriminate).
  split; [|split; [assumption|reflexivity]]. apply (validate_plain (fun _ => None)); [|assumption|reflexivity].
  repeat constructor.
Qed.
Lemma single_bit_independent w i j : i <> j -> fis_set (fset w (N.shiftl 1 i)) (N.shiftl 1 j) = fis_set w (N.shiftl 1 j).
Proof.
  intro H. apply eq_true_iff_eq. rewrite !fis_set_spec.
  assert (S : forall a k, N.testbit (N.shiftl 1 a) k = (a =? k)).
  { intros a k. rewrite N.shiftl_1_l. apply N.pow2_bits_eqb. }
  split; intros (k & A & B); exists k; rewrite S in *.
  - rewrite fset_testbit, S in A. apply N.eqb_eq in B. subst k. replace (i =? j) with false in A by lia. rewrite orb_false_r in A. split; [assumption|lia].
  - rewrite fset_testbit, A. auto.
Qed.
Lemma composite_flags :
  fis_set (fset 0 RESPONSE_MISSING_BYTES) REQUEST_MISSING_BYTES = true /\ REQUEST_MISSING_BYTES <> RESPONSE_MISSING_BYTES
  /\ fis_set (fset 0 HOSTU_INVALID) HOST_INVALID = true /\ N.land HOSTU_INVALID HOST_INVALID <> HOST_INVALID.
Proof. repeat split; discriminate. Qed.
Lemma digest_backslash : exists u rest,
  parse_authorization_digest (s2b "username=" ++ [34] ++ escape_quotes u ++ [34] ++ rest) <> POk rest u.
Proof. exists [97; 92], []. discriminate. Qed.
Lemma parse_content_length_warnings v junk ds rest :
  v = junk ++ ds ++ rest -> Forall (fun b => ~ digit b) junk -> ds <> [] -> Forall digit ds -> (forall x rest', rest = x :: rest' -> ~ digit x) ->
  (fst (snd (parse_content_length v)) = true <-> ~ Forall sp_or_tab junk) /\
  (snd (snd (parse_content_length v)) = true <-> ~ Forall sp_or_tab rest).
Proof.
  intros E Hj Hne Hd Hr. unfold parse_content_length. pose proof (ascii_digits_cases v) as H.
  assert (S1 : forall j d r, Forall (fun b => ~ digit b) j -> d <> [] -> Forall digit d -> span (fun c => negb (is_digit c)) (j ++ d ++ r) = (j, d ++ r)).
  { clear. intros j d r Hj Hne Hd. apply span_app.
    - revert Hj. apply Forall_impl. intros x Hx. rewrite <- is_digit_spec in Hx. destruct (is_digit x); [now elim Hx|reflexivity].
    - intros x b' Ex. destruct d as [|y d]; [easy|]. injection Ex as <- _. inversion Hd; subst. apply is_digit_spec in H1. now rewrite H1. }
  assert (S2 : forall d r, Forall digit d -> (forall x r', r = x :: r' -> ~ digit x) -> span is_digit (d ++ r) = (d, r)).
  { clear. intros d r Hd Hr. apply span_app.
    - revert Hd. apply Forall_impl. intros x Hx. now apply is_digit_spec.
    - intros x b' Ex. specialize (Hr _ _ Ex). rewrite <- is_digit_spec in Hr. destruct (is_digit x); [now elim Hr|reflexivity]. }
  destruct (ascii_digits v) as [trailing [leading ds']| |]; cbn [fst snd].
  - destruct H as (a & b & E' & Ha & Hl & Hne' & Hd' & Hb & H1 & H2 & H3).
    assert (Hj' : Forall (fun x => ~ digit x) (a ++ leading)).
    { apply Forall_app. split; [|assumption]. revert Ha. apply Forall_impl. unfold sp_or_tab, digit. lia. }
    pose proof (S1 _ _ rest Hj Hne Hd) as A1. pose proof (S1 _ _ (b ++ trailing) Hj' Hne' Hd') as A2.
    rewrite <- app_assoc, <- E' in A2. rewrite <- E, A2 in A1. injection A1 as Ej Er.
    pose proof (S2 _ _ Hd Hr) as B1. rewrite <- Er, (S2 _ _ Hd' H2) in B1. injection B1 as Ed Et. subst ds' junk rest.
    split.
    + destruct leading as [|x l]; cbn [length]; (split; [|reflexivity || intro K]).
      * discriminate.
      * exfalso. apply K. rewrite app_nil_r. exact Ha.
      * intros _ K. apply Forall_app in K as [_ K]. inversion K; subst. now apply (H1 x (l ++ ds ++ b ++ trailing)).
    + destruct trailing as [|x l]; cbn [length]; (split; [|reflexivity || intro K]).
      * discriminate.
      * exfalso. apply K. rewrite app_nil_r. exact Hb.
      * intros _ K. apply Forall_app in K as [_ K]. inversion K; subst. now apply (H3 x l).
  - exfalso. subst v. rewrite !Forall_app in H. destruct H as (_ & H & _). destruct ds as [|d ds]; [easy|]. inversion H; inversion Hd; subst. contradiction.
  - easy.
Qed.
