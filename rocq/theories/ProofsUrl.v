(** Proofs about urlencoded.rs. *)
From Verif Require Import Base Spec ModelUtil ModelBstr ModelParsers ModelUrl ProofsBase ProofsBstr ProofsParsers.

(** ** Hex pairs (C48). *)
Definition hex_bytes : bytes := s2b "0123456789abcdefABCDEF".
Lemma hexdigit_In c : hexdigit c <-> In c hex_bytes.
Proof.
  split.
  - unfold hexdigit. intro H. apply memb_In.
    assert (In c (map N.of_nat (seq 0 128))) as I.
    { apply in_map_iff. exists (N.to_nat c). split; [lia|]. apply in_seq. lia. }
    revert I H. generalize c. clear c.
    assert (F : forallb (fun c => implb (is_hexdigit c) (memb c hex_bytes)) (map N.of_nat (seq 0 128)) = true) by (vm_compute; reflexivity).
    rewrite forallb_forall in F. intros c I H. specialize (F c I). apply is_hexdigit_spec in H. now rewrite H in F.
  - intro H. apply is_hexdigit_spec. revert c H. apply forallb_forall. vm_compute. reflexivity.
Qed.
Lemma x2c_hex h1 h2 : hexdigit h1 -> hexdigit h2 ->
  x2c_val h1 h2 = 16 * hex_digit_value h1 + hex_digit_value h2 /\
  x2c_checked h1 h2 = Some (16 * hex_digit_value h1 + hex_digit_value h2).
Proof.
  rewrite !hexdigit_In. intros H1 H2.
  assert (F : forallb (fun a => forallb (fun b =>
    (x2c_val a b =? 16 * hex_digit_value a + hex_digit_value b) &&
    match x2c_checked a b with Some v => v =? 16 * hex_digit_value a + hex_digit_value b | None => false end) hex_bytes) hex_bytes = true)
    by (vm_compute; reflexivity).
  rewrite forallb_forall in F. specialize (F _ H1). rewrite forallb_forall in F. specialize (F _ H2).
  apply andb_true_iff in F as [F1 F2]. apply N.eqb_eq in F1. split; [assumption|].
  destruct (x2c_checked h1 h2); [|discriminate]. apply N.eqb_eq in F2. congruence.
Qed.
Lemma x2c_overflow : exists c1 c2, is_byte c1 /\ is_byte c2 /\ x2c_checked c1 c2 = None.
Proof. exists 47, 48. repeat split. Qed.
Lemma hex_pair_byte h1 h2 : hexdigit h1 -> hexdigit h2 -> 16 * hex_digit_value h1 + hex_digit_value h2 < 256.
Proof.
  unfold hexdigit, hex_digit_value. intros H1 H2.
  destruct (h1 <=? 57) eqn:?, (h1 <=? 70) eqn:?, (h2 <=? 57) eqn:?, (h2 <=? 70) eqn:?; lia.
Qed.
Lemma hex_pair_exists b : b < 256 -> exists h1 h2, hexdigit h1 /\ hexdigit h2 /\ b = 16 * hex_digit_value h1 + hex_digit_value h2.
Proof.
  intro Hb. assert (D : forall v, v < 16 -> exists h, hexdigit h /\ hex_digit_value h = v).
  { intros v Hv. destruct (v <? 10) eqn:L.
    - exists (48 + v). unfold hexdigit, hex_digit_value. replace (48 + v <=? 57) with true by lia. lia.
    - exists (55 + v). unfold hexdigit, hex_digit_value. replace (55 + v <=? 57) with false by lia. replace (55 + v <=? 70) with true by lia. lia. }
  pose proof (N.div_mod b 16). pose proof (N.mod_lt b 16).
  assert (b / 16 < 16) by (apply N.div_lt_upper_bound; lia).
  destruct (D (b / 16)) as (h1 & A1 & B1); [assumption|]. destruct (D (b mod 16)) as (h2 & A2 & B2); [lia|].
  exists h1, h2. repeat split; try assumption. lia.
Qed.

(** ** fold_many0. *)
Section Fold.
  Context {A T : Type} (p : parser A) (f : T -> A -> T).
  Hypothesis p_nil : p [] = PErr.
  Hypothesis p_cons : forall b r, exists r' o, p (b :: r) = POk r' o /\ (length r' <= length r)%nat.

  Lemma fold_many0_fuel : forall n i fuel s, (length i < n)%nat -> (length i < fuel)%nat ->
    fold_many0 fuel p f s i = fold_many0 n p f s i.
  Proof.
    induction n as [|n IH]; intros i fuel s Hn Hf; [lia|]. destruct fuel as [|fuel]; [lia|]. cbn [fold_many0].
    destruct i as [|b r]; [now rewrite p_nil|].
    destruct (p_cons b r) as (r' & o & -> & Hl). cbn [length] in *. replace (length r' =? S (length r))%nat with false by lia.
    apply IH; lia.
  Qed.
  Definition fm (s : T) (i : bytes) := fold_many0 (S (length i)) p f s i.
  Lemma fm_nil s : fm s [] = Some (POk [] s).
  Proof. unfold fm. cbn [fold_many0 length]. now rewrite p_nil. Qed.
  Lemma fm_step s b r r' o : p (b :: r) = POk r' o -> fm s (b :: r) = fm (f s o) r'.
  Proof.
    intro E. unfold fm at 1. cbn [fold_many0]. rewrite E. destruct (p_cons b r) as (r'' & o' & E' & Hl). rewrite E in E'. injection E' as <- <-.
    cbn [length]. replace (length r' =? S (length r))%nat with false by lia. apply fold_many0_fuel; lia.
  Qed.
  (** Induction over a run. *)
  Lemma fm_ind (P : T -> bytes -> T -> Prop) :
    (forall s, P s [] s) ->
    (forall s b r r' o s', p (b :: r) = POk r' o -> (length r' <= length r)%nat -> P (f s o) r' s' -> P s (b :: r) s') ->
    forall i s, exists s', fm s i = Some (POk [] s') /\ P s i s'.
  Proof.
    intros H0 HS i. remember (length i) as n eqn:Hn. revert i Hn.
    induction n as [n IH] using lt_wf_ind. intros i -> s. destruct i as [|b r].
    - exists s. rewrite fm_nil. auto.
    - destruct (p_cons b r) as (r' & o & E & Hl). rewrite (fm_step _ _ _ _ _ E).
      destruct (IH (length r')) with (i := r') (s := f s o) as (s' & E' & Hp); [cbn; lia|reflexivity|].
      exists s'. split; [assumption|]. eapply HS; eassumption.
  Qed.
End Fold.

(** ** decode_unit always consumes. *)
Lemma char_u_cases i : char_u i = PErr \/ exists u r, i = u :: r /\ (u = 117 \/ u = 85) /\ char_u i = POk r u.
Proof.
  unfold char_u, p_alt, char_c. destruct i as [|x i]; [now left|].
  destruct (x =? 117) eqn:E1; [right; exists x, i; replace x with 117 by lia; auto|].
  destruct (x =? 85) eqn:E2; [right; exists x, i; replace x with 85 by lia; auto|now left].
Qed.
Lemma take_c_cases n i : (exists a r, i = a ++ r /\ length a = n /\ take_c n i = POk r a) \/ ((length i < n)%nat /\ take_c n i = PErr).
Proof.
  unfold take_c. destruct (length i <? n)%nat eqn:L; [right; split; [lia|reflexivity]|left].
  exists (firstn n i), (skipn n i). rewrite firstn_skipn, firstn_length. repeat split. lia.
Qed.
Lemma take_hex_cases n i : (exists a r, i = a ++ r /\ length a = n /\ Forall hexdigit a /\ take_hex n i = POk r a)
  \/ (take_hex n i = PErr /\ forall a r, i = a ++ r -> length a = n -> ~ Forall hexdigit a).
Proof.
  unfold take_hex. destruct (length i <? n)%nat eqn:L.
  - right. split; [reflexivity|]. intros a r -> Ha _. rewrite app_length in L. lia.
  - destruct (forallb is_hexdigit (firstn n i)) eqn:F.
    + left. exists (firstn n i), (skipn n i). rewrite firstn_skipn, firstn_length. repeat split; [lia|].
      apply (Forall_bool_iff is_hexdigit _ _ is_hexdigit_spec). now apply Forall_forall, forallb_forall.
    + right. split; [reflexivity|]. intros a r -> Ha H. rewrite firstn_app, Ha, Nat.sub_diag, firstn_O, app_nil_r, firstn_all2 in F by lia.
      apply not_true_iff_false in F. apply F. apply forallb_forall, Forall_forall. now apply (Forall_bool_iff is_hexdigit _ _ is_hexdigit_spec).
Qed.
Lemma take_hex_app n a r : length a = n -> Forall hexdigit a -> take_hex n (a ++ r) = POk r a.
Proof.
  intros Ha Hh. destruct (take_hex_cases n (a ++ r)) as [(a' & r' & E & Ha' & _ & ->)|(_ & C)].
  - destruct (app_inv_length a r a' r') as [-> ->]; [congruence|assumption|reflexivity].
  - now elim (C a r eq_refl Ha).
Qed.

(** The decoded part of the alternatives: rest shorter or equal. *)
Definition consumes {A} (p : parser A) (i : bytes) := p i = PErr \/ exists r o, p i = POk r o /\ (length r <= length i)%nat.
Definition succeeds {A} (p : parser A) (i : bytes) := exists r o, p i = POk r o /\ (length r <= length i)%nat.
Lemma alt_consumes {A} (p q : parser A) i : consumes p i -> succeeds q i -> succeeds (p_alt p q) i.
Proof.
  intros [E|(r & o & E & L)] (r' & o' & E' & L'); unfold succeeds, p_alt; rewrite E; eauto.
Qed.
Lemma x2c4 (a : bytes) : length a = 4%nat -> exists c1 c2 c3 c4, a = [c1; c2; c3; c4].
Proof. destruct a as [|? [|? [|? [|? [|? ?]]]]]; try discriminate. eauto. Qed.

Lemma decode_valid_u_consumes cfg i : consumes (decode_valid_u_encoding cfg) i.
Proof.
  unfold consumes, decode_valid_u_encoding. destruct (char_u_cases i) as [->|(u & r & -> & _ & ->)]; [now left|].
  destruct (u_encoding_decode cfg); [|right; do 2 eexists; split; [reflexivity|lia]].
  destruct (take_hex_cases 4 r) as [(a & r' & -> & La & _ & ->)|(-> & _)]; [|now left].
  destruct (x2c4 a La) as (c1 & c2 & c3 & c4 & ->). unfold decode_u_encoding_params, pbind, x2c. cbv beta iota.
  right. destruct (x2c_val c1 c2 =? 0); unfold pret; do 2 eexists; (split; [reflexivity|]); cbn [length]; rewrite app_length; lia.
Qed.
Lemma decode_invalid_u_consumes cfg i : consumes (decode_invalid_u_encoding cfg) i.
Proof.
  unfold consumes, decode_invalid_u_encoding. destruct (char_u_cases i) as [->|(u & r & -> & _ & ->)]; [now left|].
  destruct (u_encoding_decode cfg); [|right; do 2 eexists; split; [reflexivity|lia]].
  destruct (take_c_cases 4 r) as [(a & r' & -> & La & ->)|(_ & ->)]; [|now left].
  destruct (url_encoding_invalid_handling cfg).
  - right; do 2 eexists; split; [reflexivity|lia].
  - right; do 2 eexists; split; [reflexivity|lia].
  - destruct (x2c4 a La) as (c1 & c2 & c3 & c4 & ->). unfold decode_u_encoding_params, pbind, x2c. cbv beta iota.
    right. destruct (x2c_val c1 c2 =? 0); unfold pret; do 2 eexists; (split; [reflexivity|]); cbn [length]; rewrite app_length; lia.
Qed.
Lemma p_not_char_u i : p_not char_u i = PErr \/ p_not char_u i = POk i tt.
Proof. unfold p_not. destruct (char_u_cases i) as [->|(u & r & -> & _ & ->)]; auto. Qed.
Lemma decode_valid_hex_consumes i : consumes decode_valid_hex i.
Proof.
  unfold consumes, decode_valid_hex. destruct (p_not_char_u i) as [->| ->]; [now left|].
  destruct (take_hex_cases 2 i) as [(a & r' & -> & La & _ & ->)|(-> & _)]; [|now left].
  destruct a as [|c1 [|c2 [|? ?]]]; try discriminate. cbn [x2c]. right. do 2 eexists; split; [reflexivity|]. cbn; lia.
Qed.
Lemma decode_invalid_hex_consumes cfg i : consumes (decode_invalid_hex cfg) i.
Proof.
  unfold consumes, decode_invalid_hex. destruct (p_not_char_u i) as [->| ->]; [now left|].
  destruct (url_encoding_invalid_handling cfg).
  - right; do 2 eexists; split; [reflexivity|lia].
  - right; do 2 eexists; split; [reflexivity|lia].
  - destruct i as [|c1 [|c2 r]]; cbn [x2c]; [now left|now left|]. right. do 2 eexists; split; [reflexivity|]. cbn; lia.
Qed.
Lemma decode_incomplete_succeeds cfg i : succeeds (decode_incomplete cfg) i.
Proof. do 2 eexists; split; [reflexivity|lia]. Qed.
Lemma decode_percent_cons cfg r : exists r' o, decode_percent cfg (37 :: r) = POk r' o /\ (length r' <= length r)%nat.
Proof.
  unfold decode_percent, pbind at 1, char_c at 1. rewrite N.eqb_refl.
  match goal with |- context [p_alt ?p ?q r] => assert (S : succeeds (p_alt p q) r) end.
  { repeat apply alt_consumes; auto using decode_valid_u_consumes, decode_invalid_u_consumes, decode_valid_hex_consumes, decode_invalid_hex_consumes, decode_incomplete_succeeds. }
  destruct S as (r' & [[[b code] fl] ins] & -> & L). destruct (b =? 0).
  - destruct (nul_encoded_terminates cfg); do 2 eexists; (split; [reflexivity|cbn; lia]).
  - do 2 eexists; (split; [reflexivity|assumption]).
Qed.
Lemma decode_percent_other cfg b r : b <> 37 -> decode_percent cfg (b :: r) = PErr.
Proof. intro H. unfold decode_percent, pbind, char_c. replace (b =? 37) with false by lia. reflexivity. Qed.
Lemma decode_unit_nil cfg : decode_unit cfg [] = PErr.
Proof. reflexivity. Qed.
Lemma decode_unit_cons cfg b r : exists r' o, decode_unit cfg (b :: r) = POk r' o /\ (length r' <= length r)%nat.
Proof.
  unfold decode_unit, p_alt at 1. destruct (N.eq_dec b 37) as [->|Hb].
  - destruct (decode_percent_cons cfg r) as (r' & o & E & L). rewrite E. eauto.
  - rewrite decode_percent_other by assumption. unfold p_alt, decode_plus, pbind, char_c. destruct (b =? 43) eqn:P.
    + unfold pret. do 2 eexists. split; [reflexivity|lia].
    + unfold unencoded_byte. destruct (b =? 0); do 2 eexists; (split; [reflexivity|]); [destruct (nul_raw_terminates cfg); cbn; lia|lia].
Qed.

Definition dfm cfg := fm (decode_unit cfg) decode_push.
Lemma dfm_nil cfg s : dfm cfg s [] = Some (POk [] s).
Proof. apply fm_nil. apply decode_unit_nil. Qed.
Lemma dfm_step cfg s b r r' o : decode_unit cfg (b :: r) = POk r' o -> dfm cfg s (b :: r) = dfm cfg (decode_push s o) r'.
Proof. apply fm_step; [apply decode_unit_nil|apply decode_unit_cons]. Qed.
Lemma dfm_ind cfg (P : dec_acc -> bytes -> dec_acc -> Prop) :
  (forall s, P s [] s) ->
  (forall s b r r' o s', decode_unit cfg (b :: r) = POk r' o -> (length r' <= length r)%nat -> P (decode_push s o) r' s' -> P s (b :: r) s') ->
  forall i s, exists s', dfm cfg s i = Some (POk [] s') /\ P s i s'.
Proof. apply fm_ind; [apply decode_unit_nil|apply decode_unit_cons]. Qed.

Definition acc_out (a : dec_acc) : bytes := fst (fst a).
Definition acc_fl (a : dec_acc) : N := snd (fst a).
Definition acc_st (a : dec_acc) : unwanted := snd a.

(** C11. *)
Lemma decode_uri_shortens cfg i : exists out fl st, decode_uri cfg i = Some (POk [] (out, fl, st)) /\ (length out <= length i)%nat.
Proof.
  destruct (dfm_ind cfg (fun s i s' => (length (acc_out s') <= length (acc_out s) + length i)%nat)) with (i := i) (s := ([] : bytes, 0, UIgnore)) as (s' & E & L).
  - intro s. cbn. lia.
  - intros s b r r' o s' _ Hl H. destruct s as [[out fl] st], o as [[[b' code] flag] ins]. cbn [decode_push acc_out fst length] in *.
    destruct ins; rewrite ?app_length in H; cbn [length] in H; lia.
  - destruct s' as [[out fl] st]. exists out, fl, st. split; [exact E|exact L].
Qed.
Definition plain (i : bytes) : Prop := ~ In 37 i /\ ~ In 43 i /\ ~ In 0 i.
Lemma unit_plain cfg b r : b <> 37 -> b <> 43 -> b <> 0 -> decode_unit cfg (b :: r) = POk r (b, UIgnore, 0, true).
Proof.
  intros H1 H2 H3. unfold decode_unit, p_alt. rewrite decode_percent_other by assumption.
  unfold decode_plus, pbind, char_c. replace (b =? 43) with false by lia. unfold unencoded_byte. replace (b =? 0) with false by lia. reflexivity.
Qed.
Lemma fset_0_r w : fset w 0 = w.
Proof. apply N.lor_0_r. Qed.
Lemma dfm_plain cfg : forall i tail s, plain i ->
  dfm cfg s (i ++ tail) = dfm cfg (acc_out s ++ i, acc_fl s, acc_st s) tail.
Proof.
  induction i as [|b i IH]; intros tail [[out fl] st] (H1 & H2 & H3); cbn [app acc_out acc_fl acc_st fst snd].
  - now rewrite app_nil_r.
  - rewrite (dfm_step _ _ _ _ _ _ (unit_plain cfg b (i ++ tail) ltac:(intro; subst; apply H1; now left) ltac:(intro; subst; apply H2; now left) ltac:(intro; subst; apply H3; now left))).
    rewrite IH by (repeat split; intro; [apply H1|apply H2|apply H3]; now right). cbn [decode_push acc_out acc_fl acc_st fst snd].
    rewrite fset_0_r, <- app_assoc. reflexivity.
Qed.
Lemma decode_uri_plain cfg i : plain i -> decode_uri cfg i = Some (POk [] (i, 0, UIgnore)).
Proof.
  intro H. change (decode_uri cfg i) with (dfm cfg ([], 0, UIgnore) i). rewrite <- (app_nil_r i) at 1. rewrite dfm_plain by assumption. apply dfm_nil.
Qed.

(** C12. *)
Lemma hex_not_u h : hexdigit h -> h <> 117 /\ h <> 85.
Proof. unfold hexdigit. lia. Qed.
Lemma unit_hex cfg h1 h2 r : hexdigit h1 -> hexdigit h2 ->
  let b := 16 * hex_digit_value h1 + hex_digit_value h2 in
  decode_unit cfg (37 :: h1 :: h2 :: r) =
    if b =? 0 then (if nul_encoded_terminates cfg then POk [] (b, or_code UIgnore (nul_encoded_unwanted cfg), fset 0 URLEN_ENCODED_NUL, false)
                    else POk r (b, or_code UIgnore (nul_encoded_unwanted cfg), fset 0 URLEN_ENCODED_NUL, true))
    else POk r (b, UIgnore, 0, true).
Proof.
  intros H1 H2 b. destruct (hex_not_u h1 H1) as [U1 U2].
  assert (CU : char_u (h1 :: h2 :: r) = PErr).
  { unfold char_u, p_alt, char_c. replace (h1 =? 117) with false by lia. replace (h1 =? 85) with false by lia. reflexivity. }
  unfold decode_unit, p_alt at 1, decode_percent, pbind at 1, char_c at 1. rewrite N.eqb_refl.
  unfold p_alt at 1, decode_valid_u_encoding. rewrite CU.
  unfold p_alt at 1, decode_invalid_u_encoding. rewrite CU.
  unfold p_alt at 1, decode_valid_hex, p_not. rewrite CU.
  change (h1 :: h2 :: r) with ([h1; h2] ++ r). rewrite (take_hex_app 2 [h1; h2] r) by (first [reflexivity | now repeat (constructor; [assumption|])]). cbn [x2c].
  rewrite (proj1 (x2c_hex h1 h2 H1 H2)). fold b. destruct (b =? 0); [destruct (nul_encoded_terminates cfg)|]; reflexivity.
Qed.
Lemma unit_raw cfg b r : b <> 37 -> (b <> 43 \/ plusspace_decode cfg = false) -> nul_raw_terminates cfg = false ->
  exists st, decode_unit cfg (b :: r) = POk r (b, st, if b =? 0 then URLEN_RAW_NUL else 0, true).
Proof.
  intros H1 H2 H3. unfold decode_unit, p_alt. rewrite decode_percent_other by assumption.
  unfold decode_plus, pbind, char_c, pret. destruct (b =? 43) eqn:P.
  - destruct H2 as [H2|H2]; [lia|]. rewrite H2. replace b with 43 by lia. eexists. reflexivity.
  - unfold unencoded_byte. rewrite H3. destruct (b =? 0); eexists; reflexivity.
Qed.
Lemma unit_plus cfg r : plusspace_decode cfg = true -> decode_unit cfg (43 :: r) = POk r (32, UIgnore, 0, true).
Proof. intro H. unfold decode_unit, p_alt. rewrite decode_percent_other by lia. unfold decode_plus, pbind, char_c, pret. rewrite N.eqb_refl, H. reflexivity. Qed.

Definition clean (fl : N) : Prop := fis_set fl URLEN_INVALID_ENCODING = false.
Lemma clean_fset fl f : clean fl -> clean f -> clean (fset fl f).
Proof.
  unfold clean. intros H1 H2. destruct (fis_set (fset fl f) URLEN_INVALID_ENCODING) eqn:E; [|reflexivity].
  apply fis_set_spec in E as (i & A & B). rewrite fset_testbit in A. apply orb_true_iff in A as [A|A].
  - rewrite <- H1. symmetry. apply fis_set_spec. eauto.
  - rewrite <- H2. symmetry. apply fis_set_spec. eauto.
Qed.
Lemma dfm_enc cfg : (nul_encoded_terminates cfg = false) -> nul_raw_terminates cfg = false ->
  forall p e, pct_enc (plusspace_decode cfg) p e -> forall tail s, clean (acc_fl s) ->
  exists fl st, clean fl /\ dfm cfg s (e ++ tail) = dfm cfg (acc_out s ++ p, fl, st) tail.
Proof.
  intros He Hr p e H. induction H as [|b p e H1 H2 H IH|p e H1 H IH|h1 h2 p e H1 H2 H IH]; intros tail [[out fl] st] Hc; cbn [app acc_out acc_fl fst snd] in *.
  - rewrite app_nil_r. eauto.
  - destruct (unit_raw cfg b (e ++ tail) H1 H2 Hr) as (st' & E). rewrite (dfm_step _ _ _ _ _ _ E). cbn [decode_push].
    destruct (IH tail (out ++ [b], fset fl (if b =? 0 then URLEN_RAW_NUL else 0), or_code st st')) as (fl' & st'' & C & ->).
    { cbn. apply clean_fset; [assumption|]. destruct (b =? 0); reflexivity. }
    cbn [acc_out fst]. rewrite <- app_assoc. eauto.
  - rewrite (dfm_step _ _ _ _ _ _ (unit_plus cfg _ H1)). cbn [decode_push].
    destruct (IH tail (out ++ [32], fset fl 0, or_code st UIgnore)) as (fl' & st'' & C & ->).
    { cbn [acc_fl snd fst]. now rewrite fset_0_r. }
    cbn [acc_out fst]. rewrite <- app_assoc. eauto.
  - pose proof (unit_hex cfg h1 h2 (e ++ tail) H1 H2) as E. cbv zeta in E. rewrite He in E.
    set (b := 16 * hex_digit_value h1 + hex_digit_value h2) in *.
    destruct (b =? 0) eqn:B.
    + rewrite (dfm_step _ _ _ _ _ _ E). cbn [decode_push].
      match goal with |- context [dfm cfg ?s _] => destruct (IH tail s) as (fl' & st'' & C & ->) end.
      { cbn [acc_fl snd fst]. apply clean_fset; [assumption|reflexivity]. }
      cbn [acc_out fst]. rewrite <- app_assoc. eauto.
    + rewrite (dfm_step _ _ _ _ _ _ E). cbn [decode_push].
      match goal with |- context [dfm cfg ?s _] => destruct (IH tail s) as (fl' & st'' & C & ->) end.
      { cbn [acc_fl snd fst]. now rewrite fset_0_r. }
      cbn [acc_out fst]. rewrite <- app_assoc. eauto.
Qed.
Lemma decode_uri_roundtrip cfg p e : nul_encoded_terminates cfg = false -> nul_raw_terminates cfg = false ->
  pct_enc (plusspace_decode cfg) p e ->
  exists fl st, decode_uri cfg e = Some (POk [] (p, fl, st)) /\ fis_set fl URLEN_INVALID_ENCODING = false.
Proof.
  intros He Hr H. destruct (dfm_enc cfg He Hr p e H [] ([] : bytes, 0, UIgnore) eq_refl) as (fl & st & C & E).
  rewrite app_nil_r, dfm_nil in E. exists fl, st. split; [exact E|exact C].
Qed.
Lemma pct_enc_exists plus p : Forall is_byte p -> exists e, pct_enc plus p e.
Proof.
  induction 1 as [|b p Hb Hp (e & IH)]; [exists []; constructor|].
  destruct (hex_pair_exists b Hb) as (h1 & h2 & H1 & H2 & ->). exists (37 :: h1 :: h2 :: e). now constructor.
Qed.

(** C13. *)
Lemma decode_unit_nonul cfg b r r' o : nul_raw_terminates cfg = true -> nul_encoded_terminates cfg = true ->
  decode_unit cfg (b :: r) = POk r' o -> let '(c, _, _, ins) := o in ins = true -> c <> 0.
Proof.
  intros Hr He E. destruct o as [[[c st] fl] ins]. intro Hi. unfold decode_unit, p_alt at 1 in E.
  destruct (N.eq_dec b 37) as [->|Hb].
  - destruct (decode_percent_cons cfg r) as (r1 & o1 & E1 & _). rewrite E1 in E. injection E as -> ->.
    unfold decode_percent in E1. match type of E1 with context [match ?m with _ => _ end] => destruct m as [r2 [[[c2 st2] fl2] i2]| |] end; try discriminate.
    destruct (c2 =? 0) eqn:C.
    + rewrite He in E1. injection E1 as _ _ _ _ <-. discriminate.
    + injection E1 as _ <- _ _ _. lia.
  - rewrite decode_percent_other in E by assumption. unfold p_alt, decode_plus, pbind, char_c, pret in E. destruct (b =? 43).
    + injection E as _ <- _ _ _. destruct (plusspace_decode cfg); discriminate.
    + unfold unencoded_byte in E. destruct (b =? 0) eqn:B.
      * rewrite Hr in E. injection E as _ _ _ _ <-. discriminate.
      * injection E as _ <- _ _ _. lia.
Qed.
Lemma decode_uri_nonul cfg i : nul_raw_terminates cfg = true -> nul_encoded_terminates cfg = true ->
  exists out fl st, decode_uri cfg i = Some (POk [] (out, fl, st)) /\ ~ In 0 out.
Proof.
  intros Hr He.
  destruct (dfm_ind cfg (fun s i s' => ~ In 0 (acc_out s) -> ~ In 0 (acc_out s'))) with (i := i) (s := ([] : bytes, 0, UIgnore)) as (s' & E & L).
  - auto.
  - intros s b r r' o s' Eu Hl H Hs. apply H. pose proof (decode_unit_nonul cfg b r r' o Hr He Eu) as K.
    destruct s as [[out fl] st], o as [[[c code] flag] ins]. cbn [decode_push acc_out fst] in *. destruct ins; [|assumption].
    rewrite in_app_iff. intros [I|[I|[]]]; [easy|]. now elim (K eq_refl).
  - destruct s' as [[out fl] st]. exists out, fl, st. split; [exact E|]. apply L. easy.
Qed.
Lemma dfm_enc_nonul cfg : forall p e, pct_enc (plusspace_decode cfg) p e -> ~ In 0 p -> forall tail s,
  exists fl st, dfm cfg s (e ++ tail) = dfm cfg (acc_out s ++ p, fl, st) tail.
Proof.
  intros p e H. induction H as [|b p e H1 H2 H IH|p e H1 H IH|h1 h2 p e H1 H2 H IH]; intros Hn tail [[out fl] st]; cbn [app acc_out acc_fl fst snd] in *.
  - rewrite app_nil_r. eauto.
  - assert (b <> 0) by (intros ->; apply Hn; now left).
    assert (E : exists st', decode_unit cfg (b :: e ++ tail) = POk (e ++ tail) (b, st', 0, true)).
    { unfold decode_unit, p_alt. rewrite decode_percent_other by assumption. unfold decode_plus, pbind, char_c, pret. destruct (b =? 43) eqn:P.
      - destruct H2 as [H2|H2]; [lia|]. rewrite H2. replace b with 43 by lia. eexists. reflexivity.
      - unfold unencoded_byte. replace (b =? 0) with false by lia. eexists. reflexivity. }
    destruct E as (st' & E). rewrite (dfm_step _ _ _ _ _ _ E). cbn [decode_push].
    match goal with |- context [dfm cfg ?s _] => destruct (IH ltac:(intro; apply Hn; now right) tail s) as (fl' & st'' & ->) end.
    cbn [acc_out fst]. rewrite <- app_assoc. eauto.
  - rewrite (dfm_step _ _ _ _ _ _ (unit_plus cfg _ H1)). cbn [decode_push].
    match goal with |- context [dfm cfg ?s _] => destruct (IH ltac:(intro; apply Hn; now right) tail s) as (fl' & st'' & ->) end.
    cbn [acc_out fst]. rewrite <- app_assoc. eauto.
  - pose proof (unit_hex cfg h1 h2 (e ++ tail) H1 H2) as E. cbv zeta in E.
    set (b := 16 * hex_digit_value h1 + hex_digit_value h2) in *.
    assert (b <> 0) by (intro; apply Hn; now left). replace (b =? 0) with false in E by lia.
    rewrite (dfm_step _ _ _ _ _ _ E). cbn [decode_push].
    match goal with |- context [dfm cfg ?s _] => destruct (IH ltac:(intro; apply Hn; now right) tail s) as (fl' & st'' & ->) end.
    cbn [acc_out fst]. rewrite <- app_assoc. eauto.
Qed.
Lemma decode_uri_raw_nul_terminates cfg p e rest : nul_raw_terminates cfg = true ->
  pct_enc (plusspace_decode cfg) p e -> ~ In 0 p ->
  exists fl st, decode_uri cfg (e ++ [0] ++ rest) = Some (POk [] (p, fl, st)) /\ fis_set fl URLEN_RAW_NUL = true.
Proof.
  intros Hr H Hn. change (decode_uri cfg ?i) with (dfm cfg ([], 0, UIgnore) i).
  destruct (dfm_enc_nonul cfg p e H Hn ([0] ++ rest) ([], 0, UIgnore)) as (fl & st & ->).
  assert (E : decode_unit cfg (0 :: rest) = POk [] (0, nul_raw_unwanted cfg, URLEN_RAW_NUL, false)).
  { unfold decode_unit, p_alt. rewrite decode_percent_other by lia. unfold decode_plus, pbind, char_c, unencoded_byte. cbn. now rewrite Hr. }
  cbn [app]. rewrite (dfm_step _ _ _ _ _ _ E), dfm_nil. cbn [decode_push acc_out fst app].
  do 2 eexists. split; [reflexivity|]. now apply fset_is_set.
Qed.
Lemma decode_uri_encoded_nul_terminates cfg p e rest : nul_encoded_terminates cfg = true ->
  pct_enc (plusspace_decode cfg) p e -> ~ In 0 p ->
  exists fl st, decode_uri cfg (e ++ s2b "%00" ++ rest) = Some (POk [] (p, fl, st)) /\ fis_set fl URLEN_ENCODED_NUL = true.
Proof.
  intros Hr H Hn. change (decode_uri cfg ?i) with (dfm cfg ([], 0, UIgnore) i).
  destruct (dfm_enc_nonul cfg p e H Hn (s2b "%00" ++ rest) ([], 0, UIgnore)) as (fl & st & ->).
  pose proof (unit_hex cfg 48 48 rest) as E. cbv zeta in E. rewrite Hr in E. cbn [app s2b].
  change (N_of_ascii "%") with 37. change (N_of_ascii "0") with 48.
  assert (hexdigit 48) by (unfold hexdigit; lia). specialize (E H0 H0). cbn in E.
  rewrite (dfm_step _ _ _ _ _ _ E), dfm_nil. cbn [decode_push acc_out fst app].
  do 2 eexists. split; [reflexivity|]. now apply fset_is_set.
Qed.

(** ** Path decoding (C19). *)
Definition path_byte_ok (cfg : decoder_cfg) (b : N) : Prop :=
  (backslash_convert_slashes cfg = true -> b <> 92) /\ (convert_lowercase cfg = true -> ~ 65 <= b <= 90).
Lemma control_ok cfg b : path_byte_ok cfg (fst (path_decode_control cfg b)).
Proof.
  unfold path_decode_control, path_byte_ok, lower. cbn [fst].
  destruct (backslash_convert_slashes cfg), (convert_lowercase cfg); rewrite ?andb_false_r, ?andb_true_r;
    repeat match goal with |- context [if ?c then _ else _] => destruct c eqn:? end; split; intros; try discriminate; lia.
Qed.
Lemma percent_ok cfg : path_byte_ok cfg 37.
Proof. split; intros _; lia. Qed.
Definition pgood (cfg : decoder_cfg) (p : parser dec_out) (i : bytes) : Prop :=
  match p i with
  | POk r (b, _, _, ins) => (length r <= length i)%nat /\ (ins = true -> path_byte_ok cfg b)
  | PErr => True
  | PInc => False
  end.
Lemma pgood_alt cfg p q i : pgood cfg p i -> pgood cfg q i -> pgood cfg (p_alt p q) i.
Proof. unfold pgood, p_alt. destruct (p i) as [r [[[b c] f] ins]| |]; auto. Qed.
Ltac ctl cfg b := let E := fresh in pose proof (control_ok cfg b) as E; destruct (path_decode_control cfg b) as [? ?]; cbn [fst] in E.
Lemma tag_u_cases i : tag_u i = PErr \/ exists u r, i = u :: r /\ tag_u i = POk r [u].
Proof.
  unfold tag_u, tag_no_case_c. destruct i as [|x i]; [now left|]. cbn [s2b strip_prefix_nocase].
  destruct (lower (N_of_ascii "u") =? lower x); [|now left]. right. exists x, i. destruct i; auto.
Qed.
Lemma path_decode_u4 cfg a : length a = 4%nat -> exists r b f c, path_decode_u_encoding cfg a = POk r (b, f, c).
Proof.
  intro La. destruct (x2c4 a La) as (c1 & c2 & c3 & c4 & ->). unfold path_decode_u_encoding, pbind, x2c. cbv beta iota.
  destruct (x2c_val c1 c2 =? 0); cbv beta iota; unfold pret; eauto.
Qed.
Lemma pgood_valid_u cfg i : pgood cfg (path_decode_valid_u_encoding cfg) i.
Proof.
  unfold pgood, path_decode_valid_u_encoding. destruct (tag_u_cases i) as [->|(u & r & -> & ->)]; [exact I|].
  destruct (u_encoding_decode cfg).
  2: { ctl cfg 37. split; [lia|auto]. }
  destruct (take_hex_cases 4 r) as [(a & r' & -> & La & _ & ->)|(-> & _)]; [|exact I].
  destruct (path_decode_u4 cfg a La) as (r0 & b & f & c & ->).
  destruct (b =? 0); [destruct (nul_encoded_terminates cfg)|].
  - split; [cbn; lia|discriminate].
  - ctl cfg b. split; [cbn [length]; rewrite app_length; lia|auto].
  - ctl cfg b. split; [cbn [length]; rewrite app_length; lia|auto].
Qed.
Lemma pgood_invalid_u cfg i : pgood cfg (path_decode_invalid_u_encoding cfg) i.
Proof.
  unfold pgood, path_decode_invalid_u_encoding. destruct (tag_u_cases i) as [->|(u & r & -> & ->)]; [exact I|].
  destruct (u_encoding_decode cfg).
  2: { ctl cfg 37. split; [lia|auto]. }
  destruct (take_c_cases 4 r) as [(a & r' & -> & La & ->)|(_ & ->)]; [|exact I].
  destruct (url_encoding_invalid_handling cfg).
  - ctl cfg 37. split; [lia|auto].
  - split; [lia|discriminate].
  - destruct (path_decode_u4 cfg a La) as (r0 & b & f & c & ->). ctl cfg b. split; [cbn [length]; rewrite app_length; lia|auto].
Qed.
Lemma pgood_incomplete_u cfg i : pgood cfg (path_incomplete_u cfg) i.
Proof.
  unfold pgood, path_incomplete_u. destruct (tag_u_cases i) as [->|(u & r & -> & ->)]; [exact I|]. split; [lia|intros; apply percent_ok].
Qed.
Lemma pgood_incomplete cfg i : pgood cfg (path_incomplete cfg) i.
Proof. split; [lia|intros; apply percent_ok]. Qed.
Lemma p_not_tag_u i : p_not tag_u i = PErr \/ p_not tag_u i = POk i tt.
Proof. unfold p_not. destruct (tag_u_cases i) as [->|(u & r & -> & ->)]; auto. Qed.
Lemma pgood_valid_hex cfg i : pgood cfg (path_decode_valid_hex cfg) i.
Proof.
  unfold pgood, path_decode_valid_hex. destruct (p_not_tag_u i) as [->| ->]; [exact I|].
  destruct (take_hex_cases 2 i) as [(a & r' & -> & La & _ & ->)|(-> & _)]; [|exact I].
  destruct a as [|c1 [|c2 [|? ?]]]; try discriminate. cbn [x2c].
  set (b := x2c_val c1 c2). destruct ((b =? 0) && nul_encoded_terminates cfg); [split; [cbn; lia|discriminate]|].
  destruct ((b =? 47) || (backslash_convert_slashes cfg && (b =? 92))).
  - destruct (path_separators_decode cfg).
    + ctl cfg b. split; [cbn; lia|auto].
    + ctl cfg 37. split; [lia|auto].
  - ctl cfg b. split; [cbn; lia|auto].
Qed.
Lemma pgood_invalid_hex cfg i : pgood cfg (path_decode_invalid_hex cfg) i.
Proof.
  unfold pgood, path_decode_invalid_hex. destruct (p_not_tag_u i) as [->| ->]; [exact I|].
  destruct (take_c_cases 2 i) as [(a & r' & -> & La & ->)|(_ & ->)]; [|exact I].
  destruct (url_encoding_invalid_handling cfg).
  - ctl cfg 37. split; [lia|auto].
  - split; [lia|discriminate].
  - destruct a as [|c1 [|c2 [|? ?]]]; try discriminate. cbn [x2c]. ctl cfg (x2c_val c1 c2). split; [cbn; lia|auto].
Qed.
Definition path_unit cfg := p_alt (path_decode_percent cfg) (path_parse_other cfg).
Lemma path_unit_nil cfg : path_unit cfg [] = PErr.
Proof. reflexivity. Qed.
Lemma path_unit_cons cfg b r : exists r' c st fl ins, path_unit cfg (b :: r) = POk r' (c, st, fl, ins) /\ (length r' <= length r)%nat
   /\ (ins = true -> path_byte_ok cfg c).
Proof.
  unfold path_unit, p_alt at 1, path_decode_percent, pbind at 1, char_c at 1. destruct (b =? 37) eqn:B.
  - match goal with |- context [p_alt ?p ?q r] => assert (S : pgood cfg (p_alt p q) r) by
      (repeat apply pgood_alt; auto using pgood_valid_u, pgood_invalid_u, pgood_incomplete_u, pgood_valid_hex, pgood_invalid_hex, pgood_incomplete);
      assert (NE : p_alt p q r <> PErr) end.
    { unfold p_alt. repeat match goal with |- (match ?x with _ => _ end) <> PErr => destruct x; try discriminate end. }
    unfold pgood in S. match goal with |- context [p_alt ?p ?q r] => destruct (p_alt p q r) as [r' [[[c st] fl] ins]| |] end.
    + destruct S as [S1 S2]. do 5 eexists. split; [reflexivity|]. split; [exact S1|exact S2].
    + easy.
    + easy.
  - unfold path_parse_other. destruct ((b =? 0) && nul_raw_terminates cfg).
    + do 5 eexists. split; [reflexivity|]. split; [cbn; lia|discriminate].
    + ctl cfg b. do 5 eexists. split; [reflexivity|]. split; [lia|auto].
Qed.
Lemma path_unit_cons' cfg b r : exists r' o, path_unit cfg (b :: r) = POk r' o /\ (length r' <= length r)%nat.
Proof. destruct (path_unit_cons cfg b r) as (r' & c & st & fl & ins & E & L & _). eauto. Qed.

(** No two adjacent slashes. *)
Lemma nds_app_ne l x : no_double_slash l -> x <> 47 -> no_double_slash (l ++ [x]).
Proof.
  intros H Hx a b E. destruct (exists_last (l := [47; 47] ++ b) ltac:(discriminate)) as (b' & y & Eb).
  rewrite Eb, app_assoc in E. apply app_inj_tail in E as [E <-].
  destruct b as [|z b] using rev_ind.
  - change ([47; 47] ++ []) with ([47] ++ [47]) in Eb. apply app_inj_tail in Eb as [_ Eb]. congruence.
  - rewrite app_assoc in Eb. apply app_inj_tail in Eb as [<- _]. now elim (H a b).
Qed.
Lemma nds_app_slash l : no_double_slash l -> last_byte l <> Some 47 -> no_double_slash (l ++ [47]).
Proof.
  intros H Hl a b E. destruct b as [|z b] using rev_ind.
  - change ([47; 47] ++ []) with ([47] ++ [47]) in E. rewrite app_assoc in E. apply app_inj_tail in E as [-> _].
    apply Hl. apply last_byte_app.
  - rewrite !app_assoc in E. apply app_inj_tail in E as [E _]. apply (H a b). now rewrite E, <- app_assoc.
Qed.
Lemma path_decode_facts cfg i : exists out fl st, path_decode_uri cfg i = Some (POk [] (out, fl, st)) /\
  (length out <= length i)%nat /\ Forall (path_byte_ok cfg) out /\ (path_separators_compress cfg = true -> no_double_slash out).
Proof.
  destruct (fm_ind (path_unit cfg) (path_decode_push cfg) (path_unit_nil cfg) (path_unit_cons' cfg)
    (fun s i s' => (length (acc_out s') <= length (acc_out s) + length i)%nat /\
       (Forall (path_byte_ok cfg) (acc_out s) -> Forall (path_byte_ok cfg) (acc_out s')) /\
       (path_separators_compress cfg = true -> no_double_slash (acc_out s) -> no_double_slash (acc_out s')))) with (i := i) (s := ([] : bytes, 0, UIgnore)) as (s' & E & L & Q & D).
  - intros s. cbn. repeat split; auto. lia.
  - intros s b r r' o s' Eu Hl (H1 & H2 & H3). destruct (path_unit_cons cfg b r) as (r2 & c & st & fl & ins & E2 & _ & Hb).
    rewrite Eu in E2. injection E2 as <- ->. destruct s as [[out fl0] st0]. cbn [path_decode_push acc_out fst length] in *.
    set (out' := if ins then _ else out) in *.
    assert (Cases : out' = out \/ (ins = true /\ out' = out ++ [c] /\ ((c =? 47) && path_separators_compress cfg = true -> last_byte out <> Some 47))).
    { subst out'. destruct ins; [|now left]. destruct ((c =? 47) && path_separators_compress cfg) eqn:C.
      - destruct (last_byte out) as [l|] eqn:LB; [|right; repeat split; discriminate].
        destruct (l =? 47) eqn:L47; [now left|]. right. repeat split. intros _ K. injection K as ->. lia.
      - right. repeat split. discriminate. }
    clearbody out'. destruct Cases as [->|(-> & -> & HL)].
    + repeat split; auto. lia.
    + rewrite app_length in H1. cbn [length] in H1. repeat split; [lia| |].
      * intro F. apply H2. apply Forall_app. split; [assumption|]. constructor; [auto|constructor].
      * intros HC HN. apply H3; [assumption|]. destruct (N.eq_dec c 47) as [->|Hc].
        { apply nds_app_slash; [assumption|]. apply HL. now rewrite HC. }
        { now apply nds_app_ne. }
  - destruct s' as [[out fl] st]. exists out, fl, st. split; [exact E|]. split; [exact L|]. split; [apply Q; constructor|].
    intro HC. apply D; [assumption|]. intros a b K. cbn in K. now destruct a.
Qed.

(** ** The urlencoded parser (C14, C15). *)
Definition urlenp_fresh (cfg : decoder_cfg) (sep : N) (dec : bool) : urlenp := {|
  up_cfg := cfg; up_sep := sep; up_decode := dec; up_params := []; up_flags := 0; up_status := UIgnore;
  up_complete := false; up_saw_data := false; up_field := [] |}.

(** What parse_partial leaves after data [d]. *)
Definition canon (p0 : urlenp) (d : bytes) : urlenp :=
  match d with
  | [] => p0
  | _ => match split_last (fun c => c =? up_sep p0) d with
         | Some (before, after) =>
             up_set_field (fold_left urlenp_segment (split_on (fun c => c =? up_sep p0) before) (up_set_saw p0)) after
         | None => up_set_field (up_set_saw p0) d
         end
  end.
Lemma segment_static p s : let q := urlenp_segment p s in
  up_cfg q = up_cfg p /\ up_sep q = up_sep p /\ up_decode q = up_decode p /\ up_complete q = up_complete p /\
  up_saw_data q = up_saw_data p /\ up_field q = up_field p.
Proof.
  unfold urlenp_segment. destruct (name_value s) as [[n v]|]; [|cbn; auto 6].
  destruct (up_decode p) eqn:D.
  - destruct (urlenp_decode (up_cfg p) n (up_flags p) (up_status p)) as [[n' fl] st].
    destruct (urlenp_decode (up_cfg p) v fl st) as [[v' fl'] st']. cbn. auto 6.
  - cbn. auto 6.
Qed.
Lemma segments_static ss : forall p, let q := fold_left urlenp_segment ss p in
  up_cfg q = up_cfg p /\ up_sep q = up_sep p /\ up_decode q = up_decode p /\ up_complete q = up_complete p /\
  up_saw_data q = up_saw_data p /\ up_field q = up_field p.
Proof.
  induction ss as [|s ss IH]; intro p; cbn [fold_left]; [cbn; auto 6|].
  pose proof (IH (urlenp_segment p s)) as H. pose proof (segment_static p s) as K. cbv zeta in *.
  destruct H as (-> & -> & -> & -> & -> & ->). exact K.
Qed.
Lemma segment_set_field p f s : urlenp_segment (up_set_field p f) s = up_set_field (urlenp_segment p s) f.
Proof.
  unfold urlenp_segment. destruct (name_value s) as [[n v]|]; [|reflexivity]. cbn [up_decode up_cfg up_flags up_status up_set_field].
  destruct (up_decode p).
  - destruct (urlenp_decode (up_cfg p) n (up_flags p) (up_status p)) as [[n' fl] st].
    destruct (urlenp_decode (up_cfg p) v fl st) as [[v' fl'] st']. reflexivity.
  - reflexivity.
Qed.
Lemma segments_set_field ss : forall p f, fold_left urlenp_segment ss (up_set_field p f) = up_set_field (fold_left urlenp_segment ss p) f.
Proof. induction ss as [|s ss IH]; intros p f; cbn [fold_left]; [reflexivity|]. now rewrite segment_set_field, IH. Qed.
Lemma set_field_twice p f g : up_set_field (up_set_field p f) g = up_set_field p g.
Proof. reflexivity. Qed.
Lemma set_field_self p : up_set_field p (up_field p) = p.
Proof. now destruct p. Qed.
Lemma set_saw_field p f : up_set_saw (up_set_field p f) = up_set_field (up_set_saw p) f.
Proof. reflexivity. Qed.
Lemma set_saw_self p : up_saw_data p = true -> up_set_saw p = p.
Proof. destruct p; cbn; now intros ->. Qed.

Section Seg.
  Variable p0 : urlenp.
  Hypothesis fresh_complete : up_complete p0 = false.
  Hypothesis fresh_field : up_field p0 = [].
  Let issep := fun c => c =? up_sep p0.

  Lemma canon_static d : up_sep (canon p0 d) = up_sep p0 /\ up_complete (canon p0 d) = false.
  Proof.
    unfold canon. destruct d as [|x d]; [auto|]. destruct (split_last _ (x :: d)) as [[b a]|].
    - pose proof (segments_static (split_on issep b) (up_set_saw p0)) as (_ & H2 & _ & H4 & _). cbn [up_set_field up_sep up_complete]. fold issep.
      rewrite H2, H4. auto.
    - cbn. auto.
  Qed.
  Lemma canon_saw d : d <> [] -> up_saw_data (canon p0 d) = true.
  Proof.
    intro Hd. unfold canon. destruct d as [|x d]; [easy|]. destruct (split_last _ (x :: d)) as [[b a]|]; [|reflexivity].
    pose proof (segments_static (split_on issep b) (up_set_saw p0)) as (_ & _ & _ & _ & H5 & _). cbn [up_set_field up_saw_data]. fold issep. now rewrite H5.
  Qed.
  Lemma split_last_nosep d x : split_last issep d = None -> 
    match split_last issep x with
    | Some (b, a) => split_last issep (d ++ x) = Some (d ++ b, a)
    | None => split_last issep (d ++ x) = None
    end.
  Proof.
    intro H. apply split_last_None in H. destruct (split_last issep x) as [[b a]|] eqn:E.
    - apply split_last_Some in E as (c & Pc & -> & Ha). rewrite app_assoc. now apply split_last_app.
    - apply split_last_None. apply split_last_None in E. now apply Forall_app.
  Qed.
  Lemma canon_step d x : parse_partial (canon p0 d) x = canon p0 (d ++ x).
  Proof.
    unfold parse_partial.
    destruct d as [|d0 d].
    - cbn [canon app]. rewrite fresh_field. cbn [app]. destruct x as [|x0 x].
      + cbn [up_set_field up_complete]. rewrite fresh_complete. cbn [andb canon]. rewrite <- fresh_field. apply set_field_self.
      + cbn [up_set_field up_set_saw up_complete]. rewrite fresh_complete. cbn [up_sep]. unfold canon.
        destruct (split_last _ (x0 :: x)) as [[b a]|]; [|reflexivity].
        rewrite set_saw_field, segments_set_field. reflexivity.
    - set (D := d0 :: d). assert (HD : D <> []) by discriminate.
      pose proof (canon_saw D HD) as Hsaw. pose proof (canon_static D) as [Hsep Hcomp].
      assert (HDx : D ++ x <> []) by (subst D; discriminate).
      assert (Form : canon p0 D = match split_last issep D with
                | Some (b, a) => up_set_field (fold_left urlenp_segment (split_on issep b) (up_set_saw p0)) a
                | None => up_set_field (up_set_saw p0) D end) by reflexivity.
      assert (Form2 : canon p0 (D ++ x) = match split_last issep (D ++ x) with
                | Some (b, a) => up_set_field (fold_left urlenp_segment (split_on issep b) (up_set_saw p0)) a
                | None => up_set_field (up_set_saw p0) (D ++ x) end) by reflexivity.
      destruct (split_last issep D) as [[b a]|] eqn:SD.
      + apply split_last_Some in SD as (c & Pc & ED & Ha).
        assert (Hf : up_field (canon p0 D) = a) by (rewrite Form; reflexivity). rewrite Hf.
        set (P := fold_left urlenp_segment (split_on issep b) (up_set_saw p0)) in *.
        assert (PS : up_sep P = up_sep p0) by (pose proof (segments_static (split_on issep b) (up_set_saw p0)) as K; cbv zeta in K; tauto).
        assert (PC : up_complete P = false) by (pose proof (segments_static (split_on issep b) (up_set_saw p0)) as K; cbv zeta in K; fold P in K; destruct K as (_ & _ & _ & -> & _); exact fresh_complete).
        assert (PW : up_saw_data P = true) by (pose proof (segments_static (split_on issep b) (up_set_saw p0)) as K; cbv zeta in K; fold P in K; destruct K as (_ & _ & _ & _ & -> & _); reflexivity).
        rewrite Form, Form2. rewrite ED, <- app_assoc. cbn [app].
        destruct (a ++ x) as [|y ax] eqn:Eax.
        * apply app_eq_nil in Eax as [-> ->]. cbn [up_set_field up_complete]. rewrite PC. cbn [andb].
          rewrite (split_last_app issep b c [] Pc (Forall_nil _)). reflexivity.
        * rewrite !set_field_twice, !set_saw_field. cbn [up_set_field up_complete up_set_saw up_sep]. rewrite PC, PS. fold issep.
          rewrite (set_saw_self P PW).
          pose proof (split_last_nosep a x) as SL. rewrite (proj2 (split_last_None issep a) Ha) in SL. specialize (SL eq_refl).
          rewrite <- Eax. destruct (split_last issep x) as [[bx ax']|] eqn:SX.
          { rewrite SL. apply split_last_Some in SX as (c' & Pc' & -> & Ha').
            change (b ++ c :: a ++ bx ++ c' :: ax') with (b ++ (c :: a ++ bx ++ c' :: ax')).
            replace (b ++ c :: a ++ bx ++ c' :: ax') with ((b ++ c :: (a ++ bx)) ++ c' :: ax') by (rewrite <- !app_assoc; cbn; rewrite <- !app_assoc; reflexivity).
            rewrite (split_last_app issep _ c' ax' Pc' Ha').
            rewrite (split_on_sep issep c b (a ++ bx) Pc), fold_left_app. fold P.
            change (a ++ bx ++ c' :: ax') with (a ++ (bx ++ c' :: ax')).
            rewrite segments_set_field. reflexivity. }
          { rewrite SL.
            assert (Hax : Forall (fun x => issep x = false) (a ++ x)) by now apply split_last_None.
            rewrite (split_last_app issep b c (a ++ x) Pc Hax). reflexivity. }
      + assert (Hf : up_field (canon p0 D) = D) by (rewrite Form; reflexivity). rewrite Hf, Form, Form2.
        destruct (D ++ x) as [|y ax] eqn:Eax; [easy|]. rewrite <- Eax.
        rewrite !set_field_twice, !set_saw_field. cbn [up_set_field up_complete up_set_saw up_sep]. rewrite fresh_complete. fold issep.
        destruct (split_last issep (D ++ x)) as [[b a]|]; [|reflexivity].
        change (up_set_saw (up_set_saw p0)) with (up_set_saw p0). rewrite segments_set_field. reflexivity.
  Qed.
  Lemma canon_pieces ps : fold_left parse_partial ps p0 = canon p0 (concat ps).
  Proof.
    rewrite <- (app_nil_l (concat ps)). change p0 with (canon p0 []) at 1. generalize (@nil N). induction ps as [|x ps IH]; intro d; cbn [fold_left concat].
    - now rewrite app_nil_r.
    - rewrite canon_step, IH, app_assoc. reflexivity.
  Qed.
End Seg.

Lemma urlenp_segmentation cfg sep dec ps :
  urlenp_finalize (fold_left parse_partial ps (urlenp_fresh cfg sep dec)) = parse_complete (urlenp_fresh cfg sep dec) (concat ps).
Proof.
  unfold parse_complete. rewrite (canon_pieces (urlenp_fresh cfg sep dec) eq_refl eq_refl ps). f_equal.
  change (urlenp_fresh cfg sep dec) with (canon (urlenp_fresh cfg sep dec) []) at 2. now rewrite canon_step.
Qed.

(** C15 *)
Lemma name_value_spec seg : match name_value seg with
  | None => seg = []
  | Some (n, v) => seg <> [] /\ splits_at_eq seg n v
  end.
Proof.
  unfold name_value, pbind, p_peek, take_c. destruct seg as [|x seg]; [reflexivity|].
  change (length (x :: seg) <? 1)%nat with false. cbv iota beta. unfold take_while_c, p_opt, char_c, pret.
  destruct (span (fun c => negb (c =? 61)) (x :: seg)) as [n r] eqn:S. apply span_spec in S as (E & Hn & Hr).
  assert (~ In 61 n) by (intro I; rewrite Forall_forall in Hn; specialize (Hn _ I); discriminate).
  destruct r as [|y r].
  - rewrite app_nil_r in E. rewrite E. split; [intros ->; discriminate|]. split; [assumption|]. right. auto.
  - specialize (Hr y r eq_refl). destruct (y =? 61) eqn:Y; [|discriminate].
    split; [discriminate|]. split; [assumption|]. left. rewrite E. replace y with 61 by lia. reflexivity.
Qed.
Lemma splits_at_eq_fun seg n v n' v' : splits_at_eq seg n v -> splits_at_eq seg n' v' -> n = n' /\ v = v'.
Proof.
  intros (H & E) (H' & E').
  assert (R : forall n v, ~ In 61 n -> max_run (fun c => c <> 61) (n ++ [61] ++ v) n ([61] ++ v)).
  { intros m w Hm. repeat split.
    - apply Forall_forall. intros x I ->. contradiction.
    - intros x r K. injection K as <- _. auto. }
  destruct E as [E|[E ->]], E' as [E'|[E' ->]]; subst seg.
  - pose proof (R n v H) as R1. pose proof (R n' v' H') as R2. rewrite <- E' in R2.
    destruct (max_run_unique _ _ _ _ _ _ R1 R2) as [-> K]. injection K as ->. auto.
  - exfalso. apply H'. rewrite <- E'. rewrite in_app_iff. right. now left.
  - exfalso. apply H. rewrite E'. rewrite in_app_iff. right. now left.
  - auto.
Qed.
Definition param_of (cfg : decoder_cfg) (dec : bool) (seg : bytes) (kv : bytes * bytes) : Prop :=
  exists n v, splits_at_eq seg n v /\
    if dec then exists f1 s1 f2 s2, decode_uri cfg n = Some (POk [] (fst kv, f1, s1)) /\ decode_uri cfg v = Some (POk [] (snd kv, f2, s2))
    else kv = (n, v).
Lemma segment_params p s :
  (s = [] -> urlenp_segment p s = p) /\
  (s <> [] -> exists kv, param_of (up_cfg p) (up_decode p) s kv /\ up_params (urlenp_segment p s) = up_params p ++ [kv]).
Proof.
  unfold urlenp_segment. pose proof (name_value_spec s) as H. destruct (name_value s) as [[n v]|].
  - destruct H as (Hs & Hsp). split; [easy|]. intros _. destruct (up_decode p) eqn:D.
    + unfold urlenp_decode. destruct (decode_uri_shortens (up_cfg p) n) as (n' & f1 & s1 & E1 & _). destruct (decode_uri_shortens (up_cfg p) v) as (v' & f2 & s2 & E2 & _).
      rewrite E1, E2. cbn [up_params]. exists (n', v'). split; [|reflexivity]. exists n, v. split; [assumption|]. cbn. eauto 8.
    + cbn [up_params]. exists (n, v). split; [|reflexivity]. exists n, v. auto.
  - split; [reflexivity|easy].
Qed.
Lemma segments_params ss : forall p, exists kvs, Forall2 (param_of (up_cfg p) (up_decode p)) (filter nonempty ss) kvs /\
  up_params (fold_left urlenp_segment ss p) = up_params p ++ kvs.
Proof.
  induction ss as [|s ss IH]; intro p; cbn [fold_left filter].
  - exists []. split; [constructor|now rewrite app_nil_r].
  - destruct (segment_params p s) as [H0 H1]. pose proof (segment_static p s) as (Hc & _ & Hd & _).
    destruct (IH (urlenp_segment p s)) as (kvs & F & E). rewrite Hc, Hd in F. destruct s as [|x s].
    + cbn [nonempty]. rewrite (H0 eq_refl) in *. eauto.
    + destruct (H1 ltac:(discriminate)) as (kv & K & E2). cbn [nonempty]. exists (kv :: kvs). split; [now constructor|].
      rewrite E, E2, <- app_assoc. reflexivity.
Qed.
Lemma join_split_on sep d : join [sep] (split_on (fun c => c =? sep) d) = d.
Proof.
  induction d as [|x d IH]; [reflexivity|]. cbn [split_on]. destruct (x =? sep) eqn:E.
  - destruct (split_on (fun c => c =? sep) d) as [|s ss] eqn:S; [now elim (split_on_nonempty (fun c => c =? sep) d)|].
    cbn [join app] in *. rewrite IH. apply N.eqb_eq in E. now subst.
  - destruct (split_on (fun c => c =? sep) d) as [|s ss] eqn:S; [now elim (split_on_nonempty (fun c => c =? sep) d)|].
    destruct ss; cbn [join app] in *; now rewrite IH.
Qed.
Lemma pieces_split_on sep d segs : pieces sep d segs <-> segs = split_on (fun c => c =? sep) d.
Proof.
  split.
  - intros (Hne & -> & Hf). induction Hf as [|s segs Hs Hf IH]; [easy|].
    assert (Hs' : Forall (fun x => (x =? sep) = false) s).
    { apply Forall_forall. intros x I. apply N.eqb_neq. intros ->. contradiction. }
    destruct segs as [|s2 segs].
    + cbn [join]. now rewrite split_on_none.
    + change (join [sep] (s :: s2 :: segs)) with (s ++ [sep] ++ join [sep] (s2 :: segs)). cbn [app].
      rewrite split_on_sep by apply N.eqb_refl. rewrite split_on_none by assumption. cbn [app]. f_equal. apply IH. discriminate.
  - intros ->. split; [apply split_on_nonempty|]. split; [symmetry; apply join_split_on|].
    apply Forall_forall. intros s Hs. destruct (split_on_pieces (fun c => c =? sep) d) as [H _]. destruct (H s Hs) as (_ & _ & _ & F).
    intro I. rewrite Forall_forall in F. specialize (F _ I). cbn in F. lia.
Qed.

Lemma urlenp_params cfg sep dec d segs : pieces sep d segs ->
  let params := up_params (parse_complete (urlenp_fresh cfg sep dec) d) in
  let wanted := filter nonempty segs in
  if nonempty d then
    match wanted with
    | [] => params = [([], [])]
    | _ => Forall2 (param_of cfg dec) wanted params
    end
  else params = [].
Proof.
  intros Hp params wanted. apply pieces_split_on in Hp. subst segs.
  set (p0 := urlenp_fresh cfg sep dec) in *. set (issep := fun c => c =? sep) in *.
  assert (Ec : parse_partial p0 d = canon p0 d) by (change p0 with (canon p0 []) at 1; now rewrite canon_step).
  subst params. unfold parse_complete. fold p0. rewrite Ec.
  destruct d as [|x d]; [reflexivity|]. cbn [nonempty]. set (D := x :: d) in *.
  unfold urlenp_finalize, parse_partial.
  assert (Form : canon p0 D = match split_last issep D with
            | Some (b, a) => up_set_field (fold_left urlenp_segment (split_on issep b) (up_set_saw p0)) a
            | None => up_set_field (up_set_saw p0) D end) by reflexivity.
  destruct (split_last issep D) as [[b a]|] eqn:SD.
  - apply split_last_Some in SD as (c & Pc & ED & Ha).
    assert (W : wanted = filter nonempty (split_on issep b) ++ filter nonempty [a]).
    { unfold wanted. rewrite ED, (split_on_sep issep c b a Pc), filter_app, (split_on_none issep a Ha). reflexivity. }
    set (P := fold_left urlenp_segment (split_on issep b) (up_set_saw p0)) in *.
    pose proof (segments_static (split_on issep b) (up_set_saw p0)) as K. cbv zeta in K. fold P in K. cbn in K. destruct K as (K1 & K2 & K3 & K4 & K5 & K6).
    destruct (segments_params (split_on issep b) (up_set_saw p0)) as (kvs & F & EP). fold P in EP. cbn [up_set_saw up_cfg up_decode p0 urlenp_fresh up_params app] in F, EP.
    rewrite Form. rewrite app_nil_r. cbn [up_set_complete up_set_field up_field].
    destruct a as [|y a].
    + set (Q := up_set_field (up_set_complete (up_set_field P [])) []).
      change (up_complete Q) with true. change (up_saw_data Q) with (up_saw_data P). change (up_params Q) with (up_params P).
      rewrite K5, EP. cbn [filter nonempty] in W. rewrite app_nil_r in W. rewrite W.
      unfold table_size. destruct kvs as [|kv kvs].
      * inversion F. cbn. reflexivity.
      * cbn [length Nat.eqb andb]. change (up_params Q) with (up_params P). rewrite EP. destruct (filter nonempty (split_on issep b)); [inversion F|exact F].
    + match goal with |- context [up_complete (up_set_saw ?q)] => set (Q := up_set_saw q) end.
      change (up_complete Q) with true. change (up_sep Q) with (up_sep P). cbv iota. rewrite K2. fold issep.
      assert (Q1 : up_cfg Q = cfg) by exact K1. assert (Q2 : up_decode Q = dec) by exact K3. assert (Q3 : up_params Q = kvs) by exact EP.
      destruct (segments_params (split_on issep (y :: a)) Q) as (kvs' & F' & EP'). rewrite Q1, Q2 in F'. rewrite Q3 in EP'.
      cbn [up_set_field up_params].
      match goal with |- context [up_params ?q] => replace (up_params q) with (kvs ++ kvs') by (symmetry; exact EP') end.
      rewrite (split_on_none issep (y :: a) Ha) in F'.
      assert (FF : Forall2 (param_of cfg dec) wanted (kvs ++ kvs')) by (rewrite W; apply Forall2_app; assumption).
      destruct wanted as [|w ws] eqn:EW; [|exact FF].
      exfalso. symmetry in W. apply app_eq_nil in W as [_ W]. discriminate.
  - apply split_last_None in SD. rewrite Form, app_nil_r. cbn [up_set_complete up_set_field up_field up_set_saw]. subst D.
    match goal with |- context [up_complete (up_set_saw ?q)] => set (Q := up_set_saw q) end.
    change (up_complete Q) with true. change (up_sep Q) with sep. cbv iota. fold issep.
    destruct (segments_params (split_on issep (x :: d)) Q) as (kvs' & F' & EP').
    match goal with |- context [up_params ?q] => replace (up_params q) with kvs' by (symmetry; exact EP') end.
    change (up_cfg Q) with cfg in F'. change (up_decode Q) with dec in F'. fold wanted in F'.
    destruct wanted as [|w ws] eqn:EW; [|exact F'].
    unfold wanted in EW. rewrite (split_on_none issep (x :: d) SD) in EW. discriminate.
Qed.

Definition decodes (cfg : decoder_cfg) (dec : bool) (t t' : bytes) : Prop :=
  if dec then exists f s, decode_uri cfg t = Some (POk [] (t', f, s)) else t' = t.
Lemma param_of_for cfg dec seg kv : param_of cfg dec seg kv -> param_for (decodes cfg dec) seg kv.
Proof.
  intros (n & v & S & K). exists n, v. split; [assumption|]. unfold decodes. destruct dec; [destruct K as (f1 & s1 & f2 & s2 & E1 & E2); split; eauto|subst; auto].
Qed.
Lemma Forall2_weaken {A B} (P Q : A -> B -> Prop) l l' : (forall a b, P a b -> Q a b) -> Forall2 P l l' -> Forall2 Q l l'.
Proof. intro H. induction 1; constructor; auto. Qed.
Lemma urlenp_parameters cfg sep dec d segs : pieces sep d segs ->
  let params := up_params (parse_complete (urlenp_fresh cfg sep dec) d) in
  let wanted := filter nonempty segs in
  (d = [] -> params = []) /\
  (d <> [] -> wanted = [] -> params = [([], [])]) /\
  (wanted <> [] -> Forall2 (param_for (decodes cfg dec)) wanted params).
Proof.
  intros Hp params wanted. pose proof (urlenp_params cfg sep dec d segs Hp) as H. cbv zeta in H. fold params wanted in H.
  destruct d as [|x d]; cbn [nonempty] in H.
  - split; [auto|]. split; [easy|]. intro K. exfalso. apply K. apply pieces_split_on in Hp. subst wanted segs. reflexivity.
  - split; [easy|]. split.
    + intros _ E. now rewrite E in H.
    + intro K. destruct wanted as [|w ws]; [easy|]. eapply Forall2_weaken; [|exact H]. intros a b. apply param_of_for.
Qed.
