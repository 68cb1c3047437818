(** Proofs for C66 and C67: the decoders read texts piece by piece as SpecDecode.v says. *)
From Verif Require Import Base Spec SpecDecode ModelUtil ModelBstr ModelBestfit ModelUrl ProofsBase ProofsBstr ProofsParsers ProofsUrl.

(** ** Small parsers. *)
Lemma tag_u_yes u r : letter_u u -> tag_u (u :: r) = POk r [u].
Proof. intros [->| ->]; reflexivity. Qed.
Lemma lower_u x : lower x = 117 <-> letter_u x.
Proof. unfold lower, letter_u. destruct ((65 <=? x) && (x <=? 90)) eqn:E; lia. Qed.
Lemma tag_u_no l : (forall u s, l = u :: s -> ~ letter_u u) -> tag_u l = PErr.
Proof.
  intro H. destruct l as [|c r]; [reflexivity|]. specialize (H c r eq_refl). unfold tag_u, tag_no_case_c. cbn [s2b strip_prefix_nocase].
  change (lower (N_of_ascii "u")) with 117. destruct (117 =? lower c) eqn:E; [|reflexivity]. apply N.eqb_eq in E. symmetry in E. now apply lower_u in E.
Qed.
Lemma char_u_yes u r : letter_u u -> char_u (u :: r) = POk r u.
Proof. intros [->| ->]; reflexivity. Qed.
Lemma char_u_no l : (forall u s, l = u :: s -> ~ letter_u u) -> char_u l = PErr.
Proof.
  intro H. destruct l as [|c r]; [reflexivity|]. specialize (H c r eq_refl). unfold letter_u in H. unfold char_u, p_alt, char_c.
  replace (c =? 117) with false by lia. replace (c =? 85) with false by lia. reflexivity.
Qed.
Lemma take_c_app n a r : length a = n -> take_c n (a ++ r) = POk r a.
Proof.
  intro Ha. destruct (take_c_cases n (a ++ r)) as [(a' & r' & E & Ha' & ->)|(L & _)].
  - destruct (app_inv_length a r a' r') as [-> ->]; [congruence|assumption|reflexivity].
  - rewrite app_length in L. lia.
Qed.
Lemma take_c_short n l : (length l < n)%nat -> take_c n l = PErr.
Proof. intro L. unfold take_c. now replace (length l <? n)%nat with true by lia. Qed.
Lemma take_hex_short n l : (length l < n)%nat -> take_hex n l = PErr.
Proof. intro L. unfold take_hex. now replace (length l <? n)%nat with true by lia. Qed.
Lemma take_hex_no n a r : length a = n -> ~ Forall hexdigit a -> take_hex n (a ++ r) = PErr.
Proof.
  intros La H. destruct (take_hex_cases n (a ++ r)) as [(a' & r' & E & La' & F & _)|(-> & _)]; [|reflexivity].
  destruct (app_inv_length a r a' r') as [-> ->]; [congruence|assumption|contradiction].
Qed.
Lemma raw_nibble c : x2c_nibble c = raw_digit c.
Proof. unfold x2c_nibble, raw_digit. destruct (65 <=? c) eqn:A, (c <? 65) eqn:B; try lia; f_equal; lia. Qed.
Lemma raw_val a b : x2c_val a b = raw_pair a b.
Proof. unfold x2c_val, raw_pair. now rewrite !raw_nibble. Qed.
Lemma hex_val a b : hexdigit a -> hexdigit b -> x2c_val a b = pair_of a b.
Proof. intros. now apply x2c_hex. Qed.
Lemma ctl_shown cfg b : path_decode_control cfg b = (shown cfg b, control cfg b).
Proof.
  unfold path_decode_control, shown, control, asks_if, lower. f_equal.
  destruct (backslash_convert_slashes cfg), (convert_lowercase cfg), (b =? 92); reflexivity.
Qed.
Lemma ctl_percent cfg : path_decode_control cfg 37 = (37, UIgnore).
Proof. rewrite ctl_shown. unfold shown, control, asks_if. cbn. destruct (backslash_convert_slashes cfg), (convert_lowercase cfg); reflexivity. Qed.
Lemma hex4_all a b c d : hex4 [a; b; c; d] -> hexdigit a /\ hexdigit b /\ hexdigit c /\ hexdigit d.
Proof. intros [_ F]. repeat (apply Forall_cons_iff in F; destruct F as [? F]). auto. Qed.
Lemma or_ignore_l u : or_code UIgnore u = u.
Proof. now destruct u. Qed.
Lemma or_asks a b : or_code a b = asks [a; b].
Proof. now destruct a, b. Qed.

(** ** 16-bit characters. *)
Definition u_code (cfg : decoder_cfg) (hi : N) : unwanted := asks_if (negb (hi =? 0)) (u_encoding_unwanted cfg).
Lemma lor0r n : N.lor n 0 = n.
Proof. apply N.lor_0_r. Qed.
Lemma path_wide cfg c1 c2 c3 c4 hi lo : x2c_val c1 c2 = hi -> x2c_val c3 c4 = lo ->
  path_decode_u_encoding cfg [c1; c2; c3; c4] = POk [] (wide cfg hi lo, wide_flags cfg hi lo, u_code cfg hi).
Proof.
  intros E1 E2. unfold path_decode_u_encoding, pbind, x2c, pret. cbv beta iota. rewrite E1, E2. cbv beta iota.
  unfold wide_flags, wide, u_code, asks_if, bestfit_key, separator, all_flags, on. cbn [fold_right].
  replace (hi * 256) with (256 * hi) by lia. destruct (hi =? 0) eqn:Z.
  - apply N.eqb_eq in Z. replace (hi =? 255) with false by lia. cbn [negb]. cbv iota. rewrite lor0r.
    destruct ((lo =? 47) || (backslash_convert_slashes cfg && (lo =? 92))); cbn [N.lor]; rewrite ?lor0r; reflexivity.
  - cbn [negb]. cbv beta iota. rewrite N.lor_0_l, lor0r. set (w := bestfit_get _ _). destruct (hi =? 255);
      destruct ((w =? 47) || (backslash_convert_slashes cfg && (w =? 92))); cbv iota; unfold fset; rewrite ?lor0r, ?N.lor_0_l; reflexivity.
Qed.
(** ** Paths: one piece. *)
Definition unit_for (o : option N) (f : N) (c : unwanted) (d : dec_out) : Prop :=
  let '(b, c', f', ins) := d in f' = f /\ c' = c /\ o = if ins then Some b else None.
Lemma path_unit_percent cfg r d r' : path_decode_percent cfg (37 :: r) = POk r' d -> path_unit cfg (37 :: r) = POk r' d.
Proof. intro E. unfold path_unit, p_alt. now rewrite E. Qed.
Lemma not_u_hex h : hexdigit h -> ~ letter_u h.
Proof. intro H. apply hex_not_u in H. unfold letter_u. lia. Qed.
Lemma cons_not_u c r : ~ letter_u c -> forall u s, c :: r = u :: s -> ~ letter_u u.
Proof. intros H u s E. now injection E as <- <-. Qed.
Lemma not_hex2 a b : ~ hex2 [a; b] -> ~ Forall hexdigit [a; b].
Proof. intros H F. now apply H. Qed.
Lemma not_hex4 a : length a = 4%nat -> ~ hex4 a -> ~ Forall hexdigit a.
Proof. intros L H F. now apply H. Qed.
Ltac no_u := rewrite (tag_u_no _ ltac:(first [assumption | apply cons_not_u; first [assumption | now apply not_u_hex]])).
Ltac percent := unfold path_decode_percent, pbind at 1, char_c at 1; rewrite N.eqb_refl.
Lemma path_no_u cfg r : (forall u s, r = u :: s -> ~ letter_u u) ->
  path_decode_percent cfg (37 :: r) = p_alt (path_decode_valid_hex cfg) (p_alt (path_decode_invalid_hex cfg) (path_incomplete cfg)) r.
Proof.
  intro H. percent. unfold p_alt at 1, path_decode_valid_u_encoding. rewrite (tag_u_no _ H).
  unfold p_alt at 1, path_decode_invalid_u_encoding. rewrite (tag_u_no _ H).
  unfold p_alt at 1, path_incomplete_u. now rewrite (tag_u_no _ H).
Qed.
Lemma path_hex cfg h1 h2 r : hexdigit h1 -> hexdigit h2 -> let b := pair_of h1 h2 in
  path_decode_percent cfg (37 :: h1 :: h2 :: r) =
    if (b =? 0) && nul_encoded_terminates cfg then POk [] (b, nul_encoded_unwanted cfg, on (b =? 0) PATH_ENCODED_NUL, false)
    else if separator cfg b then
      if path_separators_decode cfg then POk r (shown cfg b, control cfg b, fset (on (b =? 0) PATH_ENCODED_NUL) PATH_ENCODED_SEPARATOR, true)
      else POk (h1 :: h2 :: r) (37, UIgnore, fset (on (b =? 0) PATH_ENCODED_NUL) PATH_ENCODED_SEPARATOR, true)
    else POk r (shown cfg b, control cfg b, on (b =? 0) PATH_ENCODED_NUL, true).
Proof.
  intros H1 H2 b. rewrite path_no_u by (apply cons_not_u; now apply not_u_hex).
  unfold p_alt at 1, path_decode_valid_hex, p_not. rewrite tag_u_no by (apply cons_not_u; now apply not_u_hex).
  change (h1 :: h2 :: r) with ([h1; h2] ++ r). rewrite (take_hex_app 2 [h1; h2] r) by (first [reflexivity | now repeat (constructor; [assumption|])]).
  cbn [x2c]. rewrite hex_val by assumption. fold b. cbv beta zeta. rewrite ctl_percent, ctl_shown. unfold separator, on.
  destruct ((b =? 0) && nul_encoded_terminates cfg); [reflexivity|].
  destruct ((b =? 47) || (backslash_convert_slashes cfg && (b =? 92))); [|reflexivity]. now destruct (path_separators_decode cfg).
Qed.
Lemma path_bad cfg c1 c2 r : ~ letter_u c1 -> ~ hex2 [c1; c2] ->
  path_decode_percent cfg (37 :: c1 :: c2 :: r) =
    match url_encoding_invalid_handling cfg with
    | PRESERVE_PERCENT => POk (c1 :: c2 :: r) (37, UIgnore, PATH_INVALID_ENCODING, true)
    | REMOVE_PERCENT => POk (c1 :: c2 :: r) (37, url_encoding_invalid_unwanted cfg, PATH_INVALID_ENCODING, false)
    | PROCESS_INVALID => POk r (shown cfg (raw_pair c1 c2), control cfg (raw_pair c1 c2), PATH_INVALID_ENCODING, true)
    end.
Proof.
  intros Hu Hh. rewrite path_no_u by now apply cons_not_u.
  unfold p_alt at 1, path_decode_valid_hex, p_not. rewrite tag_u_no by now apply cons_not_u.
  change (c1 :: c2 :: r) with ([c1; c2] ++ r) at 1. rewrite (take_hex_no 2 [c1; c2] r) by (first [reflexivity|now apply not_hex2]).
  unfold p_alt at 1, path_decode_invalid_hex, p_not. rewrite tag_u_no by now apply cons_not_u.
  change (c1 :: c2 :: r) with ([c1; c2] ++ r) at 1. rewrite (take_c_app 2 [c1; c2] r) by reflexivity.
  cbn [x2c]. rewrite raw_val, ctl_percent, ctl_shown. now destruct (url_encoding_invalid_handling cfg).
Qed.
Lemma path_cut cfg r : (length r < 2)%nat -> (forall u s, r = u :: s -> ~ letter_u u) ->
  path_decode_percent cfg (37 :: r) = POk r (37, url_encoding_invalid_unwanted cfg, PATH_INVALID_ENCODING, keeps_percent cfg).
Proof.
  intros L H. rewrite path_no_u by assumption.
  unfold p_alt at 1, path_decode_valid_hex, p_not. rewrite (tag_u_no _ H), take_hex_short by assumption.
  unfold p_alt at 1, path_decode_invalid_hex, p_not. now rewrite (tag_u_no _ H), take_c_short by assumption.
Qed.
Lemma path_u_cut cfg u r : letter_u u -> u_encoding_decode cfg = true -> (length r < 4)%nat ->
  path_decode_percent cfg (37 :: u :: r) = POk (u :: r) (37, url_encoding_invalid_unwanted cfg, PATH_INVALID_ENCODING, keeps_percent cfg).
Proof.
  intros U D L. percent. unfold p_alt at 1, path_decode_valid_u_encoding. rewrite tag_u_yes, D, take_hex_short by assumption.
  unfold p_alt at 1, path_decode_invalid_u_encoding. rewrite tag_u_yes, D, take_c_short by assumption.
  unfold p_alt at 1, path_incomplete_u. now rewrite tag_u_yes by assumption.
Qed.
Lemma path_u_off cfg u r : letter_u u -> u_encoding_decode cfg = false ->
  path_decode_percent cfg (37 :: u :: r) = POk (u :: r) (37, UIgnore, 0, true).
Proof. intros U D. percent. unfold p_alt at 1, path_decode_valid_u_encoding. now rewrite tag_u_yes, D, ctl_percent by assumption. Qed.
Lemma or_same_code cfg hi : or_code (u_encoding_unwanted cfg) (u_code cfg hi) = u_encoding_unwanted cfg.
Proof. unfold u_code, asks_if. destruct (negb (hi =? 0)), (u_encoding_unwanted cfg); reflexivity. Qed.
Lemma path_u_hex cfg u h1 h2 h3 h4 r : letter_u u -> u_encoding_decode cfg = true -> hex4 [h1; h2; h3; h4] ->
  let hi := pair_of h1 h2 in let lo := pair_of h3 h4 in let w := wide cfg hi lo in
  path_decode_percent cfg (37 :: u :: h1 :: h2 :: h3 :: h4 :: r) =
    if w =? 0 then
      if nul_encoded_terminates cfg then POk [] (w, or_code (u_encoding_unwanted cfg) (nul_encoded_unwanted cfg), fset (wide_flags cfg hi lo) PATH_ENCODED_NUL, false)
      else POk r (shown cfg w, or_code (or_code (u_encoding_unwanted cfg) (nul_encoded_unwanted cfg)) (control cfg w), fset (wide_flags cfg hi lo) PATH_ENCODED_NUL, true)
    else POk r (shown cfg w, or_code (u_encoding_unwanted cfg) (control cfg w), wide_flags cfg hi lo, true).
Proof.
  intros U D H hi lo w. destruct (hex4_all _ _ _ _ H) as (H1 & H2 & H3 & H4). percent.
  unfold p_alt at 1, path_decode_valid_u_encoding. rewrite tag_u_yes, D by assumption.
  change (h1 :: h2 :: h3 :: h4 :: r) with ([h1; h2; h3; h4] ++ r). rewrite (take_hex_app 4 [h1; h2; h3; h4] r) by (first [reflexivity|apply H]).
  rewrite (path_wide cfg h1 h2 h3 h4 hi lo) by (now apply hex_val). fold w. rewrite or_same_code, ctl_shown.
  destruct (w =? 0); [destruct (nul_encoded_terminates cfg)|]; reflexivity.
Qed.
Lemma path_u_bad cfg u a r : letter_u u -> u_encoding_decode cfg = true -> length a = 4%nat -> ~ hex4 a ->
  path_decode_percent cfg (37 :: u :: a ++ r) =
    match url_encoding_invalid_handling cfg with
    | PRESERVE_PERCENT => POk (u :: a ++ r) (37, url_encoding_invalid_unwanted cfg, PATH_INVALID_ENCODING, true)
    | REMOVE_PERCENT => POk (u :: a ++ r) (37, url_encoding_invalid_unwanted cfg, PATH_INVALID_ENCODING, false)
    | PROCESS_INVALID =>
        match path_decode_u_encoding cfg a with
        | POk _ (b, f, c) => POk r (shown cfg b, or_code (or_code (url_encoding_invalid_unwanted cfg) c) (control cfg b), fset PATH_INVALID_ENCODING f, true)
        | _ => PErr
        end
    end.
Proof.
  intros U D L H. percent. unfold p_alt at 1, path_decode_valid_u_encoding. rewrite tag_u_yes, D, take_hex_no by (first [assumption|now apply not_hex4]).
  unfold p_alt at 1, path_decode_invalid_u_encoding. rewrite tag_u_yes, D, take_c_app by assumption. rewrite ctl_percent.
  destruct (url_encoding_invalid_handling cfg); try reflexivity.
  - destruct (x2c4 a L) as (c1 & c2 & c3 & c4 & ->). erewrite path_wide by reflexivity. now rewrite ctl_shown.
Qed.
Lemma path_step_unit cfg i o f c r : path_step cfg i o f c r -> exists d, path_unit cfg i = POk r d /\ unit_for o f c d.
Proof.
  destruct 1.
  all: try (unfold path_unit, p_alt, path_decode_percent, pbind, char_c; 
            match goal with |- context [?b =? 37] => (replace (b =? 37) with false by lia) end; cbn [path_parse_other]).
  - unfold path_parse_other. rewrite ctl_shown. replace ((b =? 0) && nul_raw_terminates cfg) with false
      by (destruct H0 as [H0| ->]; [replace (b =? 0) with false by lia; reflexivity|now rewrite andb_false_r]).
    eexists. split; [reflexivity|]. now repeat split.
  - rewrite H. cbn. eexists. split; [reflexivity|]. now repeat split.
  - eexists. split.
    + apply path_unit_percent. rewrite path_hex by assumption. rewrite H1.
      replace ((pair_of h1 h2 =? 0) && nul_encoded_terminates cfg) with false; [reflexivity|].
      destruct H2 as [H2| ->]; [now replace (pair_of h1 h2 =? 0) with false by lia|now rewrite andb_false_r].
    + now repeat split.
  - eexists. split; [apply path_unit_percent; rewrite path_hex by assumption; rewrite H1, H2; reflexivity|now repeat split].
  - assert (NZ : 32 <= pair_of h1 h2) by (unfold separator in H1; lia). eexists. split.
    + apply path_unit_percent. rewrite path_hex by assumption. rewrite H1, H2. replace (pair_of h1 h2 =? 0) with false by lia. reflexivity.
    + repeat split. unfold control, asks_if. now replace (pair_of h1 h2 <? 32) with false by lia.
  - assert (NZ : 32 <= pair_of h1 h2) by (unfold separator in H1; lia). eexists. split.
    + apply path_unit_percent. rewrite path_hex by assumption. rewrite H1, H2. replace (pair_of h1 h2 =? 0) with false by lia. reflexivity.
    + now repeat split.
  - eexists. split; [apply path_unit_percent; rewrite path_bad by assumption; rewrite H1; reflexivity|now repeat split].
  - eexists. split; [apply path_unit_percent; rewrite path_bad by assumption; rewrite H1; reflexivity|now repeat split].
  - eexists. split; [apply path_unit_percent; rewrite path_bad by assumption; rewrite H1; reflexivity|now repeat split].
  - eexists. split; [apply path_unit_percent; now apply path_cut|]. repeat split. unfold keeps_percent. now destruct (url_encoding_invalid_handling cfg).
  - eexists. split; [apply path_unit_percent; now apply path_u_cut|]. repeat split. unfold keeps_percent. now destruct (url_encoding_invalid_handling cfg).
  - eexists. split; [apply path_unit_percent; now apply path_u_off|]. now repeat split.
  - subst hi lo w. cbn [all_flags fold_right]. rewrite lor0r. set (w := wide _ _ _) in *. destruct (w =? 0) eqn:Z.
    + destruct H5 as [H5|H5]; [lia|]. eexists. split; [apply path_unit_percent; rewrite path_u_hex by assumption; fold w; rewrite Z, H5; reflexivity|].
      repeat split. cbn [on asks_if]. now destruct (u_encoding_unwanted cfg), (nul_encoded_unwanted cfg), (control cfg w).
    + eexists. split; [apply path_unit_percent; rewrite path_u_hex by assumption; fold w; rewrite Z; reflexivity|].
      repeat split; cbn [on asks_if]; [now rewrite lor0r|]. now destruct (u_encoding_unwanted cfg), (control cfg w).
  - subst hi lo. cbn [all_flags fold_right]. rewrite lor0r. eexists.
    split; [apply path_unit_percent; rewrite path_u_hex by assumption; rewrite H4, H5; reflexivity|]. repeat split. now rewrite or_asks.
  - eexists. split; [apply path_unit_percent; rewrite path_u_bad by assumption; rewrite H3; reflexivity|now repeat split].
  - eexists. split; [apply path_unit_percent; rewrite path_u_bad by assumption; rewrite H3; reflexivity|now repeat split].
  - subst hi lo w. eexists. split.
    + apply path_unit_percent. change (c1 :: c2 :: c3 :: c4 :: r) with ([c1; c2; c3; c4] ++ r). rewrite path_u_bad by (first [assumption|reflexivity]). rewrite H2.
      rewrite (path_wide cfg c1 c2 c3 c4 _ _ (raw_val _ _) (raw_val _ _)). reflexivity.
    + set (w := wide _ _ _). cbn [all_flags fold_right]. rewrite lor0r. repeat split. unfold u_code.
      destruct (url_encoding_invalid_unwanted cfg), (asks_if (negb (raw_pair c1 c2 =? 0)) (u_encoding_unwanted cfg)), (control cfg w); reflexivity.
Qed.
(** ** Paths: every text can be read. *)
Lemma letter_u_dec u : {letter_u u} + {~ letter_u u}.
Proof. unfold letter_u. destruct (N.eq_dec u 117); [left; auto|]. destruct (N.eq_dec u 85); [left; auto|right; tauto]. Qed.
Lemma hexs_dec a : {Forall hexdigit a} + {~ Forall hexdigit a}.
Proof.
  destruct (forallb is_hexdigit a) eqn:E; [left|right].
  - apply (Forall_bool_iff is_hexdigit _ _ is_hexdigit_spec). now apply Forall_forall, forallb_forall.
  - intro F. apply not_true_iff_false in E. apply E. apply forallb_forall, Forall_forall. now apply (Forall_bool_iff is_hexdigit _ _ is_hexdigit_spec).
Qed.
Lemma path_step_total cfg b r : exists o f c r', path_step cfg (b :: r) o f c r'.
Proof.
  destruct (N.eq_dec b 37) as [->|NP].
  - destruct r as [|c1 r].
    { do 4 eexists. apply ps_cut; [cbn; lia|discriminate]. }
    destruct (letter_u_dec c1) as [U|U].
    + destruct (u_encoding_decode cfg) eqn:D; [|do 4 eexists; now apply ps_wide_off].
      destruct (le_lt_dec 4 (length r)) as [L|L]; [|do 4 eexists; now apply ps_wide_cut].
      destruct r as [|h1 [|h2 [|h3 [|h4 r]]]]; try (cbn in L; lia).
      destruct (hexs_dec [h1; h2; h3; h4]) as [F|F].
      * destruct (N.eq_dec (wide cfg (pair_of h1 h2) (pair_of h3 h4)) 0) as [Z|Z];
          [destruct (nul_encoded_terminates cfg) eqn:T|].
        -- do 4 eexists. eapply ps_wide_nul; try reflexivity; try assumption. now split.
        -- do 4 eexists. eapply ps_wide; try reflexivity; try assumption; [now split|now right].
        -- do 4 eexists. eapply ps_wide; try reflexivity; try assumption; [now split|now left].
      * assert (N4 : ~ hex4 [h1; h2; h3; h4]) by (intros [_ ?]; contradiction).
        destruct (url_encoding_invalid_handling cfg) eqn:E.
        -- do 4 eexists. apply (ps_wide_bad_kept cfg c1 [h1; h2; h3; h4] r); auto.
        -- do 4 eexists. apply (ps_wide_bad_removed cfg c1 [h1; h2; h3; h4] r); auto.
        -- do 4 eexists. eapply (ps_wide_bad_processed cfg c1 h1 h2 h3 h4 r); auto.
    + destruct r as [|c2 r]; [do 4 eexists; apply ps_cut; [cbn; lia|now apply cons_not_u]|].
      destruct (hexs_dec [c1; c2]) as [F|F].
      * apply Forall_cons_iff in F as [F1 F]. apply Forall_cons_iff in F as [F2 _].
        destruct (separator cfg (pair_of c1 c2)) eqn:S; [destruct (path_separators_decode cfg) eqn:D|].
        -- do 4 eexists. now apply ps_separator.
        -- do 4 eexists. now apply ps_separator_kept.
        -- destruct (N.eq_dec (pair_of c1 c2) 0) as [Z|Z]; [destruct (nul_encoded_terminates cfg) eqn:T|].
           ++ do 4 eexists. now apply ps_hex_nul.
           ++ do 4 eexists. apply ps_hex; auto.
           ++ do 4 eexists. apply ps_hex; auto.
      * assert (N2 : ~ hex2 [c1; c2]) by (intros [_ ?]; contradiction).
        destruct (url_encoding_invalid_handling cfg) eqn:E.
        -- do 4 eexists. now apply ps_bad_kept.
        -- do 4 eexists. now apply ps_bad_removed.
        -- do 4 eexists. now apply ps_bad_processed.
  - destruct (N.eq_dec b 0) as [->|NZ]; [destruct (nul_raw_terminates cfg) eqn:T|].
    + do 4 eexists. now apply ps_raw_nul.
    + do 4 eexists. apply ps_raw; auto.
    + do 4 eexists. apply ps_raw; auto.
Qed.
Section Reads.
  Context (step : bytes -> option N -> N -> unwanted -> bytes -> Prop) (p : parser dec_out).
  Hypothesis p_cons : forall b r, exists r' o, p (b :: r) = POk r' o /\ (length r' <= length r)%nat.
  Hypothesis p_nil : p [] = PErr.
  Hypothesis Step : forall i o f c r, step i o f c r -> exists d, p i = POk r d /\ unit_for o f c d.
  Hypothesis Total : forall b r, exists o f c r', step (b :: r) o f c r'.
  Lemma reads_total : forall i, exists out fl cs, read_by step i out fl cs.
  Proof.
    intro i. remember (length i) as n eqn:Hn. revert i Hn. induction n as [n IH] using lt_wf_ind. intros i ->.
    destruct i as [|b r]; [do 3 eexists; apply rb_nil|]. destruct (Total b r) as (o & f & c & r' & S).
    destruct (Step _ _ _ _ _ S) as (d & E & _). destruct (p_cons b r) as (r2 & o2 & E2 & L). rewrite E in E2. injection E2 as <- _.
    destruct (IH (length r')) with (i := r') as (out & fl & cs & R); [cbn; lia|reflexivity|].
    do 3 eexists. eapply rb_step; eassumption.
  Qed.
  Lemma step_cons i o f c r : step i o f c r -> exists b r', i = b :: r'.
  Proof. intro S. destruct i as [|b r']; [|eauto]. destruct (Step _ _ _ _ _ S) as (d & E & _). rewrite p_nil in E. discriminate E. Qed.
  (** A run of the decoder over a text that is read, for accumulators that only look at output, flags and status. *)
  Variable push : dec_acc -> dec_out -> dec_acc.
  Variable one : bytes -> N -> bytes.
  Variable code : unwanted -> unwanted -> unwanted.
  Hypothesis push_eq : forall out fl st b c f (ins : bool), push (out, fl, st) (b, c, f, ins) = (if ins then one out b else out, N.lor fl f, code st c).
  Lemma reads_run i out fl cs : read_by step i out fl cs -> forall out0 fl0 st0,
    fm p push (out0, fl0, st0) i = Some (POk [] (fold_left one out out0, N.lor fl0 (all_flags fl), fold_left code cs st0)).
  Proof.
    induction 1 as [|i o f c r out fl cs S R IH]; intros out0 fl0 st0.
    - rewrite fm_nil by assumption. cbn. now rewrite lor0r.
    - destruct (step_cons _ _ _ _ _ S) as (b & r' & ->). destruct (Step _ _ _ _ _ S) as (d & E & U).
      rewrite (fm_step p push p_nil p_cons _ _ _ _ _ E). destruct d as [[[x c'] f'] ins]. destruct U as (-> & -> & ->). rewrite push_eq, IH.
      cbn [fold_left all_flags fold_right]. rewrite N.lor_assoc. fold (all_flags fl). now destruct ins.
  Qed.
End Reads.
(** Adjacent separators. *)
Definition sq_push (compress : bool) (out : bytes) (b : N) : bytes :=
  if (b =? 47) && compress then match last_byte out with Some l => if l =? 47 then out else out ++ [b] | None => out ++ [b] end else out ++ [b].
Fixpoint sq (p : bool) (l : bytes) : bytes :=
  match l with
  | [] => []
  | a :: r => if p && (a =? 47) then sq true r else a :: sq (a =? 47) r
  end.
Lemma last_byte_app l x : last_byte (l ++ [x]) = Some x.
Proof. unfold last_byte. now rewrite rev_app_distr. Qed.
Definition ends_slash (l : bytes) : bool := match last_byte l with Some x => x =? 47 | None => false end.
Lemma sq_push_eq out b : sq_push true out b = if ends_slash out && (b =? 47) then out else out ++ [b].
Proof. unfold sq_push, ends_slash. rewrite andb_true_r. destruct (b =? 47), (last_byte out) as [x|]; try destruct (x =? 47); reflexivity. Qed.
Lemma sq_run l : forall out, fold_left (sq_push true) l out = out ++ sq (ends_slash out) l.
Proof.
  induction l as [|b l IH]; intro out; [cbn; now rewrite app_nil_r|]. cbn [fold_left sq]. rewrite sq_push_eq.
  destruct (ends_slash out) eqn:E; cbn [andb]; [destruct (b =? 47) eqn:B|].
  - now rewrite IH, E.
  - rewrite IH, <- app_assoc. cbn [app]. unfold ends_slash. rewrite last_byte_app, B. reflexivity.
  - rewrite IH, <- app_assoc. cbn [app]. unfold ends_slash. now rewrite last_byte_app.
Qed.
Lemma sq_squeezed l : squeezed (47 :: l) = 47 :: sq true l /\ squeezed l = sq false l.
Proof.
  induction l as [|b l [IH1 IH2]]; [split; reflexivity|].
  assert (Q : squeezed (b :: l) = b :: sq (b =? 47) l).
  { destruct (b =? 47) eqn:B; [apply N.eqb_eq in B; subst b; exact IH1|]. cbn [squeezed]. rewrite B. cbn [andb]. rewrite IH2. now destruct l. }
  split; [|exact Q]. change (squeezed (47 :: b :: l)) with (if (47 =? 47) && (b =? 47) then squeezed (b :: l) else 47 :: squeezed (b :: l)).
  rewrite N.eqb_refl. cbn [andb sq]. rewrite Q. destruct (b =? 47) eqn:B; [apply N.eqb_eq in B; now subst b|reflexivity].
Qed.
Lemma sq_push_plain l : forall out, fold_left (sq_push false) l out = out ++ l.
Proof.
  induction l as [|b l IH]; intro out; [cbn; now rewrite app_nil_r|]. cbn [fold_left]. rewrite IH. unfold sq_push. rewrite andb_false_r.
  now rewrite <- app_assoc.
Qed.
Lemma final_fold l : forall u, fold_left (fun _ c : unwanted => c) l u = last l u.
Proof.
  induction l as [|c l IH]; intro u; [reflexivity|]. cbn [fold_left]. rewrite IH. destruct l as [|d l]; [reflexivity|].
  cbn [last]. clear. revert d. induction l as [|e l IH]; intro d; [reflexivity|]. exact (IH e).
Qed.
Lemma path_reads_total cfg i : exists out fl cs, read_by (path_step cfg) i out fl cs.
Proof. exact (reads_total (path_step cfg) (path_unit cfg) (path_unit_cons' cfg) (path_step_unit cfg) (path_step_total cfg) i). Qed.
Lemma path_decoded cfg i out fl cs : read_by (path_step cfg) i out fl cs ->
  path_decode_uri cfg i = Some (POk [] (if path_separators_compress cfg then squeezed out else out, all_flags fl, final cs)).
Proof.
  intro R.
  pose proof (reads_run (path_step cfg) (path_unit cfg) (path_unit_cons' cfg) (path_unit_nil cfg) (path_step_unit cfg)
    (path_decode_push cfg) (sq_push (path_separators_compress cfg)) (fun _ c => c) (fun _ _ _ _ _ _ _ => eq_refl) i out fl cs R [] 0 UIgnore) as E.
  unfold path_decode_uri. change (fold_many0 _ _ _ _ _) with (fm (path_unit cfg) (path_decode_push cfg) ([], 0, UIgnore) i). rewrite E, N.lor_0_l.
  rewrite final_fold. destruct (path_separators_compress cfg); [|now rewrite sq_push_plain].
  rewrite sq_run. cbn [app]. unfold ends_slash. cbn [last_byte rev]. now rewrite (proj2 (sq_squeezed out)).
Qed.
(** ** Queries and parameters. *)
Definition inner (cfg : decoder_cfg) : parser dec_out :=
  p_alt (decode_valid_u_encoding cfg) (p_alt (decode_invalid_u_encoding cfg) (p_alt decode_valid_hex (p_alt (decode_invalid_hex cfg) (decode_incomplete cfg)))).
Lemma decode_percent_inner cfg r r' b c f ins : inner cfg r = POk r' (b, c, f, ins) ->
  decode_percent cfg (37 :: r) =
    if b =? 0 then
      if nul_encoded_terminates cfg then POk [] (b, or_code c (nul_encoded_unwanted cfg), fset f URLEN_ENCODED_NUL, false)
      else POk r' (b, or_code c (nul_encoded_unwanted cfg), fset f URLEN_ENCODED_NUL, ins)
    else POk r' (b, c, f, ins).
Proof. intro E. unfold inner in E. unfold decode_percent, pbind at 1, char_c at 1. rewrite N.eqb_refl. rewrite E. reflexivity. Qed.
Lemma param_wide cfg c1 c2 c3 c4 hi lo : x2c_val c1 c2 = hi -> x2c_val c3 c4 = lo ->
  decode_u_encoding_params cfg [c1; c2; c3; c4] = POk [] (wide cfg hi lo, param_flags hi lo).
Proof.
  intros E1 E2. unfold decode_u_encoding_params, pbind, x2c, pret. cbv beta iota. rewrite E1, E2. cbv beta iota.
  unfold wide, param_flags, bestfit_key, all_flags, on. cbn [fold_right]. replace (hi * 256) with (256 * hi) by lia.
  destruct (hi =? 0) eqn:Z; rewrite lor0r, ?N.lor_0_l; [|reflexivity]. replace (hi =? 255) with false by lia. reflexivity.
Qed.
Lemma inner_no_u cfg r : (forall u s, r = u :: s -> ~ letter_u u) ->
  inner cfg r = p_alt decode_valid_hex (p_alt (decode_invalid_hex cfg) (decode_incomplete cfg)) r.
Proof.
  intro H. unfold inner. unfold p_alt at 1, decode_valid_u_encoding. rewrite (char_u_no _ H).
  unfold p_alt at 1, decode_invalid_u_encoding. now rewrite (char_u_no _ H).
Qed.
Lemma valid_hex_no r : (forall u s, r = u :: s -> ~ letter_u u) -> (forall c1 c2 s, r = c1 :: c2 :: s -> ~ hex2 [c1; c2]) -> decode_valid_hex r = PErr.
Proof.
  intros H H2. unfold decode_valid_hex, p_not. rewrite (char_u_no _ H). destruct r as [|c1 [|c2 r]]; try reflexivity.
  change (c1 :: c2 :: r) with ([c1; c2] ++ r). rewrite take_hex_no; [reflexivity|reflexivity|]. apply not_hex2. eauto.
Qed.
Lemma percent_step_inner cfg r b out f c r' : percent_step cfg r b out f c r' -> inner cfg r = POk r' (b, c, f, out).
Proof.
  destruct 1.
  - rewrite inner_no_u by (apply cons_not_u; now apply not_u_hex). unfold p_alt at 1, decode_valid_hex, p_not.
    rewrite char_u_no by (apply cons_not_u; now apply not_u_hex).
    change (h1 :: h2 :: r) with ([h1; h2] ++ r). rewrite (take_hex_app 2 [h1; h2] r) by (first [reflexivity | now repeat (constructor; [assumption|])]).
    cbn [x2c]. now rewrite hex_val by assumption.
  - rewrite inner_no_u by assumption. unfold p_alt at 1. rewrite valid_hex_no by assumption. unfold p_alt at 1, decode_invalid_hex, p_not.
    rewrite (char_u_no _ H), H1. reflexivity.
  - rewrite inner_no_u by assumption. unfold p_alt at 1. rewrite valid_hex_no by assumption. unfold p_alt at 1, decode_invalid_hex, p_not.
    rewrite (char_u_no _ H), H1. reflexivity.
  - assert (U : forall u s, c1 :: c2 :: r = u :: s -> ~ letter_u u) by now apply cons_not_u.
    rewrite inner_no_u by assumption. unfold p_alt at 1. rewrite valid_hex_no; [|assumption|]; [|intros a b s K; injection K as <- <- <-; assumption].
    unfold p_alt at 1, decode_invalid_hex, p_not. rewrite (char_u_no _ U), H1. cbn [x2c]. now rewrite raw_val.
  - rewrite inner_no_u by assumption. unfold p_alt at 1. rewrite valid_hex_no; [|assumption|intros c1 c2 s ->; cbn in H; lia].
    unfold p_alt at 1, decode_invalid_hex, p_not. rewrite (char_u_no _ H0), H1. destruct r as [|? [|? ?]]; try (cbn in H; lia); cbn [x2c];
    unfold decode_incomplete, keeps_percent; now rewrite H1.
  - unfold inner. unfold p_alt at 1, decode_valid_u_encoding. rewrite char_u_yes, H0, take_hex_short by assumption.
    unfold p_alt at 1, decode_invalid_u_encoding. rewrite char_u_yes, H0, take_c_short by assumption.
    unfold p_alt at 1, decode_valid_hex, p_not. rewrite char_u_yes by assumption. unfold p_alt, decode_invalid_hex, p_not. rewrite char_u_yes by assumption. reflexivity.
  - unfold inner. unfold p_alt at 1, decode_valid_u_encoding. now rewrite char_u_yes, H0 by assumption.
  - subst hi lo. destruct (hex4_all _ _ _ _ H1) as (A1 & A2 & A3 & A4). unfold inner. unfold p_alt at 1, decode_valid_u_encoding. rewrite char_u_yes, H0 by assumption.
    change (h1 :: h2 :: h3 :: h4 :: r) with ([h1; h2; h3; h4] ++ r). rewrite (take_hex_app 4 [h1; h2; h3; h4] r) by (first [reflexivity|apply H1]).
    now rewrite (param_wide cfg h1 h2 h3 h4 _ _ (hex_val _ _ A1 A2) (hex_val _ _ A3 A4)).
  - unfold inner. unfold p_alt at 1, decode_valid_u_encoding. rewrite char_u_yes, H0, take_hex_no by (first [assumption|now apply not_hex4]).
    unfold p_alt at 1, decode_invalid_u_encoding. rewrite char_u_yes, H0, take_c_app, H3 by assumption.
    unfold is_ignore. cbn [asks]. now destruct (url_encoding_invalid_unwanted cfg).
  - unfold inner. unfold p_alt at 1, decode_valid_u_encoding. rewrite char_u_yes, H0, take_hex_no by (first [assumption|now apply not_hex4]).
    unfold p_alt at 1, decode_invalid_u_encoding. rewrite char_u_yes, H0, take_c_app, H3 by assumption.
    unfold is_ignore. cbn [asks]. now destruct (url_encoding_invalid_unwanted cfg).
  - subst hi lo. change (c1 :: c2 :: c3 :: c4 :: r) with ([c1; c2; c3; c4] ++ r).
    unfold inner. unfold p_alt at 1, decode_valid_u_encoding. rewrite char_u_yes, H0, take_hex_no by (first [assumption|reflexivity|now apply not_hex4]).
    unfold p_alt at 1, decode_invalid_u_encoding. rewrite char_u_yes, H0, take_c_app, H2 by (first [assumption|reflexivity]).
    rewrite (param_wide cfg c1 c2 c3 c4 _ _ (raw_val _ _) (raw_val _ _)). cbn [all_flags fold_right]. rewrite lor0r.
    unfold is_ignore. cbn [asks]. now destruct (url_encoding_invalid_unwanted cfg).
Qed.
Lemma param_step_unit cfg i o f c r : param_step cfg i o f c r -> exists d, decode_unit cfg i = POk r d /\ unit_for o f c d.
Proof.
  destruct 1.
  - eexists. split; [now apply unit_plain|]. now repeat split.
  - unfold decode_unit, p_alt. rewrite decode_percent_other by lia. unfold decode_plus, pbind, char_c, pret. rewrite N.eqb_refl.
    eexists. split; [reflexivity|]. now repeat split.
  - unfold decode_unit, p_alt. rewrite decode_percent_other by lia. unfold decode_plus, pbind, char_c, pret. cbn [N.eqb]. unfold unencoded_byte. cbn [N.eqb].
    rewrite H. eexists. split; [reflexivity|]. now repeat split.
  - unfold decode_unit, p_alt. rewrite decode_percent_other by lia. unfold decode_plus, pbind, char_c, pret. cbn [N.eqb]. unfold unencoded_byte. cbn [N.eqb].
    rewrite H. eexists. split; [reflexivity|]. now repeat split.
  - apply percent_step_inner, decode_percent_inner in H. unfold decode_unit, p_alt. rewrite H. replace (b =? 0) with false by lia.
    eexists. split; [reflexivity|]. now repeat split.
  - apply percent_step_inner, decode_percent_inner in H. unfold decode_unit, p_alt. rewrite H, H0. cbn [N.eqb].
    eexists. split; [reflexivity|]. cbn [all_flags fold_right]. rewrite lor0r, or_asks. now repeat split.
  - apply percent_step_inner, decode_percent_inner in H. unfold decode_unit, p_alt. rewrite H, H0. cbn [N.eqb].
    eexists. split; [reflexivity|]. cbn [all_flags fold_right]. rewrite lor0r, or_asks. now repeat split.
Qed.
Lemma percent_step_total cfg r : exists b out f c r', percent_step cfg r b out f c r' /\ (b = 0 -> out = true).
Proof.
  destruct r as [|c1 r].
  { destruct (url_encoding_invalid_handling cfg) eqn:E.
    - do 5 eexists. split; [apply qs_bad_kept; try assumption; discriminate|reflexivity].
    - do 5 eexists. split; [apply qs_bad_removed; try assumption; discriminate|discriminate].
    - do 5 eexists. split; [apply qs_cut; try assumption; [cbn; lia|discriminate]|reflexivity]. }
  destruct (letter_u_dec c1) as [U|U].
  - destruct (u_encoding_decode cfg) eqn:D; [|do 5 eexists; split; [now apply qs_wide_off|reflexivity]].
    destruct (le_lt_dec 4 (length r)) as [L|L]; [|do 5 eexists; split; [now apply qs_wide_cut|discriminate]].
    destruct r as [|h1 [|h2 [|h3 [|h4 r]]]]; try (cbn in L; lia).
    destruct (hexs_dec [h1; h2; h3; h4]) as [F|F].
    + do 5 eexists. split; [eapply qs_wide; try reflexivity; try assumption; now split|reflexivity].
    + assert (N4 : ~ hex4 [h1; h2; h3; h4]) by (intros [_ ?]; contradiction).
      destruct (url_encoding_invalid_handling cfg) eqn:E.
      * do 5 eexists. split; [apply (qs_wide_bad_kept cfg c1 [h1; h2; h3; h4] r); auto|reflexivity].
      * do 5 eexists. split; [apply (qs_wide_bad_removed cfg c1 [h1; h2; h3; h4] r); auto|discriminate].
      * do 5 eexists. split; [eapply (qs_wide_bad_processed cfg c1 h1 h2 h3 h4 r); auto|reflexivity].
  - assert (NU : forall u s, c1 :: r = u :: s -> ~ letter_u u) by now apply cons_not_u.
    destruct r as [|c2 r].
    + destruct (url_encoding_invalid_handling cfg) eqn:E.
      * do 5 eexists. split; [apply qs_bad_kept; try assumption; discriminate|reflexivity].
      * do 5 eexists. split; [apply qs_bad_removed; try assumption; discriminate|discriminate].
      * do 5 eexists. split; [apply qs_cut; try assumption; cbn; lia|reflexivity].
    + destruct (hexs_dec [c1; c2]) as [F|F].
      * apply Forall_cons_iff in F as [F1 F]. apply Forall_cons_iff in F as [F2 _]. do 5 eexists. split; [now apply qs_hex|reflexivity].
      * assert (N2 : ~ hex2 [c1; c2]) by (intros [_ ?]; contradiction).
        assert (NH : forall a b s, c1 :: c2 :: r = a :: b :: s -> ~ hex2 [a; b]) by (intros a b s K; injection K as <- <- <-; assumption).
        destruct (url_encoding_invalid_handling cfg) eqn:E.
        -- do 5 eexists. split; [now apply qs_bad_kept|reflexivity].
        -- do 5 eexists. split; [now apply qs_bad_removed|discriminate].
        -- do 5 eexists. split; [now apply qs_bad_processed|reflexivity].
Qed.
Lemma param_step_total cfg b r : exists o f c r', param_step cfg (b :: r) o f c r'.
Proof.
  destruct (N.eq_dec b 37) as [->|NP].
  - destruct (percent_step_total cfg r) as (x & out & f & c & r' & S & Z). destruct (N.eq_dec x 0) as [->|NZ].
    + rewrite (Z eq_refl) in S. destruct (nul_encoded_terminates cfg) eqn:T; do 4 eexists; [eapply qp_encoded_nul_end|eapply qp_encoded_nul]; eassumption.
    + do 4 eexists. eapply qp_percent; eassumption.
  - destruct (N.eq_dec b 43) as [->|NQ]; [do 4 eexists; apply qp_plus|].
    destruct (N.eq_dec b 0) as [->|NZ]; [destruct (nul_raw_terminates cfg) eqn:T|].
    + do 4 eexists. now apply qp_nul_end.
    + do 4 eexists. now apply qp_nul.
    + do 4 eexists. now apply qp_raw.
Qed.
Lemma decode_unit_cons' cfg b r : exists r' o, decode_unit cfg (b :: r) = POk r' o /\ (length r' <= length r)%nat.
Proof. exact (decode_unit_cons cfg b r). Qed.
Lemma param_reads_total cfg i : exists out fl cs, read_by (param_step cfg) i out fl cs.
Proof. exact (reads_total (param_step cfg) (decode_unit cfg) (decode_unit_cons' cfg) (param_step_unit cfg) (param_step_total cfg) i). Qed.
Lemma app_run (l : bytes) : forall out, fold_left (fun o b => o ++ [b]) l out = out ++ l.
Proof. induction l as [|b l IH]; intro out; [cbn; now rewrite app_nil_r|]. cbn [fold_left]. now rewrite IH, <- app_assoc. Qed.
Lemma asks_fold l : forall u, fold_left or_code l u = asks (u :: l).
Proof.
  induction l as [|c l IH]; intro u; [now destruct u|]. cbn [fold_left]. rewrite IH. unfold or_code. cbn [asks].
  destruct (asks l), c, u; reflexivity.
Qed.
Lemma param_decoded cfg i out fl cs : read_by (param_step cfg) i out fl cs ->
  decode_uri cfg i = Some (POk [] (out, all_flags fl, asks cs)).
Proof.
  intro R.
  pose proof (reads_run (param_step cfg) (decode_unit cfg) (decode_unit_cons' cfg) (decode_unit_nil cfg) (param_step_unit cfg)
    decode_push (fun o b => o ++ [b]) or_code (fun _ _ _ _ _ _ _ => eq_refl) i out fl cs R [] 0 UIgnore) as E.
  unfold decode_uri. change (fold_many0 _ _ _ _ _) with (fm (decode_unit cfg) decode_push ([], 0, UIgnore) i). rewrite E, N.lor_0_l.
  rewrite app_run, asks_fold. cbn [app asks]. now destruct (asks cs).
Qed.
(** Flags of a text, as reported for the components of a URI. *)
Lemma fis_set_lor a b m : fis_set (N.lor a b) m = fis_set a m || fis_set b m.
Proof.
  unfold fis_set. rewrite N.land_lor_distr_l. destruct (N.land a m =? 0) eqn:A, (N.land b m =? 0) eqn:B; cbn [negb orb].
  - apply N.eqb_eq in A, B. now rewrite A, B.
  - apply N.eqb_eq in A. rewrite A, N.lor_0_l, B. reflexivity.
  - destruct (N.lor _ _ =? 0) eqn:C; [|reflexivity]. apply N.eqb_eq, N.lor_eq_0_iff in C as [C _]. now rewrite C in A.
  - destruct (N.lor _ _ =? 0) eqn:C; [|reflexivity]. apply N.eqb_eq, N.lor_eq_0_iff in C as [C _]. now rewrite C in A.
Qed.
Lemma raised_all l m : fis_set (all_flags l) m = raised l m.
Proof. induction l as [|f l IH]; [reflexivity|]. cbn [all_flags fold_right raised existsb]. fold (all_flags l). rewrite fis_set_lor, IH. reflexivity. Qed.
Lemma component_decoded cfg flags i out fl cs : read_by (param_step cfg) i out fl cs ->
  decode_uri_with_flags cfg flags i = (Some out,
    all_flags [flags; on (raised fl URLEN_INVALID_ENCODING) PATH_INVALID_ENCODING;
               on (raised fl URLEN_ENCODED_NUL) PATH_ENCODED_NUL; on (raised fl URLEN_RAW_NUL) PATH_RAW_NUL]).
Proof.
  intro R. unfold decode_uri_with_flags. rewrite (param_decoded _ _ _ _ _ R). rewrite !raised_all. cbn [all_flags fold_right]. unfold on, fset.
  destruct (raised fl URLEN_INVALID_ENCODING), (raised fl URLEN_ENCODED_NUL), (raised fl URLEN_RAW_NUL); rewrite ?lor0r, ?N.lor_0_l, ?N.lor_assoc; reflexivity.
Qed.
(** A configuration that uses every option. *)
Definition strict : decoder_cfg := {|
  double_decode_normalized_path := true; double_decode_normalized_query := true;
  backslash_convert_slashes := true; convert_lowercase := true; path_separators_compress := true; path_separators_decode := true;
  plusspace_decode := true; nul_raw_terminates := true; nul_raw_unwanted := U404; control_chars_unwanted := U404;
  allow_space_uri := false; u_encoding_decode := true; u_encoding_unwanted := U400;
  url_encoding_invalid_handling := REMOVE_PERCENT; url_encoding_invalid_unwanted := U400;
  nul_encoded_terminates := true; nul_encoded_unwanted := U400; utf8_invalid_unwanted := U400;
  utf8_convert_bestfit := true; bestfit := bestfit_default |}.
Lemma status_lost : exists cfg i out fl cs, read_by (path_step cfg) i out fl cs /\ In U400 cs /\
  path_decode_uri cfg i = Some (POk [] (s2b "/zza", PATH_INVALID_ENCODING, UIgnore)).
Proof.
  destruct (path_reads_total strict (s2b "/%zza")) as (out & fl & cs & R). exists strict, (s2b "/%zza"), out, fl, cs.
  split; [exact R|]. split; [|vm_compute; reflexivity].
  inversion R as [|i1 o1 f1 c1 r1 out1 fl1 cs1 S1 R1 E1]; subst. inversion S1; subst; try discriminate.
  inversion R1 as [|i2 o2 f2 c2 r2 out2 fl2 cs2 S2 R2 E2]; subst. inversion S2; subst; try discriminate;
    try (match goal with H : 37 <> 37 |- _ => now elim H end); try (unfold letter_u in *; intuition discriminate); try (unfold hexdigit in *; cbn in *; lia).
  right. left. reflexivity.
Qed.
