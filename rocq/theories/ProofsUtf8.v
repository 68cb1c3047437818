(** The UTF-8 decoder (C16, C17). *)
From Verif Require Import Base Spec ModelUtil ModelBestfit ModelUrl ModelUtf8 ProofsBase ProofsParsers.

(** Character classes of the permissive table, by range. *)
Definition cls (b : N) : N :=
  if b <? 0x80 then 0 else if b <? 0x90 then 1 else if b <? 0xa0 then 9 else if b <? 0xc0 then 7
  else if b <? 0xe0 then 2 else if b =? 0xed then 4 else if b <? 0xf0 then 3
  else if b <? 0xf4 then 6 else if b =? 0xf4 then 5 else 8.
Definition all_bytes : list N := map N.of_nat (seq 0 256).
Lemma all_bytes_In b : b < 256 -> In b all_bytes.
Proof. intro H. apply in_map_iff. exists (N.to_nat b). split; [apply N2Nat.id|]. apply in_seq. lia. Qed.
Lemma cls_table b : b < 256 -> idx utf8d_allow_overlong b = cls b.
Proof.
  intro H. apply N.eqb_eq. apply all_bytes_In in H. revert b H. apply forallb_forall. vm_compute. reflexivity.
Qed.
Definition tr (s t : N) : N := idx utf8d (256 + s * 16 + t).

Lemma lor_add a b : a < 64 -> N.lor a (N.shiftl b 6) = a + b * 64.
Proof.
  intro H. assert (L : N.land a (N.shiftl b 6) = 0).
  { apply N.bits_inj. intro i. rewrite N.land_spec, N.bits_0. destruct (N.lt_ge_cases i 6).
    - rewrite N.shiftl_spec_low by assumption. apply andb_false_r.
    - replace (N.testbit a i) with false; [reflexivity|]. symmetry. destruct (N.eq_dec a 0) as [->|]; [apply N.bits_0|].
      apply N.bits_above_log2. apply N.lt_le_trans with 6; [|assumption]. apply N.log2_lt_pow2; [lia|exact H]. }
  rewrite <- N.lxor_lor by assumption. rewrite <- N.add_nocarry_lxor by assumption. rewrite N.shiftl_mul_pow2. reflexivity.
Qed.
Lemma land_3f b : N.land b 0x3f = b mod 64.
Proof. change 0x3f with (N.ones 6). now rewrite N.land_ones. Qed.
Lemma dba_first cp b : b < 256 -> decode_byte_allow_overlong 0 cp b = (tr 0 (cls b), b mod 2 ^ (8 - cls b)).
Proof.
  intro H. unfold decode_byte_allow_overlong. rewrite cls_table by assumption. change (0 =? 0) with true. cbv iota. f_equal.
  assert (C : cls b <= 9) by (unfold cls; repeat match goal with |- context [if ?c then _ else _] => destruct c end; lia).
  replace (N.shiftr 255 (cls b)) with (N.ones (8 - cls b)).
  - rewrite N.land_comm. apply N.land_ones.
  - assert (K : In (cls b) [0;1;2;3;4;5;6;7;8;9]) by (unfold In; lia).
    revert K. generalize (cls b). intros k K. repeat (destruct K as [<-|K]; [reflexivity|]). contradiction.
Qed.
Lemma dba_cont s cp b : b < 256 -> s <> 0 -> cp < 2 ^ 26 -> decode_byte_allow_overlong s cp b = (tr s (cls b), b mod 64 + cp * 64).
Proof.
  intros H Hs Hcp. unfold decode_byte_allow_overlong. rewrite cls_table by assumption. apply N.eqb_neq in Hs. rewrite Hs. f_equal.
  rewrite land_3f. rewrite (N.mod_small (N.shiftl cp 6)) by (rewrite N.shiftl_mul_pow2; change (2 ^ 26) with 67108864 in Hcp; change (2 ^ 6) with 64; lia).
  apply lor_add. apply N.mod_lt. discriminate.
Qed.

(** Clean decoder states: between two characters. *)
Definition ud_clean (d : utf8dec) : Prop := ud_state d = 0 /\ ud_seq d = 0.
Definition half_full (c : N) : bool := (0xff00 <=? c) && (c <=? 0xffef).
(** State after a complete, minimal character. *)
Definition after_char (m : bestfit_map) (d : utf8dec) (c : N) : utf8dec := {|
  ud_state := 0; ud_seq := 0; ud_cp := c;
  ud_flags := if half_full c then fset (ud_flags d) PATH_HALF_FULL_RANGE else ud_flags d;
  ud_seen_valid := ud_seen_valid d || (0x80 <=? c);
  ud_out_rev := bestfit_codepoint m c :: ud_out_rev d |}.

Lemma db_more m d b last s' cp' : decode_byte_allow_overlong (ud_state d) (ud_cp d) b = (s', cp') -> s' <> 0 -> s' <> 1 ->
  decode_byte m d b last = {| ud_state := s'; ud_seq := ud_seq d + 1; ud_cp := cp'; ud_flags := ud_flags d; ud_seen_valid := ud_seen_valid d;
    ud_out_rev := if last then repeat (bm_repl m) (N.to_nat (ud_seq d + 1 - 1)) ++ ud_out_rev d else ud_out_rev d |}.
Proof.
  intros E H0 H1. unfold decode_byte, decode_byte_with at 1. rewrite E. apply N.eqb_neq in H0, H1. now rewrite H0, H1.
Qed.
Lemma db_done m d b last c : decode_byte_allow_overlong (ud_state d) (ud_cp d) b = (0, c) -> ud_seq d <> 0 -> 0x80 <= c ->
  is_overlong (ud_seq d + 1) c = false -> decode_byte m d b last = after_char m d c.
Proof.
  intros E Hs Hc Ho. unfold decode_byte, decode_byte_with at 1. rewrite E. change (0 =? 0) with true. cbv iota.
  replace (ud_seq d + 1 =? 1) with false by lia. rewrite Ho. unfold after_char, half_full. replace (0x80 <=? c) with true by lia. now rewrite orb_true_r.
Qed.
Lemma db_ascii m d b last : ud_clean d -> b < 0x80 -> decode_byte m d b last = after_char m d b.
Proof.
  intros (H0 & H1) Hb. unfold decode_byte, decode_byte_with at 1. rewrite H0, dba_first by lia.
  unfold cls. replace (b <? 0x80) with true by lia. change (tr 0 0) with 0. change (0 =? 0) with true. cbv iota. rewrite H1. change (0 + 1 =? 1) with true. cbv iota.
  change (2 ^ (8 - 0)) with 256. rewrite !N.mod_small by lia. unfold after_char, half_full. replace (0xff00 <=? b) with false by lia.
  replace (0x80 <=? b) with false by lia. rewrite orb_false_r. unfold bestfit_codepoint. replace (b <? 0x100) with true by lia. reflexivity.
Qed.


Lemma cls_lead2 k : 0 <= k < 32 -> cls (0xc0 + k) = 2.
Proof. intro H. unfold cls. repeat match goal with |- context [if ?c then _ else _] => destruct c eqn:?; try lia end. Qed.
Lemma cls_lead3 k : 0 <= k < 16 -> cls (0xe0 + k) = if k =? 13 then 4 else 3.
Proof. intro H. unfold cls. repeat match goal with |- context [if ?c then _ else _] => destruct c eqn:?; try lia end. Qed.
Lemma cls_lead4 k : 0 <= k <= 4 -> cls (0xf0 + k) = if k =? 4 then 5 else 6.
Proof. intro H. unfold cls. repeat match goal with |- context [if ?c then _ else _] => destruct c eqn:?; try lia end. Qed.
Lemma cls_cont k : k < 64 -> cls (0x80 + k) = if k <? 16 then 1 else if k <? 32 then 9 else 7.
Proof. intro H. unfold cls. repeat match goal with |- context [if ?c then _ else _] => destruct c eqn:?; try lia end. Qed.
Lemma tr_cont2 k : k < 64 -> tr 2 (cls (0x80 + k)) = 0.
Proof. intro H. rewrite cls_cont by assumption. destruct (k <? 16); [reflexivity|]. destruct (k <? 32); reflexivity. Qed.
Lemma tr_cont3 k : k < 64 -> tr 3 (cls (0x80 + k)) = 2.
Proof. intro H. rewrite cls_cont by assumption. destruct (k <? 16); [reflexivity|]. destruct (k <? 32); reflexivity. Qed.
Lemma tr_cont7 k : k < 64 -> tr 7 (cls (0x80 + k)) = 3.
Proof. intro H. rewrite cls_cont by assumption. destruct (k <? 16); [reflexivity|]. destruct (k <? 32); reflexivity. Qed.
Lemma tr_cont5 k : k < 32 -> tr 5 (cls (0x80 + k)) = 2.
Proof. intro H. rewrite cls_cont by lia. replace (k <? 32) with true by lia. destruct (k <? 16); reflexivity. Qed.
Lemma tr_cont8 k : k < 16 -> tr 8 (cls (0x80 + k)) = 3.
Proof. intro H. rewrite cls_cont by lia. replace (k <? 16) with true by lia. reflexivity. Qed.
Lemma mod64 k : k < 64 -> (0x80 + k) mod 64 = k.
Proof. intro H. replace (0x80 + k) with (k + 2 * 64) by lia. rewrite N.mod_add by discriminate. now apply N.mod_small. Qed.

Lemma decode_char m d c rest : ud_clean d -> scalar c ->
  decode_bytes m d (utf8_encode c ++ rest) = decode_bytes m (after_char m d c) rest.
Proof.
  intros (Hs & Hq) Sc. unfold utf8_encode. unfold scalar in Sc.
  assert (M1 : c mod 64 < 64) by (apply N.mod_lt; lia).
  assert (M2 : c / 64 mod 64 < 64) by (apply N.mod_lt; lia).
  assert (M3 : c / 4096 mod 64 < 64) by (apply N.mod_lt; lia).
  pose proof (N.div_mod c 64 ltac:(lia)) as D1. pose proof (N.div_mod (c / 64) 64 ltac:(lia)) as D2. pose proof (N.div_mod (c / 64 / 64) 64 ltac:(lia)) as D3.
  rewrite N.div_div in D2, D3 by lia. change (64 * 64) with 4096 in *. rewrite N.div_div in D3 by lia. change (4096 * 64) with 262144 in *.
  destruct (c <? 0x80) eqn:R1; [|destruct (c <? 0x800) eqn:R2; [|destruct (c <? 0x10000) eqn:R3]].
  - cbn [app decode_bytes]. now rewrite db_ascii by (repeat split; auto; lia).
  - cbn [app decode_bytes]. set (k0 := c / 64) in *. set (k1 := c mod 64) in *.
    rewrite (db_more m d _ false 2 k0); [| |discriminate|discriminate].
    2: { rewrite Hs, dba_first by lia. rewrite cls_lead2 by lia. change (tr 0 2) with 2. change (2 ^ (8 - 2)) with 64. f_equal.
         replace (0xc0 + k0) with (k0 + 3 * 64) by lia. rewrite N.mod_add by discriminate. apply N.mod_small. lia. }
    rewrite (db_done m _ _ _ c); [reflexivity| |cbn; lia|lia|].
    2: { cbn [ud_seq]. unfold is_overlong. rewrite Hq. change (0 + 1 + 1) with 2. cbn. lia. }
    cbn [ud_state ud_cp]. rewrite dba_cont; [|lia|discriminate|change (2^26) with 67108864; lia]. rewrite tr_cont2, mod64 by assumption. f_equal. lia.
  - cbn [app decode_bytes]. set (k0 := c / 4096) in *. set (k1 := c / 64 mod 64) in *. set (k2 := c mod 64) in *.
    assert (K0 : k0 < 16) by lia. assert (EC : c = k0 * 4096 + k1 * 64 + k2) by lia.
    rewrite (db_more m d _ false (if k0 =? 13 then 5 else 3) k0); [| |destruct (k0 =? 13); discriminate|destruct (k0 =? 13); discriminate].
    2: { rewrite Hs, dba_first by lia. rewrite cls_lead3 by lia. destruct (k0 =? 13) eqn:K; [apply N.eqb_eq in K; rewrite K; reflexivity|].
         change (tr 0 3) with 3. change (2 ^ (8 - 3)) with 32. f_equal.
         replace (0xe0 + k0) with (k0 + 7 * 32) by lia. rewrite N.mod_add by discriminate. apply N.mod_small. lia. }
    rewrite (db_more m _ (0x80 + k1) false 2 (k1 + k0 * 64)); [| |discriminate|discriminate].
    2: { cbn [ud_state ud_cp]. rewrite dba_cont; [|lia|destruct (k0 =? 13); discriminate|change (2^26) with 67108864; lia]. rewrite mod64 by assumption. f_equal.
         destruct (k0 =? 13) eqn:K; [apply tr_cont5; lia|apply tr_cont3; assumption]. }
    rewrite (db_done m _ _ _ c); [reflexivity| |cbn; lia|lia|].
    2: { cbn [ud_seq]. unfold is_overlong. rewrite Hq. change (0 + 1 + 1 + 1) with 3. cbn. lia. }
    cbn [ud_state ud_cp]. rewrite dba_cont; [|lia|discriminate|change (2^26) with 67108864; lia]. rewrite tr_cont2, mod64 by assumption. f_equal. lia.
  - cbn [app decode_bytes]. set (k0 := c / 262144) in *. set (k1 := c / 4096 mod 64) in *. set (k2 := c / 64 mod 64) in *. set (k3 := c mod 64) in *.
    assert (K0 : k0 <= 4) by lia. assert (EC : c = k0 * 262144 + k1 * 4096 + k2 * 64 + k3) by lia.
    rewrite (db_more m d _ false (if k0 =? 4 then 8 else 7) k0); [| |destruct (k0 =? 4); discriminate|destruct (k0 =? 4); discriminate].
    2: { rewrite Hs, dba_first by lia. rewrite cls_lead4 by lia. destruct (k0 =? 4) eqn:K; [apply N.eqb_eq in K; rewrite K; reflexivity|].
         change (tr 0 6) with 7. change (2 ^ (8 - 6)) with 4. f_equal.
         replace (0xf0 + k0) with (k0 + 60 * 4) by lia. rewrite N.mod_add by discriminate. apply N.mod_small. lia. }
    rewrite (db_more m _ (0x80 + k1) false 3 (k1 + k0 * 64)); [| |discriminate|discriminate].
    2: { cbn [ud_state ud_cp]. rewrite dba_cont; [|lia|destruct (k0 =? 4); discriminate|change (2^26) with 67108864; lia]. rewrite mod64 by assumption. f_equal.
         destruct (k0 =? 4) eqn:K; [apply tr_cont8; lia|apply tr_cont7; assumption]. }
    rewrite (db_more m _ (0x80 + k2) false 2 (k2 + (k1 + k0 * 64) * 64)); [| |discriminate|discriminate].
    2: { cbn [ud_state ud_cp]. rewrite dba_cont; [|lia|discriminate|change (2^26) with 67108864; lia]. rewrite mod64 by assumption. f_equal. now apply tr_cont3. }
    rewrite (db_done m _ _ _ c); [reflexivity| |cbn; lia|lia|].
    2: { cbn [ud_seq]. unfold is_overlong. rewrite Hq. change (0 + 1 + 1 + 1 + 1) with 4. cbn. lia. }
    cbn [ud_state ud_cp]. rewrite dba_cont; [|lia|discriminate|change (2^26) with 67108864; lia]. rewrite tr_cont2, mod64 by assumption. f_equal. lia.
Qed.

Lemma after_char_clean m d c : ud_clean (after_char m d c).
Proof. split; reflexivity. Qed.
Lemma decode_chars m cs : Forall scalar cs -> forall d, ud_clean d ->
  decode_bytes m d (concat (map utf8_encode cs)) = fold_left (after_char m) cs d.
Proof.
  induction 1 as [|c cs Hc Hcs IH]; intros d Hd; cbn [map concat fold_left]; [reflexivity|].
  rewrite decode_char by assumption. apply IH, after_char_clean.
Qed.
Lemma fset_idem w f : fset (fset w f) f = fset w f.
Proof. unfold fset. now rewrite <- N.lor_assoc, N.lor_diag. Qed.
Lemma fold_after m cs : forall d,
  ud_out_rev (fold_left (after_char m) cs d) = rev (map (bestfit_codepoint m) cs) ++ ud_out_rev d /\
  ud_seen_valid (fold_left (after_char m) cs d) = ud_seen_valid d || existsb (fun c => 0x80 <=? c) cs /\
  ud_flags (fold_left (after_char m) cs d) = if existsb half_full cs then fset (ud_flags d) PATH_HALF_FULL_RANGE else ud_flags d.
Proof.
  induction cs as [|c cs IH]; intro d; cbn [fold_left map rev existsb]; [cbn; rewrite orb_false_r; auto|].
  destruct (IH (after_char m d c)) as (-> & -> & ->). cbn [after_char ud_out_rev ud_seen_valid ud_flags].
  rewrite <- app_assoc, orb_assoc. split; [reflexivity|]. split; [reflexivity|].
  destruct (half_full c), (existsb half_full cs); cbn [orb]; auto using fset_idem.
Qed.
Lemma utf8_decode_valid m cs : Forall scalar cs ->
  decode_and_validate m (concat (map utf8_encode cs)) =
  (map (fun c => if c <? 0x100 then c else bestfit_get m c) cs,
   N.lor (if existsb half_full cs then PATH_HALF_FULL_RANGE else 0) (if existsb (fun c => 0x80 <=? c) cs then PATH_UTF8_VALID else 0)).
Proof.
  intro H. unfold decode_and_validate. rewrite decode_chars by (auto; split; reflexivity). destruct (fold_after m cs utf8dec_new) as (-> & -> & ->).
  cbn [utf8dec_new ud_out_rev ud_seen_valid ud_flags orb]. rewrite app_nil_r, rev_involutive. f_equal.
  destruct (existsb half_full cs), (existsb (fun c => 0x80 <=? c) cs); reflexivity.
Qed.

(** ** C17: length. *)
Lemma decode_byte_with_len m (again : utf8dec -> utf8dec) d b (last : bool) :
  (forall d', ud_seq d' = 0 -> length (ud_out_rev d') = S (length (ud_out_rev d)) ->
     (length (ud_out_rev (again d')) + (if last then 0 else N.to_nat (ud_seq (again d'))) <= length (ud_out_rev d') + 1)%nat) ->
  let d' := decode_byte_with m again d b last in
  (length (ud_out_rev d') + (if last then 0 else N.to_nat (ud_seq d')) <= length (ud_out_rev d) + N.to_nat (ud_seq d) + 1)%nat.
Proof.
  intros Hag. unfold decode_byte_with. destruct (decode_byte_allow_overlong (ud_state d) (ud_cp d) b) as [st cp].
  destruct (st =? 0); [destruct (ud_seq d + 1 =? 1); cbn; destruct last; lia|]. destruct (st =? 1).
  - destruct (ud_seq d + 1 =? 1) eqn:E; [cbn; destruct last; lia|].
    match goal with |- context [again ?x] => specialize (Hag x eq_refl eq_refl) end. cbn [ud_out_rev length] in Hag. cbv zeta. lia.
  - cbn. destruct last; [rewrite app_length, repeat_length; lia|lia].
Qed.
Lemma decode_byte_len m d b last : let d' := decode_byte m d b last in
  (length (ud_out_rev d') + (if last then 0 else N.to_nat (ud_seq d')) <= length (ud_out_rev d) + N.to_nat (ud_seq d) + 1)%nat.
Proof.
  unfold decode_byte. apply decode_byte_with_len. intros d' Hs Hl.
  unfold decode_byte_with. destruct (decode_byte_allow_overlong (ud_state d') (ud_cp d') b) as [st cp]. rewrite Hs.
  change (0 + 1 =? 1) with true. destruct (st =? 0); [cbn; destruct last; lia|]. destruct (st =? 1).
  - cbn. destruct last; lia.
  - cbn. change (0 + 1 - 1) with 0. change (N.to_nat 0) with 0%nat. destruct last; cbn [repeat app]; lia.
Qed.
Lemma decode_bytes_len m i : forall d, (length (ud_out_rev (decode_bytes m d i)) <= length (ud_out_rev d) + N.to_nat (ud_seq d) + length i)%nat.
Proof.
  induction i as [|b i IH]; intro d; cbn [decode_bytes length]; [lia|].
  pose proof (decode_byte_len m d b (match i with [] => true | _ => false end)) as H. cbv zeta in H. destruct i as [|b2 i].
  - cbn [decode_bytes length]. lia.
  - specialize (IH (decode_byte m d b false)). lia.
Qed.
Lemma utf8_length m i : (length (fst (decode_and_validate m i)) <= length i)%nat.
Proof. unfold decode_and_validate. cbn [fst]. rewrite rev_length. pose proof (decode_bytes_len m i utf8dec_new). cbn in H. lia. Qed.

(** ** C17: what unflagged input looks like. [pend s q cp ps]: [ps] are the [q] bytes read of an unfinished character. *)
Inductive pend : N -> N -> N -> bytes -> Prop :=
| pend_0 cp : pend 0 0 cp []
| pend_2a k : k < 32 -> pend 2 1 k [0xc0 + k]
| pend_3a k : k < 16 -> k <> 13 -> pend 3 1 k [0xe0 + k]
| pend_5 : pend 5 1 13 [0xed]
| pend_7 k : k < 4 -> pend 7 1 k [0xf0 + k]
| pend_8 : pend 8 1 4 [0xf4]
| pend_2b k k1 : k < 16 -> k1 < 64 -> (k = 13 -> k1 < 32) -> pend 2 2 (k1 + k * 64) [0xe0 + k; 0x80 + k1]
| pend_3b k k1 : k <= 4 -> k1 < 64 -> (k = 4 -> k1 < 16) -> pend 3 2 (k1 + k * 64) [0xf0 + k; 0x80 + k1]
| pend_2c k k1 k2 : k <= 4 -> k1 < 64 -> (k = 4 -> k1 < 16) -> k2 < 64 -> pend 2 3 (k2 + (k1 + k * 64) * 64) [0xf0 + k; 0x80 + k1; 0x80 + k2].

Lemma decode_byte_flags_mono m d b last f : N.land (ud_flags d) f <> 0 -> N.land (ud_flags (decode_byte m d b last)) f <> 0.
Proof.
  assert (A : forall w g, N.land w f <> 0 -> N.land (fset w g) f <> 0).
  { intros w g H K. apply H. unfold fset in K. rewrite N.land_lor_distr_l in K. now apply N.lor_eq_0_l in K. }
  intro H. unfold decode_byte. unfold decode_byte_with at 1. destruct (decode_byte_allow_overlong (ud_state d) (ud_cp d) b) as [st cp].
  destruct (st =? 0).
  - destruct (ud_seq d + 1 =? 1); cbn [ud_flags]; [assumption|]. destruct (_ && _), (is_overlong _ _); auto.
  - destruct (st =? 1); [|exact H]. destruct (ud_seq d + 1 =? 1); [cbn; auto|].
    unfold decode_byte_with. destruct (decode_byte_allow_overlong _ _ b) as [st2 cp2].
    cbn [ud_seq ud_flags]. change (0 + 1 =? 1) with true. cbv iota. destruct (st2 =? 0); [cbn [ud_flags]; auto|]. destruct (st2 =? 1); cbn [ud_flags]; auto.
Qed.
Lemma decode_bytes_flags_mono m i : forall d f, N.land (ud_flags d) f <> 0 -> N.land (ud_flags (decode_bytes m d i)) f <> 0.
Proof. induction i as [|b i IH]; intros d f H; cbn [decode_bytes]; [assumption|]. apply IH. now apply decode_byte_flags_mono. Qed.

(** One byte: a new pending state, a completed character, or a flag. *)
Lemma cls_range b : b < 256 ->
  (b < 0x80 /\ cls b = 0) \/ (exists k, k < 64 /\ b = 0x80 + k) \/ (exists k, k < 32 /\ b = 0xc0 + k) \/
  (exists k, k < 16 /\ b = 0xe0 + k) \/ (exists k, k <= 4 /\ b = 0xf0 + k) \/ (0xf5 <= b /\ cls b = 8).
Proof.
  intro H. destruct (N.lt_ge_cases b 0x80); [left; split; [assumption|unfold cls; replace (b <? 0x80) with true by lia; reflexivity]|right].
  destruct (N.lt_ge_cases b 0xc0); [left; exists (b - 0x80); split; lia|right].
  destruct (N.lt_ge_cases b 0xe0); [left; exists (b - 0xc0); split; lia|right].
  destruct (N.lt_ge_cases b 0xf0); [left; exists (b - 0xe0); split; lia|right].
  destruct (N.lt_ge_cases b 0xf5); [left; exists (b - 0xf0); split; lia|right]. split; [assumption|].
  unfold cls. repeat match goal with |- context [if ?c then _ else _] => destruct c eqn:?; try lia end.
Qed.
Definition bad_flags : N := N.lor PATH_UTF8_INVALID PATH_UTF8_OVERLONG.
Lemma db_bad m d b last cp' : decode_byte_allow_overlong (ud_state d) (ud_cp d) b = (1, cp') -> N.land (ud_flags (decode_byte m d b last)) bad_flags <> 0.
Proof.
  intro E. unfold decode_byte, decode_byte_with at 1. rewrite E. change (1 =? 0) with false. change (1 =? 1) with true. cbv iota.
  assert (A : forall w, N.land (fset w PATH_UTF8_INVALID) bad_flags <> 0).
  { intros w K. unfold fset in K. rewrite N.land_lor_distr_l in K. apply N.lor_eq_0_iff in K as [_ K]. discriminate. }
  assert (B : forall w g, N.land w bad_flags <> 0 -> N.land (fset w g) bad_flags <> 0).
  { intros w g H K. apply H. unfold fset in K. rewrite N.land_lor_distr_l in K. now apply N.lor_eq_0_l in K. }
  clear E. destruct (ud_seq d + 1 =? 1); [cbn [ud_flags]; auto|].
  unfold decode_byte_with. destruct (decode_byte_allow_overlong _ _ b) as [st2 cp2].
  cbn [ud_seq ud_flags]. change (0 + 1 =? 1) with true. cbv iota. destruct (st2 =? 0); [cbn [ud_flags]; auto|]. destruct (st2 =? 1); cbn [ud_flags]; auto.
Qed.
Lemma db_overlong m d b last c : decode_byte_allow_overlong (ud_state d) (ud_cp d) b = (0, c) -> ud_seq d <> 0 ->
  is_overlong (ud_seq d + 1) c = true -> N.land (ud_flags (decode_byte m d b last)) bad_flags <> 0.
Proof.
  intros E Hs Ho. unfold decode_byte, decode_byte_with at 1. rewrite E. change (0 =? 0) with true. cbv iota.
  replace (ud_seq d + 1 =? 1) with false by lia. rewrite Ho. cbn [ud_flags].
  assert (A : forall w, N.land (fset w PATH_UTF8_OVERLONG) bad_flags <> 0).
  { intros w K. unfold fset in K. rewrite N.land_lor_distr_l in K. apply N.lor_eq_0_iff in K as [_ K]. discriminate. }
  assert (B : forall w g, N.land w bad_flags <> 0 -> N.land (fset w g) bad_flags <> 0).
  { intros w g H K. apply H. unfold fset in K. rewrite N.land_lor_distr_l in K. now apply N.lor_eq_0_l in K. }
  destruct (_ && _); auto.
Qed.
Definition pends (d : utf8dec) (ps : bytes) : Prop := pend (ud_state d) (ud_seq d) (ud_cp d) ps.
Lemma enc2 k k1 : k < 32 -> k1 < 64 -> 0x80 <= k1 + k * 64 -> utf8_encode (k1 + k * 64) = [0xc0 + k; 0x80 + k1].
Proof.
  intros Hk H1 Hc. unfold utf8_encode. replace (k1 + k * 64 <? 0x80) with false by lia. replace (k1 + k * 64 <? 0x800) with true by lia.
  rewrite N.div_add, N.mod_add by discriminate. rewrite N.div_small, N.mod_small by assumption. reflexivity.
Qed.
Lemma enc3 k k1 k2 : k < 16 -> k1 < 64 -> k2 < 64 -> 0x800 <= k2 + (k1 + k * 64) * 64 ->
  utf8_encode (k2 + (k1 + k * 64) * 64) = [0xe0 + k; 0x80 + k1; 0x80 + k2].
Proof.
  intros Hk H1 H2 Hc. unfold utf8_encode. set (c := k2 + (k1 + k * 64) * 64) in *. replace (c <? 0x80) with false by lia. replace (c <? 0x800) with false by lia.
  replace (c <? 0x10000) with true by lia.
  assert (E1 : c / 64 = k1 + k * 64) by (unfold c; rewrite N.div_add by discriminate; rewrite N.div_small by assumption; reflexivity).
  assert (E2 : c mod 64 = k2) by (unfold c; rewrite N.mod_add by discriminate; now apply N.mod_small).
  change 4096 with (64 * 64). rewrite <- N.div_div by discriminate. rewrite E1, E2. rewrite N.div_add, N.mod_add by discriminate. rewrite N.div_small, N.mod_small by assumption. reflexivity.
Qed.
Lemma enc4 k k1 k2 k3 : k <= 4 -> k1 < 64 -> k2 < 64 -> k3 < 64 -> 0x10000 <= k3 + (k2 + (k1 + k * 64) * 64) * 64 ->
  utf8_encode (k3 + (k2 + (k1 + k * 64) * 64) * 64) = [0xf0 + k; 0x80 + k1; 0x80 + k2; 0x80 + k3].
Proof.
  intros Hk H1 H2 H3 Hc. unfold utf8_encode. set (c := k3 + (k2 + (k1 + k * 64) * 64) * 64) in *. replace (c <? 0x80) with false by lia. replace (c <? 0x800) with false by lia.
  replace (c <? 0x10000) with false by lia.
  assert (E1 : c / 64 = k2 + (k1 + k * 64) * 64) by (unfold c; rewrite N.div_add by discriminate; rewrite N.div_small by assumption; reflexivity).
  assert (E2 : c mod 64 = k3) by (unfold c; rewrite N.mod_add by discriminate; now apply N.mod_small).
  assert (E3 : c / 4096 = k1 + k * 64) by (change 4096 with (64 * 64); rewrite <- N.div_div by discriminate; rewrite E1, N.div_add by discriminate; rewrite N.div_small by assumption; reflexivity).
  assert (E4 : c / 262144 = k) by (change 262144 with (4096 * 64); rewrite <- N.div_div by discriminate; rewrite E3, N.div_add by discriminate; rewrite N.div_small by assumption; reflexivity).
  rewrite E1, E2, E3, E4. rewrite !N.mod_add by discriminate. now rewrite !N.mod_small by assumption.
Qed.

(** In the middle of a character, a byte is a continuation byte or is flagged. *)
Lemma tr_bad s t : s < 9 -> s <> 0 -> In t [0;2;3;4;5;6;8] -> tr s t = 1.
Proof.
  intros Hs H0 Ht. assert (K : In s [1;2;3;4;5;6;7;8]) by (unfold In; lia). clear Hs H0. apply N.eqb_eq.
  revert t Ht. apply forallb_forall. revert s K. apply forallb_forall. vm_compute. reflexivity.
Qed.
Lemma cont_or_bad m d b last : b < 256 -> ud_state d <> 0 /\ ud_state d < 9 -> ud_cp d < 2 ^ 26 ->
  N.land (ud_flags (decode_byte m d b last)) bad_flags <> 0 \/
  exists k, k < 64 /\ b = 0x80 + k /\ decode_byte_allow_overlong (ud_state d) (ud_cp d) b = (tr (ud_state d) (cls (0x80 + k)), k + ud_cp d * 64).
Proof.
  intros Hb (H0 & H9) Hcp. destruct (cls_range b Hb) as [(Hl & C)|[(k & Hk & ->)|R]].
  - left. eapply db_bad. rewrite dba_cont by assumption. rewrite C, tr_bad by (auto; cbn; auto). reflexivity.
  - right. exists k. split; [assumption|]. split; [reflexivity|]. rewrite dba_cont by assumption. now rewrite mod64.
  - left. eapply db_bad. rewrite dba_cont by assumption. rewrite tr_bad; [reflexivity|assumption|assumption|].
    destruct R as [(k & Hk & ->)|[(k & Hk & ->)|[(k & Hk & ->)|(Hl & C)]]].
    + rewrite cls_lead2 by lia. cbn; auto.
    + rewrite cls_lead3 by lia. destruct (k =? 13); cbn; auto 10.
    + rewrite cls_lead4 by lia. destruct (k =? 4); cbn; auto 10.
    + rewrite C. cbn; auto 10.
Qed.
Ltac lt26 := change (2 ^ 26) with 67108864; lia.
Lemma step_cases m d b last ps : b < 256 -> pends d ps ->
  let d' := decode_byte m d b last in
  N.land (ud_flags d') bad_flags <> 0 \/ pends d' (ps ++ [b]) \/ (pends d' [] /\ exists c, scalar c /\ utf8_encode c = ps ++ [b]).
Proof.
  intros Hb HP. unfold pends in *. cbv zeta.
  assert (DONE : forall c, decode_byte_allow_overlong (ud_state d) (ud_cp d) b = (0, c) -> ud_seq d <> 0 -> 0x80 <= c \/ is_overlong (ud_seq d + 1) c = true ->
     (0x80 <= c -> is_overlong (ud_seq d + 1) c = false -> scalar c /\ utf8_encode c = ps ++ [b]) ->
     N.land (ud_flags (decode_byte m d b last)) bad_flags <> 0 \/ pend (ud_state (decode_byte m d b last)) (ud_seq (decode_byte m d b last)) (ud_cp (decode_byte m d b last)) (ps ++ [b]) \/
     (pend (ud_state (decode_byte m d b last)) (ud_seq (decode_byte m d b last)) (ud_cp (decode_byte m d b last)) [] /\ exists c, scalar c /\ utf8_encode c = ps ++ [b])).
  { intros c E Hq Hc K. destruct (is_overlong (ud_seq d + 1) c) eqn:O; [left; eapply db_overlong; eassumption|].
    destruct Hc as [Hc|Hc]; [|discriminate]. right. right. rewrite (db_done m d b last c E Hq Hc O). destruct (K Hc eq_refl). split; [constructor|eauto]. }
  assert (MORE : forall s' cp', decode_byte_allow_overlong (ud_state d) (ud_cp d) b = (s', cp') -> s' <> 0 -> s' <> 1 -> pend s' (ud_seq d + 1) cp' (ps ++ [b]) ->
     pend (ud_state (decode_byte m d b last)) (ud_seq (decode_byte m d b last)) (ud_cp (decode_byte m d b last)) (ps ++ [b])).
  { intros s' cp' E H0 H1 K. now rewrite (db_more m d b last s' cp' E H0 H1). }
  pose proof (cls_range b Hb) as R. remember (ud_state d) as s0 eqn:Es. remember (ud_seq d) as q0 eqn:Eq. remember (ud_cp d) as c0 eqn:Ec.
  destruct HP as [cp|k Hk|k Hk Hk13| |k Hk| |k k1 Hk Hk1 Hk13|k k1 Hk Hk1 Hk4|k k1 k2 Hk Hk1 Hk4 Hk2]; symmetry in Es, Eq, Ec.
  - (* first byte *)
    rewrite dba_first in MORE by assumption.
    destruct R as [(Hl & C)|[(k & Hk & ->)|[(k & Hk & ->)|[(k & Hk & ->)|[(k & Hk & ->)|(Hl & C)]]]]].
    + right. right. rewrite db_ascii; [|split; congruence|assumption]. split; [constructor|]. exists b. split; [left; lia|].
      unfold utf8_encode. replace (b <? 0x80) with true by lia. reflexivity.
    + left. eapply db_bad. rewrite Es, dba_first by assumption. rewrite cls_cont by assumption. f_equal. destruct (k <? 16); [reflexivity|]. destruct (k <? 32); reflexivity.
    + right. left. apply (MORE 2 k); [|discriminate|discriminate|now constructor].
      rewrite cls_lead2 by lia. change (tr 0 2) with 2. change (2 ^ (8 - 2)) with 64. f_equal.
      replace (0xc0 + k) with (k + 3 * 64) by lia. rewrite N.mod_add by discriminate. apply N.mod_small. lia.
    + right. left. rewrite cls_lead3 in MORE by lia. destruct (k =? 13) eqn:K.
      * apply N.eqb_eq in K. subst k. apply (MORE 5 13); [reflexivity|discriminate|discriminate|constructor].
      * apply (MORE 3 k); [|discriminate|discriminate|constructor; lia].
        change (tr 0 3) with 3. change (2 ^ (8 - 3)) with 32. f_equal.
        replace (0xe0 + k) with (k + 7 * 32) by lia. rewrite N.mod_add by discriminate. apply N.mod_small. lia.
    + right. left. rewrite cls_lead4 in MORE by lia. destruct (k =? 4) eqn:K.
      * apply N.eqb_eq in K. subst k. apply (MORE 8 4); [reflexivity|discriminate|discriminate|constructor].
      * apply (MORE 7 k); [|discriminate|discriminate|constructor; lia].
        change (tr 0 6) with 7. change (2 ^ (8 - 6)) with 4. f_equal.
        replace (0xf0 + k) with (k + 60 * 4) by lia. rewrite N.mod_add by discriminate. apply N.mod_small. lia.
    + left. eapply db_bad. rewrite Es, dba_first by assumption. rewrite C. reflexivity.
  - (* 2-byte character *)
    destruct (cont_or_bad m d b last Hb ltac:(rewrite Es; split; [discriminate|lia]) ltac:(rewrite Ec; lt26)) as [Hbad|(k1 & Hk1 & -> & E)]; [now left|].
    rewrite Es, Ec, tr_cont2 in E by assumption. apply (DONE _ E); [lia| |].
    + unfold is_overlong. change (1 + 1) with 2. cbn. lia.
    + unfold is_overlong. change (1 + 1) with 2. intros Hc _. split; [left; lia|]. cbn [app]. apply enc2; lia.
  - destruct (cont_or_bad m d b last Hb ltac:(rewrite Es; split; [discriminate|lia]) ltac:(rewrite Ec; lt26)) as [Hbad|(k1 & Hk1 & -> & E)]; [now left|].
    rewrite Es, Ec, tr_cont3 in E by assumption. right. left. apply (MORE _ _ E); [discriminate|discriminate|]. constructor; lia.
  - destruct (cont_or_bad m d b last Hb ltac:(rewrite Es; split; [discriminate|lia]) ltac:(rewrite Ec; lt26)) as [Hbad|(k1 & Hk1 & -> & E)]; [now left|].
    rewrite Es, Ec in E. destruct (N.lt_ge_cases k1 32) as [L|L].
    + rewrite tr_cont5 in E by assumption. right. left. apply (MORE _ _ E); [discriminate|discriminate|]. cbn [app]. change 0xed with (0xe0 + 13). constructor; lia.
    + left. eapply db_bad. rewrite Es, Ec, E. rewrite cls_cont by assumption. replace (k1 <? 16) with false by lia. replace (k1 <? 32) with false by lia. reflexivity.
  - destruct (cont_or_bad m d b last Hb ltac:(rewrite Es; split; [discriminate|lia]) ltac:(rewrite Ec; lt26)) as [Hbad|(k1 & Hk1 & -> & E)]; [now left|].
    rewrite Es, Ec, tr_cont7 in E by assumption. right. left. apply (MORE _ _ E); [discriminate|discriminate|]. constructor; lia.
  - destruct (cont_or_bad m d b last Hb ltac:(rewrite Es; split; [discriminate|lia]) ltac:(rewrite Ec; lt26)) as [Hbad|(k1 & Hk1 & -> & E)]; [now left|].
    rewrite Es, Ec in E. destruct (N.lt_ge_cases k1 16) as [L|L].
    + rewrite tr_cont8 in E by assumption. right. left. apply (MORE _ _ E); [discriminate|discriminate|]. cbn [app]. change 0xf4 with (0xf0 + 4). constructor; lia.
    + left. eapply db_bad. rewrite Es, Ec, E. rewrite cls_cont by assumption. replace (k1 <? 16) with false by lia. destruct (k1 <? 32); reflexivity.
  - destruct (cont_or_bad m d b last Hb ltac:(rewrite Es; split; [discriminate|lia]) ltac:(rewrite Ec; lt26)) as [Hbad|(k2 & Hk2 & -> & E)]; [now left|].
    rewrite Es, Ec, tr_cont2 in E by assumption. apply (DONE _ E); [lia| |].
    + unfold is_overlong. change (2 + 1) with 3. cbn. lia.
    + unfold is_overlong. change (2 + 1) with 3. intros Hc O. cbn in O. split; [unfold scalar; lia|]. cbn [app]. apply enc3; lia.
  - destruct (cont_or_bad m d b last Hb ltac:(rewrite Es; split; [discriminate|lia]) ltac:(rewrite Ec; lt26)) as [Hbad|(k2 & Hk2 & -> & E)]; [now left|].
    rewrite Es, Ec, tr_cont3 in E by assumption. right. left. apply (MORE _ _ E); [discriminate|discriminate|]. constructor; lia.
  - destruct (cont_or_bad m d b last Hb ltac:(rewrite Es; split; [discriminate|lia]) ltac:(rewrite Ec; lt26)) as [Hbad|(k3 & Hk3 & -> & E)]; [now left|].
    rewrite Es, Ec, tr_cont2 in E by assumption. apply (DONE _ E); [lia| |].
    + unfold is_overlong. change (3 + 1) with 4. cbn. lia.
    + unfold is_overlong. change (3 + 1) with 4. intros Hc O. cbn in O. split; [unfold scalar; lia|]. cbn [app]. apply enc4; lia.
Qed.

Lemma pend_truncated s q cp ps : pend s q cp ps -> ps = [] \/ truncated_char ps.
Proof.
  intro H. destruct H; [now left|right..]; (eexists; eexists; split; [reflexivity|]; split; [lia|]; split; [repeat constructor; lia|]);
    unfold announced; cbn [length]; repeat match goal with |- context [if ?c then _ else _] => destruct c eqn:? end; lia.
Qed.
Lemma unflagged_shape m i : forall d ps, Forall is_byte i -> pends d ps -> N.land (ud_flags (decode_bytes m d i)) bad_flags = 0 ->
  exists cs tail, ps ++ i = concat (map utf8_encode cs) ++ tail /\ Forall scalar cs /\ (tail = [] \/ truncated_char tail).
Proof.
  induction i as [|b i IH]; intros d ps Hi HP HF.
  - exists [], ps. rewrite app_nil_r. repeat split; [constructor|]. eapply pend_truncated, HP.
  - inversion Hi as [|? ? Hb Hi']; subst. cbn [decode_bytes] in HF.
    set (d' := decode_byte m d b _) in HF.
    destruct (step_cases m d b _ ps Hb HP : N.land (ud_flags d') bad_flags <> 0 \/ _) as [Bad|[HP'|(HP' & c & Sc & Ec)]].
    + exfalso. exact (decode_bytes_flags_mono m i d' bad_flags Bad HF).
    + destruct (IH d' (ps ++ [b]) Hi' HP' HF) as (cs & tail & E & F & T). exists cs, tail. rewrite <- app_assoc in E. auto.
    + destruct (IH d' [] Hi' HP' HF) as (cs & tail & E & F & T). exists (c :: cs), tail. cbn [map concat]. rewrite <- app_assoc, <- E, Ec.
      rewrite <- app_assoc. cbn [app]. repeat split; [now constructor|assumption].
Qed.
Lemma utf8_unflagged m i : Forall is_byte i -> 
  fis_set (snd (decode_and_validate m i)) PATH_UTF8_INVALID = false -> fis_set (snd (decode_and_validate m i)) PATH_UTF8_OVERLONG = false ->
  exists cs tail, i = concat (map utf8_encode cs) ++ tail /\ Forall scalar cs /\ (tail = [] \/ truncated_char tail).
Proof.
  intros Hi H1 H2. apply (unflagged_shape m i utf8dec_new []); [assumption|constructor|].
  unfold decode_and_validate in H1, H2. cbn [snd] in H1, H2. set (w := ud_flags _) in *.
  assert (A : forall g, fis_set (if ud_seen_valid (decode_bytes m utf8dec_new i) && negb (fis_set w PATH_UTF8_INVALID) then fset w PATH_UTF8_VALID else w) g = false -> N.land w g = 0).
  { intros g K. assert (K2 : fis_set w g = false).
    { destruct (fis_set w g) eqn:G; [|reflexivity]. rewrite <- K. symmetry. destruct (_ && _); [|assumption].
      apply fis_set_spec in G as (j & G1 & G2). apply fis_set_spec. exists j. rewrite fset_testbit, G1. auto. }
    unfold fis_set in K2. destruct (N.land w g =? 0) eqn:Z; [now apply N.eqb_eq|discriminate]. }
  unfold bad_flags. rewrite N.land_lor_distr_r. rewrite (A _ H1), (A _ H2). reflexivity.
Qed.

Lemma utf8_truncated_unflagged m : decode_and_validate m (s2b "a" ++ [0xe2; 0x82]) = ([97; bm_repl m], 0).
Proof. reflexivity. Qed.
