(** Proofs for C69. *)
From Verif Require Import Base Spec SpecDecode SpecUtf8 ModelUtil ModelBestfit ModelUrl ModelUtf8 ProofsBase ProofsBstr ProofsParsers ProofsUrl ProofsUtf8 ProofsDecode.

Ltac inv_char := let s := fresh "s" in let c := fresh "c" in let H := fresh "H" in intros s c H; cbn [app] in H; inversion H; subst; try discriminate; try lia.
(** One byte in a state. *)
Lemma noncont b s cp : b < 256 -> s <> 0 -> s < 9 -> cp < 2 ^ 26 ->
  (exists k, k < 64 /\ b = 0x80 + k /\ decode_byte_allow_overlong s cp b = (tr s (cls (0x80 + k)), k + cp * 64)) \/
  ((b < 0x80 \/ 0xc0 <= b) /\ exists cp', decode_byte_allow_overlong s cp b = (1, cp')).
Proof.
  intros Hb H0 H9 Hcp. destruct (cls_range b Hb) as [(Hl & C)|[(k & Hk & ->)|R]].
  - right. split; [now left|]. rewrite dba_cont by assumption. rewrite C, tr_bad by (auto; cbn; auto). eauto.
  - left. exists k. split; [assumption|]. split; [reflexivity|]. rewrite dba_cont by assumption. now rewrite mod64.
  - right. split; [right; destruct R as [(k & Hk & ->)|[(k & Hk & ->)|[(k & Hk & ->)|(Hl & C)]]]; lia|]. rewrite dba_cont by assumption. rewrite tr_bad; [eauto|assumption|assumption|].
    destruct R as [(k & Hk & ->)|[(k & Hk & ->)|[(k & Hk & ->)|(Hl & C)]]].
    + rewrite cls_lead2 by lia. cbn; auto.
    + rewrite cls_lead3 by lia. destruct (k =? 13); cbn; auto 10.
    + rewrite cls_lead4 by lia. destruct (k =? 4); cbn; auto 10.
    + rewrite C. cbn; auto 10.
Qed.
Inductive moved (ps : bytes) (q b : N) (r : N * N) : Prop :=
| mv_ascii : ps = [] -> b < 0x80 -> r = (0, b) -> moved ps q b r
| mv_char c : ps <> [] -> char_of (ps ++ [b]) c -> r = (0, c) -> moved ps q b r
| mv_more s cp : s <> 0 -> s <> 1 -> pend s (q + 1) cp (ps ++ [b]) -> r = (s, cp) -> moved ps q b r
| mv_bad cp : (ps = [] -> 0x80 <= b) -> hopeless (ps ++ [b]) -> r = (1, cp) -> moved ps q b r.
Lemma trans s q cp ps b : b < 256 -> pend s q cp ps -> moved ps q b (decode_byte_allow_overlong s cp b).
Proof.
  intros Hb HP. destruct HP as [cp|k Hk|k Hk Hk13| |k Hk| |k k1 Hk Hk1 Hk13|k k1 Hk Hk1 Hk4|k k1 k2 Hk Hk1 Hk4 Hk2].
  - rewrite dba_first by assumption. destruct (cls_range b Hb) as [(Hl & C)|[(k & Hk & ->)|[(k & Hk & ->)|[(k & Hk & ->)|[(k & Hk & ->)|(Hl & C)]]]]].
    + apply mv_ascii; [reflexivity|assumption|]. rewrite C. change (tr 0 0) with 0. change (2 ^ (8 - 0)) with 256. now rewrite N.mod_small by assumption.
    + replace (tr 0 (cls (128 + k))) with 1 by (rewrite cls_cont by assumption; destruct (k <? 16); [reflexivity|]; destruct (k <? 32); reflexivity).
      eapply mv_bad; [lia| |reflexivity]. inv_char.
    + apply (mv_more _ _ _ _ 2 k); [discriminate|discriminate|now constructor|]. rewrite cls_lead2 by lia. change (tr 0 2) with 2. change (2 ^ (8 - 2)) with 64. f_equal.
      replace (0xc0 + k) with (k + 3 * 64) by lia. rewrite N.mod_add by discriminate. apply N.mod_small. lia.
    + rewrite cls_lead3 by lia. destruct (k =? 13) eqn:K.
      * apply N.eqb_eq in K. subst k. apply (mv_more _ _ _ _ 5 13); [discriminate|discriminate|constructor|reflexivity].
      * apply (mv_more _ _ _ _ 3 k); [discriminate|discriminate|constructor; lia|]. change (tr 0 3) with 3. change (2 ^ (8 - 3)) with 32. f_equal.
        replace (0xe0 + k) with (k + 7 * 32) by lia. rewrite N.mod_add by discriminate. apply N.mod_small. lia.
    + rewrite cls_lead4 by lia. destruct (k =? 4) eqn:K.
      * apply N.eqb_eq in K. subst k. apply (mv_more _ _ _ _ 8 4); [discriminate|discriminate|constructor|reflexivity].
      * apply (mv_more _ _ _ _ 7 k); [discriminate|discriminate|constructor; lia|]. change (tr 0 6) with 7. change (2 ^ (8 - 6)) with 4. f_equal.
        replace (0xf0 + k) with (k + 60 * 4) by lia. rewrite N.mod_add by discriminate. apply N.mod_small. lia.
    + eapply mv_bad; [lia| |rewrite C; reflexivity]. inv_char.
  - destruct (noncont b 2 k Hb ltac:(discriminate) ltac:(lia) ltac:(lt26)) as [(k1 & Hk1 & -> & ->)|(R & cp' & ->)].
    + rewrite tr_cont2 by assumption. eapply mv_char; [discriminate| |reflexivity]. now constructor.
    + eapply mv_bad; [discriminate| |reflexivity]. inv_char.
  - destruct (noncont b 3 k Hb ltac:(discriminate) ltac:(lia) ltac:(lt26)) as [(k1 & Hk1 & -> & ->)|(R & cp' & ->)].
    + rewrite tr_cont3 by assumption. eapply mv_more; [| | |reflexivity]; [discriminate|discriminate|]. constructor; lia.
    + eapply mv_bad; [discriminate| |reflexivity]. inv_char.
  - destruct (noncont b 5 13 Hb ltac:(discriminate) ltac:(lia) ltac:(lt26)) as [(k1 & Hk1 & -> & ->)|(R & cp' & ->)].
    + destruct (N.lt_ge_cases k1 32) as [L|L].
      * rewrite tr_cont5 by assumption. eapply mv_more; [| | |reflexivity]; [discriminate|discriminate|]. cbn [app]. change 0xed with (0xe0 + 13). constructor; lia.
      * eapply mv_bad; [discriminate| |]; [|rewrite cls_cont by assumption; replace (k1 <? 16) with false by lia; replace (k1 <? 32) with false by lia; reflexivity]. inv_char.
    + eapply mv_bad; [discriminate| |reflexivity]. inv_char.
  - destruct (noncont b 7 k Hb ltac:(discriminate) ltac:(lia) ltac:(lt26)) as [(k1 & Hk1 & -> & ->)|(R & cp' & ->)].
    + rewrite tr_cont7 by assumption. eapply mv_more; [| | |reflexivity]; [discriminate|discriminate|]. constructor; lia.
    + eapply mv_bad; [discriminate| |reflexivity]. inv_char.
  - destruct (noncont b 8 4 Hb ltac:(discriminate) ltac:(lia) ltac:(lt26)) as [(k1 & Hk1 & -> & ->)|(R & cp' & ->)].
    + destruct (N.lt_ge_cases k1 16) as [L|L].
      * rewrite tr_cont8 by assumption. eapply mv_more; [| | |reflexivity]; [discriminate|discriminate|]. cbn [app]. change 0xf4 with (0xf0 + 4). constructor; lia.
      * eapply mv_bad; [discriminate| |]; [|rewrite cls_cont by assumption; replace (k1 <? 16) with false by lia; replace (tr 8 _) with 1 by (destruct (k1 <? 32); reflexivity); reflexivity]. inv_char.
    + eapply mv_bad; [discriminate| |reflexivity]. inv_char.
  - destruct (noncont b 2 (k1 + k * 64) Hb ltac:(discriminate) ltac:(lia) ltac:(lt26)) as [(k2 & Hk2 & -> & ->)|(R & cp' & ->)].
    + rewrite tr_cont2 by assumption. eapply mv_char; [discriminate| |reflexivity]. now constructor.
    + eapply mv_bad; [discriminate| |reflexivity]. inv_char.
  - destruct (noncont b 3 (k1 + k * 64) Hb ltac:(discriminate) ltac:(lia) ltac:(lt26)) as [(k2 & Hk2 & -> & ->)|(R & cp' & ->)].
    + rewrite tr_cont3 by assumption. eapply mv_more; [| | |reflexivity]; [discriminate|discriminate|]. constructor; lia.
    + eapply mv_bad; [discriminate| |reflexivity]. inv_char.
  - destruct (noncont b 2 (k2 + (k1 + k * 64) * 64) Hb ltac:(discriminate) ltac:(lia) ltac:(lt26)) as [(k3 & Hk3 & -> & ->)|(R & cp' & ->)].
    + rewrite tr_cont2 by assumption. eapply mv_char; [discriminate| |reflexivity]. now constructor.
    + eapply mv_bad; [discriminate| |reflexivity]. inv_char.
Qed.
Lemma char_prefix w s c c' : char_of w c -> char_of (w ++ s) c' -> s = [] /\ c = c'.
Proof. intros H K. destruct H; cbn [app] in K; inversion K; subst; try lia; (split; [reflexivity|]); repeat match goal with H : _ + ?a = _ + ?b |- _ => (replace b with a in * by lia; clear H) end; reflexivity. Qed.
Lemma char_first w c : char_of w c -> exists b r, w = b :: r /\ 0xc0 <= b /\ r <> [].
Proof. destruct 1; do 2 eexists; (split; [reflexivity|]); (split; [lia|discriminate]). Qed.
Lemma begun_no_char w c : begun w -> char_of w c -> False.
Proof. intros (_ & s & c' & Hs & K) H. destruct (char_prefix _ _ _ _ H K). contradiction. Qed.
Lemma pend_facts s q cp ps : pend s q cp ps -> q = N.of_nat (length ps) /\ (ps <> [] -> s <> 0 /\ begun ps).
Proof.
  intro H. split; [now destruct H|]. intro N. destruct H; [now elim N|..]; (split; [discriminate|]); (split; [discriminate|]).
  - exists [0x80 + 0]. eexists. split; [discriminate|]. now apply co2.
  - exists [0x80 + 0; 0x80 + 0]. eexists. split; [discriminate|]. apply co3; lia.
  - exists [0x80 + 0; 0x80 + 0]. eexists. split; [discriminate|]. change 0xed with (0xe0 + 13). apply co3; lia.
  - exists [0x80 + 0; 0x80 + 0; 0x80 + 0]. eexists. split; [discriminate|]. apply co4; lia.
  - exists [0x80 + 0; 0x80 + 0; 0x80 + 0]. eexists. split; [discriminate|]. change 0xf4 with (0xf0 + 4). apply co4; lia.
  - exists [0x80 + 0]. eexists. split; [discriminate|]. apply co3; lia.
  - exists [0x80 + 0; 0x80 + 0]. eexists. split; [discriminate|]. apply co4; lia.
  - exists [0x80 + 0]. eexists. split; [discriminate|]. apply co4; lia.
Qed.
Lemma char_length w c : char_of w c -> (length w <= 4)%nat.
Proof. destruct 1; cbn; lia. Qed.
Definition same_acc (d d' : utf8dec) : Prop := ud_flags d' = ud_flags d /\ ud_seen_valid d' = ud_seen_valid d /\ ud_out_rev d' = ud_out_rev d.
Lemma begun_shorter w b : begun (w ++ [b]) -> w = [] \/ begun w.
Proof.
  intros (_ & s & c & Hs & H). destruct w as [|a w]; [now left|right]. split; [discriminate|]. exists (b :: s), c. split; [discriminate|].
  now rewrite <- app_assoc in H.
Qed.
Lemma run_prefix m d : pends d [] -> forall w, Forall is_byte w -> w = [] \/ begun w ->
  forall r : bytes, r <> [] -> exists d', decode_bytes m d (w ++ r) = decode_bytes m d' r /\ pends d' w /\ same_acc d d'.
Proof.
  intros HC w. induction w as [|b w IH] using rev_ind; intros Hw B r' Hr.
  - exists d. split; [reflexivity|]. split; [exact HC|]. now repeat split.
  - destruct B as [B|B]; [now destruct w|]. apply Forall_app in Hw as [Hw Hb]. inversion Hb as [|? ? Hb' _]; subst.
    destruct (IH Hw (begun_shorter _ _ B) (b :: r') ltac:(discriminate)) as (d1 & E1 & P1 & A1).
    rewrite <- app_assoc. cbn [app]. rewrite E1. cbn [decode_bytes]. destruct r' as [|x r']; [now elim Hr|].
    pose proof (trans _ _ _ _ b Hb' P1) as T. destruct T as [-> L E|c N C E|s cp N0 N1 P E|cp _ H E].
    + destruct B as (_ & s & c & _ & K). apply char_first in K as (b' & ? & K & ? & _). cbn [app] in K. injection K as <- _. lia.
    + now elim (begun_no_char _ _ B C).
    + exists (decode_byte m d1 b false). split; [reflexivity|]. rewrite (db_more m d1 b false s cp E N0 N1). split; [exact P|]. exact A1.
    + destruct B as (_ & s & c & _ & K). now elim (H s c).
Qed.
Lemma db_char m d b last c w : decode_byte_allow_overlong (ud_state d) (ud_cp d) b = (0, c) -> ud_seq d = N.of_nat (length w) -> w <> [] -> char_of (w ++ [b]) c ->
  decode_byte m d b last = {| ud_state := 0; ud_seq := 0; ud_cp := c;
    ud_flags := N.lor (ud_flags d) (all_flags [on (overlong (w ++ [b]) c) PATH_UTF8_OVERLONG; on ((0xff00 <=? c) && (c <=? 0xffef)) PATH_HALF_FULL_RANGE]);
    ud_seen_valid := true; ud_out_rev := fit m c :: ud_out_rev d |}.
Proof.
  intros E Q N C. unfold decode_byte, decode_byte_with at 1. rewrite E. change (0 =? 0) with true. cbv iota.
  replace (ud_seq d + 1 =? 1) with false by (destruct w; [now elim N|cbn [length] in Q; lia]).
  replace (is_overlong (ud_seq d + 1) c) with (overlong (w ++ [b]) c).
  - f_equal. unfold fset, on. cbn [all_flags fold_right]. destruct (overlong (w ++ [b]) c), ((0xff00 <=? c) && (c <=? 0xffef)); rewrite ?lor0r, ?N.lor_0_l, ?N.lor_assoc; reflexivity.
  - rewrite Q. unfold overlong, is_overlong. rewrite app_length. destruct w as [|? [|? [|? w]]]; [now elim N|cbn; lia..|]. cbn [length Nat.add].
    assert (L : (length w <= 0)%nat) by (apply char_length in C; cbn [app length] in C; rewrite app_length in C; cbn [length] in C; lia).
    destruct w; [|cbn in L; lia]. cbn. lia.
Qed.
Definition restart (m : bestfit_map) (d : utf8dec) : utf8dec :=
  {| ud_state := 0; ud_seq := 0; ud_cp := 0; ud_flags := fset (ud_flags d) PATH_UTF8_INVALID; ud_seen_valid := ud_seen_valid d; ud_out_rev := bm_repl m :: ud_out_rev d |}.
Lemma db_stray m d b last cp : decode_byte_allow_overlong (ud_state d) (ud_cp d) b = (1, cp) -> ud_seq d = 0 -> decode_byte m d b last = restart m d.
Proof. intros E Q. unfold decode_byte, decode_byte_with at 1. rewrite E, Q. reflexivity. Qed.
Lemma db_again m d b last cp : decode_byte_allow_overlong (ud_state d) (ud_cp d) b = (1, cp) -> ud_seq d <> 0 ->
  decode_byte m d b last = decode_byte m (restart m d) b last.
Proof.
  intros E Q. unfold decode_byte at 1, decode_byte_with at 1. rewrite E. change (1 =? 0) with false. change (1 =? 1) with true. cbv iota.
  replace (ud_seq d + 1 =? 1) with false by lia. fold (restart m d). unfold decode_byte, decode_byte_with.
  destruct (decode_byte_allow_overlong (ud_state (restart m d)) (ud_cp (restart m d)) b) as [s c]. cbn [restart ud_seq]. change (0 + 1 =? 1) with true. reflexivity.
Qed.
Lemma last_of (w : bytes) : w <> [] -> exists p b, w = p ++ [b].
Proof. intro H. destruct (exists_last H) as (p & b & ->). eauto. Qed.
Definition ahead (d d' : utf8dec) (o : bytes) (f : N) (v : bool) : Prop :=
  ud_flags d' = N.lor (ud_flags d) f /\ ud_seen_valid d' = ud_seen_valid d || v /\ ud_out_rev d' = rev o ++ ud_out_rev d.
Lemma step_run m i o f v r : utf8_step m i o f v r -> Forall is_byte i -> forall d, pends d [] ->
  exists d', decode_bytes m d i = decode_bytes m d' r /\ (r <> [] -> pends d' []) /\ ahead d d' o f v /\ Forall is_byte r.
Proof.
  intros S F d P. assert (Q0 : ud_seq d = 0 /\ ud_state d = 0) by (destruct (pend_facts _ _ _ _ P) as [-> _]; split; [reflexivity|now inversion P]).
  destruct Q0 as [Q0 S0].
  destruct S as [b r L|w c r C|b r L H|w b r B H|w B].
  - inversion F as [|? ? Hb Fr]; subst. cbn [decode_bytes]. eexists. split; [reflexivity|]. rewrite (db_ascii m d b _ (conj S0 Q0) L).
    split; [intros _; constructor|]. split; [|exact Fr]. unfold after_char, ahead, half_full. cbn [ud_flags ud_seen_valid ud_out_rev rev app].
    replace (0xff00 <=? b) with false by lia. cbn [andb]. replace (0x80 <=? b) with false by lia. rewrite lor0r. repeat split. unfold bestfit_codepoint. now replace (b <? 0x100) with true by lia.
  - apply Forall_app in F as [Fw Fr]. destruct (char_first _ _ C) as (b0 & w0 & -> & _ & N0). destruct (last_of w0 N0) as (p & b & ->).
    change (b0 :: p ++ [b]) with ((b0 :: p) ++ [b]) in *. set (w := b0 :: p) in *. apply Forall_app in Fw as [Fw Fb]. inversion Fb as [|? ? Hb _]; subst.
    assert (B : begun w) by (split; [discriminate|]; exists [b], c; split; [discriminate|assumption]).
    destruct (run_prefix m d P w Fw (or_intror B) (b :: r) ltac:(discriminate)) as (d1 & E1 & P1 & (A1 & A2 & A3)).
    rewrite <- app_assoc. cbn [app]. rewrite E1. cbn [decode_bytes]. eexists. split; [reflexivity|].
    pose proof (trans _ _ _ _ b Hb P1) as T. destruct T as [K _ _|c' _ C' E|s cp _ _ Pm E|cp _ H E].
    + discriminate K.
    + destruct (char_prefix _ [] _ c' C ltac:(now rewrite app_nil_r)) as [_ <-].
      destruct (pend_facts _ _ _ _ P1) as [Q1 _]. rewrite (db_char m d1 b _ c w E Q1 ltac:(discriminate) C).
      split; [intros _; constructor|]. split; [|exact Fr]. unfold ahead. cbn [ud_flags ud_seen_valid ud_out_rev rev app]. rewrite A1, A3, orb_true_r. now repeat split.
    + apply pend_facts in Pm as [_ Pm]. destruct (Pm ltac:(now destruct w)) as [_ Bm]. now elim (begun_no_char _ _ Bm C).
    + elim (H [] c). now rewrite app_nil_r.
  - inversion F as [|? ? Hb Fr]; subst. cbn [decode_bytes]. eexists. split; [reflexivity|].
    pose proof (trans _ _ _ _ b Hb P) as T. destruct T as [_ K _|c N _ _|s cp N0 N1 Pm E|cp _ _ E].
    + lia.
    + now elim N.
    + apply pend_facts in Pm as [_ Pm]. destruct (Pm ltac:(discriminate)) as [_ (_ & t & c & _ & K)]. now elim (H t c).
    + rewrite (db_stray m d b _ cp E Q0). split; [intros _; constructor|]. split; [|exact Fr]. unfold ahead, restart. cbn [ud_flags ud_seen_valid ud_out_rev rev app]. rewrite orb_false_r. now repeat split.
  - apply Forall_app in F as [Fw Fr]. inversion Fr as [|? ? Hb Fr']; subst.
    destruct (run_prefix m d P w Fw (or_intror B) (b :: r) ltac:(discriminate)) as (d1 & E1 & P1 & (A1 & A2 & A3)).
    rewrite E1. exists (restart m d1). split; [|split; [intros _; constructor|split; [|exact Fr]]].
    + cbn [decode_bytes]. f_equal. pose proof (trans _ _ _ _ b Hb P1) as T. destruct T as [K _ _|c _ C E|s cp _ _ Pm E|cp _ _ E].
      * destruct B as [K' _]. contradiction.
      * elim (H [] c). now rewrite app_nil_r.
      * apply pend_facts in Pm as [_ Pm]. destruct (Pm ltac:(now destruct w)) as [_ (_ & t & c & _ & K)]. now elim (H t c).
      * eapply db_again; [exact E|]. destruct (pend_facts _ _ _ _ P1) as [-> _]. destruct B as [Nw _]. destruct w; [now elim Nw|cbn; lia].
    + unfold ahead, restart. cbn [ud_flags ud_seen_valid ud_out_rev rev app]. rewrite A1, A2, A3, orb_false_r. now repeat split.
  - destruct (last_of w (proj1 B)) as (p & b & ->). apply Forall_app in F as [Fw Fb]. inversion Fb as [|? ? Hb _]; subst.
    destruct (run_prefix m d P p Fw (begun_shorter _ _ B) [b] ltac:(discriminate)) as (d1 & E1 & P1 & (A1 & A2 & A3)).
    rewrite E1. eexists. split; [cbn [decode_bytes]; reflexivity|]. split; [now intros []|]. split; [|constructor].
    pose proof (trans _ _ _ _ b Hb P1) as T. destruct T as [-> L E|c N C E|s cp N0 N1 Pm E|cp _ H E].
    + destruct B as (_ & s & c & _ & K). apply char_first in K as (b' & ? & K & ? & _). cbn [app] in K. injection K as <- _. lia.
    + now elim (begun_no_char _ _ B C).
    + rewrite (db_more m d1 b true s cp E N0 N1). unfold ahead. cbn [ud_flags ud_seen_valid ud_out_rev]. rewrite A1, A2, A3, orb_false_r, lor0r.
      repeat split. destruct (pend_facts _ _ _ _ P1) as [-> _]. rewrite app_length. cbn [length]. f_equal.
      replace (N.to_nat (N.of_nat (length p) + 1 - 1)) with (length p) by lia. replace (length p + 1 - 1)%nat with (length p) by lia.
      clear. induction (length p) as [|n IH]; [reflexivity|]. cbn [repeat rev]. rewrite <- IH. clear. induction n as [|n IH]; [reflexivity|]. cbn. now f_equal.
    + destruct B as (_ & s & c & _ & K). now elim (H s c).
Qed.
Lemma read_run m i out fl v : utf8_read m i out fl v -> Forall is_byte i -> forall d, pends d [] ->
  ahead d (decode_bytes m d i) out (all_flags fl) v.
Proof.
  induction 1 as [|i o f v r out fl vs S R IH]; intros F d P.
  - unfold ahead. cbn. rewrite lor0r, orb_false_r. now repeat split.
  - destruct (step_run _ _ _ _ _ _ S F d P) as (d1 & -> & P1 & (A1 & A2 & A3) & Fr).
    assert (K : ahead d1 (decode_bytes m d1 r) out (all_flags fl) vs).
    { destruct r as [|x r]; [|apply IH; [exact Fr|now apply P1]]. inversion R as [|? ? ? ? ? ? ? ? S' R']; subst.
      - unfold ahead. cbn. rewrite lor0r, orb_false_r. now repeat split.
      - exfalso. inversion S'; subst; try discriminate.
        + match goal with H : char_of _ _ |- _ => apply char_first in H as (? & ? & -> & _) end. discriminate.
        + destruct w; discriminate.
        + match goal with H : begun _ |- _ => now destruct H end. }
    destruct K as (B1 & B2 & B3). unfold ahead. rewrite B1, B2, B3, A1, A2, A3. cbn [all_flags fold_right]. fold (all_flags fl).
    rewrite N.lor_assoc, orb_assoc, rev_app_distr, <- app_assoc. now repeat split.
Qed.
Lemma utf8_read_exact m i out fl v : utf8_read m i out fl v -> Forall is_byte i ->
  decode_and_validate m i = (out, all_flags (fl ++ [on (v && negb (raised fl PATH_UTF8_INVALID)) PATH_UTF8_VALID])).
Proof.
  intros R F. destruct (read_run m i out fl v R F utf8dec_new ltac:(constructor)) as (A1 & A2 & A3). unfold decode_and_validate.
  rewrite A1, A2, A3. cbn [utf8dec_new ud_flags ud_seen_valid ud_out_rev]. rewrite app_nil_r, rev_involutive, N.lor_0_l, raised_all. cbn [orb]. f_equal.
  rewrite <- raised_all. unfold all_flags at 4. rewrite fold_right_app. unfold on. cbn [fold_right]. rewrite raised_all.
  destruct (v && negb (raised fl PATH_UTF8_INVALID)).
  - unfold fset. clear. rewrite lor0r. induction fl as [|f fl IH]; [reflexivity|]. cbn [all_flags fold_right]. unfold all_flags in IH. now rewrite <- N.lor_assoc, IH.
  - now rewrite lor0r.
Qed.
(** Every text can be read. *)
Lemma scan m : forall i s q cp ps, Forall is_byte i -> pend s q cp ps -> ps <> [] -> exists o f v r, utf8_step m (ps ++ i) o f v r.
Proof.
  induction i as [|b i IH]; intros s q cp ps F P N.
  - rewrite app_nil_r. destruct (pend_facts _ _ _ _ P) as [_ B]. do 4 eexists. apply us_cut. now apply B.
  - inversion F as [|? ? Hb F']; subst. pose proof (trans _ _ _ _ b Hb P) as T. destruct T as [K _ _|c _ C _|s' cp' _ _ P' _|cp' _ H _].
    + contradiction.
    + do 4 eexists. replace (ps ++ b :: i) with ((ps ++ [b]) ++ i) by now rewrite <- app_assoc. now apply us_char with (c := c).
    + replace (ps ++ b :: i) with ((ps ++ [b]) ++ i) by now rewrite <- app_assoc. eapply IH; [assumption|exact P'|now destruct ps].
    + do 4 eexists. apply us_broken; [|exact H]. now apply (pend_facts _ _ _ _ P).
Qed.
Lemma utf8_step_total m b i : Forall is_byte (b :: i) -> exists o f v r, utf8_step m (b :: i) o f v r.
Proof.
  intro F. inversion F as [|? ? Hb F']; subst. pose proof (trans 0 0 0 [] b Hb (pend_0 0)) as T. destruct T as [_ L _|c N _ _|s' cp' _ _ P' _|cp' L H _].
  - do 4 eexists. now apply us_ascii.
  - now elim N.
  - change (b :: i) with (([] ++ [b]) ++ i). eapply scan; [assumption|exact P'|discriminate].
  - do 4 eexists. apply us_stray; [now apply L|exact H].
Qed.
Lemma utf8_step_shorter m i o f v r : utf8_step m i o f v r -> (length r < length i)%nat.
Proof.
  destruct 1 as [b r L|w c r C|b r L H|w b r B H|w B]; cbn [length]; try lia.
  - destruct (char_first _ _ C) as (b & w' & -> & _). cbn. rewrite app_length. lia.
  - destruct B as [N _]. rewrite app_length. destruct w; [now elim N|cbn; lia].
  - destruct B as [N _]. destruct w; [now elim N|cbn; lia].
Qed.
Lemma utf8_step_suffix m i o f v r : utf8_step m i o f v r -> exists w, i = w ++ r.
Proof.
  destruct 1 as [b r L|w c r C|b r L H|w b r B H|w B]; [now exists [b]|now exists w|now exists [b]|now exists w|exists w; now rewrite app_nil_r].
Qed.
Lemma utf8_read_total m i : Forall is_byte i -> exists out fl v, utf8_read m i out fl v.
Proof.
  remember (length i) as n eqn:Hn. revert i Hn. induction n as [n IH] using lt_wf_ind. intros i -> F.
  destruct i as [|b r]; [do 3 eexists; constructor|]. destruct (utf8_step_total m b r F) as (o & f & v & r' & S).
  pose proof (utf8_step_shorter _ _ _ _ _ _ S) as L. destruct (utf8_step_suffix _ _ _ _ _ _ S) as (w & E).
  destruct (IH (length r')) with (i := r') as (out & fl & vs & R); [lia|reflexivity|rewrite E in F; now apply Forall_app in F|].
  do 3 eexists. eapply ur_step; eassumption.
Qed.
