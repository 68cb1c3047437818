(** Proofs for C65: comparing, searching and extending byte strings. *)
From Verif Require Import Base Spec SpecBytes ModelUtil ModelBstr ProofsBase ProofsBstr.

Lemma lex_Lt a b : lex_cmp a b = Lt <-> precedes a b.
Proof.
  revert b. induction a as [|x a IH]; intros [|y b]; cbn [lex_cmp].
  - split; [discriminate|]. intros [(x & r & E)|(p & x & y & r & s & E & _)]; [discriminate E|now destruct p].
  - split; [|reflexivity]. intros _. left. now exists y, b.
  - split; [discriminate|]. intros [(z & r & E)|(p & z & y & r & s & _ & E & _)]; [discriminate E|now destruct p].
  - destruct (N.compare_spec x y) as [->|L|L].
    + rewrite IH. split.
      * intros [(z & r & ->)|(p & u & v & r & s & -> & -> & L)]; [left; now exists z, r|right; now exists (y :: p), u, v, r, s].
      * intros [(z & r & E)|(p & u & v & r & s & E1 & E2 & L)]; [left; injection E as ->; now exists z, r|].
        destruct p as [|w p]; [injection E1 as -> ->; injection E2 as -> ->; lia|]. injection E1 as -> ->. injection E2 as ->. right. now exists p, u, v, r, s.
    + split; [|reflexivity]. intros _. right. now exists [], x, y, a, b.
    + split; [discriminate|]. intros [(z & r & E)|(p & u & v & r & s & E1 & E2 & M)]; [injection E as E _; lia|].
      destruct p as [|w p]; [injection E1 as -> ->; injection E2 as -> ->; lia|]. injection E1 as -> ->. injection E2 as -> ->. lia.
Qed.
Lemma lex_opp a b : lex_cmp b a = CompOpp (lex_cmp a b).
Proof.
  revert b. induction a as [|x a IH]; intros [|y b]; cbn [lex_cmp]; try reflexivity. rewrite (N.compare_antisym x y), IH. now destruct (x ?= y).
Qed.
Lemma lex_Gt a b : lex_cmp a b = Gt <-> precedes b a.
Proof. rewrite <- lex_Lt, lex_opp. destruct (lex_cmp b a); cbn; intuition congruence. Qed.
Lemma folded_lower b x : folded b x <-> x = lower b.
Proof.
  unfold folded, letter_eq, lower. destruct ((65 <=? b) && (b <=? 90)) eqn:U; split.
  all: rewrite ?andb_true_iff, ?andb_false_iff, ?N.leb_le, ?N.leb_gt in U.
  - intros [H1 H2]. lia.
  - intros ->. lia.
  - intros [H1 H2]. lia.
  - intros ->. lia.
Qed.
Lemma fold_lowers l m : fold_of l m <-> m = lowers l.
Proof.
  unfold fold_of, lowers. split.
  - induction 1 as [|b x l m H _ IH]; [reflexivity|]. apply folded_lower in H. cbn. now f_equal.
  - intros ->. induction l; constructor; [now apply folded_lower|assumption].
Qed.
Lemma cmp_text a b a' b' : fold_of a a' -> fold_of b b' ->
  (cmp_nocase a b = Lt <-> precedes a' b') /\ (cmp_nocase a b = Eq <-> name_eq a b) /\ (cmp_nocase a b = Gt <-> precedes b' a').
Proof.
  rewrite !fold_lowers. intros -> ->. unfold cmp_nocase. rewrite !lc_all_spec, lex_Lt, lex_Gt, lex_cmp_Eq, name_eq_lowers. tauto.
Qed.
Lemma cmp_text_nozero a b a' b' : fold_of (nonul a) a' -> fold_of b b' ->
  (cmp_nocase_nozero a b = Lt <-> precedes a' b') /\ (cmp_nocase_nozero a b = Eq <-> name_eq (nonul a) b) /\ (cmp_nocase_nozero a b = Gt <-> precedes b' a').
Proof.
  rewrite !fold_lowers. intros -> ->. unfold cmp_nocase_nozero. rewrite lcnz_all_spec, lc_all_spec, lex_Lt, lex_Gt, lex_cmp_Eq, name_eq_lowers. tauto.
Qed.
Lemma eq_text a b : (eq_nocase a b = true <-> name_eq a b) /\ (eq_nocase_nozero a b = true <-> name_eq (nonul a) b).
Proof.
  unfold eq_nocase, eq_nocase_nozero, cmp_nocase, cmp_nocase_nozero. rewrite !lcnz_all_spec, !lc_all_spec, !name_eq_lowers, <- !lex_cmp_Eq.
  split; [destruct (lex_cmp (lowers a) (lowers b))|destruct (lex_cmp (lowers (nonul a)) (lowers b))]; intuition congruence.
Qed.
Lemma name_eq_len a b : name_eq a b -> length a = length b.
Proof. induction 1; cbn; congruence. Qed.
Lemma starts_text s o : starts_with_nocase s o = true <-> exists w r, s = w ++ r /\ name_eq w o.
Proof.
  unfold starts_with_nocase. destruct (length s <? length o)%nat eqn:L.
  - apply Nat.ltb_lt in L. split; [discriminate|]. intros (w & r & -> & H). apply name_eq_len in H. rewrite app_length in L. lia.
  - apply Nat.ltb_ge in L. rewrite bytes_eqb_eq. split.
    + intro E. exists (firstn (length o) s), (skipn (length o) s). split; [symmetry; apply firstn_skipn|now apply name_eq_lowers].
    + intros (w & r & -> & H). pose proof (name_eq_len _ _ H) as W. rewrite <- W, firstn_app, Nat.sub_diag, firstn_all. cbn. rewrite app_nil_r. now apply name_eq_lowers.
Qed.
Lemma extend_text cap s o : (length s <= cap)%nat ->
  (length (add_noex cap s o) <= cap)%nat /\ (exists p r, add_noex cap s o = s ++ p /\ o = p ++ r /\ (r = [] \/ length (add_noex cap s o) = cap)).
Proof.
  intro L. unfold add_noex. set (n := Nat.min (cap - length s) (length o)). assert (N1 : length (firstn n o) = n) by (rewrite firstn_length; lia).
  rewrite app_length, N1. split; [lia|]. exists (firstn n o), (skipn n o). split; [reflexivity|]. split; [symmetry; apply firstn_skipn|].
  destruct (Nat.le_gt_cases (length o) (cap - length s)); [left; apply skipn_all2; lia|right; lia].
Qed.

(** The search. *)
Lemma lc_match src : forall needle it, index_match (lc_next src) it needle = true <-> exists post, lowers (skipn (it_pos it) src) = needle ++ post.
Proof.
  induction needle as [|c needle IH]; intro it; cbn [index_match].
  - split; [intros _; eexists; reflexivity|reflexivity].
  - pose proof (lc_next_spec src it) as H. destruct (skipn (it_pos it) src) as [|x r] eqn:E.
    + destruct (lc_next src it) as [[|] ?]; [discriminate H|]. split; [discriminate|]. intros (post & K). discriminate.
    + destruct H as (it' & -> & P & _ & ->). cbn [lowers map]. destruct (c =? lower x) eqn:C.
      * apply N.eqb_eq in C. subst c. rewrite IH, P. split; intros (post & K); exists post; [cbn [app]; now rewrite <- K | injection K as K; exact K].
      * apply N.eqb_neq in C. split; [discriminate|]. intros (post & K). cbn in K. congruence.
Qed.
Lemma lc_loop src first needle' : let needle := first :: needle' in let ok i := exists post, lowers (skipn i src) = needle ++ post in
  forall fuel it, (length (skipn (it_pos it) src) < fuel)%nat ->
  match index_loop (lc_next src) fuel it first needle with
  | Some i => (it_pos it <= i)%nat /\ ok i /\ (forall j, (it_pos it <= j < i)%nat -> ~ ok j)
  | None => forall j, (it_pos it <= j)%nat -> ~ ok j
  end.
Proof.
  intros needle ok. induction fuel as [|fuel IH]; intros it Hf; [lia|]. cbn [index_loop].
  pose proof (lc_next_spec src it) as H. destruct (skipn (it_pos it) src) as [|x r] eqn:E.
  - destruct (lc_next src it) as [[|] ?]; [discriminate H|]. intros j Hj (post & K).
    assert (Z : skipn j src = []). { apply skipn_all2. assert (length (skipn (it_pos it) src) = 0)%nat by now rewrite E. rewrite skipn_length in *. lia. }
    rewrite Z in K. discriminate K.
  - destruct H as (it' & -> & P & X & ->).
    assert (Hat : ok (it_idx it') <-> ((lower x =? first) && index_match (lc_next src) {| it_idx := it_idx it'; it_first := true |} needle) = true).
    { rewrite andb_true_iff, lc_match. unfold it_pos. cbn [it_first it_idx]. split; [|now intros [_ M]]. intros (post & K). split; [|now exists post].
      rewrite X, E in K. cbn in K. injection K as K _. now apply N.eqb_eq. }
    destruct ((lower x =? first) && _) eqn:M.
    + split; [lia|]. split; [now apply Hat|]. intros j Hj. lia.
    + assert (Hnot : ~ ok (it_idx it')) by (rewrite Hat; congruence).
      specialize (IH it'). rewrite P in IH. cbn [length] in Hf. specialize (IH ltac:(lia)).
      destruct (index_loop (lc_next src) fuel it' first needle) as [i|].
      * destruct IH as (A & B & C). split; [lia|]. split; [exact B|]. intros j Hj. destruct (Nat.eq_dec j (it_pos it)) as [->|]; [now rewrite <- X|apply C; lia].
      * intros j Hj. destruct (Nat.eq_dec j (it_pos it)) as [->|]; [now rewrite <- X|apply IH; lia].
Qed.
Lemma occurs_skip h n i : n <> [] -> (occurs_at h n i <-> exists post, lowers (skipn i h) = lowers n ++ post).
Proof.
  intro N0. split.
  - intros (a & w & b & -> & <- & H). apply name_eq_lowers in H. exists (lowers b). rewrite skipn_app, skipn_all, Nat.sub_diag. cbn [skipn app]. unfold lowers in *. now rewrite map_app, H.
  - intros (post & E). assert (L : (length n <= length (skipn i h))%nat).
    { apply (f_equal (@length N)) in E. unfold lowers in E. rewrite app_length, !map_length in E. lia. }
    exists (firstn i h), (firstn (length n) (skipn i h)), (skipn (length n) (skipn i h)). split; [now rewrite !firstn_skipn|]. split.
    + apply firstn_length_le. rewrite skipn_length in L. destruct n; [now elim N0|cbn in L; lia].
    + apply name_eq_lowers. unfold lowers in *. rewrite <- firstn_map, E, firstn_app, map_length, Nat.sub_diag, firstn_all2 by (rewrite map_length; lia). cbn. now rewrite app_nil_r.
Qed.
Lemma search_text h n : (forall i, index_of_nocase h n = Some i <-> n <> [] /\ occurs_at h n i /\ forall j, (j < i)%nat -> ~ occurs_at h n j) /\
  (index_of_nocase h n = None <-> n = [] \/ forall i, ~ occurs_at h n i).
Proof.
  unfold index_of_nocase, index_of_gen. destruct n as [|c n].
  { split; [intro i; split; [discriminate|now intros [H _]]|split; [now left|reflexivity]]. }
  pose proof (lc_loop h (lower c) (lowers n) (S (length h)) it0) as H. cbn [it0 it_pos it_first it_idx skipn] in H. fold it0 in H. specialize (H ltac:(cbn; lia)).
  assert (Hok : forall j, occurs_at h (c :: n) j <-> exists post, lowers (skipn j h) = (lower c :: lowers n) ++ post) by (intro j; now apply occurs_skip).
  cbn [lowers map]. fold (lowers n). destruct (index_loop _ _ _ _ _) as [k|].
  - destruct H as (_ & B & C). split.
    + intro i. split.
      * intros [= <-]. split; [discriminate|]. split; [now apply Hok|]. intros j Hj. rewrite Hok. apply C. unfold it_pos. cbn. lia.
      * intros (_ & O & M). f_equal. destruct (Nat.lt_trichotomy k i) as [L|[->|L]]; [|reflexivity|].
        -- elim (M k L). now apply Hok.
        -- apply Hok in O. elim (C i); [unfold it_pos; cbn; lia|exact O].
    + split; [discriminate|]. intros [E|E]; [discriminate E|]. elim (E k). now apply Hok.
  - split.
    + intro i. split; [discriminate|]. intros (_ & O & _). apply Hok in O. elim (H i); [unfold it_pos; cbn; lia|exact O].
    + split; [|reflexivity]. intros _. right. intros i O. apply Hok in O. elim (H i); [unfold it_pos; cbn; lia|exact O].
Qed.
