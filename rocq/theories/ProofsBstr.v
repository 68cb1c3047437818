(** Proofs about bstr.rs and table.rs: the iterator machines compute lower-cased (NUL-free) text, lookups are first-match. *)
From Verif Require Import Base Spec ModelBstr ProofsBase.

Lemma lex_cmp_Eq a b : lex_cmp a b = Eq <-> a = b.
Proof.
  revert b; induction a as [|x a IH]; intros [|y b]; cbn [lex_cmp]; try easy.
  destruct (x ?= y) eqn:C.
  - apply N.compare_eq in C. subst. rewrite IH. split; congruence.
  - split; [easy|]. intro H. injection H as -> ->. rewrite N.compare_refl in C. discriminate.
  - split; [easy|]. intro H. injection H as -> ->. rewrite N.compare_refl in C. discriminate.
Qed.

(** Position reached by the next call. *)
Definition it_pos (it : bs_iter) : nat := if it_first it then it_idx it else S (it_idx it).

Lemma nth_error_skipn {A} (l : list A) i :
  match nth_error l i with Some x => skipn i l = x :: skipn (S i) l | None => skipn i l = [] end.
Proof.
  revert i; induction l as [|y l IH]; intros [|i]; cbn; try reflexivity. apply IH.
Qed.

Lemma lc_next_spec src it :
  match skipn (it_pos it) src with
  | [] => fst (lc_next src it) = None
  | x :: r => exists it', lc_next src it = (Some (lower x), it') /\ it_pos it' = S (it_pos it)
               /\ it_idx it' = it_pos it /\ r = skipn (S (it_pos it)) src
  end.
Proof.
  unfold lc_next, it_pos. set (p := if it_first it then it_idx it else S (it_idx it)).
  pose proof (nth_error_skipn src p) as H. destruct (nth_error src p) as [x|].
  - rewrite H. eexists. repeat split.
  - rewrite H. reflexivity.
Qed.

Lemma lcnz_loop_spec src : forall fuel idx, (length (skipn idx src) < fuel)%nat ->
  match lcnz_loop fuel src idx with
  | None => False
  | Some (None, i) => nonul (skipn idx src) = []
  | Some (Some b, i) => exists x, (idx <= i)%nat /\ nth_error src i = Some x /\ x <> 0 /\ b = lower x
        /\ nonul (skipn idx src) = x :: nonul (skipn (S i) src)
        /\ (forall j, (idx <= j < i)%nat -> nth_error src j = Some 0)
  end.
Proof.
  induction fuel as [|fuel IH]; intros idx Hf; [lia|]. cbn [lcnz_loop].
  pose proof (nth_error_skipn src idx) as H. destruct (nth_error src idx) as [x|] eqn:E; cbn [option_map].
  - rewrite H in Hf |- *. cbn [length] in Hf.
    destruct (lower x =? 0) eqn:L.
    + apply N.eqb_eq in L. apply (proj1 (lower_0 x)) in L. subst x.
      specialize (IH (S idx)). destruct (lcnz_loop fuel src (S idx)) as [[[b|] i]|].
      * destruct IH as (x & Hi & Hn & Hx & Hb & He & Hz); [lia|]. exists x.
        repeat split; try assumption; try lia.
        intros j Hj. destruct (Nat.eq_dec j idx) as [->|]; [assumption|]. apply Hz. lia.
      * cbn. apply IH. lia.
      * apply IH. lia.
    + apply N.eqb_neq in L. rewrite lower_0 in L. exists x. repeat split; try assumption; try lia.
      cbn. replace (x =? 0) with false by lia. reflexivity.
  - rewrite H. reflexivity.
Qed.

Lemma lcnz_next_spec src it :
  match nonul (skipn (it_pos it) src) with
  | [] => fst (lcnz_next src it) = None
  | x :: r => exists it', lcnz_next src it = (Some (lower x), it') /\ (it_pos it <= it_idx it')%nat
       /\ it_first it' = false /\ nth_error src (it_idx it') = Some x /\ x <> 0 /\ r = nonul (skipn (it_pos it') src)
       /\ (forall j, (it_pos it <= j < it_idx it')%nat -> nth_error src j = Some 0)
  end.
Proof.
  unfold lcnz_next. fold (it_pos it).
  assert (Hl : (length (skipn (it_pos it) src) < S (length src))%nat) by (rewrite skipn_length; lia).
  pose proof (lcnz_loop_spec src _ _ Hl) as H.
  destruct (lcnz_loop (S (length src)) src (it_pos it)) as [[[b|] i]|]; [| |easy].
  - destruct H as (x & Hi & Hn & Hx & -> & He & Hz). rewrite He. eexists. repeat split; assumption.
  - now rewrite H.
Qed.

Lemma iter_all_lc src : forall fuel it, (length (skipn (it_pos it) src) < fuel)%nat ->
  iter_all (lc_next src) fuel it = lowers (skipn (it_pos it) src).
Proof.
  induction fuel as [|fuel IH]; intros it Hf; [lia|]. cbn [iter_all].
  pose proof (lc_next_spec src it) as H. destruct (skipn (it_pos it) src) as [|x r].
  - destruct (lc_next src it) as [[|] ?]; [discriminate|reflexivity].
  - destruct H as (it' & -> & Hp & _ & ->). rewrite IH; rewrite Hp; [reflexivity|].
    cbn [length] in Hf. lia.
Qed.
Lemma lc_all_spec src : lc_all src = lowers src.
Proof. unfold lc_all. rewrite iter_all_lc; [reflexivity|]. cbn. lia. Qed.

Lemma nonul_length l : (length (nonul l) <= length l)%nat.
Proof. unfold nonul. induction l as [|x l IH]; cbn; [lia|]. destruct (negb (x =? 0)); cbn; lia. Qed.

Lemma iter_all_lcnz src : forall fuel it, (length (nonul (skipn (it_pos it) src)) < fuel)%nat ->
  iter_all (lcnz_next src) fuel it = lowers (nonul (skipn (it_pos it) src)).
Proof.
  induction fuel as [|fuel IH]; intros it Hf; [lia|]. cbn [iter_all].
  pose proof (lcnz_next_spec src it) as H. destruct (nonul (skipn (it_pos it) src)) as [|x r].
  - destruct (lcnz_next src it) as [[|] ?]; [discriminate|reflexivity].
  - destruct H as (it' & -> & _ & _ & _ & _ & -> & _). rewrite IH; [reflexivity|]. cbn [length] in Hf. lia.
Qed.
Lemma lcnz_all_spec src : lcnz_all src = lowers (nonul src).
Proof.
  unfold lcnz_all. rewrite iter_all_lcnz; unfold it_pos, it0; cbn [it_first it_idx skipn]; [reflexivity|].
  pose proof (nonul_length src). lia.
Qed.

(** Lookups. *)
Lemma find_first_such {A} (p : A -> bool) (P : A -> Prop) l :
  (forall x, p x = true <-> P x) ->
  (forall e, find p l = Some e <-> first_such P l e) /\ (find p l = None <-> Forall (fun x => ~ P x) l).
Proof.
  intro H. split.
  - intro e. split.
    + induction l as [|x l IH]; cbn [find]; [discriminate|]. destruct (p x) eqn:E.
      * injection 1 as <-. exists [], l. repeat split; [now apply H|constructor].
      * intro F. destruct (IH F) as (b & a & -> & Pe & Hb). exists (x :: b), a. repeat split; [assumption|].
        constructor; [|assumption]. intro Px. apply H in Px. congruence.
    + intros (b & a & -> & Pe & Hb). induction Hb as [|x b Hx Hb IH]; cbn [find app].
      * apply H in Pe. now rewrite Pe.
      * destruct (p x) eqn:E; [apply H in E; contradiction|]. assumption.
  - split.
    + induction l as [|x l IH]; cbn [find]; [constructor|]. destruct (p x) eqn:E; [discriminate|].
      intro F. constructor; [|auto]. intro Px. apply H in Px. congruence.
    + induction 1 as [|x l Hx Hl IH]; cbn [find]; [reflexivity|].
      destruct (p x) eqn:E; [apply H in E; contradiction|assumption].
Qed.

Lemma is_eq_true c : is_eq c = true <-> c = Eq.
Proof. destruct c; cbn; split; congruence. Qed.

Lemma trims_to_unique ws l m m' : trims_to ws l m -> trims_to ws l m' -> m = m'.
Proof.
  intros (a & b & -> & Ha & Hb & Hs & He) (a' & b' & E & Ha' & Hb' & Hs' & He').
  destruct m as [|x m].
  - (* all white space *)
    assert (Hall : Forall ws (a ++ b)) by now apply Forall_app.
    cbn in E. rewrite E in Hall. apply Forall_app in Hall as [_ Hall]. apply Forall_app in Hall as [Hall _].
    destruct m' as [|y m']; [reflexivity|]. inversion Hall; subst. now elim (Hs' y m').
  - destruct m' as [|y m'].
    + assert (Hall : Forall ws (a' ++ b')) by now apply Forall_app.
      cbn in E. rewrite <- E in Hall. apply Forall_app in Hall as [_ Hall]. inversion Hall; subst. now elim (Hs x m).
    + assert (R1 : max_run ws (a ++ (x :: m) ++ b) a ((x :: m) ++ b)).
      { repeat split; [assumption|]. intros z r Hz. injection Hz as <- _. now apply (Hs x m). }
      assert (R2 : max_run ws (a ++ (x :: m) ++ b) a' ((y :: m') ++ b')).
      { repeat split; [assumption|assumption|]. intros z r Hz. injection Hz as <- _. now apply (Hs' y m'). }
      destruct (max_run_unique _ _ _ _ _ _ R1 R2) as [_ E2].
      assert (E3 : rev b ++ rev (x :: m) = rev b' ++ rev (y :: m')) by (rewrite <- !rev_app_distr; congruence).
      assert (R3 : max_run ws (rev b ++ rev (x :: m)) (rev b) (rev (x :: m))).
      { repeat split; [now apply Forall_rev|]. intros z r Hz. apply (He z (rev r)).
        rewrite <- (rev_involutive (x :: m)), Hz. reflexivity. }
      assert (R4 : max_run ws (rev b ++ rev (x :: m)) (rev b') (rev (y :: m'))).
      { repeat split; [assumption|now apply Forall_rev|]. intros z r Hz. apply (He' z (rev r)).
        rewrite <- (rev_involutive (y :: m')), Hz. reflexivity. }
      destruct (max_run_unique _ _ _ _ _ _ R3 R4) as [_ E4].
      rewrite <- (rev_involutive (x :: m)), E4. apply rev_involutive.
Qed.

Lemma trim_both_spec (p : N -> bool) (P : N -> Prop) l : (forall x, p x = true <-> P x) ->
  trims_to P l (drop_while_end p (drop_while p l)).
Proof.
  intro H. destruct (drop_while_spec p l) as (a & E & Ha & Hs).
  destruct (drop_while_end_spec p (drop_while p l)) as (b & E' & Hb & He).
  exists a, b. repeat split.
  - now rewrite <- E'.
  - now apply (Forall_bool_iff p P).
  - now apply (Forall_bool_iff p P).
  - intros x m' Em Px. apply H in Px. rewrite Em in E'.
    rewrite (Hs x (m' ++ b)) in Px; [discriminate|]. exact E'.
  - intros x m' Em Px. apply H in Px. rewrite (He _ _ Em) in Px. discriminate.
Qed.
Lemma trim_ascii_spec l : trims_to ascii_space l (trim_ascii l).
Proof. apply trim_both_spec. apply is_ascii_ws_spec. Qed.

Lemma cmp_nocase_trimmed_spec a k : is_eq (cmp_nocase_trimmed a k) = true <-> key_matches a k.
Proof.
  unfold cmp_nocase_trimmed, key_matches. rewrite is_eq_true, lex_cmp_Eq, !lc_all_spec, <- name_eq_lowers. split.
  - intro H. exists (trim_ascii a). split; [apply trim_ascii_spec|assumption].
  - intros (t & Ht & Hn). now rewrite (trims_to_unique _ _ _ _ (trim_ascii_spec a) Ht).
Qed.

(** Unicode trimming. *)
Lemma uws1_spec a : uws1 a = true <-> uni_space [a].
Proof.
  unfold uws1. split; intro H.
  - constructor. lia.
  - inversion H; subst. lia.
Qed.
Lemma uws2_spec a b : uws2 a b = true <-> uni_space [a; b].
Proof.
  unfold uws2. split; intro H.
  - assert (a = 0xc2 /\ (b = 0x85 \/ b = 0xa0)) as [-> [-> | ->]] by lia; constructor.
  - inversion H; subst; reflexivity.
Qed.
Lemma uws3_spec a b c : uws3 a b c = true <-> uni_space [a; b; c].
Proof.
  unfold uws3. split; intro H.
  - assert ((a = 0xe1 /\ b = 0x9a /\ c = 0x80) \/
            (a = 0xe2 /\ b = 0x80 /\ 0x80 <= c <= 0x8a) \/
            (a = 0xe2 /\ b = 0x80 /\ (c = 0xa8 \/ c = 0xa9 \/ c = 0xaf)) \/
            (a = 0xe2 /\ b = 0x81 /\ c = 0x9f) \/ (a = 0xe3 /\ b = 0x80 /\ c = 0x80)) as D by lia.
    destruct D as [(-> & -> & ->) | [(-> & -> & K) | [(-> & -> & K) | [(-> & -> & ->) | (-> & -> & ->)]]]].
    + apply us_ogham. + apply us_general; lia. + apply us_sep; lia. + apply us_math. + apply us_ideo.
  - inversion H; subst; try reflexivity.
    + assert (0x80 <= c <= 0x8a) by assumption. lia.
    + lia.
Qed.
Lemma uni_space_len w : uni_space w -> exists a r, w = a :: r /\ (r = [] \/ exists b, r = [b] \/ exists c, r = [b; c]).
Proof. intro H; inversion H; subst; do 2 eexists; (split; [reflexivity|eauto 6]). Qed.

(** White space sequences are a prefix code and, reversed, too. *)
Lemma uni_space_first w : uni_space w -> exists a r, w = a :: r /\
  ((r = [] /\ (9 <= a <= 13 \/ a = 32)) \/ (exists b, r = [b] /\ a = 0xc2) \/ (exists b c, r = [b; c] /\ 0xe1 <= a <= 0xe3)).
Proof.
  intro H; inversion H; subst; do 2 eexists; (split; [reflexivity|]);
    first [ left; split; [reflexivity|lia]
          | right; left; eexists; split; [reflexivity|lia]
          | right; right; do 2 eexists; split; [reflexivity|lia] ].
Qed.
Lemma uni_prefix_code w w' s s' : uni_space w -> uni_space w' -> w ++ s = w' ++ s' -> w = w'.
Proof.
  intros H H' E.
  destruct (uni_space_first w H) as (a & r & -> & D), (uni_space_first w' H') as (a' & r' & -> & D').
  destruct D as [(-> & ?) | [(b & -> & ?) | (b & c & -> & ?)]];
  destruct D' as [(-> & ?) | [(b' & -> & ?) | (b' & c' & -> & ?)]]; cbn in E; injection E; intros; subst; try lia; reflexivity.
Qed.
Lemma uni_suffix_code w w' s s' : uni_space w -> uni_space w' -> s ++ w = s' ++ w' -> w = w'.
Proof.
  intros H H' E. apply (f_equal (@rev N)) in E. rewrite !rev_app_distr in E.
  inversion H; subst; inversion H'; subst; cbn in E; injection E; intros; subst; try reflexivity; try lia; try (exfalso; lia).
Qed.

Lemma uni_trim_start_spec l : exists a, l = concat a ++ uni_trim_start l /\ Forall uni_space a /\
  (forall w m', uni_space w -> uni_trim_start l <> w ++ m').
Proof.
  induction l as [l IH] using (well_founded_induction (Wf_nat.well_founded_ltof _ (@length N))).
  unfold Wf_nat.ltof in IH.
  assert (stop : forall w m', (forall a r, l = a :: r -> uws1 a = false) ->
            (forall a b r, l = a :: b :: r -> uws2 a b = false) ->
            (forall a b c r, l = a :: b :: c :: r -> uws3 a b c = false) -> uni_space w -> l <> w ++ m').
  { intros w m' H1 H2 H3 Hw E. destruct (uni_space_len w Hw) as (a & r & -> & [-> | (b & [-> | (c & ->)])]); cbn in E.
    - apply uws1_spec in Hw. erewrite H1 in Hw by eassumption. discriminate.
    - apply uws2_spec in Hw. erewrite H2 in Hw by eassumption. discriminate.
    - apply uws3_spec in Hw. erewrite H3 in Hw by eassumption. discriminate. }
  destruct l as [|a l1]; cbn [uni_trim_start].
  { exists []. repeat split; [constructor|]. intros w m' Hw. apply stop; easy. }
  destruct (uws1 a) eqn:W1.
  { destruct (IH l1) as (s & E & Hs & Hn); [cbn; lia|]. exists ([a] :: s). repeat split.
    - cbn. now rewrite <- E. - constructor; [now apply uws1_spec|assumption]. - assumption. }
  destruct l1 as [|b l2].
  { exists []. repeat split; [constructor|]. intros w m' Hw. apply stop; try easy. intros ? ? H; now injection H as <- <-. }
  destruct (uws2 a b) eqn:W2.
  { destruct (IH l2) as (s & E & Hs & Hn); [cbn; lia|]. exists ([a; b] :: s). repeat split.
    - cbn. now rewrite <- E. - constructor; [now apply uws2_spec|assumption]. - assumption. }
  destruct l2 as [|c l3].
  { exists []. repeat split; [constructor|]. intros w m' Hw. apply stop; try easy; intros; congruence. }
  destruct (uws3 a b c) eqn:W3.
  { destruct (IH l3) as (s & E & Hs & Hn); [cbn; lia|]. exists ([a; b; c] :: s). repeat split.
    - cbn. now rewrite <- E. - constructor; [now apply uws3_spec|assumption]. - assumption. }
  exists []. repeat split; [constructor|]. intros w m' Hw. apply stop; try easy; intros; congruence.
Qed.

Lemma uni_trim_rev_spec l : exists a, l = concat (map (@rev N) a) ++ uni_trim_rev l /\ Forall uni_space a /\
  (forall w m', uni_space w -> uni_trim_rev l <> rev w ++ m').
Proof.
  induction l as [l IH] using (well_founded_induction (Wf_nat.well_founded_ltof _ (@length N))).
  unfold Wf_nat.ltof in IH.
  assert (stop : forall w m', (forall a r, l = a :: r -> uws1 a = false) ->
            (forall a b r, l = a :: b :: r -> uws2 b a = false) ->
            (forall a b c r, l = a :: b :: c :: r -> uws3 c b a = false) -> uni_space w -> l <> rev w ++ m').
  { intros w m' H1 H2 H3 Hw E. destruct (uni_space_len w Hw) as (a & r & -> & [-> | (b & [-> | (c & ->)])]); cbn in E.
    - apply uws1_spec in Hw. erewrite H1 in Hw by eassumption. discriminate.
    - apply uws2_spec in Hw. erewrite H2 in Hw by eassumption. discriminate.
    - apply uws3_spec in Hw. erewrite H3 in Hw by eassumption. discriminate. }
  destruct l as [|a l1]; cbn [uni_trim_rev].
  { exists []. repeat split; [constructor|]. intros w m' Hw. apply stop; easy. }
  destruct (uws1 a) eqn:W1.
  { destruct (IH l1) as (s & E & Hs & Hn); [cbn; lia|]. exists ([a] :: s). repeat split.
    - cbn. now rewrite <- E. - constructor; [now apply uws1_spec|assumption]. - assumption. }
  destruct l1 as [|b l2].
  { exists []. repeat split; [constructor|]. intros w m' Hw. apply stop; try easy. intros ? ? H; now injection H as <- <-. }
  destruct (uws2 b a) eqn:W2.
  { destruct (IH l2) as (s & E & Hs & Hn); [cbn; lia|]. exists ([b; a] :: s). repeat split.
    - cbn. now rewrite <- E. - constructor; [now apply uws2_spec|assumption]. - assumption. }
  destruct l2 as [|c l3].
  { exists []. repeat split; [constructor|]. intros w m' Hw. apply stop; try easy; intros; congruence. }
  destruct (uws3 c b a) eqn:W3.
  { destruct (IH l3) as (s & E & Hs & Hn); [cbn; lia|]. exists ([c; b; a] :: s). repeat split.
    - cbn. now rewrite <- E. - constructor; [now apply uws3_spec|assumption]. - assumption. }
  exists []. repeat split; [constructor|]. intros w m' Hw. apply stop; try easy; intros; congruence.
Qed.

Lemma rev_concat (a : list bytes) : rev (concat (map (@rev N) a)) = concat (rev a).
Proof.
  induction a as [|w a IH]; [reflexivity|]. cbn. rewrite rev_app_distr, rev_involutive, IH, concat_app. cbn.
  now rewrite app_nil_r.
Qed.

Lemma uni_trim_spec l : uni_trims_to l (uni_trim l).
Proof.
  unfold uni_trim, uni_trims_to. destruct (uni_trim_start_spec l) as (a & E & Ha & Hs).
  destruct (uni_trim_rev_spec (rev (uni_trim_start l))) as (b & E' & Hb & He).
  set (m := uni_trim_rev (rev (uni_trim_start l))) in *.
  assert (E2 : uni_trim_start l = rev m ++ concat (rev b)).
  { rewrite <- (rev_involutive (uni_trim_start l)), E', rev_app_distr, rev_concat. reflexivity. }
  exists a, (rev b). repeat split.
  - now rewrite <- E2.
  - assumption.
  - now apply Forall_rev.
  - intros w m' Hw K. apply (Hs w (m' ++ concat (rev b)) Hw). rewrite E2, K. now rewrite app_assoc.
  - intros w m' Hw K. apply (He w (rev m') Hw). rewrite <- rev_app_distr, <- K. now rewrite rev_involutive.
Qed.

(** Determinism of uni_trims_to. *)
Lemma concat_prefix_unique a a' s s' :
  Forall uni_space a -> Forall uni_space a' ->
  (forall w m', uni_space w -> s <> w ++ m') -> (forall w m', uni_space w -> s' <> w ++ m') ->
  concat a ++ s = concat a' ++ s' -> s = s'.
Proof.
  intro Ha. revert a' ; induction Ha as [|w a Hw Ha IH]; intros a' Ha' Hs Hs' E.
  - destruct Ha' as [|w' a' Hw' Ha']; [assumption|]. cbn in E. rewrite <- app_assoc in E. now elim (Hs _ _ Hw' E).
  - destruct Ha' as [|w' a' Hw' Ha'].
    + cbn in E. rewrite <- app_assoc in E. symmetry in E. now elim (Hs' _ _ Hw E).
    + cbn in E. rewrite <- !app_assoc in E. pose proof (uni_prefix_code _ _ _ _ Hw Hw' E) as ->.
      apply app_inv_head in E. eapply IH; eassumption.
Qed.
Lemma concat_suffix_unique a a' s s' :
  Forall uni_space a -> Forall uni_space a' ->
  (forall w m', uni_space w -> s <> m' ++ w) -> (forall w m', uni_space w -> s' <> m' ++ w) ->
  s ++ concat a = s' ++ concat a' -> s = s'.
Proof.
  intro Ha. revert a' s s'. induction a as [|w a IH] using rev_ind; intros a' s s' Ha' Hs Hs' E.
  - destruct a' as [|w' a' _] using rev_ind; [cbn in E; now rewrite !app_nil_r in E|].
    rewrite concat_app in E. cbn in E. rewrite !app_nil_r, app_assoc in E.
    apply Forall_app in Ha' as [_ Hw']. inversion Hw'; subst. now elim (Hs w' (s' ++ concat a')).
  - apply Forall_app in Ha as [Ha Hw]. inversion Hw; subst.
    destruct a' as [|w' a' _] using rev_ind.
    + rewrite concat_app in E. cbn in E. rewrite !app_nil_r, app_assoc in E. symmetry in E. now elim (Hs' w (s ++ concat a)).
    + apply Forall_app in Ha' as [Ha' Hw']. inversion Hw'; subst.
      rewrite !concat_app in E. cbn in E. rewrite !app_nil_r, !app_assoc in E.
      assert (w = w') as -> by (eapply uni_suffix_code; eassumption).
      apply app_inv_tail in E. apply (IH Ha a'); assumption.
Qed.
(** A sequence cannot straddle the end of a kept part and the beginning of trailing white space. *)
Lemma uni_no_straddle m b w r : m <> [] -> Forall uni_space b -> (forall w m', uni_space w -> m <> w ++ m') ->
  uni_space w -> m ++ concat b <> w ++ r.
Proof.
  intros Hm Hb Hs Hw E.
  assert (Hcont : forall x l, concat b = x :: l -> x < 0x80 \/ 0xc2 <= x).
  { destruct Hb as [|v b Hv Hb]; [easy|]. intros x l K. cbn in K. inversion Hv; subst; injection K as <- _; lia. }
  inversion Hw; subst; cbn in E.
  - destruct m as [|x m]; [easy|]. injection E as -> _. now elim (Hs [b0] m Hw).
  - destruct m as [|x [|y m]]; [easy| |].
    + injection E as -> E. destruct (Hcont _ _ E); lia.
    + injection E as -> -> _. now elim (Hs _ m Hw).
  - destruct m as [|x [|y m]]; [easy| |].
    + injection E as -> E. destruct (Hcont _ _ E); lia.
    + injection E as -> -> _. now elim (Hs _ m Hw).
  - destruct m as [|x [|y [|z m]]]; [easy| | |].
    + injection E as -> E. destruct (Hcont _ _ E); lia.
    + injection E as -> -> E. destruct (Hcont _ _ E); lia.
    + injection E as -> -> -> _. now elim (Hs _ m Hw).
  - destruct m as [|x [|y [|z m]]]; [easy| | |].
    + injection E as -> E. destruct (Hcont _ _ E); lia.
    + injection E as -> -> E. destruct (Hcont _ _ E); lia.
    + injection E as -> -> -> _. now elim (Hs _ m Hw).
  - destruct m as [|x [|y [|z m]]]; [easy| | |].
    + injection E as -> E. destruct (Hcont _ _ E); lia.
    + injection E as -> -> E. destruct (Hcont _ _ E); lia.
    + injection E as -> -> -> _. now elim (Hs _ m Hw).
  - destruct m as [|x [|y [|z m]]]; [easy| | |].
    + injection E as -> E. destruct (Hcont _ _ E); lia.
    + injection E as -> -> E. destruct (Hcont _ _ E); lia.
    + injection E as -> -> -> _. now elim (Hs _ m Hw).
  - destruct m as [|x [|y [|z m]]]; [easy| | |].
    + injection E as -> E. destruct (Hcont _ _ E); lia.
    + injection E as -> -> E. destruct (Hcont _ _ E); lia.
    + injection E as -> -> -> _. now elim (Hs _ m Hw).
Qed.
Lemma concat_ws_cases s : (forall w m', uni_space w -> s <> w ++ m') -> forall a b,
  Forall uni_space a -> Forall uni_space b -> concat a ++ s = concat b -> s = [].
Proof.
  intros Hs a b Ha. revert b; induction Ha as [|w a Hw Ha IH]; intros b Hb E.
  - destruct Hb as [|v b Hv Hb]; [assumption|]. cbn in E. now elim (Hs v (concat b)).
  - destruct Hb as [|v b Hv Hb].
    + cbn in E. destruct (uni_space_len _ Hw) as (x & r & -> & _). discriminate.
    + cbn in E. rewrite <- app_assoc in E. pose proof (uni_prefix_code _ _ _ _ Hw Hv E) as ->.
      apply app_inv_head in E. eauto.
Qed.
Lemma uni_trims_to_unique l m m' : uni_trims_to l m -> uni_trims_to l m' -> m = m'.
Proof.
  intros (a & b & -> & Ha & Hb & Hs & He) (a' & b' & E & Ha' & Hb' & Hs' & He').
  destruct m as [|x m].
  - cbn in E. rewrite <- concat_app in E.
    destruct m' as [|y m']; [reflexivity|].
    symmetry in E. assert (K : (y :: m') ++ concat b' = []).
    { eapply concat_ws_cases; [|exact Ha'| |exact E].
      - intros w r Hw. now apply uni_no_straddle. - now apply Forall_app. }
    discriminate.
  - destruct m' as [|y m'].
    + cbn [app] in E. rewrite <- concat_app in E.
      assert (K : (x :: m) ++ concat b = []).
      { eapply concat_ws_cases; [|exact Ha| |exact E].
        - intros w r Hw. now apply uni_no_straddle. - now apply Forall_app. }
      discriminate.
    + assert (E2 : (x :: m) ++ concat b = (y :: m') ++ concat b').
      { eapply concat_prefix_unique; [exact Ha|exact Ha'| | |exact E]; intros w r Hw; now apply uni_no_straddle. }
      eapply concat_suffix_unique; [exact Hb|exact Hb'|exact He|exact He'|exact E2].
Qed.

Lemma cmp_nocase_nozero_trimmed_spec a k : is_eq (cmp_nocase_nozero_trimmed a k) = true <-> hkey_matches a k.
Proof.
  unfold cmp_nocase_nozero_trimmed, hkey_matches. rewrite is_eq_true, lex_cmp_Eq, lc_all_spec, lcnz_all_spec, <- name_eq_lowers. split.
  - intro H. exists (uni_trim a). split; [apply uni_trim_spec|assumption].
  - intros (t & Ht & Hn). now rewrite (uni_trims_to_unique _ _ _ (uni_trim_spec a) Ht).
Qed.

(** Substring search. *)
Lemma index_match_spec src : forall needle it,
  index_match (lcnz_next src) it needle = true <->
  exists post, lowers (nonul (skipn (it_pos it) src)) = needle ++ post.
Proof.
  induction needle as [|c needle IH]; intro it; cbn [index_match].
  - split; [intros _; eexists; reflexivity|reflexivity].
  - pose proof (lcnz_next_spec src it) as H. destruct (nonul (skipn (it_pos it) src)) as [|x r].
    + destruct (lcnz_next src it) as [[|] ?]; [discriminate|]. split; [discriminate|]. intros (post & E). discriminate.
    + destruct H as (it' & -> & _ & _ & _ & _ & -> & _). cbn [lowers map]. destruct (c =? lower x) eqn:E.
      * apply N.eqb_eq in E. subst c. rewrite IH. split; intros (post & K); exists post; [cbn [app]; now rewrite <- K | injection K as K; exact K].
      * apply N.eqb_neq in E. split; [discriminate|]. intros (post & K). cbn in K. congruence.
Qed.

Lemma nonul_skip_zeros src i j : (i <= j)%nat -> (forall k, (i <= k < j)%nat -> nth_error src k = Some 0) ->
  nonul (skipn i src) = nonul (skipn j src).
Proof.
  intros Hij. revert src j Hij. induction i as [|i IH]; intros src j Hij H.
  - revert src H; induction j as [|j IHj]; intros src H; [reflexivity|].
    destruct src as [|x src]; [now rewrite !skipn_nil|]. cbn [skipn].
    assert (x = 0) as -> by (assert (K : Some x = Some 0) by (apply (H 0%nat); lia); congruence).
    cbn [nonul filter]. change (0 =? 0) with true. cbn [negb]. apply (IHj ltac:(lia) src). intros k Hk. apply (H (S k)). lia.
  - destruct j as [|j]; [lia|]. destruct src as [|x src]; [reflexivity|]. cbn [skipn]. apply IH; [lia|].
    intros k Hk. apply (H (S k)). lia.
Qed.

(** Occurrence, as the machine sees it. *)
Lemma occurs_lowers h n i x : nth_error h i = Some x -> x <> 0 ->
  (occurs_nonul_at h n i <-> exists post, lowers (nonul (skipn i h)) = lowers n ++ post).
Proof.
  intros Hx Hx0. split.
  - intros (x' & w & post & _ & _ & E & Hn). exists (lowers post). rewrite E. unfold lowers. rewrite map_app. f_equal. now apply name_eq_lowers.
  - intros (post & E). set (s := nonul (skipn i h)) in *.
    exists x, (firstn (length n) s), (skipn (length n) s). repeat split; [assumption|assumption| |].
    + fold s. symmetry. apply firstn_skipn.
    + apply name_eq_lowers. unfold lowers in *. rewrite <- firstn_map, E.
      rewrite firstn_app, map_length, Nat.sub_diag, firstn_all2 by (rewrite map_length; lia). cbn. now rewrite app_nil_r.
Qed.

Lemma index_loop_spec src first needle' : let needle := first :: needle' in
  forall fuel it, (length (nonul (skipn (it_pos it) src)) < fuel)%nat ->
  let ok i := exists x, nth_error src i = Some x /\ x <> 0 /\ exists post, lowers (nonul (skipn i src)) = needle ++ post in
  match index_loop (lcnz_next src) fuel it first needle with
  | Some i => (it_pos it <= i)%nat /\ ok i /\ (forall j, (it_pos it <= j < i)%nat -> ~ ok j)
  | None => forall j, (it_pos it <= j)%nat -> ~ ok j
  end.
Proof.
  intros needle. induction fuel as [|fuel IH]; intros it Hf; [lia|]. cbn zeta in *. cbn [index_loop].
  set (ok i := exists x, nth_error src i = Some x /\ x <> 0 /\ exists post, lowers (nonul (skipn i src)) = needle ++ post) in *.
  pose proof (lcnz_next_spec src it) as H. destruct (nonul (skipn (it_pos it) src)) as [|x r] eqn:En.
  - destruct (lcnz_next src it) as [[|] ?]; [discriminate|]. intros j Hj (x & Hx & Hx0 & _).
    assert (In x (nonul (skipn (it_pos it) src))).
    { unfold nonul. apply filter_In. split; [|lia]. apply nth_error_In with (n := (j - it_pos it)%nat).
      clear -Hx Hj.
      revert j Hx Hj. generalize (it_pos it) as i. intros i. revert src. induction i as [|i IHi]; intros src j Hx Hj.
      - now rewrite Nat.sub_0_r.
      - destruct src as [|y src]; [now destruct j|]. destruct j as [|j]; [lia|]. cbn [skipn]. cbn in Hx. apply IHi; [assumption|lia]. }
    rewrite En in *. contradiction.
  - destruct H as (it' & -> & Hle & Hfst & Hn & Hx & -> & Hz).
    assert (Hpos' : it_pos it' = S (it_idx it')) by (unfold it_pos; now rewrite Hfst).
    assert (Hbefore : forall j, (it_pos it <= j < it_idx it')%nat -> ~ ok j).
    { intros j Hj (y & Hy & Hy0 & _). rewrite (Hz j Hj) in Hy. congruence. }
    assert (Hat : ok (it_idx it') <-> ((lower x =? first) && index_match (lcnz_next src) {| it_idx := it_idx it'; it_first := true |} needle) = true).
    { rewrite andb_true_iff, index_match_spec. unfold it_pos; cbn [it_first it_idx]. split.
      - intros (y & Hy & Hy0 & post & Ep). rewrite Hn in Hy. injection Hy as <-. split; [|eauto].
        pose proof (nth_error_skipn src (it_idx it')) as Hs. rewrite Hn in Hs. rewrite Hs in Ep.
        cbn in Ep. replace (negb (x =? 0)) with true in Ep by lia. cbn in Ep. injection Ep as Ep _. now apply N.eqb_eq.
      - intros [_ Hm]. exists x. auto. }
    destruct ((lower x =? first) && index_match (lcnz_next src) {| it_idx := it_idx it'; it_first := true |} needle) eqn:Em.
    + repeat split; [assumption|now apply Hat|assumption].
    + specialize (IH it'). cbn [length] in Hf. rewrite Hpos' in *. cbn zeta in IH. fold ok in IH.
      assert (Hnot : ~ ok (it_idx it')) by (rewrite Hat; congruence).
      destruct (index_loop (lcnz_next src) fuel it' first needle) as [i|].
      * destruct IH as (Hi & Hok & Hb); [lia|]. repeat split; [lia|assumption|].
        intros j Hj. destruct (Nat.lt_trichotomy j (it_idx it')) as [|[->|]]; [apply Hbefore; lia|assumption|apply Hb; lia].
      * intros j Hj. destruct (Nat.lt_trichotomy j (it_idx it')) as [|[->|]]; [apply Hbefore; lia|assumption|apply IH; lia].
Qed.

Lemma index_of_nocase_nozero_found h n i : index_of_nocase_nozero h n = Some i <->
  n <> [] /\ occurs_nonul_at h n i /\ (forall j, (j < i)%nat -> ~ occurs_nonul_at h n j).
Proof.
  assert (Hok : forall j, occurs_nonul_at h n j <->
    exists x, nth_error h j = Some x /\ x <> 0 /\ exists post, lowers (nonul (skipn j h)) = lowers n ++ post).
  { intro j. split.
    - intros Ho. pose proof Ho as (x & _ & _ & Hx & Hx0 & _). exists x. repeat split; [assumption|assumption|]. now apply (occurs_lowers h n j x).
    - intros (x & Hx & Hx0 & Hp). now apply (occurs_lowers h n j x). }
  unfold index_of_nocase_nozero, index_of_gen. destruct n as [|c n]; [cbn; split; [discriminate|easy]|].
  cbn [lowers map]. fold (lowers n).
  pose proof (index_loop_spec h (lower c) (lowers n) (S (length h)) it0) as H. cbn zeta in H.
  unfold it_pos in H. cbn [it0 it_first it_idx] in H. fold it0 in H. cbn [skipn] in H.
  specialize (H ltac:(pose proof (nonul_length h); lia)).
  change (lower c :: lowers n) with (lowers (c :: n)) in *.
  destruct (index_loop (lcnz_next h) (S (length h)) it0 (lower c) (lowers (c :: n))) as [k|].
  - destruct H as (_ & Hk & Hb). split.
    + injection 1 as <-. repeat split; [easy|now apply Hok|]. intros j Hj Ho. apply Hok in Ho. apply (Hb j); [lia|assumption].
    + intros (_ & Ho & Hb'). f_equal. apply Hok in Ho.
      destruct (Nat.lt_trichotomy k i) as [Hlt|[->|Hlt]]; [|reflexivity|].
      * elim (Hb' k Hlt). now apply Hok.
      * elim (Hb i); [lia|assumption].
  - split; [discriminate|]. intros (_ & Ho & _). apply Hok in Ho. elim (H i); [lia|assumption].
Qed.

Lemma index_of_nocase_nozero_none h n : index_of_nocase_nozero h n = None <->
  n = [] \/ (forall i, ~ occurs_nonul_at h n i).
Proof.
  split.
  - intro H. destruct n as [|c n]; [now left|]. right. intros i Ho.
    (* least occurrence *)
    assert (exists k, occurs_nonul_at h (c :: n) k /\ forall j, (j < k)%nat -> ~ occurs_nonul_at h (c :: n) j) as (k & Hk & Hmin).
    { assert (dec : forall j, occurs_nonul_at h (c :: n) j \/ ~ occurs_nonul_at h (c :: n) j).
      { intro j. destruct (nth_error h j) as [x|] eqn:E.
        - destruct (N.eq_dec x 0) as [->|Hx].
          + right. intros (y & _ & _ & Hy & Hy0 & _). congruence.
          + rewrite (occurs_lowers h (c :: n) j x E Hx).
            destruct (strip_prefix (lowers (c :: n)) (lowers (nonul (skipn j h)))) as [r|] eqn:S.
            * left. apply strip_prefix_Some in S. eauto.
            * right. intros (post & K). rewrite strip_prefix_None in S. now elim (S post).
        - right. intros (y & _ & _ & Hy & _). congruence. }
      induction i as [i IH] using (well_founded_induction lt_wf).
      assert (D : (exists j, (j < i)%nat /\ occurs_nonul_at h (c :: n) j) \/ forall j, (j < i)%nat -> ~ occurs_nonul_at h (c :: n) j).
      { clear -dec. induction i as [|i IHi]; [right; intros j Hj; lia|].
        destruct IHi as [(j & Hj & Ho)|Hn].
        - left. exists j. split; [lia|assumption].
        - destruct (dec i) as [Ho|Ho].
          + left. exists i. split; [lia|assumption].
          + right. intros j Hj. destruct (Nat.eq_dec j i) as [->|]; [assumption|]. apply Hn. lia. }
      destruct D as [(j & Hj & Hoj)|Hn]; [now apply (IH j)|]. now exists i. }
    assert (index_of_nocase_nozero h (c :: n) = Some k) by now apply index_of_nocase_nozero_found. congruence.
  - intro H. destruct (index_of_nocase_nozero h n) as [i|] eqn:E; [|reflexivity].
    apply index_of_nocase_nozero_found in E as (Hne & Ho & _). destruct H as [->|H]; [easy|]. now elim (H i).
Qed.

(** The found/not-found decision alone: substring of the NUL-free text. *)
Lemma occurs_iff_substring h n : n <> [] ->
  ((exists i, occurs_nonul_at h n i) <-> exists a w b, nonul h = a ++ w ++ b /\ name_eq w n).
Proof.
  intro Hne. split.
  - intros (i & x & w & post & _ & _ & E & Hn). exists (nonul (firstn i h)), w, post. split; [|assumption].
    rewrite <- E. unfold nonul. rewrite <- filter_app, firstn_skipn. reflexivity.
  - intros (a & w & b & E & Hn).
    assert (exists i, nonul (skipn i h) = w ++ b /\ exists x, nth_error h i = Some x /\ x <> 0) as (i & Ei & x & Hx & Hx0).
    { revert a E. induction h as [|y h IH]; intros a E.
      - cbn in E. symmetry in E. apply app_eq_nil in E as [-> E]. apply app_eq_nil in E as [-> _]. inversion Hn; subst. easy.
      - cbn in E. destruct (y =? 0) eqn:Y; cbn [negb] in E.
        + destruct (IH a E) as (i & Ei & Hx). exists (S i). auto.
        + destruct a as [|z a].
          * exists 0%nat. cbn. rewrite Y. cbn [negb]. split; [assumption|]. exists y. split; [reflexivity|lia].
          * injection E as <- E. destruct (IH a E) as (i & Ei & Hx). exists (S i). auto. }
    exists i, x, w, b. auto.
Qed.

Lemma table_lookup_first_match : forall (T : Type) (t : table T) (k : bytes),
  (forall e, table_get_nocase t k = Some e <-> first_such (fun x => key_matches (fst x) k) t e) /\
  (table_get_nocase t k = None <-> Forall (fun x => ~ key_matches (fst x) k) t).
Proof. intros T t k. apply find_first_such. intro x. apply cmp_nocase_trimmed_spec. Qed.
Lemma header_lookup_first_match : forall (t : headers_tab) (k : bytes),
  (forall h, headers_get_nocase_nozero t k = Some h <-> first_such (fun x => hkey_matches (hd_name x) k) t h) /\
  (headers_get_nocase_nozero t k = None <-> Forall (fun x => ~ hkey_matches (hd_name x) k) t).
Proof. intros t k. apply find_first_such. intro x. apply cmp_nocase_nozero_trimmed_spec. Qed.
Lemma find_ext {A} (p q : A -> bool) l : (forall x, p x = q x) -> find p l = find q l.
Proof. intro H. induction l as [|x l IH]; [reflexivity|]. cbn. now rewrite H, IH. Qed.
Lemma lookup_case_blind : forall (T : Type) (t : table T) (hs : headers_tab) (k k' : bytes), name_eq k k' ->
  table_get_nocase t k = table_get_nocase t k' /\ headers_get_nocase_nozero hs k = headers_get_nocase_nozero hs k'.
Proof.
  intros T t hs k k' H. apply name_eq_lowers in H. split; apply find_ext; intro x.
  - unfold cmp_nocase_trimmed. now rewrite !(lc_all_spec k), !(lc_all_spec k'), H.
  - unfold cmp_nocase_nozero_trimmed. now rewrite !(lc_all_spec k), !(lc_all_spec k'), H.
Qed.
Lemma search_complete h n :
  (exists i, index_of_nocase_nozero h n = Some i) <-> n <> [] /\ exists a w b, nonul h = a ++ w ++ b /\ name_eq w n.
Proof.
  split.
  - intros (i & H). apply index_of_nocase_nozero_found in H as (Hn & Ho & _). split; [assumption|]. apply occurs_iff_substring; eauto.
  - intros (Hn & H). destruct (index_of_nocase_nozero h n) as [i|] eqn:E; [eauto|].
    apply index_of_nocase_nozero_none in E as [E|E]; [easy|]. apply (occurs_iff_substring h n Hn) in H as (i & H). now elim (E i).
Qed.
Lemma header_lookup_exact_first_match : forall (t : headers_tab) (k : bytes),
  (forall h, headers_get_nocase t k = Some h <-> first_such (fun x => key_matches (hd_name x) k) t h) /\
  (headers_get_nocase t k = None <-> Forall (fun x => ~ key_matches (hd_name x) k) t).
Proof. intros t k. apply find_first_such. intro x. apply cmp_nocase_trimmed_spec. Qed.
