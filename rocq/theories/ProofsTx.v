(** Proofs about header tables, request framing, callback lists and the log channel. *)
From Verif Require Import Base Spec ModelTx ModelHook SpecTx ProofsBase ProofsBstr ProofsParsers ProofsHeaders.

(** * C24: merging *)
Lemma same_iff a b : same a b = true <-> lowers (fst a) = lowers (fst b).
Proof. unfold same. apply bytes_eqb_eq. Qed.
Lemma same_refl a : same a a = true. Proof. now apply same_iff. Qed.
Lemma same_sym a b : same a b = same b a.
Proof. apply Bool.eq_iff_eq_true. rewrite !same_iff. split; congruence. Qed.
Lemma same_class a b c : same a b = true -> same a c = same b c.
Proof. intros H. apply same_iff in H. apply Bool.eq_iff_eq_true. rewrite !same_iff. rewrite H. tauto. Qed.
Lemma filter_same a b l : same a b = true -> filter (same a) l = filter (same b) l.
Proof. intros H. apply filter_ext. intros c. now apply same_class. Qed.
Lemma uses_same a b l : same a b = true -> uses a l = uses b l.
Proof. intros H. unfold uses. now rewrite (filter_same a b). Qed.

Lemma extra_snoc l x : forall seen, extra seen (l ++ [x]) = (extra seen l + if (2 <=? uses x (seen ++ l))%nat then 1 else 0)%nat.
Proof.
  induction l as [|y l IH]; intros seen; cbn [extra app].
  - rewrite app_nil_r. lia.
  - rewrite IH, <- app_assoc. cbn [app]. lia.
Qed.
Lemma kept_snoc l x : kept (l ++ [x]) = keep (kept l) x.
Proof. unfold kept. now rewrite fold_left_app. Qed.
Lemma leaders_snoc l x : leaders (l ++ [x]) = leader (leaders l) x.
Proof. unfold leaders. now rewrite fold_left_app. Qed.
(** A line has a leader iff its name was seen, iff a line with its name was kept. *)
Lemma existsb_leader k x y : existsb (same y) (leader k x) = existsb (same y) k || same y x.
Proof.
  unfold leader. destruct (existsb (same x) k) eqn:E; [|rewrite existsb_app; cbn; now rewrite orb_false_r].
  destruct (same y x) eqn:S; [|now rewrite orb_false_r]. rewrite orb_true_r.
  apply existsb_exists in E as (z & Hz & E). apply existsb_exists. exists z. split; [exact Hz|].
  now rewrite (same_class y x).
Qed.
Lemma existsb_leaders l y : existsb (same y) (leaders l) = existsb (same y) l.
Proof.
  induction l as [|x l IH] using rev_ind; [reflexivity|].
  rewrite leaders_snoc, existsb_leader, IH, existsb_app. cbn. now rewrite orb_false_r.
Qed.
Lemma uses_0 y k : existsb (same y) k = false <-> uses y k = 0%nat.
Proof.
  unfold uses. induction k as [|z k IH]; cbn; [tauto|]. destruct (same y z); cbn; [split; discriminate|exact IH].
Qed.
Lemma existsb_keep k x y : existsb (same y) (keep k x) = existsb (same y) k || same y x.
Proof.
  unfold keep. destruct (_ || _)%bool eqn:E; [rewrite existsb_app; cbn; now rewrite orb_false_r|].
  destruct (same y x) eqn:S; [|now rewrite orb_false_r]. rewrite orb_true_r.
  destruct (existsb (same y) k) eqn:Q; [reflexivity|]. apply uses_0 in Q. rewrite (uses_same y x k S) in Q.
  rewrite Q in E. discriminate.
Qed.
Lemma existsb_kept l y : existsb (same y) (kept l) = existsb (same y) l.
Proof.
  induction l as [|x l IH] using rev_ind; [reflexivity|].
  rewrite kept_snoc, existsb_keep, IH, existsb_app. cbn. now rewrite orb_false_r.
Qed.

(** Leaders have pairwise different names. *)
Fixpoint distinct (l : list hline2) : Prop :=
  match l with [] => True | x :: r => Forall (fun y => same x y = false) r /\ distinct r end.
Lemma distinct_snoc l x : distinct l -> existsb (same x) l = false -> distinct (l ++ [x]).
Proof.
  induction l as [|y l IH]; cbn; [auto|]. intros [A B] E. apply orb_false_iff in E as [E1 E2].
  split; [|auto]. apply Forall_app. split; [exact A|]. constructor; [|constructor]. now rewrite same_sym.
Qed.
Lemma leaders_distinct l : distinct (leaders l).
Proof.
  induction l as [|x l IH] using rev_ind; [exact I|].
  rewrite leaders_snoc. unfold leader. destruct (existsb (same x) (leaders l)) eqn:E; [exact IH|].
  now apply distinct_snoc.
Qed.

Lemma tight_trim n : tight n -> trim_ascii n = n.
Proof.
  intros [A B]. apply (trims_to_unique ascii_space n); [apply trim_ascii_spec|].
  exists [], []. rewrite app_nil_r. repeat split; auto; constructor.
Qed.
Lemma cmp_tight a k : tight a -> is_eq (cmp_nocase_trimmed a k) = bytes_eqb (lowers a) (lowers k).
Proof.
  intros T. apply Bool.eq_iff_eq_true. rewrite is_eq_true, bytes_eqb_eq. unfold cmp_nocase_trimmed.
  rewrite (tight_trim a T), lex_cmp_Eq, !lc_all_spec. tauto.
Qed.
Lemma is_cl_spec n : is_eq (cmp_nocase n (s2b "Content-Length")) = bytes_eqb (lowers n) (lowers (s2b "content-length")).
Proof.
  apply Bool.eq_iff_eq_true. rewrite is_eq_true, bytes_eqb_eq. unfold cmp_nocase. rewrite lex_cmp_Eq, !lc_all_spec.
  change (lowers (s2b "content-length")) with (lowers (s2b "Content-Length")). tauto.
Qed.

Lemma fis_set_lor w f g : N.land f g = 0 -> fis_set (N.lor w f) g = fis_set w g.
Proof. intros H. unfold fis_set. rewrite N.land_lor_distr_l, H, N.lor_0_r. reflexivity. Qed.
Lemma fis_set_fset w f g : N.land f g = 0 -> fis_set (fset w f) g = fis_set w g.
Proof. apply fis_set_lor. Qed.
Lemma fis_set_added w f g : N.land f g <> 0 -> fis_set (fset w f) g = true.
Proof.
  intros H. unfold fis_set, fset. apply negb_true_iff, N.eqb_neq. rewrite N.land_lor_distr_l. intros E.
  apply N.lor_eq_0_iff in E. tauto.
Qed.
Lemma join_snoc (d : bytes) l v : l <> [] -> join d (l ++ [v]) = join d l ++ d ++ v.
Proof.
  induction l as [|x [|y l] IH]; intros H; [now elim H|reflexivity|].
  change (join d ((x :: y :: l) ++ [v])) with (x ++ d ++ join d ((y :: l) ++ [v])).
  change (join d (x :: y :: l)) with (x ++ d ++ join d (y :: l)).
  rewrite IH; [now rewrite <- !app_assoc|discriminate].
Qed.
Lemma hd_snoc {A} (d : A) l v : l <> [] -> hd d (l ++ [v]) = hd d l.
Proof. now destruct l. Qed.
Lemma length_pos {A} (l : list A) : l <> [] -> (1 <= length l)%nat.
Proof. destruct l; [congruence|cbn; lia]. Qed.
Lemma filter_nil_uses x l : uses x l = 0%nat -> filter (same x) l = [].
Proof. unfold uses. now destruct (filter (same x) l). Qed.

Lemma entry_other k x y : same y x = false -> entry (k ++ [x]) y = entry k y.
Proof. intros H. unfold entry. rewrite filter_app. cbn [filter]. rewrite H, app_nil_r. reflexivity. Qed.
Lemma map_entry_other k x l : Forall (fun y => same y x = false) l -> map (entry (k ++ [x])) l = map (entry k) l.
Proof. intros H. apply map_ext_Forall. eapply Forall_impl; [|exact H]. intros y. apply entry_other. Qed.
Lemma distinct_mid l1 y l2 x : distinct (l1 ++ y :: l2) -> same y x = true ->
  Forall (fun z => same z x = false) l1 /\ Forall (fun z => same z x = false) l2.
Proof.
  intros D S. assert (X : forall z, same z y = false -> same z x = false).
  { intros z E. destruct (same z x) eqn:Q; [|reflexivity]. rewrite <- E, (same_class z x); [|exact Q].
    now rewrite same_sym. }
  induction l1 as [|w l1 IH]; cbn in D.
  - split; [constructor|]. destruct D as [A _]. eapply Forall_impl; [|exact A]. intros z E. cbn in E. apply X. now rewrite same_sym.
  - destruct D as [A B]. destruct (IH B) as [C E]. split; [|exact E]. constructor; [|exact C].
    apply X. apply Forall_app in A as [_ A]. now inversion A.
Qed.

Lemma map_split {A B} (f : A -> B) l a b c : map f l = a ++ b :: c ->
  exists la x lc, l = la ++ x :: lc /\ map f la = a /\ f x = b /\ map f lc = c.
Proof.
  revert l. induction a as [|y a IH]; intros [|x l] E; try discriminate; cbn in E; injection E as E1 E2.
  - exists [], x, l. auto.
  - destruct (IH _ E2) as (la & z & lc & -> & <- & <- & <-). exists (x :: la), z, lc. cbn. rewrite E1. auto.
Qed.

Lemma update_first_at {A} (p : A -> bool) f l1 x l2 : Forall (fun y => p y = false) l1 -> p x = true ->
  update_first p f (l1 ++ x :: l2) = l1 ++ f x :: l2.
Proof. induction 1 as [|y l1 E _ IH]; cbn; intros H; [now rewrite H|]. rewrite E, IH; auto. Qed.
Lemma find_split {A} (p : A -> bool) l x : find p l = Some x ->
  exists l1 l2, l = l1 ++ x :: l2 /\ Forall (fun y => p y = false) l1 /\ p x = true.
Proof.
  induction l as [|y l IH]; cbn; [discriminate|]. destruct (p y) eqn:E.
  - intros [= ->]. exists [], l. auto.
  - intros H. destruct (IH H) as (l1 & l2 & -> & P1 & P2). exists (y :: l1), l2. cbn. auto.
Qed.

(** The header flags never contain FIELD_REPEATED nor FIELD_FOLDED: only these three bits are used. *)
Definition hmask : N := 0x20c.
Definition in_mask (hf : N) : Prop := N.lor hf hmask = hmask.
Lemma in_mask_fset hf f : in_mask hf -> N.lor f hmask = hmask -> in_mask (fset hf f).
Proof. unfold in_mask, fset. intros A B. now rewrite <- N.lor_assoc, B. Qed.
Lemma warn_once_mask c f a : in_mask (snd (fst a)) -> N.lor f hmask = hmask -> in_mask (snd (fst (warn_once c f a))).
Proof. destruct a as [[xf hf] lg]. cbn. apply in_mask_fset. Qed.
Lemma warn_once_if_mask b c f a : in_mask (snd (fst a)) -> N.lor f hmask = hmask -> in_mask (snd (fst (warn_once_if b c f a))).
Proof. intros A B. unfold warn_once_if. destruct b; [now apply warn_once_mask|exact A]. Qed.
Lemma set_hflag_if_mask b f a : in_mask (snd (fst a)) -> N.lor f hmask = hmask -> in_mask (snd (fst (set_hflag_if b f a))).
Proof. destruct a as [[xf hf] lg]. intros A B. unfold set_hflag_if. destruct b; [now apply in_mask_fset|exact A]. Qed.
Lemma header_flags_mask sd ph xf : in_mask (snd (fst (header_flags sd ph xf))).
Proof.
  unfold header_flags. destruct sd; destruct (fis_set (hf_flags (ph_name ph)) HF_MISSING_COLON);
  repeat first [apply warn_once_if_mask | apply warn_once_mask | apply set_hflag_if_mask | reflexivity].
Qed.
Lemma mask_clear hf g : in_mask hf -> N.land hmask g = 0 -> fis_set hf g = false.
Proof.
  intros A B. unfold fis_set. apply negb_false_iff, N.eqb_eq.
  assert (E : N.land (N.lor hf hmask) g = 0) by (rewrite A; exact B).
  rewrite N.land_lor_distr_l in E. apply N.lor_eq_0_iff in E. tauto.
Qed.

(** One line. *)
Definition table_of (sd : side) (t : tx) := t_headers (x_dir sd t).
Lemma x_dir_set sd d t : x_dir sd (set_x_dir sd d t) = d.
Proof. now destruct sd. Qed.
Lemma x_dir_flags sd v t : x_dir sd (set_x_flags v t) = x_dir sd t.
Proof. now destruct sd. Qed.
Lemma add_header_dir sd ph t :
  x_dir sd (fst (add_header sd ph t)) =
  fst (merge_header sd (mk_header (hf_bytes (ph_name ph)) (hf_bytes (ph_value ph)) (snd (fst (header_flags sd ph (x_flags t)))))
                    (x_dir sd t)).
Proof.
  unfold add_header. destruct (header_flags sd ph (x_flags t)) as [[xf hf] lg]. cbn [fst snd].
  rewrite x_dir_flags. destruct (merge_header sd _ (x_dir sd t)) as [d lg2]. cbn [fst]. apply x_dir_set.
Qed.

Definition merged (l : list hline2) (d : txdir) : Prop :=
  map view (t_headers d) = merged_table l /\ t_reps d = N.of_nat (extra [] (kept l)).
Lemma merged_step sd l h d : merged l d -> Forall (fun x => tight (fst x)) l ->
  fis_set (hd_flags h) FIELD_REPEATED = false ->
  merged (l ++ [(hd_name h, hd_value h)]) (fst (merge_header sd h d)).
Proof.
  intros [M R] T F. set (x := (hd_name h, hd_value h)). unfold merged, merged_table.
  rewrite kept_snoc, leaders_snoc. unfold merge_header, headers_get_nocase.
  assert (TL : Forall (fun y => tight (fst y)) (leaders l)).
  { clear - T. induction l as [|y l IH] using rev_ind; [constructor|]. apply Forall_app in T as [T1 T2].
    rewrite leaders_snoc. unfold leader. destruct existsb; [auto|]. apply Forall_app. auto. }
  assert (P : forall y g, view g = entry (kept l) y -> tight (fst y) ->
              is_eq (cmp_nocase_trimmed (hd_name g) (hd_name h)) = same y x).
  { intros y g E Q. unfold view, entry in E. injection E as E1 _ _. rewrite E1, cmp_tight by exact Q. reflexivity. }
  set (p := fun g : header => is_eq (cmp_nocase_trimmed (hd_name g) (hd_name h))) in *.
  destruct (find p (t_headers d)) as [ex|] eqn:Fd.
  - apply find_split in Fd as (t1 & t2 & Et & N1 & Ep).
    rewrite Et in M. rewrite map_app in M. cbn [map] in M. unfold merged_table in M. symmetry in M.
    apply map_split in M as (l1 & y & l2 & El & M1 & My & M2).
    assert (Ty : tight (fst y)) by (rewrite El in TL; apply Forall_app in TL as [_ TL]; now inversion TL).
    assert (Syx : same y x = true) by (rewrite <- (P y ex); [exact Ep|now symmetry|exact Ty]).
    pose proof (leaders_distinct l) as D. rewrite El in D. destruct (distinct_mid _ _ _ _ D Syx) as [O1 O2].
    assert (Lx : leader (leaders l) x = leaders l).
    { unfold leader. replace (existsb (same x) (leaders l)) with true; [reflexivity|]. symmetry. apply existsb_exists.
      exists y. rewrite El. split; [apply in_or_app; cbn; auto|]. now rewrite same_sym. }
    rewrite Lx. set (K := kept l) in *.
    assert (Ue : fis_set (hd_flags ex) FIELD_REPEATED = (2 <=? uses x K)%nat).
    { unfold view, entry in My. injection My as _ _ E3. rewrite <- E3, map_length.
      change (length (filter (same y) K)) with (uses y K). now rewrite (uses_same y x K Syx). }
    change HF_FIELD_REPEATED with FIELD_REPEATED. rewrite Ue, R.
    assert (U1 : (1 <= uses x K)%nat).
    { assert (existsb (same x) K = true); [|destruct (uses x K) eqn:Q; [apply uses_0 in Q; congruence|lia]].
      unfold K. rewrite existsb_kept, <- existsb_leaders. apply existsb_exists. exists y. rewrite El.
      split; [apply in_or_app; cbn; auto|]. now rewrite same_sym. }
    assert (KK : keep K x = if negb (negb (negb (2 <=? uses x K)%nat) && negb (N.of_nat (extra [] K) <? rep_limit)) then K ++ [x] else K).
    { unfold keep, rep_limit. destruct (Nat.leb_spec 2 (uses x K)); destruct (N.ltb_spec (N.of_nat (extra [] K)) 64);
      destruct (Nat.ltb_spec (uses x K) 2); destruct (Nat.ltb_spec (extra [] K) 64); cbn; try reflexivity; lia. }
    rewrite KK. destruct (negb (negb (2 <=? uses x K)%nat) && negb (N.of_nat (extra [] K) <? rep_limit)) eqn:Z; cbn [negb fst].
    { split; [|exact R]. rewrite Et, El, !map_app. cbn [map]. now rewrite M1, My, M2. }
    cbn [t_headers set_t_reps set_t_headers t_reps].
    split.
    + rewrite Et, update_first_at by assumption. rewrite El, !map_app. cbn [map].
      rewrite !map_entry_other by assumption. rewrite M1, M2. f_equal. f_equal.
      unfold view. cbn [hd_name hd_value hd_flags]. unfold entry. rewrite filter_app. cbn [filter]. rewrite Syx, map_app. cbn [map snd].
      assert (E1 : fst y = hd_name ex) by exact (f_equal (fun q => fst (fst q)) My).
      assert (E2 : (if same y (s2b "content-length", []) then hd [] (map snd (filter (same y) K))
                    else join (s2b ", ") (map snd (filter (same y) K))) = hd_value ex) by exact (f_equal (fun q => snd (fst q)) My).
      rewrite <- E1.
      assert (CL : is_eq (cmp_nocase (hd_name h) (s2b "Content-Length")) = same y (s2b "content-length", [])).
      { rewrite is_cl_spec. apply same_iff in Syx. unfold same. rewrite Syx. reflexivity. }
      rewrite CL. rewrite fis_set_added by discriminate.
      assert (NE : map snd (filter (same y) K) <> []).
      { rewrite (filter_same y x K Syx). unfold uses in U1. destruct (filter (same x) K); [cbn in U1; lia|discriminate]. }
      f_equal; [f_equal|].
      * destruct (same y (s2b "content-length", [])).
        -- rewrite <- E2. symmetry. now apply hd_snoc.
        -- rewrite <- E2. symmetry. now apply join_snoc.
      * symmetry. apply Nat.leb_le. rewrite app_length. cbn [length]. apply length_pos in NE. change (fun x0 : hline2 => snd x0) with (@snd bytes bytes) in *. unfold hline2 in *. lia.
    + rewrite extra_snoc. cbn [app]. destruct (2 <=? uses x K)%nat; cbn [negb]; lia.
  - cbn [fst t_headers set_t_headers t_reps].
    assert (Ex : existsb (same x) (leaders l) = false).
    { apply not_true_iff_false. intros E. apply existsb_exists in E as (y & Hy & E). rewrite same_sym in E.
      apply in_split in Hy as (l1 & l2 & El). rewrite El in TL. apply Forall_app in TL as [_ TL]. inversion TL; subst.
      unfold merged_table in M. rewrite El, map_app in M. cbn [map] in M. apply map_split in M as (t1 & g & t2 & Et & _ & Eg & _).
      assert (p g = true) by (rewrite <- E; apply P; assumption).
      pose proof (find_none p (t_headers d) Fd g) as Q. rewrite Et in Q. rewrite Q in H; [discriminate|].
      apply in_or_app. cbn. auto. }
    assert (Uk : uses x (kept l) = 0%nat) by (apply uses_0; now rewrite existsb_kept, <- existsb_leaders).
    assert (KK : keep (kept l) x = kept l ++ [x]) by (unfold keep; now rewrite Uk).
    rewrite KK. unfold leader. rewrite Ex, !map_app. split.
    + rewrite map_entry_other.
      2:{ apply Forall_forall. intros y Hy. rewrite same_sym. destruct (same x y) eqn:E; [|reflexivity].
          rewrite <- Ex. symmetry. apply existsb_exists. eauto. }
      unfold merged_table in M. rewrite M. f_equal. cbn [map]. f_equal. unfold view, entry. rewrite filter_app. cbn [filter].
      rewrite same_refl, (filter_nil_uses _ _ Uk), F. cbn [map app length hd join snd fst]. destruct (same x _); reflexivity.
    + rewrite extra_snoc. cbn [app]. rewrite Uk. cbn. lia.
Qed.

Lemma add_headers_merged sd l t : t_headers (x_dir sd t) = [] -> t_reps (x_dir sd t) = 0 ->
  Forall (fun x => tight (fst x)) (map kv_of_ph l) -> merged (map kv_of_ph l) (x_dir sd (add_headers sd l t)).
Proof.
  intros H0 R0. induction l as [|ph l IH] using rev_ind; intros T.
  - unfold merged, add_headers. cbn [fold_left map]. now rewrite H0, R0.
  - unfold add_headers. rewrite fold_left_app, map_app in *. cbn [fold_left map] in *. apply Forall_app in T as [T1 T2].
    rewrite add_header_dir. apply (merged_step sd (map kv_of_ph l) (mk_header _ _ _)); [auto|exact T1|].
    cbn [hd_flags]. apply mask_clear; [apply header_flags_mask|reflexivity].
Qed.
Lemma header_table_merged sd l t : t_headers (x_dir sd t) = [] -> t_reps (x_dir sd t) = 0 ->
  Forall (fun x => tight (fst x)) (map kv_of_ph l) ->
  map view (t_headers (x_dir sd (add_headers sd l t))) = merged_table (map kv_of_ph l).
Proof. intros A B C. now destruct (add_headers_merged sd l t A B C). Qed.

(** Names reported by the header parser are tight. *)
Lemma trimmed_tight b : tight (trimmed b).
Proof.
  destruct (trimmed_spec b) as (a & c & _ & _ & _ & A & B). split.
  - intros x m E S. apply (A x m E). now left.
  - intros x m E S. apply (B x m E). now left.
Qed.

(** * C25 *)
Lemma merge_header_reps sd h d : t_reps d <= rep_limit -> t_reps (fst (merge_header sd h d)) <= rep_limit.
Proof.
  unfold merge_header, rep_limit. intros H. destruct headers_get_nocase as [ex|]; [|exact H].
  destruct (fis_set (hd_flags ex) HF_FIELD_REPEATED) eqn:E; cbn [negb andb].
  - destruct (N.ltb_spec (t_reps d) 64); cbn [negb]; cbn [fst t_reps set_t_reps set_t_headers]; lia.
  - cbn [fst t_reps set_t_reps set_t_headers]. exact H.
Qed.
Lemma add_headers_reps sd l : forall t, t_reps (x_dir sd t) <= 64 -> t_reps (x_dir sd (add_headers sd l t)) <= 64.
Proof.
  induction l as [|ph l IH]; intros t H; [exact H|]. apply IH. rewrite add_header_dir. now apply merge_header_reps.
Qed.

Lemma stored_app a b : stored (a ++ b) = (stored a + stored b)%nat.
Proof. unfold stored. now rewrite map_app, list_sum_app. Qed.
Lemma stored_cons h l : stored (h :: l) = (length (hd_name h) + length (hd_value h) + stored l)%nat.
Proof. reflexivity. Qed.
Lemma merge_header_stored sd h d :
  (stored (t_headers (fst (merge_header sd h d))) <= stored (t_headers d) + length (hd_name h) + length (hd_value h) + 2)%nat.
Proof.
  unfold merge_header, headers_get_nocase. destruct (find _ (t_headers d)) as [ex|] eqn:F.
  - destruct (negb (negb _) && _); [cbn [fst]; lia|]. cbn [fst t_headers set_t_reps set_t_headers].
    apply find_split in F as (l1 & l2 & -> & N1 & E). rewrite update_first_at by assumption. rewrite !stored_app.
    clear E. rewrite !stored_cons. cbn [hd_name hd_value]. destruct (is_eq _); [lia|].
    rewrite !app_length. cbn [length s2b]. change (length (s2b ", ")) with 2%nat. lia.
  - cbn [fst t_headers set_t_headers]. rewrite stored_app. unfold stored. cbn. lia.
Qed.
Lemma add_headers_stored sd l : forall t,
  (stored (t_headers (x_dir sd (add_headers sd l t))) <=
   stored (t_headers (x_dir sd t)) + list_sum (map (fun x => length (fst x) + length (snd x) + 2) (map kv_of_ph l)))%nat.
Proof.
  induction l as [|ph l IH]; intros t; [cbn; lia|].
  change (add_headers sd (ph :: l) t) with (add_headers sd l (fst (add_header sd ph t))).
  specialize (IH (fst (add_header sd ph t))). rewrite add_header_dir in IH.
  pose proof (merge_header_stored sd (mk_header (hf_bytes (ph_name ph)) (hf_bytes (ph_value ph))
    (snd (fst (header_flags sd ph (x_flags t))))) (x_dir sd t)) as Q. cbn [hd_name hd_value] in Q.
  unfold add_headers in *. cbn [map]. change (list_sum (?a :: ?b)) with (a + list_sum b)%nat.
  change (fst (kv_of_ph ph)) with (hf_bytes (ph_name ph)). change (snd (kv_of_ph ph)) with (hf_bytes (ph_value ph)). lia.
Qed.

(** * C26 *)
Definition late_flags : N := 0x404003000.
Definition keeps (t t' : tx) : Prop :=
  x_req t' = x_req t /\ forall f, N.land late_flags f = 0 -> fis_set (x_flags t') f = fis_set (x_flags t) f.
Lemma keeps_refl t : keeps t t. Proof. split; auto. Qed.
Lemma keeps_trans a b c : keeps a b -> keeps b c -> keeps a c.
Proof. intros [A B] [C D]. split; [congruence|]. intros f H. now rewrite D, B. Qed.
Lemma keeps_flag f t : N.lor f late_flags = late_flags -> keeps t (add_flag f t).
Proof.
  intros H. split; [reflexivity|]. intros g G. cbn [add_flag x_flags set_x_flags]. apply fis_set_fset.
  rewrite <- H, N.land_lor_distr_l in G. apply N.lor_eq_0_iff in G. tauto.
Qed.
Ltac keeps_tac :=
  repeat first
    [ apply keeps_refl
    | match goal with |- keeps ?t (if ?b then _ else _) => destruct b end
    | match goal with |- keeps ?t (add_flag ?f ?u) =>
        lazymatch u with t => apply keeps_flag; reflexivity | _ => apply (keeps_trans t u); [|apply keeps_flag; reflexivity] end end
    | match goal with |- keeps ?t (?g ?v ?u) => apply (keeps_trans t u); [|split; [reflexivity|intros; reflexivity]] end ].
Lemma request_host_keeps ip6 t : keeps t (request_host ip6 t).
Proof.
  unfold request_host. set (t1 := match parsed_hostname t with Some h => set_x_host (Some h) t | None => t end).
  assert (K1 : keeps t t1) by (unfold t1; destruct parsed_hostname; keeps_tac).
  set (t2 := match parsed_port_number t1 with Some p => set_x_port (Some p) t1 | None => t1 end).
  assert (K2 : keeps t t2) by (apply (keeps_trans t t1); [exact K1|]; unfold t2; destruct parsed_port_number; keeps_tac).
  apply (keeps_trans t t2); [exact K2|]. clearbody t2. clear K1 K2 t1.
  destruct headers_get_nocase_nozero as [h|]; [|keeps_tac].
  destruct parse_hostport as [r [[hn pt] valid]| |]; [|keeps_tac..].
  set (t3 := if valid then t2 else add_flag HOSTH_INVALID t2).
  assert (K3 : keeps t2 t3) by (unfold t3; keeps_tac). apply (keeps_trans t2 t3); [exact K3|]. clearbody t3.
  destruct (x_host t3).
  - set (t4 := if is_eq _ then _ else _).
    assert (K4 : keeps t3 t4) by (unfold t4; keeps_tac). apply (keeps_trans t3 t4); [exact K4|]. clearbody t4.
    destruct pt as [[? p]|]; [|keeps_tac]. destruct (x_port t4); keeps_tac.
  - destruct pt as [[? p]|]; keeps_tac.
Qed.
Lemma parse_authorization_keeps b64 t : keeps t (fst (parse_authorization b64 t)).
Proof.
  unfold parse_authorization. destruct headers_get_nocase_nozero as [h|]; [|cbn [fst]; keeps_tac].
  destruct (starts_with_nocase _ _).
  { unfold parse_authorization_basic. destruct (pbind _ _ _); cbn [fst]; [|keeps_tac..].
    destruct (b64 _); cbn [fst]; [|keeps_tac]. destruct (find_sub _ _) as [[]|]; cbn [fst]; keeps_tac. }
  destruct (starts_with_nocase _ _); [destruct parse_authorization_digest; cbn [fst]; keeps_tac|].
  destruct (starts_with_nocase _ _); [destruct (pbind _ _ _); cbn [fst]; keeps_tac|cbn [fst]; keeps_tac].
Qed.
Lemma request_auth_keeps p b64 t : keeps t (request_auth p b64 t).
Proof.
  unfold request_auth. destruct p; [|keeps_tac]. pose proof (parse_authorization_keeps b64 t) as K.
  destruct (parse_authorization b64 t) as [u []]; cbn [fst] in K; [|exact K].
  apply (keeps_trans t u); [exact K|keeps_tac].
Qed.
Lemma request_framing_after p ip6 b64 t ok t' lg : process_request_headers p ip6 b64 t = (ok, t', lg) ->
  let t1 := fst (request_framing t) in
  t_coding (x_req t') = t_coding (x_req t1) /\ t_clen (x_req t') = t_clen (x_req t1) /\
  forall f, N.land late_flags f = 0 -> fis_set (x_flags t') f = fis_set (x_flags t1) f.
Proof.
  unfold process_request_headers. destruct (request_framing t) as [t1 lg1]. cbn [fst].
  pose proof (request_host_keeps ip6 t1) as [K1 K2]. destruct headers_get_nocase_nozero as [ct|].
  - destruct (parse_content_type (hd_value ct)) as [v|]; intros [= <- <- <-].
    + match goal with |- context [request_auth p b64 ?u] => pose proof (request_auth_keeps p b64 u) as [R1 R2]; set (w := u) in * end.
      rewrite R1. unfold w at 1 2. cbn [upd_dir set_x_dir x_dir x_req set_x_req t_coding t_clen set_t_ctype]. rewrite K1.
      split; [reflexivity|split; [reflexivity|]]. intros f F. rewrite R2 by exact F. exact (K2 f F).
    + rewrite K1. auto.
  - intros [= <- <- <-]. pose proof (request_auth_keeps p b64 (request_host ip6 t1)) as [R1 R2]. rewrite R1, K1.
    split; [reflexivity|split; [reflexivity|]]. intros f F. rewrite R2 by exact F. exact (K2 f F).
Qed.

Lemma get_the_header hs k h : the_header hs k h -> headers_get_nocase_nozero hs k = Some h.
Proof. intros H. now apply header_lookup_first_match. Qed.
Lemma get_lacks hs k : lacks hs k -> headers_get_nocase_nozero hs k = None.
Proof. intros H. now apply header_lookup_first_match. Qed.
Lemma is_some_get hs k : is_some (headers_get_nocase_nozero hs k) = true <-> exists h, the_header hs k h.
Proof.
  split.
  - destruct headers_get_nocase_nozero as [h|] eqn:E; [|discriminate]. intros _. exists h. now apply header_lookup_first_match.
  - intros [h H]. now rewrite (get_the_header _ _ _ H).
Qed.
Lemma mentions_iff v w : w <> [] -> is_some (index_of_nocase_nozero v w) = true <-> mentions v w.
Proof.
  intros W. pose proof (search_complete v w) as S. destruct (index_of_nocase_nozero v w) as [i|] eqn:E; cbn.
  - split; [|reflexivity]. intros _. destruct S as [[_ S] _]; eauto.
  - split; [discriminate|]. intros M. destruct S as [_ S]. destruct S as [i H]; [split; assumption|discriminate].
Qed.
Lemma old_proto t : proto_ltb t ProtoV1_1 = true <-> t <> ProtoV1_1.
Proof. destruct t; cbn; split; try easy. Qed.

Ltac flag_bits := repeat first [rewrite fis_set_fset by reflexivity | rewrite fis_set_added by discriminate].
Lemma framing_chunked p ip6 b64 t ok t' lg te : process_request_headers p ip6 b64 t = (ok, t', lg) ->
  the_header (t_headers (x_req t)) (s2b "transfer-encoding") te -> mentions (hd_value te) (s2b "chunked") ->
  t_coding (x_req t') = CdChunked /\
  (fis_set (x_flags t') REQUEST_SMUGGLING = true <->
     fis_set (x_flags t) REQUEST_SMUGGLING = true \/ t_proton (x_req t) <> ProtoV1_1 \/
     exists cl, the_header (t_headers (x_req t)) (s2b "content-length") cl) /\
  (fis_set (x_flags t') REQUEST_INVALID_T_E = true <->
     fis_set (x_flags t) REQUEST_INVALID_T_E = true \/ t_proton (x_req t) <> ProtoV1_1).
Proof.
  intros H TE CH. destruct (request_framing_after _ _ _ _ _ _ _ H) as (C & _ & F). clear H.
  rewrite C, !F by reflexivity. clear C F.
  unfold request_framing. rewrite (get_the_header _ _ _ TE).
  apply mentions_iff in CH; [|discriminate]. rewrite CH. cbn [negb].
  rewrite <- is_some_get, <- old_proto.
  destruct (proto_ltb (t_proton (x_req t)) ProtoV1_1); destruct (is_some (headers_get_nocase_nozero _ (s2b "content-length")));
    cbn [fst add_flag upd_dir x_dir set_x_dir x_req set_x_req set_x_flags x_flags t_coding set_t_coding];
    flag_bits; repeat split; auto; intros Q; repeat destruct Q as [Q|Q]; auto; discriminate.
Qed.
Lemma framing_other_te p ip6 b64 t ok t' lg te : process_request_headers p ip6 b64 t = (ok, t', lg) ->
  the_header (t_headers (x_req t)) (s2b "transfer-encoding") te -> ~ mentions (hd_value te) (s2b "chunked") ->
  t_coding (x_req t') = CdInvalid /\ fis_set (x_flags t') REQUEST_INVALID_T_E = true /\ fis_set (x_flags t') REQUEST_INVALID = true /\
  fis_set (x_flags t') REQUEST_SMUGGLING = fis_set (x_flags t) REQUEST_SMUGGLING.
Proof.
  intros H TE CH. destruct (request_framing_after _ _ _ _ _ _ _ H) as (C & _ & F). clear H.
  rewrite C, !F by reflexivity. clear C F.
  unfold request_framing. rewrite (get_the_header _ _ _ TE).
  assert (E : is_some (index_of_nocase_nozero (hd_value te) (s2b "chunked")) = false).
  { apply not_true_iff_false. intros E. apply CH. apply mentions_iff; [discriminate|exact E]. }
  rewrite E. cbn [negb fst add_flag upd_dir x_dir set_x_dir x_req set_x_req set_x_flags x_flags t_coding set_t_coding].
  flag_bits. auto.
Qed.
Lemma framing_length p ip6 b64 t ok t' lg cl : process_request_headers p ip6 b64 t = (ok, t', lg) ->
  lacks (t_headers (x_req t)) (s2b "transfer-encoding") -> the_header (t_headers (x_req t)) (s2b "content-length") cl ->
  (forall n, t_clen (x_req t') = Some n <-> exists ds, first_digit_run (hd_value cl) ds /\ dec_value ds = n /\ n < 2 ^ 64) /\
  (t_coding (x_req t') = match t_clen (x_req t') with Some _ => CdIdentity | None => CdInvalid end) /\
  (t_clen (x_req t') = None -> fis_set (x_flags t') REQUEST_INVALID_C_L = true /\ fis_set (x_flags t') REQUEST_INVALID = true) /\
  (fis_set (x_flags t') REQUEST_SMUGGLING = true <->
     fis_set (x_flags t) REQUEST_SMUGGLING = true \/ fis_set (hd_flags cl) FIELD_REPEATED = true \/ fis_set (hd_flags cl) FIELD_FOLDED = true).
Proof.
  intros H TE CL. destruct (request_framing_after _ _ _ _ _ _ _ H) as (C & L & F). clear H.
  rewrite C, L, !F by reflexivity. clear C L F.
  unfold request_framing. rewrite (get_lacks _ _ TE), (get_the_header _ _ _ CL).
  unfold parse_content_length_log. pose proof (parse_content_length_value (hd_value cl)) as V.
  destruct (parse_content_length (hd_value cl)) as [n [ws we]]. cbn [fst] in V.
  destruct (fis_set (hd_flags cl) FIELD_REPEATED); destruct (fis_set (hd_flags cl) FIELD_FOLDED); destruct n as [n|];
    cbn [fst add_flag upd_dir x_dir set_x_dir x_req set_x_req set_x_flags x_flags t_coding set_t_coding t_clen set_t_clen];
    flag_bits; (split; [intros m; apply V|]); repeat split; auto; try discriminate; intros Q; repeat destruct Q as [Q|Q]; auto; discriminate.
Qed.
Lemma framing_none p ip6 b64 t ok t' lg : process_request_headers p ip6 b64 t = (ok, t', lg) ->
  lacks (t_headers (x_req t)) (s2b "transfer-encoding") -> lacks (t_headers (x_req t)) (s2b "content-length") ->
  t_coding (x_req t') = CdNoBody /\ fis_set (x_flags t') REQUEST_SMUGGLING = fis_set (x_flags t) REQUEST_SMUGGLING.
Proof.
  intros H TE CL. destruct (request_framing_after _ _ _ _ _ _ _ H) as (C & _ & F). clear H.
  rewrite C, !F by reflexivity. clear C F.
  unfold request_framing. rewrite (get_lacks _ _ TE), (get_lacks _ _ CL). cbn [fst]. auto.
Qed.

(** * C27 *)
Lemma update_first_clear f p g l : clear_of f l -> (forall x, In x l -> fis_set (hd_flags (g x)) f = false) -> clear_of f (update_first p g l).
Proof.
  unfold clear_of. induction 1 as [|x l X L IH]; intros G; cbn; [constructor|].
  destruct (p x); constructor; auto; [apply G; cbn; auto|]. apply IH. intros y Hy. apply G. cbn. auto.
Qed.
Lemma add_header_folded sd ph t : clear_of FIELD_FOLDED (t_headers (x_dir sd t)) ->
  clear_of FIELD_FOLDED (t_headers (x_dir sd (fst (add_header sd ph t)))).
Proof.
  intros H. rewrite add_header_dir. unfold merge_header, headers_get_nocase.
  destruct (find _ _) as [ex|] eqn:E.
  - destruct (negb (negb _) && _); [exact H|]. cbn [fst t_headers set_t_reps set_t_headers].
    apply update_first_clear; [exact H|]. intros x _. cbn [hd_flags]. rewrite fis_set_fset by reflexivity.
    apply find_some in E as [E _]. unfold clear_of in H. rewrite Forall_forall in H. now apply H.
  - cbn [fst t_headers set_t_headers]. apply Forall_app. split; [exact H|]. constructor; [|constructor]. cbn [hd_flags].
    apply mask_clear; [apply header_flags_mask|reflexivity].
Qed.
Lemma add_headers_folded sd l : forall t, clear_of FIELD_FOLDED (t_headers (x_dir sd t)) ->
  clear_of FIELD_FOLDED (t_headers (x_dir sd (add_headers sd l t))).
Proof. induction l as [|ph l IH]; intros t H; [exact H|]. apply IH. now apply add_header_folded. Qed.
Definition folded_block : bytes := s2b "Content-Length: 1" ++ [13; 10] ++ s2b " 0" ++ [13; 10; 13; 10].
Lemma folded_not_reported : exists hs t ok t' lg,
  h_headers SReq false folded_block = Some (POk [] (hs, true)) /\
  t = add_headers SReq hs tx_new /\
  process_request_headers true (fun _ => None) (fun _ => None) t = (ok, t', lg) /\
  fis_set (x_flags t') REQUEST_SMUGGLING = false.
Proof. do 5 eexists. split; [vm_compute; reflexivity|]. split; [reflexivity|]. split; vm_compute; reflexivity. Qed.

(** * C29 *)
Lemma run_all_ok {S} (h : list (callback S)) : forall s s', run_all h s = (AnsOk, s') <-> all_pass h s s'.
Proof.
  induction h as [|c h IH]; intros s s'; cbn [run_all all_pass].
  - split; [now intros [= ->]|now intros ->].
  - destruct c as [f|f]; cbn [passes].
    + destruct (f s) as [x s1]. split.
      * intros H. exists s1. destruct x; try discriminate; (split; [eauto|now apply IH]).
      * intros (s2 & (y & [= -> ->] & [->| ->]) & A); now apply IH.
    + destruct (f s) as [a s1]. split.
      * intros H. exists s1. destruct a as [|x]; [split; [auto|now apply IH]|]. destruct x; try discriminate. split; [auto|now apply IH].
      * intros (s2 & [[= -> ->]|[= -> ->]] & A); now apply IH.
Qed.
Lemma run_all_err {S} (h : list (callback S)) x : forall s s', run_all h s = (AnsErr x, s') <->
  exists before c after s1, h = before ++ c :: after /\ all_pass before s s1 /\ fails c s1 x s'.
Proof.
  induction h as [|c h IH]; intros s s'; cbn [run_all].
  - split; [discriminate|]. intros (b & d & after & s1 & E & _). destruct b; discriminate.
  - assert (Step : forall s1, passes c s s1 -> (run_all h s1 = (AnsErr x, s') <->
      exists before c0 after s1, c :: h = before ++ c0 :: after /\ all_pass before s s1 /\ fails c0 s1 x s')).
    { intros s1 P. rewrite IH. split.
      - intros (b & d & a & s2 & -> & A & F). exists (c :: b), d, a, s2. cbn. eauto.
      - intros ([|c' b] & d & a & s2 & E & A & F).
        + cbn in E, A. injection E as <- <-. subst s2. exfalso. destruct c as [f|f]; cbn in P, F.
          * destruct P as (y & E & Y). destruct F as (E' & F1 & F2). rewrite E in E'. injection E' as -> _. tauto.
          * destruct F as (E' & F1). rewrite E' in P. destruct P as [P|P]; congruence.
        + cbn in E. injection E as <- ->. cbn in A. destruct A as (s3 & P' & A).
          assert (s3 = s1). { destruct c as [f|f]; cbn in P, P'.
            - destruct P as (y & E & _), P' as (y' & E' & _). congruence.
            - destruct P as [P|P], P' as [P'|P']; congruence. }
          subst s3. exists b, d, a, s2. auto. }
    assert (Fail : forall y s1, fails c s y s1 -> ((AnsErr y, s1) = (AnsErr x, s') <->
      exists before c0 after s1, c :: h = before ++ c0 :: after /\ all_pass before s s1 /\ fails c0 s1 x s')).
    { intros y s1 F. split.
      - intros [= -> ->]. exists [], c, h, s. cbn. auto.
      - intros ([|c' b] & d & a & s2 & E & A & F').
        + cbn in E, A. injection E as <- <-. subst s2. destruct c as [f|f]; cbn in F, F'; destruct F as [F _], F' as [F' _]; congruence.
        + cbn in E. injection E as <- ->. cbn in A. destruct A as (s3 & P & A). exfalso. destruct c as [f|f]; cbn in F, P.
          * destruct F as (E & F1 & F2). destruct P as (z & E' & Z). rewrite E in E'. injection E' as -> _. tauto.
          * destruct F as (E & F1). rewrite E in P. destruct P as [P|P]; congruence. }
    destruct c as [f|f].
    + destruct (f s) as [y s1] eqn:E. cbn [passes fails] in *.
      destruct y; try (apply Step; eauto); apply Fail; rewrite E; repeat split; discriminate.
    + destruct (f s) as [[|y] s1] eqn:E; cbn [passes fails] in *; [apply Step; auto|].
      destruct y; try (apply Step; auto); apply Fail; rewrite E; repeat split; discriminate.
Qed.

(** * C30 *)
Lemma log_channel limit l : forall q, let '(outs, q') := log_ops limit l q in
  concat outs ++ q' = q ++ filter (fun m => lg_level m <=? limit) (issued l).
Proof.
  induction l as [|o l IH]; intros q; cbn [log_ops issued flat_map filter]; [cbn; now rewrite app_nil_r|].
  destruct o as [lv c| |]; cbn [log_op].
  - specialize (IH (if lv <=? limit then q ++ [mk_log lv c] else q)). destruct (log_ops limit l _) as [outs q'].
    cbn [concat app]. rewrite IH. cbn [app filter lg_level]. destruct (lv <=? limit); [now rewrite <- app_assoc|reflexivity].
  - specialize (IH []). destruct (log_ops limit l []) as [outs q']. cbn [concat app]. rewrite <- app_assoc, IH. reflexivity.
  - destruct q as [|m q].
    + specialize (IH []). destruct (log_ops limit l []) as [outs q']. exact IH.
    + specialize (IH q). destruct (log_ops limit l q) as [outs q']. cbn [concat app]. now rewrite IH.
Qed.
Lemma log_drained limit l : let '(outs, q') := log_ops limit (l ++ [GetLogs]) [] in
  concat outs = filter (fun m => lg_level m <=? limit) (issued l) /\ q' = [].
Proof.
  pose proof (log_channel limit (l ++ [GetLogs]) []) as H.
  assert (Q : forall q, snd (log_ops limit (l ++ [GetLogs]) q) = []).
  { clear H. induction l as [|o l IH]; intros q; cbn [app log_ops]; [reflexivity|].
    destruct (log_op limit o q) as [out q1]. specialize (IH q1). destruct (log_ops limit (l ++ [GetLogs]) q1). exact IH. }
  specialize (Q []). destruct (log_ops limit (l ++ [GetLogs]) []) as [outs q']. cbn in Q. subst q'.
  rewrite app_nil_r in H. rewrite H. unfold issued. rewrite flat_map_app. cbn. rewrite app_nil_r. auto.
Qed.

(** At most one message per flag. *)
Definition count_once (f : N) (l : list logmsg) : nat := length (filter (is_once f) l).
Lemma count_app f a b : count_once f (a ++ b) = (count_once f a + count_once f b)%nat.
Proof. unfold count_once. now rewrite filter_app, app_length. Qed.
(** [ok f xf0 acc]: since flags were [xf0], the messages in the accumulator tied to [f] number at most one, none if [f] was set,
    and if there is one then [f] is now set. *)
Definition once_inv (f xf0 : N) (acc : N * N * list logmsg) : Prop :=
  let '(xf, _, lg) := acc in
  (fis_set xf0 f = true -> fis_set xf f = true) /\
  (count_once f lg <= (if fis_set xf0 f then 0 else if fis_set xf f then 1 else 0))%nat.
Lemma once_if f xf0 b c g acc : (exists k, f = 2 ^ k) -> once_flag c = Some g -> g = f \/ N.land g f = 0 ->
  once_inv f xf0 acc -> once_inv f xf0 (warn_once_if b c g acc).
Proof.
  intros [k ->] C G. destruct acc as [[xf hf] lg]. intros [A B]. unfold warn_once_if, warn_once. destruct b; [|split; assumption].
  unfold once_inv. rewrite count_app.
  assert (Z : count_once (2 ^ k) (warn_if (negb (fis_set xf g)) c) = if fis_set xf g then 0%nat else if 2 ^ k =? g then 1%nat else 0%nat).
  { unfold count_once, warn_if, warning. destruct (fis_set xf g); cbn [negb filter length]; [reflexivity|].
    unfold is_once. cbn [lg_code]. rewrite C. now destruct (2 ^ k =? g). }
  rewrite Z. destruct G as [-> | G].
  - rewrite N.eqb_refl. assert (S : fis_set (fset xf (2 ^ k)) (2 ^ k) = true).
    { apply fis_set_added. rewrite N.land_diag. apply N.pow_nonzero. discriminate. }
    rewrite S. split; [auto|]. destruct (fis_set xf0 (2 ^ k)) eqn:X; [rewrite (A eq_refl) in *; lia|].
    destruct (fis_set xf (2 ^ k)); lia.
  - rewrite (fis_set_fset xf g (2 ^ k) G).
    destruct (N.eqb_spec (2 ^ k) g) as [<-|_]; [rewrite N.land_diag in G; exfalso; revert G; apply N.pow_nonzero; discriminate|].
    split; [exact A|]. destruct (fis_set xf g); lia.
Qed.
Lemma once_warn f xf0 c g acc : (exists k, f = 2 ^ k) -> once_flag c = Some g -> g = f \/ N.land g f = 0 ->
  once_inv f xf0 acc -> once_inv f xf0 (warn_once c g acc).
Proof. exact (once_if f xf0 true c g acc). Qed.
Lemma once_hflag f xf0 b g acc : once_inv f xf0 acc -> once_inv f xf0 (set_hflag_if b g acc).
Proof. destruct acc as [[xf hf] lg]. now destruct b. Qed.
Definition once_flags : list N := [FIELD_INVALID; INVALID_FOLDING; FIELD_UNPARSEABLE].
Lemma header_flags_once f sd ph xf : In f once_flags -> once_inv f xf (header_flags sd ph xf).
Proof.
  intros F.
  assert (P : exists k, f = 2 ^ k) by (destruct F as [<-|[<-|[<-|[]]]]; [exists 3|exists 9|exists 2]; reflexivity).
  assert (I0 : forall lg, count_once f lg = 0%nat -> once_inv f xf (xf, 0, lg)).
  { intros lg E. split; [auto|]. rewrite E. lia. }
  unfold header_flags. destruct sd; destruct (fis_set (hf_flags (ph_name ph)) HF_MISSING_COLON);
  repeat first
    [ apply once_if; [exact P|vm_compute; reflexivity|destruct F as [<-|[<-|[<-|[]]]]; first [left; reflexivity|right; reflexivity]|]
    | apply once_warn; [exact P|vm_compute; reflexivity|destruct F as [<-|[<-|[<-|[]]]]; first [left; reflexivity|right; reflexivity]|]
    | apply once_hflag
    | apply I0; first [reflexivity | unfold warn_if; destruct (_ || _); destruct F as [<-|[<-|[<-|[]]]]; reflexivity] ].
Qed.
Lemma merge_header_once f sd h d : In f once_flags -> count_once f (snd (merge_header sd h d)) = 0%nat.
Proof.
  intros F. unfold merge_header. destruct headers_get_nocase; [|reflexivity].
  destruct (negb (negb _) && _); [reflexivity|]. cbn [snd]. rewrite count_app. unfold warn_if.
  destruct (_ && _); destruct (negb _); destruct sd; destruct F as [<-|[<-|[<-|[]]]]; reflexivity.
Qed.
Lemma add_header_flags sd h t : x_flags (fst (add_header sd h t)) = fst (fst (header_flags sd h (x_flags t))).
Proof.
  unfold add_header. destruct (header_flags sd h (x_flags t)) as [[xf hf] lg]. destruct (merge_header _ _ _) as [d lg2]. now destruct sd.
Qed.
Lemma add_header_once f sd h t : In f once_flags ->
  (fis_set (x_flags t) f = true -> fis_set (x_flags (fst (add_header sd h t))) f = true) /\
  (count_once f (snd (add_header sd h t)) <= if fis_set (x_flags t) f then 0 else if fis_set (x_flags (fst (add_header sd h t))) f then 1 else 0)%nat.
Proof.
  intros F. rewrite add_header_flags. pose proof (header_flags_once f sd h (x_flags t) F) as O. unfold add_header.
  destruct (header_flags sd h (x_flags t)) as [[xf hf] lg]. unfold once_inv in O. cbn [fst snd].
  match goal with |- context [merge_header sd ?a ?b] => pose proof (merge_header_once f sd a b F) as Z; destruct (merge_header sd a b) as [d lg2] end.
  cbn [snd] in *. rewrite count_app, Z, Nat.add_0_r. exact O.
Qed.
Lemma warned_once f sd l : In f once_flags -> forall t,
  (count_once f (add_headers_log sd l t) <= if fis_set (x_flags t) f then 0 else 1)%nat.
Proof.
  intros F. induction l as [|h l IH]; intros t; cbn [add_headers_log]; [destruct fis_set; cbn; lia|].
  rewrite count_app. destruct (add_header_once f sd h t F) as [A B]. specialize (IH (fst (add_header sd h t))).
  destruct (fis_set (x_flags t) f).
  - rewrite A in IH by reflexivity. lia.
  - destruct (fis_set (x_flags (fst (add_header sd h t))) f); lia.
Qed.

Lemma registered {S} (fs : list ((S -> answer * S) + (S -> status * S))) :
  fold_left (fun h f => match f with inl f => register f h | inr f => register_extern f h end) fs hook_new =
  map (fun f => match f with inl f => Native f | inr f => External f end) fs.
Proof.
  assert (G : forall h, fold_left (fun h f => match f with inl f => register f h | inr f => register_extern f h end) fs h =
    h ++ map (fun f => match f with inl f => Native f | inr f => External f end) fs); [|apply G].
  induction fs as [|f fs IH]; intros h; cbn [fold_left map]; [now rewrite app_nil_r|].
  destruct f; rewrite IH; unfold register, register_extern; now rewrite <- app_assoc.
Qed.
Lemma kept_extra l : (extra [] (kept l) <= 64)%nat.
Proof.
  induction l as [|x l IH] using rev_ind; [cbn; lia|]. rewrite kept_snoc. unfold keep.
  destruct (_ || _)%bool eqn:E; [|exact IH]. rewrite extra_snoc. cbn [app].
  destruct (Nat.leb_spec 2 (uses x (kept l))); [|lia].
  apply orb_true_iff in E as [E|E]; apply Nat.ltb_lt in E; lia.
Qed.

Lemma h_header_tight sd cm i rest h : h_header sd cm i = Some (POk rest h) -> tight (hf_bytes (ph_name h)).
Proof.
  unfold h_header, header_with_colon, header_sans_colon.
  destruct ((plet n := h_name in plet _s := separator_regular in pret n) i) as [r n| |] eqn:E.
  - assert (T : tight (hf_bytes n)).
    { unfold pbind in E. cbn [h_name] in E. unfold h_name in E. destruct (separator_regular _); try discriminate.
      cbn in E. injection E as _ <-. apply trimmed_tight. }
    destruct (h_value sd cm r) as [[? ?| |]|]; try (intros [= _ <-]; exact T); try discriminate;
    (destruct (p_not _ i); try discriminate; destruct (h_value sd cm _) as [[? ?| |]|]; try discriminate; intros [= _ <-]; apply trimmed_tight).
  - destruct (p_not _ i); try discriminate; destruct (h_value sd cm _) as [[? ?| |]|]; try discriminate; intros [= _ <-]; apply trimmed_tight.
  - destruct (p_not _ i); try discriminate; destruct (h_value sd cm _) as [[? ?| |]|]; try discriminate; intros [= _ <-]; apply trimmed_tight.
Qed.
Lemma headers_loop_tight sd cm fuel : forall i out rest hs eoh, Forall (fun h => tight (hf_bytes (ph_name h))) out ->
  headers_loop fuel sd cm i out = Some (POk rest (hs, eoh)) -> Forall (fun h => tight (hf_bytes (ph_name h))) hs.
Proof.
  induction fuel as [|fuel IH]; intros i out rest hs eoh T; cbn [headers_loop]; [discriminate|].
  destruct (h_header sd cm i) as [[r h| |]|] eqn:E; try discriminate.
  - assert (T' : Forall (fun h => tight (hf_bytes (ph_name h))) (out ++ [h])).
    { apply Forall_app. split; [exact T|]. constructor; [|constructor]. eapply h_header_tight; eauto. }
    destruct (fis_set _ _); [intros [= _ <- _]; exact T'|].
    destruct (complete_eol sd r); [intros [= _ <- _]; exact T'|apply IH; exact T'..].
  - intros [= _ <- _]. exact T.
Qed.
Lemma parsed_names_tight sd cm i rest hs eoh :
  h_headers sd cm i = Some (POk rest (hs, eoh)) -> Forall (fun x => tight (fst x)) (map kv_of_ph hs).
Proof.
  intros H. apply Forall_map. cbn [kv_of_ph fst]. unfold h_headers in H.
  destruct (h_header sd cm i) as [[r h| |]|] eqn:E; try discriminate.
  assert (T' : Forall (fun h => tight (hf_bytes (ph_name h))) [h]) by (constructor; [eapply h_header_tight; eauto|constructor]).
  destruct (fis_set _ _); [injection H as _ <- _; exact T'|].
  destruct (complete_eol sd r); [injection H as _ <- _; exact T'|eapply headers_loop_tight; eauto..].
Qed.
