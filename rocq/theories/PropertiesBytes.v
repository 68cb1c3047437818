(** Property C65 of properties.jsonl: comparing, searching and extending byte strings. Vocabulary: SpecBytes.v; [name_eq] (equal up
    to letter case) and [nonul] (without the NUL bytes): Spec.v. *)
From Verif Require Import Base Spec SpecBytes ModelUtil ModelBstr ProofsBase ProofsBstr ProofsBytes.

(** * C65 *)
(** The comparison is the order of the lower-case texts, and says "equal" exactly for texts equal up to letter case. *)
Theorem C65_order : forall a b a' b', fold_of a a' -> fold_of b b' ->
  (cmp_nocase a b = Lt <-> precedes a' b') /\ (cmp_nocase a b = Eq <-> name_eq a b) /\ (cmp_nocase a b = Gt <-> precedes b' a').
Proof. exact cmp_text. Qed.
Print Assumptions C65_order.
(** The variant that ignores NUL bytes is the same order after removing them from the left text. *)
Theorem C65_order_nozero : forall a b a' b', fold_of (nonul a) a' -> fold_of b b' ->
  (cmp_nocase_nozero a b = Lt <-> precedes a' b') /\ (cmp_nocase_nozero a b = Eq <-> name_eq (nonul a) b) /\
  (cmp_nocase_nozero a b = Gt <-> precedes b' a').
Proof. exact cmp_text_nozero. Qed.
Print Assumptions C65_order_nozero.
Theorem C65_equal : forall a b,
  (eq_nocase a b = true <-> name_eq a b) /\ (eq_nocase_nozero a b = true <-> name_eq (nonul a) b).
Proof. exact eq_text. Qed.
Print Assumptions C65_equal.
Theorem C65_prefix : forall s o, starts_with_nocase s o = true <-> exists w r, s = w ++ r /\ name_eq w o.
Proof. exact starts_text. Qed.
Print Assumptions C65_prefix.
(** Appending without growing keeps the text, appends a prefix of the new one, and cuts it only when the capacity is used up. *)
Theorem C65_append_in_capacity : forall cap s o, (length s <= cap)%nat ->
  (length (add_noex cap s o) <= cap)%nat /\
  exists p r, add_noex cap s o = s ++ p /\ o = p ++ r /\ (r = [] \/ length (add_noex cap s o) = cap).
Proof. exact extend_text. Qed.
Print Assumptions C65_append_in_capacity.
(** The search finds the first occurrence, and nothing exactly when there is none (or the text searched for is empty). *)
Theorem C65_search : forall h n,
  (forall i, index_of_nocase h n = Some i <-> n <> [] /\ occurs_at h n i /\ forall j, (j < i)%nat -> ~ occurs_at h n j) /\
  (index_of_nocase h n = None <-> n = [] \/ forall i, ~ occurs_at h n i).
Proof. exact search_text. Qed.
Print Assumptions C65_search.

Example C65_order_ex : cmp_nocase (s2b "Host") (s2b "HOST") = Eq /\ cmp_nocase (s2b "Hosa") (s2b "host") = Lt /\
  cmp_nocase (s2b "host") (s2b "HOS") = Gt /\ cmp_nocase_nozero (0 :: s2b "Ho" ++ 0 :: s2b "st") (s2b "HOST") = Eq.
Proof. vm_compute. repeat split; reflexivity. Qed.
Example C65_fold_ex : fold_of (s2b "HoS-1") (s2b "hos-1").
Proof. apply fold_lowers. reflexivity. Qed.
Example C65_append_ex : add_noex 6 (s2b "host") (s2b "name") = s2b "hostna".
Proof. reflexivity. Qed.
Example C65_search_ex : index_of_nocase (s2b "gzip, CHunked, chunked") (s2b "chunked") = Some 6%nat /\
  index_of_nocase (s2b "chunke") (s2b "chunked") = None.
Proof. vm_compute. split; reflexivity. Qed.
