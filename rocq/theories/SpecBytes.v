(** Vocabulary of C65. *)
From Verif Require Import Base Spec ModelUtil ModelBstr.

(** The order of texts: a proper prefix comes first; otherwise the first differing byte decides. Letter case does not count:
    [fold] is the text in lower case. *)
Definition folded (b x : N) : Prop := letter_eq b x /\ ~ (65 <= x <= 90).
Definition fold_of (l m : bytes) : Prop := Forall2 folded l m.
Definition precedes (a b : bytes) : Prop :=
  (exists x r, b = a ++ x :: r) \/ exists p x y r s, a = p ++ x :: r /\ b = p ++ y :: s /\ x < y.
(** [n] occurs in [h] at offset [i], up to letter case. *)
Definition occurs_at (h n : bytes) (i : nat) : Prop := exists a w b, h = a ++ w ++ b /\ length a = i /\ name_eq w n.
