(** Model of src/bstr.rs and src/table.rs. *)
From Verif Require Export Base.

(** Lexicographic [Iterator::cmp] on two byte sequences. *)
Fixpoint lex_cmp (a b : bytes) : comparison :=
  match a, b with
  | [], [] => Eq
  | [], _ :: _ => Lt
  | _ :: _, [] => Gt
  | x :: a', y :: b' => match x ?= y with Eq => lex_cmp a' b' | c => c end
  end.

(** [LowercaseIterator] / [LowercaseNoZeroIterator] state (src/bstr.rs:241-303): index and the [first] flag. The source slice is
    kept outside. *)
Record bs_iter := { it_idx : nat; it_first : bool }.

(** src/bstr.rs:315-328, [LowercaseIterator::next]. *)
Definition lc_next (src : bytes) (it : bs_iter) : option N * bs_iter :=
  let idx := if it_first it then it_idx it else S (it_idx it) in
  (option_map lower (nth_error src idx), {| it_idx := idx; it_first := false |}).

(** src/bstr.rs:257-277, [LowercaseNoZeroIterator::next]: loop while the byte read is NUL. Fuel: the loop runs at most once per
    remaining byte plus one; [None] stands for exhaustion and is shown unreachable. *)
Fixpoint lcnz_loop (fuel : nat) (src : bytes) (idx : nat) : option (option N * nat) :=
  match fuel with
  | O => None
  | S fuel' =>
      match option_map lower (nth_error src idx) with
      | Some b => if b =? 0 then lcnz_loop fuel' src (S idx) else Some (Some b, idx)
      | None => Some (None, idx)
      end
  end.
Definition lcnz_next (src : bytes) (it : bs_iter) : option N * bs_iter :=
  let idx := if it_first it then it_idx it else S (it_idx it) in
  match lcnz_loop (S (length src)) src idx with
  | Some (r, i) => (r, {| it_idx := i; it_first := false |})
  | None => (None, {| it_idx := idx; it_first := false |})
  end.

(** Run an iterator to its end (what [Iterator::cmp] consumes). *)
Fixpoint iter_all (next : bs_iter -> option N * bs_iter) (fuel : nat) (it : bs_iter) : bytes :=
  match fuel with
  | O => []
  | S fuel' => match next it with
               | (Some b, it') => b :: iter_all next fuel' it'
               | (None, _) => []
               end
  end.
Definition it0 := {| it_idx := 0; it_first := true |}.
Definition lc_all (src : bytes) : bytes := iter_all (lc_next src) (S (length src)) it0.
Definition lcnz_all (src : bytes) : bytes := iter_all (lcnz_next src) (S (length src)) it0.

(** src/bstr.rs:55-61. *)
Definition cmp_nocase (self other : bytes) : comparison := lex_cmp (lc_all self) (lc_all other).

(** [trim_with(|c| c.is_ascii_whitespace())] of the bstr crate: ASCII whitespace removed at both ends. *)
Definition trim_ascii (l : bytes) : bytes := drop_while_end is_ascii_ws (drop_while is_ascii_ws l).

(** [trim()] of the bstr crate: characters with the Unicode White_Space property, in UTF-8, removed at both ends. *)
Definition uws1 (a : N) : bool := ((9 <=? a) && (a <=? 13)) || (a =? 32).
Definition uws2 (a b : N) : bool := (a =? 0xc2) && ((b =? 0x85) || (b =? 0xa0)).
Definition uws3 (a b c : N) : bool :=
  ((a =? 0xe1) && (b =? 0x9a) && (c =? 0x80))
  || ((a =? 0xe2) && (b =? 0x80) && (((0x80 <=? c) && (c <=? 0x8a)) || (c =? 0xa8) || (c =? 0xa9) || (c =? 0xaf)))
  || ((a =? 0xe2) && (b =? 0x81) && (c =? 0x9f))
  || ((a =? 0xe3) && (b =? 0x80) && (c =? 0x80)).
Fixpoint uni_trim_start (l : bytes) : bytes :=
  match l with
  | [] => []
  | a :: l1 =>
      if uws1 a then uni_trim_start l1
      else match l1 with
           | [] => l
           | b :: l2 =>
               if uws2 a b then uni_trim_start l2
               else match l2 with
                    | [] => l
                    | c :: l3 => if uws3 a b c then uni_trim_start l3 else l
                    end
           end
  end.
Fixpoint uni_trim_rev (l : bytes) : bytes :=
  match l with
  | [] => []
  | a :: l1 =>
      if uws1 a then uni_trim_rev l1
      else match l1 with
           | [] => l
           | b :: l2 =>
               if uws2 b a then uni_trim_rev l2
               else match l2 with
                    | [] => l
                    | c :: l3 => if uws3 c b a then uni_trim_rev l3 else l
                    end
           end
  end.
Definition uni_trim (l : bytes) : bytes := rev (uni_trim_rev (rev (uni_trim_start l))).

(** src/bstr.rs:64-98. *)
Definition cmp_nocase_trimmed (self other : bytes) : comparison :=
  lex_cmp (lc_all (trim_ascii self)) (lc_all other).
Definition eq_nocase (self other : bytes) : bool :=
  match cmp_nocase self other with Eq => true | _ => false end.
Definition cmp_nocase_nozero (self other : bytes) : comparison := lex_cmp (lcnz_all self) (lc_all other).
Definition cmp_nocase_nozero_trimmed (self other : bytes) : comparison :=
  lex_cmp (lcnz_all (uni_trim self)) (lc_all other).
Definition eq_nocase_nozero (self other : bytes) : bool :=
  match cmp_nocase_nozero self other with Eq => true | _ => false end.

(** src/bstr.rs:106-109; capacity is explicit here. *)
Definition add_noex (capacity : nat) (self other : bytes) : bytes :=
  self ++ firstn (Nat.min (capacity - length self) (length other)) other.

(** src/bstr.rs:117-123. *)
Definition starts_with_nocase (self other : bytes) : bool :=
  if (length self <? length other)%nat then false
  else bytes_eqb (lowers (firstn (length other) self)) (lowers other).

(** src/bstr.rs:225-230: compare the needle with what the sub-iterator yields; stops at the first difference. *)
Fixpoint index_match (next : bs_iter -> option N * bs_iter) (it : bs_iter) (needle : bytes) : bool :=
  match needle with
  | [] => true
  | c :: needle' =>
      match next it with
      | (Some b, it') => if c =? b then index_match next it' needle' else false
      | (None, _) => false
      end
  end.

(** src/bstr.rs:219-237, the generic [index_of]. The while loop calls [next] at most once per byte plus one: fuel. *)
Fixpoint index_loop (next : bs_iter -> option N * bs_iter) (fuel : nat) (it : bs_iter) (first : N) (needle : bytes)
  : option nat :=
  match fuel with
  | O => None
  | S fuel' =>
      match next it with
      | (None, _) => None
      | (Some s, it') =>
          if (s =? first)
             && index_match next {| it_idx := it_idx it'; it_first := true |} needle
          then Some (it_idx it')
          else index_loop next fuel' it' first needle
      end
  end.
Definition index_of_gen (next : bytes -> bs_iter -> option N * bs_iter) (src needle : bytes) : option nat :=
  match needle with
  | [] => None
  | first :: _ => index_loop (next src) (S (length src)) it0 first needle
  end.

(** src/bstr.rs:131-144. *)
Definition index_of_nocase (self other : bytes) : option nat := index_of_gen lc_next self (lowers other).
Definition index_of_nocase_nozero (self other : bytes) : option nat := index_of_gen lcnz_next self (lowers other).

(** src/table.rs:47-86: a table is the vector of its (key, item) pairs. *)
Definition table (T : Type) := list (bytes * T).
Definition table_add {T} (t : table T) (k : bytes) (v : T) : table T := t ++ [(k, v)].
Definition table_get {T} (t : table T) (i : nat) : option (bytes * T) := nth_error t i.
Definition is_eq (c : comparison) : bool := match c with Eq => true | _ => false end.
Definition table_get_nocase {T} (t : table T) (k : bytes) : option (bytes * T) :=
  find (fun x => is_eq (cmp_nocase_trimmed (fst x) k)) t.
Definition table_size {T} (t : table T) : nat := length t.

(** src/transaction.rs:154-249, [Header] and [Headers]. *)
Record header := mk_header { hd_name : bytes; hd_value : bytes; hd_flags : N }.
Definition headers_tab := list header.
Definition headers_get_nocase_nozero (t : headers_tab) (k : bytes) : option header :=
  find (fun h => is_eq (cmp_nocase_nozero_trimmed (hd_name h) k)) t.
Definition headers_get_nocase (t : headers_tab) (k : bytes) : option header :=
  find (fun h => is_eq (cmp_nocase_trimmed (hd_name h) k)) t.
