(** Common vocabulary of the model: bytes, byte strings and the nom combinators the code is written with. *)
From Coq Require Export String Ascii.
From Coq Require Export List Arith NArith ZArith Lia Bool.
From Coq Require Export ZifyBool ZifyNat ZifyN.
Export ListNotations.
#[global] Open Scope N_scope.
#[global] Arguments N.add : simpl never.
#[global] Arguments N.mul : simpl never.
#[global] Arguments N.sub : simpl never.
#[global] Arguments N.eqb : simpl never.
#[global] Arguments N.leb : simpl never.
#[global] Arguments N.ltb : simpl never.
#[global] Arguments N.land : simpl never.
#[global] Arguments N.lor : simpl never.

(** A byte ([u8]) is a number below 256; byte strings ([&[u8]], [Bstr]) are lists of them. *)
Notation byte := N (only parsing).
Notation bytes := (list N).
Definition is_byte (b : N) : Prop := b < 256.

(** Literals: [s2b] turns a Coq string into its bytes. *)
Fixpoint s2b (s : string) : bytes :=
  match s with
  | EmptyString => []
  | String c s' => N_of_ascii c :: s2b s'
  end.

Definition blen (l : bytes) : N := N.of_nat (length l).

Fixpoint bytes_eqb (a b : bytes) : bool :=
  match a, b with
  | [], [] => true
  | x :: a', y :: b' => (x =? y) && bytes_eqb a' b'
  | _, _ => false
  end.

Definition memb (b : N) (s : bytes) : bool := existsb (N.eqb b) s.

(** [u8::to_ascii_lowercase]. *)
Definition lower (b : N) : N := if (65 <=? b) && (b <=? 90) then b + 32 else b.
Definition lowers (l : bytes) : bytes := map lower l.

(** [u8::is_ascii_digit], [u8::is_ascii_hexdigit], [u8::is_ascii_whitespace] (SP, HT, LF, FF, CR). *)
Definition is_digit (b : N) : bool := (48 <=? b) && (b <=? 57).
Definition is_hexdigit (b : N) : bool :=
  is_digit b || ((65 <=? b) && (b <=? 70)) || ((97 <=? b) && (b <=? 102)).
Definition is_ascii_ws (b : N) : bool :=
  (b =? 32) || (b =? 9) || (b =? 10) || (b =? 12) || (b =? 13).

(** Longest prefix satisfying [p], and the rest. *)
Fixpoint span (p : N -> bool) (l : bytes) : bytes * bytes :=
  match l with
  | [] => ([], [])
  | x :: l' => if p x then let (a, b) := span p l' in (x :: a, b) else ([], l)
  end.

Fixpoint drop_while (p : N -> bool) (l : bytes) : bytes :=
  match l with
  | [] => []
  | x :: l' => if p x then drop_while p l' else l
  end.

(** Remove trailing bytes satisfying [p]: the [while ends_with ... pop] loops. *)
Fixpoint drop_while_end (p : N -> bool) (l : bytes) : bytes :=
  match l with
  | [] => []
  | x :: l' =>
      match drop_while_end p l' with
      | [] => if p x then [] else [x]
      | r => x :: r
      end
  end.

(** [slice::starts_with] and what follows the prefix. *)
Fixpoint strip_prefix (pre l : bytes) : option bytes :=
  match pre, l with
  | [], _ => Some l
  | _ :: _, [] => None
  | x :: pre', y :: l' => if x =? y then strip_prefix pre' l' else None
  end.
Definition starts_with (pre l : bytes) : bool :=
  match strip_prefix pre l with Some _ => true | None => false end.

Fixpoint strip_prefix_nocase (pre l : bytes) : option bytes :=
  match pre, l with
  | [], _ => Some l
  | _ :: _, [] => None
  | x :: pre', y :: l' => if lower x =? lower y then strip_prefix_nocase pre' l' else None
  end.

(** First occurrence of [needle]: what precedes it and the text starting at it. *)
Fixpoint find_sub (needle l : bytes) : option (bytes * bytes) :=
  if starts_with needle l then Some ([], l)
  else match l with
       | [] => None
       | x :: l' =>
           match find_sub needle l' with
           | Some (a, b) => Some (x :: a, b)
           | None => None
           end
       end.

(** [slice::split(|c| pred)]: always at least one piece. *)
Fixpoint split_on (p : N -> bool) (l : bytes) : list bytes :=
  match l with
  | [] => [[]]
  | x :: l' =>
      if p x then [] :: split_on p l'
      else match split_on p l' with
           | s :: ss => (x :: s) :: ss
           | [] => [[x]]
           end
  end.

(** [splitn(2, pred)]: text before the first match and, when there is one, text after it. *)
Fixpoint split_first (p : N -> bool) (l : bytes) : bytes * option bytes :=
  match l with
  | [] => ([], None)
  | x :: l' => if p x then ([], Some l')
               else let (a, b) := split_first p l' in (x :: a, b)
  end.

(** Last match instead ([rsplitn(2, pred)]): [None] when nothing matches. *)
Fixpoint split_last (p : N -> bool) (l : bytes) : option (bytes * bytes) :=
  match l with
  | [] => None
  | x :: l' =>
      match split_last p l' with
      | Some (a, b) => Some (x :: a, b)
      | None => if p x then Some ([], l') else None
      end
  end.

Fixpoint join (sep : bytes) (ls : list bytes) : bytes :=
  match ls with
  | [] => []
  | [s] => s
  | s :: ls' => s ++ sep ++ join sep ls'
  end.

(** nom's [IResult]: success with rest and value, recoverable [Err::Error], [Err::Incomplete].
    [Err::Failure] is never produced by the combinators this code uses. *)
Inductive pres (A : Type) : Type :=
| POk (rest : bytes) (v : A)
| PErr
| PInc.
Arguments POk {A}. Arguments PErr {A}. Arguments PInc {A}.

Definition parser (A : Type) := bytes -> pres A.

Definition pbind {A B} (p : parser A) (f : A -> parser B) : parser B :=
  fun i => match p i with POk r v => f v r | PErr => PErr | PInc => PInc end.
Definition pret {A} (v : A) : parser A := fun i => POk i v.
Definition pmap {A B} (f : A -> B) (p : parser A) : parser B := pbind p (fun a => pret (f a)).
Notation "'plet' x := p 'in' k" := (pbind p (fun x => k))
  (at level 200, x name, p at level 100, k at level 200, right associativity).

(** nom 7.1 [bytes::complete] / [bytes::streaming] primitives. *)
Definition take_while_c (p : N -> bool) : parser bytes :=
  fun i => let (a, b) := span p i in POk b a.
Definition take_while1_c (p : N -> bool) : parser bytes :=
  fun i => match span p i with ([], _) => PErr | (a, b) => POk b a end.
(** [streaming::take_while]: needs to see the byte that ends the run. *)
Definition take_while_s (p : N -> bool) : parser bytes :=
  fun i => match span p i with (_, []) => PInc | (a, b) => POk b a end.
Definition take_till_s (p : N -> bool) : parser bytes := take_while_s (fun b => negb (p b)).
Definition tag_c (t : bytes) : parser bytes :=
  fun i => match strip_prefix t i with Some r => POk r t | None => PErr end.
Definition tag_no_case_c (t : bytes) : parser bytes :=
  fun i => match strip_prefix_nocase t i with
           | Some r => POk r (firstn (length t) i)
           | None => PErr
           end.
(** [streaming::tag]: a mismatch is an error, a matching but short input is incomplete. *)
Fixpoint tag_s_aux (t i : bytes) : option (option bytes) :=
  match t, i with
  | [], _ => Some (Some i)
  | _ :: _, [] => Some None
  | x :: t', y :: i' => if x =? y then tag_s_aux t' i' else None
  end.
Definition tag_s (t : bytes) : parser bytes :=
  fun i => match tag_s_aux t i with
           | Some (Some r) => POk r t
           | Some None => PInc
           | None => PErr
           end.
Definition is_not_c (set : bytes) : parser bytes := take_while1_c (fun b => negb (memb b set)).
(** [complete::take_until]: everything before the first occurrence, which is left in the input. *)
Definition take_until_c (t : bytes) : parser bytes :=
  fun i => match find_sub t i with Some (a, b) => POk b a | None => PErr end.
Definition char_c (c : N) : parser N :=
  fun i => match i with x :: r => if x =? c then POk r c else PErr | [] => PErr end.

(** [combinator::opt], [peek], [not], [complete], [branch::alt]. *)
Definition p_opt {A} (p : parser A) : parser (option A) :=
  fun i => match p i with POk r v => POk r (Some v) | PErr => POk i None | PInc => PInc end.
Definition p_peek {A} (p : parser A) : parser A :=
  fun i => match p i with POk _ v => POk i v | PErr => PErr | PInc => PInc end.
Definition p_not {A} (p : parser A) : parser unit :=
  fun i => match p i with POk _ _ => PErr | PErr => POk i tt | PInc => PInc end.
Definition p_complete {A} (p : parser A) : parser A :=
  fun i => match p i with PInc => PErr | r => r end.
Definition p_alt {A} (p q : parser A) : parser A :=
  fun i => match p i with PErr => q i | r => r end.

(** Rust unsigned integer parsing ([str::parse], [from_str_radix]): an optional leading plus sign, then at least one
    digit of the radix, failing as soon as the accumulated value exceeds [max]. *)
Definition digit_val (radix b : N) : option N :=
  let v := if is_digit b then Some (b - 48)
           else if (65 <=? b) && (b <=? 90) then Some (b - 55)
           else if (97 <=? b) && (b <=? 122) then Some (b - 87)
           else None in
  match v with Some d => if d <? radix then Some d else None | None => None end.
Fixpoint parse_digits (radix max acc : N) (l : bytes) : option N :=
  match l with
  | [] => Some acc
  | b :: l' =>
      match digit_val radix b with
      | Some d => let acc' := acc * radix + d in
                  if max <? acc' then None else parse_digits radix max acc' l'
      | None => None
      end
  end.
Definition parse_uint (radix max : N) (l : bytes) : option N :=
  match l with
  | [] => None
  | b :: l' =>
      if b =? 43 then match l' with [] => None | _ => parse_digits radix max 0 l' end
      else parse_digits radix max 0 l
  end.
Definition u16_max : N := 65535.
Definition u64_max : N := 18446744073709551615.
Definition i32_max : N := 2147483647.
Definition u64_mod : N := 18446744073709551616.

(** [slice::last] and [Vec::pop]. *)
Definition last_byte (l : bytes) : option N := match rev l with [] => None | b :: _ => Some b end.
Definition drop_last (l : bytes) : bytes := rev (tl (rev l)).
