(** C76: header fields as they stand in a message - lines, line endings, continuation lines - and what each one says. *)
From Verif Require Import Base ModelHeaders Spec.

(** A line ends in CR LF or in a bare LF. *)
Definition ending (cr : bool) : bytes := if cr then [13; 10] else [10].
(** A continuation line: the byte it begins with, what follows it, how it ends. *)
Record cline := mk_cl { cl_byte : N; cl_text : bytes; cl_cr : bool }.
Definition cline_text (c : cline) : bytes := cl_byte c :: cl_text c ++ ending (cl_cr c).
(** A field: its first line, how that ends, and its continuation lines. *)
Record field := mk_field { f_line : bytes; f_cr : bool; f_more : list cline }.
Definition field_text (f : field) : bytes := f_line f ++ ending (f_cr f) ++ concat (map cline_text (f_more f)).

(** The fields of a message, one after the other. *)
Definition fields_text (fs : list field) : bytes := concat (map field_text fs).

Definition plain (l : bytes) : Prop := Forall (fun c => c <> 13 /\ c <> 10) l.
Definition fold_byte (b : N) : Prop := b = 32 \/ b = 9 \/ b = 0.

(** Where the name ends: at the first colon of the first line; a first line without one goes on, as part of the name,
    on a continuation line that begins with a space. [named line cr more n v more']: the name is [n], the value
    begins with [v] and goes on with the lines [more']. *)
Inductive named : bytes -> bool -> list cline -> bytes -> bytes -> list cline -> Prop :=
| nm_here n v cr more : ~ In 58 n -> named (n ++ 58 :: v) cr more n v more
| nm_next a cr c cr' more n v more' : ~ In 58 a -> named (32 :: c) cr' more n v more' ->
    named a cr (mk_cl 32 c cr' :: more) (a ++ ending cr ++ n) v more'.
(** The lines of a value put together: each keeps its first byte, but nothing is put before the first that has text. *)
Fixpoint joined (v : bytes) (more : list cline) : bytes :=
  match more with
  | [] => v
  | c :: more' => joined (match v with [] => cl_text c | _ => v ++ cl_byte c :: cl_text c end) more'
  end.

(** [notes fl l]: the flags [fl] are those of the list [l] whose condition holds, and no others. *)
Definition notes (fl : N) (l : list (N * Prop)) : Prop :=
  (forall k P, In (k, P) l -> (N.land fl k <> 0 <-> P)) /\
  (forall i, N.testbit fl i = true -> exists k P, In (k, P) l /\ N.testbit k i = true).
Definition token_name (n : bytes) : Prop :=
  exists a t b, n = a ++ t ++ b /\ Forall sp_or_tab a /\ Forall token_byte t /\ Forall sp_or_tab b.
Definition name_notes (n : bytes) : list (N * Prop) :=
  [ (HF_NAME_EMPTY, n = []);
    (HF_NAME_LEADING_WHITESPACE, exists b n', n = b :: n' /\ sp_or_tab b);
    (HF_NAME_TRAILING_WHITESPACE, exists b n', n = n' ++ [b] /\ sp_or_tab b);
    (HF_NAME_NON_TOKEN_CHARS, ~ token_name n) ].
Definition value_flags (v : bytes) (more : list cline) : N :=
  match more, v with [], [] => HF_VALUE_EMPTY | [], _ => 0 | _ :: _, _ => HF_FOLDING end.

(** What a field says. [told] gives the flags of its value from its first part and its other lines. *)
Inductive says_with (told : bytes -> list cline -> N) (f : field) (h : pheader) : Prop :=
| sy_named n v more blank v1 :
    named (f_line f) (f_cr f) (f_more f) n v more -> max_run sp_or_tab v blank v1 ->
    trims_to c_space n (hf_bytes (ph_name h)) -> notes (hf_flags (ph_name h)) (name_notes n) ->
    trims_to c_space (joined v1 more) (hf_bytes (ph_value h)) -> hf_flags (ph_value h) = told v1 more -> says_with told f h
| sy_bare :
    (forall n v more, ~ named (f_line f) (f_cr f) (f_more f) n v more) ->
    hf_bytes (ph_name h) = [] -> trims_to c_space (joined (f_line f) (f_more f)) (hf_bytes (ph_value h)) ->
    hf_flags (ph_name h) = N.lor HF_MISSING_COLON (told (f_line f) (f_more f)) ->
    hf_flags (ph_value h) = N.lor HF_MISSING_COLON (told (f_line f) (f_more f)) -> says_with told f h.
Definition says : field -> pheader -> Prop := says_with value_flags.
(** In a response, when the continuation line after the field was taken for a header of its own, the folding goes unnoted. *)
Definition cut_flags (v : bytes) (more : list cline) : N := match joined v more with [] => HF_VALUE_EMPTY | _ => 0 end.
Definition says_cut : field -> pheader -> Prop := says_with cut_flags.

(** A continuation line that would be taken for a header of its own: blanks, a token, blanks, a colon. *)
Definition header_like (l : bytes) : Prop :=
  exists a t b r, l = a ++ t ++ b ++ 58 :: r /\ Forall sp_or_tab a /\ t <> [] /\ Forall token_byte t /\ Forall sp_or_tab b.

(** The fields the theorem speaks of. No line holds a CR; the first is not empty; a continuation line holds something
    more than its first byte unless it ends in CR LF; in a response none of the lines the value goes on with is taken for
    a header of its own; and every field but the first of the message begins with no blank. *)
Definition line_ok (c : cline) : Prop := fold_byte (cl_byte c) /\ plain (cl_text c) /\ (cl_text c = [] -> cl_cr c = true).
Definition value_lines (f : field) (more : list cline) : Prop :=
  (exists n v, named (f_line f) (f_cr f) (f_more f) n v more) \/
  (forall n v more', ~ named (f_line f) (f_cr f) (f_more f) n v more') /\ more = f_more f.
Definition field_ok (sd : side) (f : field) : Prop :=
  plain (f_line f) /\ f_line f <> [] /\ Forall line_ok (f_more f) /\
  (sd = SResp -> forall more, value_lines f more -> Forall (fun c => ~ header_like (cl_text c)) more).
Definition apart (f : field) : Prop := forall b l, f_line f = b :: l -> ~ fold_byte b.
Definition fields_ok (sd : side) (fs : list field) : Prop :=
  Forall (field_ok sd) fs /\ match fs with [] => False | _ :: more => Forall apart more end.

(** What may follow the empty line. *)
Definition tail_ok (sd : side) (cr : bool) (tail : bytes) : Prop :=
  match sd with
  | SReq => cr = false -> forall r, tail <> [13; 13; 10] ++ r
  | SResp => (forall r, tail <> 13 :: r) /\ (forall b e r, sp_or_tab b -> e = 10 \/ e = 13 -> tail <> b :: e :: r)
  end.
