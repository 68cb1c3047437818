(** Model of src/headers.rs: the header block parser used by both directions. *)
From Verif Require Export ModelUtil.

(** src/headers.rs:24-41, [HeaderFlags]. *)
Definition HF_FOLDING : N := 0x1.
Definition HF_FOLDING_SPECIAL_CASE : N := N.lor 0x2 HF_FOLDING.
Definition HF_NAME_EMPTY : N := 0x4.
Definition HF_VALUE_EMPTY : N := 0x8.
Definition HF_NAME_NON_TOKEN_CHARS : N := 0x10.
Definition HF_FIELD_REPEATED : N := 0x20.
Definition HF_NAME_TRAILING_WHITESPACE : N := 0x40.
Definition HF_NAME_LEADING_WHITESPACE : N := 0x80.
Definition HF_NULL_TERMINATED : N := 0x100.
Definition HF_MISSING_COLON : N := N.lor 0x200 HF_NAME_EMPTY.
Definition HF_DEFORMED_EOL : N := 0x400.

(** src/headers.rs:43-92, [Name], [Value], [Header]: both halves are byte strings with flags, trimmed on construction. *)
Record hfield := mk_hf { hf_bytes : bytes; hf_flags : N }.
Definition hf_new (b : bytes) (fl : N) : hfield := mk_hf (trimmed b) fl.
Record pheader := mk_ph { ph_name : hfield; ph_value : hfield }.

(** src/headers.rs:94-101. *)
Inductive side := SReq | SResp.
Definition is_resp (sd : side) : bool := match sd with SResp => true | SReq => false end.

(** src/headers.rs:123-125. *)
Definition h_is_eol (sd : side) (c : N) : bool := (c =? 10) || (is_resp sd && (c =? 13)).

(** nom [streaming::take_while1]: zero matches is an error, reaching the end of input is incomplete. *)
Definition take_while1_s (p : N -> bool) : parser bytes :=
  fun i => match i with
           | [] => PInc
           | _ => match span p i with ([], _) => PErr | (_, []) => PInc | (a, b) => POk b a end
           end.
(** nom [streaming::space0]. *)
Definition space0_s : parser bytes := take_while_s nom_is_space.
(** nom [complete::one_of]. *)
Definition one_of_c (set : bytes) : parser N :=
  fun i => match i with x :: r => if memb x set then POk r x else PErr | [] => PErr end.

(** src/headers.rs:495-499. *)
Definition h_null : parser (bytes * N) := plet n := tag_c [0] in pret (n, HF_NULL_TERMINATED).
(** src/headers.rs:502-506. *)
Definition folding_lws : parser (bytes * N) :=
  plet f := p_alt (tag_s [32]) (p_alt (tag_s [9]) (tag_s [0])) in pret (f, HF_FOLDING).
(** src/headers.rs:509-511. *)
Definition separator_regular : parser (bytes * bytes) :=
  plet c := tag_c [58] in plet s := space0_s in pret (c, s).
(** src/headers.rs:515-517. *)
Definition token_chars : parser (bytes * bytes * bytes) :=
  plet a := space0_s in plet t := take_while_s is_token in plet b := space0_s in pret (a, t, b).

(** src/headers.rs:128-141. *)
Definition complete_eol_regular (sd : side) : parser bytes :=
  match sd with
  | SResp => p_alt (tag_c [13; 10]) (p_alt (tag_c [10; 13]) (p_alt (tag_c [10]) (tag_c [13])))
  | SReq => p_alt (tag_c [13; 10]) (tag_c [10])
  end.

(** src/headers.rs:215-227. *)
Definition folding_empty (sd : side) : parser (bytes * N) :=
  fun input =>
    (plet e1 := complete_eol_regular sd in
     plet _s := one_of_c [9; 32] in
     plet e2 := complete_eol_regular sd in
     pret (firstn (length e1 + 1 + length e2) input, 0)) input.

(** src/headers.rs:144-188. *)
Definition lf_or_crlf : parser bytes := p_alt (tag_c [10]) (tag_c [13; 10]).
Definition complete_eol_deformed (sd : side) : parser (bytes * N) :=
  match sd with
  | SResp => fun input =>
      p_alt (plet e := tag_c [10; 13; 13; 10] in plet _p := p_peek lf_or_crlf in pret (e, HF_DEFORMED_EOL))
     (p_alt (folding_empty sd)
            (plet e1 := tag_c [13; 10; 13] in
             plet e2 := take_while1_s (fun c => (c =? 13) || (c =? 32) || (c =? 9)) in
             plet e3 := p_opt (tag_c [10]) in
             plet _n := p_not lf_or_crlf in
             pret (firstn (length e1 + length e2 + match e3 with Some e => length e | None => 0%nat end) input,
                   HF_DEFORMED_EOL))) input
  | SReq =>
      plet e := p_alt (plet e := tag_c [10; 13; 13; 10] in plet _p := p_peek lf_or_crlf in pret e)
                      (plet e := tag_c [10; 13] in plet _p := p_peek (tag_c [13; 10]) in pret e) in
      pret (e, HF_DEFORMED_EOL)
  end.

(** src/headers.rs:191-198. *)
Definition complete_eol (sd : side) : parser (bytes * N) :=
  p_alt (complete_eol_deformed sd) (plet e := complete_eol_regular sd in pret (e, 0)).
(** src/headers.rs:201-208. *)
Definition h_eol (sd : side) : parser (bytes * N) :=
  plet e := complete_eol sd in plet _n := p_not folding_lws in pret e.
(** src/headers.rs:211-213. *)
Definition null_or_eol (sd : side) : parser (bytes * N) := p_alt h_null (h_eol sd).
(** src/headers.rs:216-218. *)
Definition complete_null_or_eol (sd : side) : parser (bytes * N) := p_alt h_null (complete_eol sd).

(** src/headers.rs:233-252: (eol, fold, flags). *)
Definition folding (sd : side) : parser (bytes * bytes * N) :=
  match sd with
  | SResp => plet e := complete_eol_regular sd in plet l := folding_lws in
             pret (e, fst l, N.lor 0 (snd l))
  | SReq => plet e := complete_eol sd in plet l := folding_lws in
            pret (fst e, fst l, N.lor (snd e) (snd l))
  end.

(** src/headers.rs:255-294: ((end, flags), fold). *)
Definition fold_result (x : bytes * bytes * N) : (bytes * N) * option bytes :=
  let '(e, f, fl) := x in ((e, fl), Some f).
Definition folding_or_terminator (sd : side) (cm : bool) : parser ((bytes * N) * option bytes) :=
  if cm then p_alt (p_complete (pmap fold_result (folding sd))) (plet e := complete_null_or_eol sd in pret (e, None))
  else p_alt (pmap fold_result (folding sd)) (plet e := null_or_eol sd in pret (e, None)).

(** src/headers.rs:299-309. *)
Definition value_bytes (sd : side) (cm : bool) : parser (bytes * ((bytes * N) * option bytes)) :=
  fun input =>
    match take_till_s (h_is_eol sd) input with
    | POk remaining value =>
        let value' := match last_byte value with
                      | Some b => if b =? 13 then drop_last value else value
                      | None => value
                      end in
        let remaining' := match last_byte value with
                          | Some b => if b =? 13 then skipn (length value') input else remaining
                          | None => remaining
                          end in
        match folding_or_terminator sd cm remaining' with
        | POk r res => POk r (value', res)
        | PErr => PErr
        | PInc => PInc
        end
    | PErr => PErr
    | PInc => PInc
    end.

(** src/headers.rs:312-369. The loop over folded lines; [None] is "out of fuel", excluded by a theorem. *)
Fixpoint value_loop (fuel : nat) (sd : side) (cm : bool) (rest i ofold value : bytes) (flags : N) : option (pres hfield) :=
  match fuel with
  | O => None
  | S fuel' =>
      let step (_ : unit) :=
        match value_bytes sd cm i with
        | POk rest2 (vb, ((eol, other_flags), fold)) =>
            let flags' := fset flags other_flags in
            let value1 := match value with
                          | [] => value
                          | _ => value ++ [match ofold with b :: _ => b | [] => 32 end]
                          end in
            let keep := negb (match vb with [] => true | _ => false end) || (1 <? length eol)%nat in
            let rest' := if keep then rest2
                         else if (match vb with [] => true | _ => false end) && (length eol =? 1)%nat
                                 && (match rest2 with b :: _ => b =? 10 | [] => false end)
                              then rest2 else rest in
            let value' := if keep then value1 ++ vb else value1 in
            match fold with
            | Some f => value_loop fuel' sd cm rest' rest2 f value' flags'
            | None => Some (POk rest' (hf_new value' flags'))
            end
        | PErr => Some PErr
        | PInc => Some PInc
        end in
      if is_resp sd then
        match (plet t := token_chars in plet s := separator_regular in pret t) i with
        | POk _ (_, tokens, _) =>
            match tokens with
            | [] => step tt
            | _ => let fl := funset flags HF_FOLDING_SPECIAL_CASE in
                   let fl' := match value with [] => fset fl HF_VALUE_EMPTY | _ => fl end in
                   Some (POk i (hf_new value fl'))
            end
        | PInc => Some PInc
        | PErr => step tt
        end
      else step tt
  end.
Definition h_value (sd : side) (cm : bool) (input : bytes) : option (pres hfield) :=
  match value_bytes sd cm input with
  | POk rest (vb, ((_, flags), fold)) =>
      match fold with
      | Some f => value_loop (S (length rest)) sd cm rest rest f vb flags
      | None => Some (POk rest (hf_new vb (match vb with [] => fset flags HF_VALUE_EMPTY | _ => flags end)))
      end
  | PErr => Some PErr
  | PInc => Some PInc
  end.

(** src/headers.rs:373-417. [name_end] is the scan for the end of the name: [offset], 0 when the loop runs off the end. *)
Fixpoint name_end (pos : nat) (terminated : bool) (l : bytes) : nat :=
  match l with
  | [] => 0%nat
  | c :: l' =>
      if terminated then (if c =? 32 then name_end (S pos) false l' else Nat.pred pos)
      else if c =? 58 then pos
      else if c =? 10 then name_end (S pos) true l'
      else name_end (S pos) false l'
  end.
Definition name_flags (name : bytes) : N :=
  match name with
  | [] => HF_NAME_EMPTY
  | b :: _ =>
      let f1 := if nom_is_space b then fset 0 HF_NAME_LEADING_WHITESPACE else 0 in
      let f2 := match last_byte name with
                | Some e => if nom_is_space e then fset f1 HF_NAME_TRAILING_WHITESPACE else f1
                | None => f1
                end in
      match token_chars name with
      | POk (_ :: _) _ => fset f2 HF_NAME_NON_TOKEN_CHARS
      | _ => f2
      end
  end.
Definition h_name : parser hfield :=
  fun input =>
    let offset := name_end 0 false input in
    let name := firstn offset input in
    POk (skipn offset input) (hf_new name (name_flags name)).

(** src/headers.rs:425-437. *)
Definition header_sans_colon (sd : side) (cm : bool) (input : bytes) : option (pres pheader) :=
  match p_not (tag_c [13; 10]) input with
  | POk i _ =>
      match h_value sd cm i with
      | Some (POk rest v) =>
          let fl := N.lor (hf_flags v) HF_MISSING_COLON in
          Some (POk rest (mk_ph (hf_new [] fl) (hf_new (hf_bytes v) fl)))
      | Some PErr => Some PErr
      | Some PInc => Some PInc
      | None => None
      end
  | PErr => Some PErr
  | PInc => Some PInc
  end.

(** src/headers.rs:420-422, 440-452; the separator's flag is always 0. *)
Definition header_with_colon (sd : side) (cm : bool) (input : bytes) : option (pres pheader) :=
  match (plet n := h_name in plet _s := separator_regular in pret n) input with
  | POk r n =>
      match h_value sd cm r with
      | Some (POk rest v) => Some (POk rest (mk_ph n v))
      | Some PErr => Some PErr
      | Some PInc => Some PInc
      | None => None
      end
  | PErr => Some PErr
  | PInc => Some PInc
  end.

(** src/headers.rs:455-457: alt(complete(with colon), sans colon). *)
Definition h_header (sd : side) (cm : bool) (input : bytes) : option (pres pheader) :=
  match header_with_colon sd cm input with
  | Some (POk r h) => Some (POk r h)
  | Some _ => header_sans_colon sd cm input
  | None => None
  end.

(** src/headers.rs:460-492: all headers found, and whether the end of the headers was seen. *)
Fixpoint headers_loop (fuel : nat) (sd : side) (cm : bool) (i : bytes) (out : list pheader) : option (pres (list pheader * bool)) :=
  match fuel with
  | O => None
  | S fuel' =>
      match h_header sd cm i with
      | Some (POk rest head) =>
          let out' := out ++ [head] in
          if fis_set (hf_flags (ph_value head)) HF_NULL_TERMINATED then Some (POk rest (out', true))
          else match complete_eol sd rest with
               | POk rest' _ => Some (POk rest' (out', true))
               | _ => headers_loop fuel' sd cm rest out'
               end
      | Some PInc => Some (POk i (out, false))
      | Some PErr => Some PErr
      | None => None
      end
  end.
Definition h_headers (sd : side) (cm : bool) (input : bytes) : option (pres (list pheader * bool)) :=
  match h_header sd cm input with
  | Some (POk rest head) =>
      if fis_set (hf_flags (ph_value head)) HF_NULL_TERMINATED then Some (POk rest ([head], true))
      else match complete_eol sd rest with
           | POk rest' _ => Some (POk rest' ([head], true))
           | _ => headers_loop (S (length rest)) sd cm rest [head]
           end
  | Some PErr => Some PErr
  | Some PInc => Some PInc
  | None => None
  end.
