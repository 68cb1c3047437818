(** Model of src/utf8_decoder.rs. *)
From Verif Require Export Base ModelUtil ModelUrl.

(** src/utf8_decoder.rs:27-42. *)
Definition utf8d : list N := [
  0; 0; 0; 0; 0; 0; 0; 0; 0; 0; 0; 0; 0; 0; 0; 0; 0; 0; 0; 0; 0; 0; 0; 0; 0; 0; 0; 0; 0; 0; 0; 0;
  0; 0; 0; 0; 0; 0; 0; 0; 0; 0; 0; 0; 0; 0; 0; 0; 0; 0; 0; 0; 0; 0; 0; 0; 0; 0; 0; 0; 0; 0; 0; 0;
  0; 0; 0; 0; 0; 0; 0; 0; 0; 0; 0; 0; 0; 0; 0; 0; 0; 0; 0; 0; 0; 0; 0; 0; 0; 0; 0; 0; 0; 0; 0; 0;
  0; 0; 0; 0; 0; 0; 0; 0; 0; 0; 0; 0; 0; 0; 0; 0; 0; 0; 0; 0; 0; 0; 0; 0; 0; 0; 0; 0; 0; 0; 0; 0;
  1; 1; 1; 1; 1; 1; 1; 1; 1; 1; 1; 1; 1; 1; 1; 1; 9; 9; 9; 9; 9; 9; 9; 9; 9; 9; 9; 9; 9; 9; 9; 9;
  7; 7; 7; 7; 7; 7; 7; 7; 7; 7; 7; 7; 7; 7; 7; 7; 7; 7; 7; 7; 7; 7; 7; 7; 7; 7; 7; 7; 7; 7; 7; 7;
  8; 8; 2; 2; 2; 2; 2; 2; 2; 2; 2; 2; 2; 2; 2; 2; 2; 2; 2; 2; 2; 2; 2; 2; 2; 2; 2; 2; 2; 2; 2; 2;
  10; 3; 3; 3; 3; 3; 3; 3; 3; 3; 3; 3; 3; 4; 3; 3; 11; 6; 6; 6; 5; 8; 8; 8; 8; 8; 8; 8; 8; 8; 8; 8;
  0; 1; 2; 3; 5; 8; 7; 1; 1; 1; 4; 6; 1; 1; 1; 1; 1; 1; 1; 1; 1; 1; 1; 1; 1; 1; 1; 1; 1; 1; 1; 1;
  1; 0; 1; 1; 1; 1; 1; 0; 1; 0; 1; 1; 1; 1; 1; 1; 1; 2; 1; 1; 1; 1; 1; 2; 1; 2; 1; 1; 1; 1; 1; 1;
  1; 1; 1; 1; 1; 1; 1; 2; 1; 1; 1; 1; 1; 1; 1; 1; 1; 2; 1; 1; 1; 1; 1; 1; 1; 2; 1; 1; 1; 1; 1; 1;
  1; 1; 1; 1; 1; 1; 1; 3; 1; 3; 1; 1; 1; 1; 1; 1; 1; 3; 1; 1; 1; 1; 1; 3; 1; 3; 1; 1; 1; 1; 1; 1;
  1; 3; 1; 1; 1; 1; 1; 1; 1; 1; 1; 1; 1; 1; 1; 1].

(** src/utf8_decoder.rs:43-58. *)
Definition utf8d_allow_overlong : list N := [
  0; 0; 0; 0; 0; 0; 0; 0; 0; 0; 0; 0; 0; 0; 0; 0; 0; 0; 0; 0; 0; 0; 0; 0; 0; 0; 0; 0; 0; 0; 0; 0;
  0; 0; 0; 0; 0; 0; 0; 0; 0; 0; 0; 0; 0; 0; 0; 0; 0; 0; 0; 0; 0; 0; 0; 0; 0; 0; 0; 0; 0; 0; 0; 0;
  0; 0; 0; 0; 0; 0; 0; 0; 0; 0; 0; 0; 0; 0; 0; 0; 0; 0; 0; 0; 0; 0; 0; 0; 0; 0; 0; 0; 0; 0; 0; 0;
  0; 0; 0; 0; 0; 0; 0; 0; 0; 0; 0; 0; 0; 0; 0; 0; 0; 0; 0; 0; 0; 0; 0; 0; 0; 0; 0; 0; 0; 0; 0; 0;
  1; 1; 1; 1; 1; 1; 1; 1; 1; 1; 1; 1; 1; 1; 1; 1; 9; 9; 9; 9; 9; 9; 9; 9; 9; 9; 9; 9; 9; 9; 9; 9;
  7; 7; 7; 7; 7; 7; 7; 7; 7; 7; 7; 7; 7; 7; 7; 7; 7; 7; 7; 7; 7; 7; 7; 7; 7; 7; 7; 7; 7; 7; 7; 7;
  2; 2; 2; 2; 2; 2; 2; 2; 2; 2; 2; 2; 2; 2; 2; 2; 2; 2; 2; 2; 2; 2; 2; 2; 2; 2; 2; 2; 2; 2; 2; 2;
  3; 3; 3; 3; 3; 3; 3; 3; 3; 3; 3; 3; 3; 4; 3; 3; 6; 6; 6; 6; 5; 8; 8; 8; 8; 8; 8; 8; 8; 8; 8; 8;
  0; 1; 2; 3; 5; 8; 7; 1; 1; 1; 4; 6; 1; 1; 1; 1; 1; 1; 1; 1; 1; 1; 1; 1; 1; 1; 1; 1; 1; 1; 1; 1;
  1; 0; 1; 1; 1; 1; 1; 0; 1; 0; 1; 1; 1; 1; 1; 1; 1; 2; 1; 1; 1; 1; 1; 2; 1; 2; 1; 1; 1; 1; 1; 1;
  1; 1; 1; 1; 1; 1; 1; 2; 1; 1; 1; 1; 1; 1; 1; 1; 1; 2; 1; 1; 1; 1; 1; 1; 1; 2; 1; 1; 1; 1; 1; 1;
  1; 1; 1; 1; 1; 1; 1; 3; 1; 3; 1; 1; 1; 1; 1; 1; 1; 3; 1; 1; 1; 1; 1; 3; 1; 3; 1; 1; 1; 1; 1; 1;
  1; 3; 1; 1; 1; 1; 1; 1; 1; 1; 1; 1; 1; 1; 1; 1].

(** Array indexing; the default stands for the out-of-bounds panic, which Proofs exclude for bytes and reachable states. *)
Definition idx (t : list N) (i : N) : N := nth (N.to_nat i) t 1.

(** src/utf8_decoder.rs:60-69. The output is kept in reverse. *)
Record utf8dec := {
  ud_state : N; ud_seq : N; ud_cp : N; ud_flags : N; ud_seen_valid : bool; ud_out_rev : bytes
}.

(** src/utf8_decoder.rs:72-83. *)
Definition utf8dec_new : utf8dec :=
  {| ud_state := 0; ud_seq := 0; ud_cp := 0; ud_flags := 0; ud_seen_valid := false; ud_out_rev := [] |}.

(** src/utf8_decoder.rs:174-184: (state, codepoint) after one byte. The u32 shift drops the high bits. *)
Definition decode_byte_allow_overlong (state cp byte : N) : N * N :=
  let t := idx utf8d_allow_overlong byte in
  let cp' := if state =? 0 then N.land (N.shiftr 0xff t) byte
             else N.lor (N.land byte 0x3f) (N.shiftl cp 6 mod 4294967296) in
  (idx utf8d (256 + state * 16 + t), cp').

(** src/utf8_decoder.rs:190-196. *)
Definition bestfit_codepoint (m : bestfit_map) (cp : N) : N :=
  if cp <? 0x100 then cp else bestfit_get m cp.

Definition is_overlong (seq cp : N) : bool :=
  ((seq =? 2) && (cp <? 0x80)) || ((seq =? 3) && (cp <? 0x800)) || ((seq =? 4) && (cp <? 0x10000)).

(** src/utf8_decoder.rs:86-140. The method calls itself at most once (with seq = 0): [again] is that call. *)
Definition decode_byte_with (m : bestfit_map) (again : utf8dec -> utf8dec) (d : utf8dec) (b : N) (is_last : bool) : utf8dec :=
  let seq := ud_seq d + 1 in
  let '(st, cp) := decode_byte_allow_overlong (ud_state d) (ud_cp d) b in
  if st =? 0 then
    if seq =? 1 then
      {| ud_state := 0; ud_seq := 0; ud_cp := cp; ud_flags := ud_flags d; ud_seen_valid := ud_seen_valid d;
         ud_out_rev := (cp mod 256) :: ud_out_rev d |}
    else
      let fl := if is_overlong seq cp then fset (ud_flags d) PATH_UTF8_OVERLONG else ud_flags d in
      let fl := if (0xff00 <=? cp) && (cp <=? 0xffef) then fset fl PATH_HALF_FULL_RANGE else fl in
      {| ud_state := 0; ud_seq := 0; ud_cp := cp; ud_flags := fl; ud_seen_valid := true;
         ud_out_rev := bestfit_codepoint m cp :: ud_out_rev d |}
  else if st =? 1 then
    let d' := {| ud_state := 0; ud_seq := 0; ud_cp := 0; ud_flags := fset (ud_flags d) PATH_UTF8_INVALID;
                 ud_seen_valid := ud_seen_valid d; ud_out_rev := bm_repl m :: ud_out_rev d |} in
    if seq =? 1 then d' else again d'
  else
    {| ud_state := st; ud_seq := seq; ud_cp := cp; ud_flags := ud_flags d; ud_seen_valid := ud_seen_valid d;
       ud_out_rev := if is_last then repeat (bm_repl m) (N.to_nat (seq - 1)) ++ ud_out_rev d else ud_out_rev d |}.
Definition decode_byte (m : bestfit_map) (d : utf8dec) (b : N) (is_last : bool) : utf8dec :=
  decode_byte_with m
    (fun d' => decode_byte_with m (fun d'' => d'') d' b is_last) d b is_last.

(** src/utf8_decoder.rs:147-167, the loop. *)
Fixpoint decode_bytes (m : bestfit_map) (d : utf8dec) (i : bytes) : utf8dec :=
  match i with
  | [] => d
  | b :: r => decode_bytes m (decode_byte m d b (match r with [] => true | _ => false end)) r
  end.
(** (decoded bytes, flags). *)
Definition decode_and_validate (m : bestfit_map) (i : bytes) : bytes * N :=
  let d := decode_bytes m utf8dec_new i in
  (rev (ud_out_rev d),
   if ud_seen_valid d && negb (fis_set (ud_flags d) PATH_UTF8_INVALID)
   then fset (ud_flags d) PATH_UTF8_VALID else ud_flags d).

(** src/utf8_decoder.rs:204-222: (path, flags, status). *)
Definition decode_and_validate_inplace (cfg : decoder_cfg) (flags : N) (status : unwanted) (path : bytes)
  : bytes * N * unwanted :=
  let '(out, f) := decode_and_validate (bestfit cfg) path in
  let flags := fset flags f in
  (if utf8_convert_bestfit cfg then out else path, flags,
   if fis_set flags PATH_UTF8_INVALID && negb (is_ignore (utf8_invalid_unwanted cfg))
   then utf8_invalid_unwanted cfg else status).
