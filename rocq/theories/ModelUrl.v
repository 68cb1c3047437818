(** Model of src/urlencoded.rs and of the DecoderConfig part of src/config.rs. *)
From Verif Require Export Base ModelUtil ModelBstr ModelBestfit.

(** src/config.rs HtpUnwanted and HtpUrlEncodingHandling. *)
Inductive unwanted := UIgnore | U400 | U404.
Inductive url_handling := PRESERVE_PERCENT | REMOVE_PERCENT | PROCESS_INVALID.
Definition is_ignore (u : unwanted) : bool := match u with UIgnore => true | _ => false end.

(** src/config.rs:158-205, DecoderConfig. path_separators_encoded_unwanted, allow_space_uri and normalized_uri_include_all are
    read elsewhere (the last by nothing modelled here). *)
Record decoder_cfg := {
  double_decode_normalized_path : bool;
  double_decode_normalized_query : bool;
  backslash_convert_slashes : bool;
  convert_lowercase : bool;
  path_separators_compress : bool;
  path_separators_decode : bool;
  plusspace_decode : bool;
  nul_raw_terminates : bool;
  nul_raw_unwanted : unwanted;
  control_chars_unwanted : unwanted;
  allow_space_uri : bool;
  u_encoding_decode : bool;
  u_encoding_unwanted : unwanted;
  url_encoding_invalid_handling : url_handling;
  url_encoding_invalid_unwanted : unwanted;
  nul_encoded_terminates : bool;
  nul_encoded_unwanted : unwanted;
  utf8_invalid_unwanted : unwanted;
  utf8_convert_bestfit : bool;
  bestfit : bestfit_map
}.

(** src/config.rs:207-234. *)
Definition decoder_default : decoder_cfg := {|
  double_decode_normalized_path := false; double_decode_normalized_query := false;
  backslash_convert_slashes := false; convert_lowercase := false;
  path_separators_compress := false; path_separators_decode := false; plusspace_decode := true;
  nul_raw_terminates := false; nul_raw_unwanted := UIgnore; control_chars_unwanted := UIgnore;
  allow_space_uri := false; u_encoding_decode := false; u_encoding_unwanted := UIgnore;
  url_encoding_invalid_handling := PRESERVE_PERCENT; url_encoding_invalid_unwanted := UIgnore;
  nul_encoded_terminates := false; nul_encoded_unwanted := UIgnore; utf8_invalid_unwanted := UIgnore;
  utf8_convert_bestfit := false; bestfit := bestfit_default |}.

(** src/urlencoded.rs:164-178, [x2c]: u8 arithmetic. [x2c_nibble] is the value before the final u8 addition.
    [x2c_val] is the release-profile (wrapping) result, [x2c_checked] the debug-profile one, [None] being the overflow panic. *)
Definition x2c_nibble_checked (c : N) : option N :=
  if 65 <=? c then
    let m := N.land c 0xdf in
    if m <? 65 then None else if 255 <? m - 65 + 10 then None else Some (m - 65 + 10)
  else if c <? 48 then None else Some (c - 48).
Definition x2c_nibble (c : N) : N :=
  if 65 <=? c then (N.land c 0xdf + 256 - 65 + 10) mod 256 else (c + 256 - 48) mod 256.
Definition x2c_val (c1 c2 : N) : N := (x2c_nibble c1 * 16 mod 256 + x2c_nibble c2) mod 256.
Definition x2c_checked (c1 c2 : N) : option N :=
  match x2c_nibble_checked c1, x2c_nibble_checked c2 with
  | Some a, Some b => let v := a * 16 mod 256 + b in if 255 <? v then None else Some v
  | _, _ => None
  end.
Definition x2c : parser N :=
  fun i => match i with c1 :: c2 :: r => POk r (x2c_val c1 c2) | _ => PErr end.

(** What the alternatives return: decoded byte, expected status, flags, whether to output. *)
Definition dec_out := (N * unwanted * N * bool)%type.

(** [take_while_m_n(n, n, is_ascii_hexdigit)] and [take(n)]. *)
Definition take_hex (n : nat) : parser bytes :=
  fun i => if (length i <? n)%nat then PErr
           else if forallb is_hexdigit (firstn n i) then POk (skipn n i) (firstn n i) else PErr.
Definition take_c (n : nat) : parser bytes :=
  fun i => if (length i <? n)%nat then PErr else POk (skipn n i) (firstn n i).

(** src/urlencoded.rs:183-208. *)
Definition path_decode_u_encoding (cfg : decoder_cfg) : parser (N * N * unwanted) :=
  plet c1 := x2c in
  plet c2 := x2c in
  let '(r, flags, code) :=
    if c1 =? 0 then (c2, PATH_OVERLONG_U, UIgnore)
    else (bestfit_get (bestfit cfg) (bestfit_key c1 c2),
          (if c1 =? 0xff then PATH_HALF_FULL_RANGE else 0),
          u_encoding_unwanted cfg) in
  let flags := if (r =? 47) || (backslash_convert_slashes cfg && (r =? 92))
               then fset flags PATH_ENCODED_SEPARATOR else flags in
  pret (r, flags, code).

(** src/urlencoded.rs:213-229. *)
Definition decode_u_encoding_params (cfg : decoder_cfg) : parser (N * N) :=
  plet c1 := x2c in
  plet c2 := x2c in
  if c1 =? 0 then pret (c2, URLEN_OVERLONG_U)
  else pret (bestfit_get (bestfit cfg) (bestfit_key c1 c2),
             if (c1 =? 0xff) && (c2 <=? 0xef) then URLEN_HALF_FULL_RANGE else 0).

(** src/urlencoded.rs:448-470. *)
Definition path_decode_control (cfg : decoder_cfg) (b : N) : N * unwanted :=
  let code := if b <? 0x20 then control_chars_unwanted cfg else UIgnore in
  let b := if (b =? 92) && backslash_convert_slashes cfg then 47 else b in
  let b := if convert_lowercase cfg then lower b else b in
  (b, code).
Definition or_code (old new : unwanted) : unwanted := if is_ignore new then old else new.

Definition tag_u : parser bytes := tag_no_case_c (s2b "u").

(** src/urlencoded.rs:234-271. *)
Definition path_decode_valid_u_encoding (cfg : decoder_cfg) : parser dec_out :=
  fun i =>
    match tag_u i with
    | POk lft _ =>
        if u_encoding_decode cfg then
          match take_hex 4 lft with
          | POk out hex =>
              match path_decode_u_encoding cfg hex with
              | POk _ (b, f, c) =>
                  let code := or_code (u_encoding_unwanted cfg) c in
                  if b =? 0 then
                    let flags := fset f PATH_ENCODED_NUL in
                    let code := or_code code (nul_encoded_unwanted cfg) in
                    if nul_encoded_terminates cfg then POk [] (b, code, flags, false)
                    else let (b', c') := path_decode_control cfg b in
                         POk out (b', or_code code c', flags, true)
                  else let (b', c') := path_decode_control cfg b in
                       POk out (b', or_code code c', f, true)
              | PErr => PErr | PInc => PInc
              end
          | PErr => PErr | PInc => PInc
          end
        else let (b', c') := path_decode_control cfg 37 in
             POk i (b', or_code UIgnore c', 0, true)
    | PErr => PErr | PInc => PInc
    end.

(** src/urlencoded.rs:276-309. *)
Definition path_decode_invalid_u_encoding (cfg : decoder_cfg) : parser dec_out :=
  fun i =>
    match tag_u i with
    | POk lft _ =>
        if u_encoding_decode cfg then
          match take_c 4 lft with
          | POk out hex =>
              let code := url_encoding_invalid_unwanted cfg in
              match url_encoding_invalid_handling cfg with
              | REMOVE_PERCENT => POk i (37, code, PATH_INVALID_ENCODING, false)
              | PROCESS_INVALID =>
                  match path_decode_u_encoding cfg hex with
                  | POk _ (b, f, c) =>
                      let (b', c') := path_decode_control cfg b in
                      POk out (b', or_code (or_code code c) c', fset PATH_INVALID_ENCODING f, true)
                  | PErr => PErr | PInc => PInc
                  end
              | PRESERVE_PERCENT =>
                  let (b', c') := path_decode_control cfg 37 in
                  POk i (b', or_code code c', PATH_INVALID_ENCODING, true)
              end
          | PErr => PErr | PInc => PInc
          end
        else let (b', c') := path_decode_control cfg 37 in
             POk i (b', or_code UIgnore c', 0, true)
    | PErr => PErr | PInc => PInc
    end.

(** The two closures at src/urlencoded.rs:390-403 and 406-418. *)
Definition keeps_percent (cfg : decoder_cfg) : bool :=
  match url_encoding_invalid_handling cfg with REMOVE_PERCENT => false | _ => true end.
Definition path_incomplete_u (cfg : decoder_cfg) : parser dec_out :=
  fun i => match tag_u i with
           | POk _ _ => POk i (37, url_encoding_invalid_unwanted cfg, PATH_INVALID_ENCODING, keeps_percent cfg)
           | PErr => PErr | PInc => PInc
           end.
Definition path_incomplete (cfg : decoder_cfg) : parser dec_out :=
  fun i => POk i (37, url_encoding_invalid_unwanted cfg, PATH_INVALID_ENCODING, keeps_percent cfg).

(** src/urlencoded.rs:314-343. *)
Definition path_decode_valid_hex (cfg : decoder_cfg) : parser dec_out :=
  fun i =>
    match p_not tag_u i with
    | POk _ _ =>
        match take_hex 2 i with
        | POk lft hex =>
            match x2c hex with
            | POk _ b =>
                let flags := if b =? 0 then PATH_ENCODED_NUL else 0 in
                if (b =? 0) && nul_encoded_terminates cfg
                then POk [] (b, nul_encoded_unwanted cfg, flags, false)
                else if (b =? 47) || (backslash_convert_slashes cfg && (b =? 92)) then
                  let flags := fset flags PATH_ENCODED_SEPARATOR in
                  if path_separators_decode cfg then
                    let (b', c') := path_decode_control cfg b in POk lft (b', c', flags, true)
                  else
                    let (b', c') := path_decode_control cfg 37 in POk i (b', c', flags, true)
                else let (b', c') := path_decode_control cfg b in POk lft (b', c', flags, true)
            | PErr => PErr | PInc => PInc
            end
        | PErr => PErr | PInc => PInc
        end
    | PErr => PErr | PInc => PInc
    end.

(** src/urlencoded.rs:348-372. The inner [expected_status_code] shadows url_encoding_invalid_unwanted, as in the code. *)
Definition path_decode_invalid_hex (cfg : decoder_cfg) : parser dec_out :=
  fun i =>
    match p_not tag_u i with
    | POk _ _ =>
        match take_c 2 i with
        | POk lft hex =>
            match url_encoding_invalid_handling cfg with
            | REMOVE_PERCENT => POk i (37, url_encoding_invalid_unwanted cfg, PATH_INVALID_ENCODING, false)
            | PROCESS_INVALID =>
                match x2c hex with
                | POk _ b => let (b', c') := path_decode_control cfg b in
                             POk lft (b', c', PATH_INVALID_ENCODING, true)
                | PErr => PErr | PInc => PInc
                end
            | PRESERVE_PERCENT => let (b', c') := path_decode_control cfg 37 in
                                  POk i (b', c', PATH_INVALID_ENCODING, true)
            end
        | PErr => PErr | PInc => PInc
        end
    | PErr => PErr | PInc => PInc
    end.

(** src/urlencoded.rs:380-424. *)
Definition path_decode_percent (cfg : decoder_cfg) : parser dec_out :=
  plet _p := char_c 37 in
  p_alt (path_decode_valid_u_encoding cfg)
 (p_alt (path_decode_invalid_u_encoding cfg)
 (p_alt (path_incomplete_u cfg)
 (p_alt (path_decode_valid_hex cfg)
 (p_alt (path_decode_invalid_hex cfg)
        (path_incomplete cfg))))).

(** src/urlencoded.rs:430-444. *)
Definition path_parse_other (cfg : decoder_cfg) : parser dec_out :=
  fun i => match i with
           | [] => PErr
           | b :: r =>
               if (b =? 0) && nul_raw_terminates cfg then POk [] (b, nul_raw_unwanted cfg, 0, false)
               else let (b', c') := path_decode_control cfg b in POk r (b', c', 0, true)
           end.

(** nom [fold_many0]: stop with the accumulator at the first Error; an application that consumes nothing is an Error.
    [None] is fuel exhaustion (never reached with fuel above the input length, see fold_many0_fuel). *)
Fixpoint fold_many0 {A S} (fuel : nat) (p : parser A) (f : S -> A -> S) (s : S) (i : bytes) : option (pres S) :=
  match fuel with
  | O => None
  | Datatypes.S fuel' =>
      match p i with
      | POk r a => if (length r =? length i)%nat then Some PErr else fold_many0 fuel' p f (f s a) r
      | PErr => Some (POk i s)
      | PInc => Some PInc
      end
  end.

Definition dec_acc := (bytes * N * unwanted)%type.

(** src/urlencoded.rs:479-507. *)
Definition path_decode_push (cfg : decoder_cfg) (acc : dec_acc) (o : dec_out) : dec_acc :=
  let '(out, fl, _) := acc in
  let '(b, code, flag, insert) := o in
  let out' :=
    if insert then
      if (b =? 47) && path_separators_compress cfg then
        match last_byte out with
        | Some l => if l =? 47 then out else out ++ [b]
        | None => out ++ [b]
        end
      else out ++ [b]
    else out in
  (out', fset fl flag, code).
Definition path_decode_uri (cfg : decoder_cfg) (i : bytes) : option (pres dec_acc) :=
  fold_many0 (S (length i)) (p_alt (path_decode_percent cfg) (path_parse_other cfg))
             (path_decode_push cfg) ([], 0, UIgnore) i.

(** src/urlencoded.rs:511-525: new (path, flags, status). *)
Definition path_decode_uri_inplace (cfg : decoder_cfg) (flag : N) (status : unwanted) (p : bytes)
  : bytes * N * unwanted :=
  match path_decode_uri cfg p with
  | Some (POk _ (out, fl, code)) => (out, fset flag fl, code)
  | _ => (p, flag, status)
  end.

(** [alt((char(u), char(U)))]. *)
Definition char_u : parser N := p_alt (char_c 117) (char_c 85).

(** src/urlencoded.rs:587-599. *)
Definition decode_valid_u_encoding (cfg : decoder_cfg) : parser dec_out :=
  fun i =>
    match char_u i with
    | POk lft _ =>
        if u_encoding_decode cfg then
          match take_hex 4 lft with
          | POk out hex =>
              match decode_u_encoding_params cfg hex with
              | POk _ (b, f) => POk out (b, u_encoding_unwanted cfg, f, true)
              | PErr => PErr | PInc => PInc
              end
          | PErr => PErr | PInc => PInc
          end
        else POk i (37, UIgnore, 0, true)
    | PErr => PErr | PInc => PInc
    end.

(** src/urlencoded.rs:605-635. *)
Definition decode_invalid_u_encoding (cfg : decoder_cfg) : parser dec_out :=
  fun i =>
    match char_u i with
    | POk lft _ =>
        if u_encoding_decode cfg then
          match take_c 4 lft with
          | POk out hex =>
              let code := if is_ignore (url_encoding_invalid_unwanted cfg)
                          then u_encoding_unwanted cfg else url_encoding_invalid_unwanted cfg in
              match url_encoding_invalid_handling cfg with
              | REMOVE_PERCENT => POk i (37, code, URLEN_INVALID_ENCODING, false)
              | PROCESS_INVALID =>
                  match decode_u_encoding_params cfg hex with
                  | POk _ (b, f) => POk out (b, code, fset URLEN_INVALID_ENCODING f, true)
                  | PErr => PErr | PInc => PInc
                  end
              | PRESERVE_PERCENT => POk i (37, code, URLEN_INVALID_ENCODING, true)
              end
          | PErr => PErr | PInc => PInc
          end
        else POk i (37, UIgnore, 0, true)
    | PErr => PErr | PInc => PInc
    end.

(** src/urlencoded.rs:641-649. *)
Definition decode_valid_hex : parser dec_out :=
  fun i =>
    match p_not char_u i with
    | POk _ _ =>
        match take_hex 2 i with
        | POk lft hex =>
            match x2c hex with
            | POk _ b => POk lft (b, UIgnore, 0, true)
            | PErr => PErr | PInc => PInc
            end
        | PErr => PErr | PInc => PInc
        end
    | PErr => PErr | PInc => PInc
    end.

(** src/urlencoded.rs:655-681. *)
Definition decode_invalid_hex (cfg : decoder_cfg) : parser dec_out :=
  fun i =>
    match p_not char_u i with
    | POk _ _ =>
        let code := url_encoding_invalid_unwanted cfg in
        match url_encoding_invalid_handling cfg with
        | REMOVE_PERCENT => POk i (37, code, URLEN_INVALID_ENCODING, false)
        | PROCESS_INVALID =>
            match x2c i with
            | POk lft b => POk lft (b, code, URLEN_INVALID_ENCODING, true)
            | PErr => PErr | PInc => PInc
            end
        | PRESERVE_PERCENT => POk i (37, code, URLEN_INVALID_ENCODING, true)
        end
    | PErr => PErr | PInc => PInc
    end.

(** The closure at src/urlencoded.rs:699-712. *)
Definition decode_incomplete (cfg : decoder_cfg) : parser dec_out :=
  fun i => POk i (37, url_encoding_invalid_unwanted cfg, URLEN_INVALID_ENCODING, keeps_percent cfg).

(** src/urlencoded.rs:689-727. *)
Definition decode_percent (cfg : decoder_cfg) : parser dec_out :=
  fun i =>
    match (plet _p := char_c 37 in
           p_alt (decode_valid_u_encoding cfg)
          (p_alt (decode_invalid_u_encoding cfg)
          (p_alt decode_valid_hex
          (p_alt (decode_invalid_hex cfg)
                 (decode_incomplete cfg))))) i with
    | POk r (b, code, flags, insert) =>
        if b =? 0 then
          let flags := fset flags URLEN_ENCODED_NUL in
          let code := or_code code (nul_encoded_unwanted cfg) in
          if nul_encoded_terminates cfg then POk [] (b, code, flags, false)
          else POk r (b, code, flags, insert)
        else POk r (b, code, flags, insert)
    | PErr => PErr | PInc => PInc
    end.

(** src/urlencoded.rs:732-746. *)
Definition decode_plus (cfg : decoder_cfg) : parser dec_out :=
  plet b := char_c 43 in pret (if plusspace_decode cfg then 0x20 else b, UIgnore, 0, true).

(** src/urlencoded.rs:752-772. *)
Definition unencoded_byte (cfg : decoder_cfg) : parser dec_out :=
  fun i => match i with
           | [] => PErr
           | b :: r =>
               if b =? 0 then
                 POk (if nul_raw_terminates cfg then [] else r)
                     (b, nul_raw_unwanted cfg, URLEN_RAW_NUL, negb (nul_raw_terminates cfg))
               else POk r (b, UIgnore, 0, true)
           end.

(** src/urlencoded.rs:533-551. *)
Definition decode_push (acc : dec_acc) (o : dec_out) : dec_acc :=
  let '(out, fl, st) := acc in
  let '(b, code, flag, insert) := o in
  (if insert then out ++ [b] else out, fset fl flag, or_code st code).
Definition decode_unit (cfg : decoder_cfg) : parser dec_out :=
  p_alt (decode_percent cfg) (p_alt (decode_plus cfg) (unencoded_byte cfg)).
Definition decode_uri (cfg : decoder_cfg) (i : bytes) : option (pres dec_acc) :=
  fold_many0 (S (length i)) (decode_unit cfg) decode_push ([], 0, UIgnore) i.

(** src/urlencoded.rs:555-571: decoded text (None is the error) and updated flags. *)
Definition decode_uri_with_flags (cfg : decoder_cfg) (flags : N) (i : bytes) : option bytes * N :=
  match decode_uri cfg i with
  | Some (POk _ (out, f, _)) =>
      let flags := if fis_set f URLEN_INVALID_ENCODING then fset flags PATH_INVALID_ENCODING else flags in
      let flags := if fis_set f URLEN_ENCODED_NUL then fset flags PATH_ENCODED_NUL else flags in
      let flags := if fis_set f URLEN_RAW_NUL then fset flags PATH_RAW_NUL else flags in
      (Some out, flags)
  | _ => (None, flags)
  end.

(** src/urlencoded.rs:576-581; callers ignore the error and keep the input. *)
Definition decode_uri_inplace (cfg : decoder_cfg) (i : bytes) : bytes :=
  match decode_uri cfg i with
  | Some (POk _ (out, _, _)) => out
  | _ => i
  end.

(** src/urlencoded.rs:152-157: [None] for an empty segment, else (name, value). *)
Definition name_value (i : bytes) : option (bytes * bytes) :=
  match (plet _p := p_peek (take_c 1) in
         plet name := take_while_c (fun c => negb (c =? 61)) in
         plet _e := p_opt (char_c 61) in pret name) i with
  | POk value name => Some (name, value)
  | _ => None
  end.

(** src/urlencoded.rs:23-42, the Parser. *)
Record urlenp := {
  up_cfg : decoder_cfg;
  up_sep : N;
  up_decode : bool;
  up_params : table bytes;
  up_flags : N;
  up_status : unwanted;
  up_complete : bool;
  up_saw_data : bool;
  up_field : bytes
}.

(** src/urlencoded.rs:46-58, 132-147. *)
Definition urlenp_new (cfg : decoder_cfg) : urlenp := {|
  up_cfg := cfg; up_sep := 38; up_decode := true; up_params := []; up_flags := 0; up_status := UIgnore;
  up_complete := false; up_saw_data := false; up_field := [] |}.

(** Decoding of one component inside parse_partial (src/urlencoded.rs:107-122): (text, flags, status). *)
Definition urlenp_decode (cfg : decoder_cfg) (t : bytes) (fl : N) (st : unwanted) : bytes * N * unwanted :=
  match decode_uri cfg t with
  | Some (POk _ (out, f, s)) => (out, fset fl f, s)
  | _ => (t, fl, st)
  end.

(** The for_each body, src/urlencoded.rs:102-126. *)
Definition urlenp_segment (p : urlenp) (segment : bytes) : urlenp :=
  match name_value segment with
  | None => p
  | Some (name, value) =>
      let '(name, value, fl, st) :=
        if up_decode p then
          let '(n, fl, st) := urlenp_decode (up_cfg p) name (up_flags p) (up_status p) in
          let '(v, fl, st) := urlenp_decode (up_cfg p) value fl st in
          (n, v, fl, st)
        else (name, value, up_flags p, up_status p) in
      {| up_cfg := up_cfg p; up_sep := up_sep p; up_decode := up_decode p;
         up_params := table_add (up_params p) name value; up_flags := fl; up_status := st;
         up_complete := up_complete p; up_saw_data := up_saw_data p; up_field := up_field p |}
  end.

Definition up_set_field (p : urlenp) (f : bytes) : urlenp :=
  {| up_cfg := up_cfg p; up_sep := up_sep p; up_decode := up_decode p; up_params := up_params p;
     up_flags := up_flags p; up_status := up_status p; up_complete := up_complete p;
     up_saw_data := up_saw_data p; up_field := f |}.
Definition up_set_saw (p : urlenp) : urlenp :=
  {| up_cfg := up_cfg p; up_sep := up_sep p; up_decode := up_decode p; up_params := up_params p;
     up_flags := up_flags p; up_status := up_status p; up_complete := up_complete p;
     up_saw_data := true; up_field := up_field p |}.
Definition up_set_complete (p : urlenp) : urlenp :=
  {| up_cfg := up_cfg p; up_sep := up_sep p; up_decode := up_decode p; up_params := up_params p;
     up_flags := up_flags p; up_status := up_status p; up_complete := true;
     up_saw_data := up_saw_data p; up_field := up_field p |}.
Definition up_set_params (p : urlenp) (t : table bytes) : urlenp :=
  {| up_cfg := up_cfg p; up_sep := up_sep p; up_decode := up_decode p; up_params := t;
     up_flags := up_flags p; up_status := up_status p; up_complete := up_complete p;
     up_saw_data := up_saw_data p; up_field := up_field p |}.

(** src/urlencoded.rs:80-129. *)
Definition parse_partial (p : urlenp) (data : bytes) : urlenp :=
  let input := up_field p ++ data in
  let p := up_set_field p input in
  match input with
  | [] =>
      if up_complete p && (table_size (up_params p) =? 0)%nat && up_saw_data p
      then up_set_params p (table_add (up_params p) [] []) else p
  | _ =>
      let p := up_set_saw p in
      let issep := fun c => c =? up_sep p in
      let segs := fun i => fold_left urlenp_segment (split_on issep i) p in
      if up_complete p then up_set_field (segs input) []
      else match split_last issep input with
           | Some (before, after) => up_set_field (segs before) after
           | None => p
           end
  end.

(** src/urlencoded.rs:63-75. *)
Definition urlenp_finalize (p : urlenp) : urlenp := parse_partial (up_set_complete p) [].
Definition parse_complete (p : urlenp) (data : bytes) : urlenp := urlenp_finalize (parse_partial p data).
