(** Model of src/util.rs. *)
From Verif Require Export Base.

(** src/util.rs:33-61, [FlagOperations] for u8 and u64. A flag word is an [N]; [unset] uses [N.ldiff], i.e. and-not. *)
Definition fset (w f : N) : N := N.lor w f.
Definition funset (w f : N) : N := N.ldiff w f.
Definition fis_set (w f : N) : bool := negb (N.land w f =? 0).

(** src/util.rs:71-146, [HtpFlags]. *)
Definition FIELD_UNPARSEABLE : N := 0x4.
Definition FIELD_INVALID : N := 0x8.
Definition FIELD_FOLDED : N := 0x10.
Definition FIELD_REPEATED : N := 0x20.
Definition FIELD_LONG : N := 0x40.
Definition FIELD_RAW_NUL : N := 0x80.
Definition REQUEST_SMUGGLING : N := 0x100.
Definition INVALID_FOLDING : N := 0x200.
Definition REQUEST_INVALID_T_E : N := 0x400.
Definition MULTI_PACKET_HEAD : N := 0x800.
Definition HOST_MISSING : N := 0x1000.
Definition HOST_AMBIGUOUS : N := 0x2000.
Definition PATH_ENCODED_NUL : N := 0x4000.
Definition PATH_RAW_NUL : N := 0x8000.
Definition PATH_INVALID_ENCODING : N := 0x10000.
Definition PATH_INVALID : N := 0x20000.
Definition PATH_OVERLONG_U : N := 0x40000.
Definition PATH_ENCODED_SEPARATOR : N := 0x80000.
Definition PATH_UTF8_VALID : N := 0x100000.
Definition PATH_UTF8_INVALID : N := 0x200000.
Definition PATH_UTF8_OVERLONG : N := 0x400000.
Definition PATH_HALF_FULL_RANGE : N := 0x800000.
Definition STATUS_LINE_INVALID : N := 0x1000000.
Definition HOSTU_INVALID : N := 0x2000000.
Definition HOSTH_INVALID : N := 0x4000000.
Definition HOST_INVALID : N := N.lor HOSTU_INVALID HOSTH_INVALID.
Definition URLEN_ENCODED_NUL : N := 0x8000000.
Definition URLEN_INVALID_ENCODING : N := 0x10000000.
Definition URLEN_OVERLONG_U : N := 0x20000000.
Definition URLEN_HALF_FULL_RANGE : N := 0x40000000.
Definition URLEN_RAW_NUL : N := 0x80000000.
Definition REQUEST_INVALID : N := 0x100000000.
Definition REQUEST_INVALID_C_L : N := 0x200000000.
Definition AUTH_INVALID : N := 0x400000000.
Definition MISSING_BYTES : N := 0x800000000.
Definition REQUEST_MISSING_BYTES : N := N.lor 0x1000000000 MISSING_BYTES.
Definition RESPONSE_MISSING_BYTES : N := N.lor 0x2000000000 MISSING_BYTES.

(** src/util.rs:150-161, [Eol]. *)
Inductive eol := EolNone | EolLF | EolCR | EolCRLF | EolLFCR.

(** src/util.rs:168-190. *)
Definition is_separator (c : N) : bool := memb c (s2b "()<>@,;:\/[]?={} " ++ [34; 9]).

(** src/util.rs:195-197. *)
Definition is_token (c : N) : bool := (32 <=? c) && (c <=? 126) && negb (is_separator c).

(** src/util.rs:200-202. *)
Definition take_ascii_whitespace : parser bytes := take_while_c is_ascii_ws.

(** src/util.rs:206-216: the loop dropping trailing CR/LF is [drop_while_end]. *)
Definition chomp (data : bytes) : bytes := drop_while_end (fun b => (b =? 10) || (b =? 13)) data.

(** src/util.rs:292-294. *)
Definition is_space (c : N) : bool :=
  (c =? 32) || (c =? 9) || (c =? 13) || (c =? 10) || (c =? 11) || (c =? 12).

(** src/util.rs:219-247. *)
Definition trim_start (i : bytes) : bytes := drop_while is_space i.
Definition trim_end (i : bytes) : bytes := drop_while_end is_space i.
Definition trimmed (i : bytes) : bytes := trim_end (trim_start i).

(** src/util.rs:257-288, [split_on_predicate]. *)
Definition split_on_predicate (i : bytes) (reverse do_trim : bool) (p : N -> bool) : bytes * bytes :=
  let (a, b) :=
    if reverse then
      match split_last p i with Some (a, b) => (a, b) | None => (i, []) end
    else
      match split_first p i with (a, Some b) => (a, b) | (a, None) => (a, []) end in
  if do_trim then (trimmed a, trimmed b) else (a, b).

(** src/util.rs:299-301. *)
Definition is_line_empty (d : bytes) : bool :=
  bytes_eqb d [13] || bytes_eqb d [10] || bytes_eqb d [13; 10].

(** src/util.rs:305-307. *)
Definition is_line_whitespace (d : bytes) : bool := forallb is_space d.

(** nom::character::is_space: SP or HT. *)
Definition nom_is_space (b : N) : bool := (b =? 32) || (b =? 9).

(** src/util.rs:451-473. *)
Definition nom_take_is_space : parser bytes := take_while_c nom_is_space.
Definition take_until_null : parser bytes := take_while_c (fun c => negb (c =? 0)).
Definition take_is_space : parser bytes := take_while_c is_space.
Definition take_is_space_or_null : parser bytes := take_while_c (fun c => is_space c || (c =? 0)).
Definition take_not_is_space : parser bytes := take_while_c (fun c => negb (is_space c)).

(** src/util.rs:313-325: rest is what follows the digits and spaces; value is (leading junk, digits). *)
Definition ascii_digits : parser (bytes * bytes) :=
  plet _x := nom_take_is_space in
  plet leading := take_while_c (fun c => negb (is_digit c)) in
  plet digits := take_while1_c is_digit in
  plet _y := nom_take_is_space in
  pret (leading, digits).

(** src/util.rs:331-342. *)
Definition hex_digits : parser bytes :=
  plet _x := nom_take_is_space in
  plet digits := take_while_c is_hexdigit in
  plet _y := nom_take_is_space in
  pret digits.

(** src/config.rs HtpServerPersonality; only the values the modelled code distinguishes are named, the others behave alike
    and are collapsed into [PersOther]. *)
Inductive personality := IIS_5_0 | APACHE_2 | PersOther.

(** src/util.rs:345-371. *)
Definition is_line_terminator (pers : personality) (data : bytes) (next_no_lf : bool) : bool :=
  if (match pers with IIS_5_0 => is_line_whitespace data | _ => false end) then true
  else if is_line_empty data then true
  else match data with
       | [a; b] => if nom_is_space a && (b =? 10) then next_no_lf else false
       | _ => false
       end.
Definition is_line_ignorable (pers : personality) (data : bytes) : bool :=
  is_line_terminator pers data false.

(** src/util.rs:376-386. from_utf8 followed by parse: a non-UTF-8 slice contains a non-digit byte, so both fail together. *)
Definition convert_port (port : bytes) : option N :=
  match port with
  | [] => None
  | _ => match parse_uint 10 u16_max port with
         | Some n => if n =? 0 then None else Some n
         | None => None
         end
  end.

(** src/util.rs:394-401. *)
Definition treat_response_line_as_body (data : bytes) : bool :=
  match (plet _x := p_opt take_is_space_or_null in tag_no_case_c (s2b "http")) data with
  | POk _ _ => false
  | _ => true
  end.

(** char::is_alphanumeric on the Latin-1 range: what [(c as char).is_alphanumeric()] means for a byte. *)
Definition latin1_alnum (c : N) : bool :=
  is_digit c || ((65 <=? c) && (c <=? 90)) || ((97 <=? c) && (c <=? 122))
  || memb c [170; 178; 179; 181; 185; 186; 188; 189; 190]
  || ((192 <=? c) && (c <=? 214)) || ((216 <=? c) && (c <=? 246)) || ((248 <=? c) && (c <=? 255)).

(** src/util.rs:406-443. [ipv6] stands for from_utf8 + std::net::Ipv6Addr::from_str: [None] when not UTF-8. *)
Definition host_label_ok (s : bytes) : bool :=
  (length s <=? 63)%nat && forallb (fun c => (c =? 95) || (c =? 45) || latin1_alnum c) s.
Definition validate_hostname (ipv6 : bytes -> option bool) (input : bytes) : bool :=
  if (length input =? 0)%nat || (255 <? length input)%nat then false
  else
    let rest :=
      if starts_with [46] input then false
      else match find_sub [46; 46] input with
           | Some _ => false
           | None => forallb host_label_ok (split_on (fun c => c =? 46) input)
           end in
    match (plet _a := char_c 91 in plet addr := is_not_c (s2b "#?/]") in plet _b := char_c 93 in pret addr) input with
    | POk _ addr => match ipv6 addr with Some ok => ok | None => rest end
    | _ => rest
    end.

(** src/util.rs:477-487: data up to and including the terminator. *)
Definition take_till_incl_s (p : N -> bool) : parser bytes :=
  fun data =>
    match take_till_s p data with
    | POk _ line => POk (skipn (S (length line)) data) (firstn (S (length line)) data)
    | PErr => PErr
    | PInc => PInc
    end.
Definition take_till_lf_null : parser bytes := take_till_incl_s (fun c => (c =? 10) || (c =? 0)).
Definition take_till_lf : parser bytes := take_till_incl_s (fun c => c =? 10).

(** src/util.rs:492-524. *)
Definition eol_alternatives : parser bytes :=
  p_alt (tag_s [13; 10])
 (p_alt
   (p_alt (plet e := tag_s [13] in plet _n := p_not (tag_s [10]) in pret e)
   (p_alt (plet e := tag_s [10; 13] in plet _n := p_not (tag_s [10]) in pret e)
          (plet e := tag_s [10] in plet _n := p_not (tag_s [13]) in pret e)))
   (plet e := tag_s [10] in plet _n := p_peek (tag_s [13; 10]) in pret e)).
Definition take_till_eol : parser (bytes * eol) :=
  fun data =>
    match (plet line := take_till_s (fun c => (c =? 10) || (c =? 13)) in
           plet e := eol_alternatives in pret (line, e)) data with
    | POk _ (line, e) =>
        let n := length line in
        if bytes_eqb e [10] then POk (skipn (n + 1) data) (firstn (n + 1) data, EolLF)
        else if bytes_eqb e [13] then POk (skipn (n + 1) data) (firstn (n + 1) data, EolCR)
        else if bytes_eqb e [13; 10] then POk (skipn (n + 2) data) (firstn (n + 2) data, EolCRLF)
        else if bytes_eqb e [10; 13] then POk (skipn (n + 2) data) (firstn (n + 2) data, EolLFCR)
        else PInc
    | PErr => PErr
    | PInc => PInc
    end.

(** src/util.rs:542-544, 527-529. *)
Definition is_chunked_ctl_char (c : N) : bool :=
  (c =? 13) || (c =? 10) || (c =? 32) || (c =? 9) || (c =? 11) || (c =? 12).
Definition take_chunked_ctl_chars : parser bytes := take_while_c is_chunked_ctl_char.

(** src/util.rs:534-540. *)
Definition is_valid_chunked_length_data (data : bytes) : bool :=
  match (plet _c := take_chunked_ctl_chars in take_while1_c (fun c => negb (is_hexdigit c))) data with
  | POk _ _ => false
  | _ => true
  end.

(** src/util.rs:547-554. *)
Definition is_chunked_ctl_line (l : bytes) : bool := forallb is_chunked_ctl_char l.
