(** Model of src/parsers.rs (parse_authorization is in ModelTx.v, next to the transaction it updates). *)
From Verif Require Export Base ModelUtil ModelBstr.

(** src/parsers.rs:26-42. *)
Definition parse_content_type (header : bytes) : option bytes :=
  match (plet _w := take_ascii_whitespace in is_not_c (s2b ";, ")) header with
  | POk _ ct => Some (lowers ct)
  | _ => None
  end.

(** src/parsers.rs:48-73. Second component: the warnings issued when a logger is given (extra data at start, at end). *)
Definition parse_content_length (input : bytes) : option N * (bool * bool) :=
  match ascii_digits input with
  | POk trailing (leading, digits) =>
      (parse_uint 10 u64_max digits,
       (negb (length leading =? 0)%nat, negb (length trailing =? 0)%nat))
  | _ => (None, (false, false))
  end.

(** src/parsers.rs:77-94; [None] is Err(ERROR). *)
Definition parse_chunked_length (input : bytes) : option (option N * bool) :=
  match (plet _c := take_chunked_ctl_chars in hex_digits) input with
  | POk trailing digits =>
      if (length trailing =? 0)%nat && (length digits =? 0)%nat then Some (None, false)
      else match parse_uint 16 u64_max digits with
           | None => None
           | Some n => if i32_max <? n then Some (None, false)
                       else Some (Some n, memb 59 trailing)
           end
  | _ => None
  end.

(** src/parsers.rs:108-117. *)
Definition scheme : parser bytes :=
  plet _n := p_peek (p_not (tag_c (s2b "/"))) in
  plet s := take_until_c (s2b ":") in
  plet _t := tag_c (s2b ":") in
  pret s.

(** src/parsers.rs:135-149. *)
Definition credentials : parser (bytes * option bytes) :=
  fun i =>
    match (plet _a := tag_c (s2b "//") in
           plet _b := p_peek (p_not (tag_c (s2b "/"))) in
           plet c := take_until_c (s2b "@") in
           plet _t := tag_c (s2b "@") in pret c) i with
    | POk rest creds =>
        match p_opt (plet u := take_until_c (s2b ":") in plet _t := tag_c (s2b ":") in pret u) creds with
        | POk password (Some username) => POk rest (username, Some password)
        | POk _ None => POk rest (creds, None)
        | PErr => PErr
        | PInc => PInc
        end
    | PErr => PErr
    | PInc => PInc
    end.

(** src/parsers.rs:164-169. *)
Definition ipv6 : parser bytes :=
  fun i =>
    match (plet _a := tag_c (s2b "[") in plet _b := is_not_c (s2b "/?#]") in p_opt (tag_c (s2b "]"))) i with
    | POk rest _ => POk rest (firstn (length i - length rest) i)
    | PErr => PErr
    | PInc => PInc
    end.

(** [many0(tag(SP))]. *)
Definition many_sp : parser bytes := take_while_c (fun c => c =? 32).

(** src/parsers.rs:183-200. *)
Definition hostname : parser bytes :=
  plet _a := p_opt (tag_c (s2b "//")) in
  plet _b := p_peek (p_not (tag_c (s2b "/"))) in
  plet _c := many_sp in
  plet h := p_alt ipv6 (is_not_c (s2b "/?#:")) in
  pret (drop_while_end (fun c => c =? 32) h).

(** src/parsers.rs:215-223. The inner is_not(SP) runs on the captured slice, its remainder is dropped. *)
Definition port : parser bytes :=
  fun i =>
    match (plet _a := tag_c (s2b ":") in plet _b := many_sp in plet p := is_not_c (s2b "/?#") in
           plet _c := many_sp in pret p) i with
    | POk rest p => match is_not_c [32] p with
                    | POk _ p' => POk rest p'
                    | PErr => PErr
                    | PInc => PInc
                    end
    | PErr => PErr
    | PInc => PInc
    end.

(** src/parsers.rs:238-240, 255-260, 274-280. *)
Definition path : parser bytes := is_not_c (s2b "#?").
Definition query : parser bytes := plet _t := tag_c (s2b "?") in is_not_c (s2b "#").
Definition fragment : parser bytes :=
  fun i => match tag_c (s2b "#") i with POk r _ => POk [] r | PErr => PErr | PInc => PInc end.

(** src/parsers.rs:289-303. Result: rest, host, port text with its number when valid, validity. *)
Definition parse_hostport (ip6 : bytes -> option bool) : parser (bytes * option (bytes * option N) * bool) :=
  fun i =>
    match hostname i with
    | POk rest host =>
        let valid := validate_hostname ip6 host in
        match port rest with
        | POk _ p =>
            match convert_port p with
            | Some n => POk rest (host, Some (p, Some n), valid)
            | None => POk rest (host, Some (p, None), false)
            end
        | _ => POk rest (host, None, if (length rest =? 0)%nat then valid else false)
        end
    | PErr => PErr
    | PInc => PInc
    end.

(** src/transaction.rs HtpProtocol, in its declared order (comparisons use it). *)
Inductive protocol := ProtoInvalid | ProtoUnknown | ProtoV0_9 | ProtoV1_0 | ProtoV1_1.

(** src/parsers.rs:308-323. *)
Definition protocol_version : parser (bytes * bool) :=
  plet _w := take_ascii_whitespace in
  plet _h := tag_no_case_c (s2b "HTTP") in
  plet leading := take_ascii_whitespace in
  plet _s := tag_c (s2b "/") in
  plet trailing := take_while_c (fun c => is_ascii_ws c || (c =? 48)) in
  plet v := p_alt (tag_c (s2b ".9")) (p_alt (tag_c (s2b "1.0")) (tag_c (s2b "1.1"))) in
  plet _w2 := take_ascii_whitespace in
  pret (v, negb (length leading =? 0)%nat || negb (length trailing =? 0)%nat).

(** src/parsers.rs:331-352. Second component: the extra-data warning. *)
Definition parse_protocol (input : bytes) : protocol * bool :=
  match protocol_version input with
  | POk rest (v, extra) =>
      if negb (length rest =? 0)%nat then (ProtoInvalid, false)
      else ((if bytes_eqb v (s2b ".9") then ProtoV0_9
             else if bytes_eqb v (s2b "1.0") then ProtoV1_0
             else if bytes_eqb v (s2b "1.1") then ProtoV1_1
             else ProtoInvalid), extra)
  | _ => (ProtoInvalid, false)
  end.

(** src/parsers.rs:355-370; [None] is HtpResponseNumber::INVALID, [Some n] is VALID(n). *)
Definition parse_status (status : bytes) : option N :=
  match ascii_digits status with
  | POk trailing (leading, digits) =>
      if negb (length trailing =? 0)%nat || negb (length leading =? 0)%nat then None
      else match parse_uint 10 u16_max digits with
           | Some n => if (100 <=? n) && (n <=? 999) then Some n else None
           | None => None
           end
  | _ => None
  end.

(** src/parsers.rs:383-395: the unescaping loop. Each turn consumes at least the quote, so the input length is enough fuel;
    [None] of the outer option is exhaustion. [result] is accumulated in order; its last byte decides. *)
Fixpoint digest_loop (fuel : nat) (remaining result : bytes) : pres bytes :=
  match fuel with
  | O => PInc
  | S fuel' =>
      match (plet a := take_until_c [34] in plet _q := tag_c [34] in pret a) remaining with
      | POk rest a =>
          let result := result ++ a in
          match last_byte result with
          | Some b => if b =? 92 then digest_loop fuel' rest (drop_last result ++ [34])
                      else POk rest result
          | None => POk rest result
          end
      | PErr => PErr
      | PInc => PInc
      end
  end.

(** src/parsers.rs:373-397. *)
Definition parse_authorization_digest (v : bytes) : pres bytes :=
  match (plet _a := take_until_c (s2b "username=") in plet _b := tag_c (s2b "username=") in
         plet _c := take_ascii_whitespace in tag_c [34]) v with
  | POk rest _ => digest_loop (S (length rest)) rest []
  | PErr => PErr
  | PInc => PInc
  end.
