(** Transaction-level processing: the functions that read and update one transaction and write log messages, but call no hook.
    Log messages are returned in the order in which they are issued. *)
From Verif Require Export ModelState.

Definition warning (c : string) : logmsg := mk_log LvWarning c.
Definition error (c : string) : logmsg := mk_log LvError c.
Definition warn_if (b : bool) (c : string) : list logmsg := if b then [warning c] else [].

Definition x_dir (sd : side) (t : tx) : txdir := match sd with SReq => x_req t | SResp => x_resp t end.
Definition set_x_dir (sd : side) (v : txdir) (t : tx) : tx :=
  match sd with SReq => set_x_req v t | SResp => set_x_resp v t end.
Definition upd_dir (sd : side) (f : txdir -> txdir) (t : tx) : tx := set_x_dir sd (f (x_dir sd t)) t.
Definition add_flag (f : N) (t : tx) : tx := set_x_flags (fset (x_flags t) f) t.
Definition is_some {A} (o : option A) : bool := match o with Some _ => true | None => false end.
Definition is_nil {A} (l : list A) : bool := match l with [] => true | _ => false end.
Definition wadd (a b : N) : N := (a + b) mod u64_mod.

(** src/transaction.rs:326-340, the order of [HtpProtocol]. *)
Definition proto_rank (p : protocol) : N :=
  match p with ProtoInvalid => 0 | ProtoUnknown => 1 | ProtoV0_9 => 2 | ProtoV1_0 => 3 | ProtoV1_1 => 4 end.
Definition proto_ltb (a b : protocol) : bool := proto_rank a <? proto_rank b.

(** src/transaction.rs:132-151. *)
Definition in_range (r : respnum) (lo hi : N) : bool :=
  match r with RnValid n => (lo <=? n) && (n <=? hi) | _ => false end.
Definition eq_num (r : respnum) (k : N) : bool := match r with RnValid n => n =? k | _ => false end.

(** src/transaction.rs:718-721. *)
Definition is_started (t : tx) : bool :=
  negb (prog_eqb (t_prog (x_req t)) PNotStarted && prog_eqb (t_prog (x_resp t)) PNotStarted).
(** src/transaction.rs:752-755. *)
Definition request_has_body (t : tx) : bool :=
  match t_coding (x_req t) with CdIdentity | CdChunked => true | _ => false end.
(** src/transaction.rs:983-989. *)
Definition is_complete (t : tx) : bool :=
  prog_eqb (t_prog (x_req t)) PComplete && prog_eqb (t_prog (x_resp t)) PComplete.
(** src/transaction.rs:999-1010. *)
Definition parsed_hostname (t : tx) : option bytes := match x_parsed t with Some u => u_hostname u | None => None end.
Definition parsed_port_number (t : tx) : option N := match x_parsed t with Some u => u_port_number u | None => None end.

(** src/request.rs:97-132. *)
Definition known_methods : list bytes :=
  map s2b ["GET"; "PUT"; "POST"; "DELETE"; "CONNECT"; "OPTIONS"; "TRACE"; "PATCH"; "PROPFIND"; "PROPPATCH"; "MKCOL"; "COPY";
           "MOVE"; "LOCK"; "UNLOCK"; "VERSION-CONTROL"; "CHECKOUT"; "UNCHECKOUT"; "CHECKIN"; "UPDATE"; "LABEL"; "REPORT";
           "MKWORKSPACE"; "MKACTIVITY"; "BASELINE-CONTROL"; "MERGE"; "INVALID"; "HEAD"]%string.
Definition method_new (m : bytes) : hmethod := if existsb (bytes_eqb m) known_methods then MKnown m else MUnknown.
Definition is_unknown (m : hmethod) : bool := match m with MUnknown => true | _ => false end.
Definition is_method (m : hmethod) (name : string) : bool :=
  match m with MKnown n => bytes_eqb n (s2b name) | MUnknown => false end.

(** src/parsers.rs:48-73 with a logger: value and log messages. *)
Definition parse_content_length_log (v : bytes) : option N * list logmsg :=
  let '(n, (ws, we)) := parse_content_length v in
  (n, warn_if ws "CONTENT_LENGTH_EXTRA_DATA_START" ++ warn_if we "CONTENT_LENGTH_EXTRA_DATA_END").
(** src/parsers.rs:329-352 with a logger. *)
Definition parse_protocol_log (v : bytes) : protocol * list logmsg :=
  let '(p, extra) := parse_protocol v in (p, warn_if extra "PROTOCOL_CONTAINS_EXTRA_DATA").

(** First element satisfying [p] replaced by its image. *)
Fixpoint update_first {A} (p : A -> bool) (f : A -> A) (l : list A) : list A :=
  match l with
  | [] => []
  | x :: r => if p x then f x :: r else x :: update_first p f r
  end.

Definition rep_limit : N := 64.
(** src/request.rs:704-758 (process_request_header) and src/response.rs:877-934 (process_response_header). *)
Definition merge_header (sd : side) (h : header) (d : txdir) : txdir * list logmsg :=
  match headers_get_nocase (t_headers d) (hd_name h) with
  | None => (set_t_headers (t_headers d ++ [h]) d, [])
  | Some ex =>
      let repeated := negb (fis_set (hd_flags ex) HF_FIELD_REPEATED) in
      if negb repeated && negb (t_reps d <? rep_limit) then (d, [])
      else
        let is_cl := is_eq (cmp_nocase (hd_name h) (s2b "Content-Length")) in
        let existing_cl := fst (parse_content_length (hd_value ex)) in
        let new_cl := fst (parse_content_length (hd_value h)) in
        let ambiguous :=
          match existing_cl, new_cl with Some a, Some b => negb (a =? b) | _, _ => true end in
        let ex' := mk_header (hd_name ex)
                             (if is_cl then hd_value ex else hd_value ex ++ s2b ", " ++ hd_value h)
                             (fset (hd_flags ex) HF_FIELD_REPEATED) in
        let hs := update_first (fun x => is_eq (cmp_nocase_trimmed (hd_name x) (hd_name h))) (fun _ => ex') (t_headers d) in
        (set_t_reps (if repeated then t_reps d else t_reps d + 1) (set_t_headers hs d),
         warn_if (is_cl && ambiguous)
                 (match sd with SReq => "DUPLICATE_CONTENT_LENGTH_FIELD_IN_REQUEST"
                              | SResp => "DUPLICATE_CONTENT_LENGTH_FIELD_IN_RESPONSE" end) ++
         warn_if repeated
                 (match sd with SReq => "REQUEST_HEADER_REPETITION" | SResp => "RESPONSE_HEADER_REPETITION" end))
  end.

(** src/log.rs:326-336, htp_warn_once: the accumulator is (transaction flags, header flags, messages so far). *)
Definition warn_once (c : string) (flag : N) (acc : N * N * list logmsg) : N * N * list logmsg :=
  let '(xf, hf, lg) := acc in
  (fset xf flag, fset hf flag, lg ++ warn_if (negb (fis_set xf flag)) c).
Definition warn_once_if (b : bool) (c : string) (flag : N) (acc : N * N * list logmsg) : N * N * list logmsg :=
  if b then warn_once c flag acc else acc.
Definition set_hflag_if (b : bool) (flag : N) (acc : N * N * list logmsg) : N * N * list logmsg :=
  let '(xf, hf, lg) := acc in if b then (xf, fset hf flag, lg) else acc.

(** The body of the loops src/request.rs:769-841 and src/response.rs:789-867, up to the call that stores the header. *)
Definition header_flags (sd : side) (ph : pheader) (xf : N) : N * N * list logmsg :=
  let nf := hf_flags (ph_name ph) in
  let vf := hf_flags (ph_value ph) in
  let has f := fis_set nf f in
  match sd with
  | SReq =>
      let a := (xf, 0, []) in
      let a := warn_once_if (has HF_NAME_TRAILING_WHITESPACE) "REQUEST_INVALID_LWS_AFTER_NAME" FIELD_INVALID a in
      let a := warn_once_if (has HF_NAME_LEADING_WHITESPACE) "INVALID_REQUEST_FIELD_FOLDING" INVALID_FOLDING a in
      let a := warn_once_if (has HF_NAME_NON_TOKEN_CHARS) "REQUEST_HEADER_INVALID" FIELD_INVALID a in
      if has HF_MISSING_COLON then warn_once "REQUEST_FIELD_MISSING_COLON" FIELD_UNPARSEABLE a
      else warn_once_if (has HF_NAME_EMPTY) "REQUEST_INVALID_EMPTY_NAME" FIELD_INVALID a
  | SResp =>
      let a := (xf, 0, warn_if (fis_set vf HF_DEFORMED_EOL || has HF_DEFORMED_EOL) "DEFORMED_EOL") in
      let a := warn_once_if (has HF_NAME_TRAILING_WHITESPACE) "RESPONSE_INVALID_LWS_AFTER_NAME" FIELD_INVALID a in
      let lead := has HF_NAME_LEADING_WHITESPACE in
      let a := warn_once_if lead "INVALID_RESPONSE_FIELD_FOLDING" INVALID_FOLDING a in
      let a := set_hflag_if lead FIELD_INVALID a in
      let a := warn_once_if (has HF_NAME_NON_TOKEN_CHARS) "RESPONSE_HEADER_NAME_NOT_TOKEN" FIELD_INVALID a in
      if has HF_MISSING_COLON then
        set_hflag_if true FIELD_INVALID (warn_once "RESPONSE_FIELD_MISSING_COLON" FIELD_UNPARSEABLE a)
      else warn_once_if (has HF_NAME_EMPTY) "RESPONSE_INVALID_EMPTY_NAME" FIELD_INVALID a
  end.
(** One iteration of the same loops. *)
Definition add_header (sd : side) (ph : pheader) (t : tx) : tx * list logmsg :=
  let '(xf, hf, lg) := header_flags sd ph (x_flags t) in
  let t := set_x_flags xf t in
  let '(d, lg2) := merge_header sd (mk_header (hf_bytes (ph_name ph)) (hf_bytes (ph_value ph)) hf) (x_dir sd t) in
  (set_x_dir sd d t, lg ++ lg2).

(** The whole loop, as a function on the transaction, and its messages. The connection model runs the loop with [for_each]. *)
Definition add_headers (sd : side) (l : list pheader) (t : tx) : tx := fold_left (fun t h => fst (add_header sd h t)) l t.
Fixpoint add_headers_log (sd : side) (l : list pheader) (t : tx) : list logmsg :=
  match l with
  | [] => []
  | h :: r => snd (add_header sd h t) ++ add_headers_log sd r (fst (add_header sd h t))
  end.

(** src/transaction.rs:758-826: the framing of the request body. *)
Definition request_framing (t : tx) : tx * list logmsg :=
  let hs := t_headers (x_req t) in
  let set_coding c := upd_dir SReq (set_t_coding c) in
  match headers_get_nocase_nozero hs (s2b "transfer-encoding") with
  | Some te =>
      if negb (is_some (index_of_nocase_nozero (hd_value te) (s2b "chunked"))) then
        (add_flag REQUEST_INVALID (add_flag REQUEST_INVALID_T_E (set_coding CdInvalid t)), [])
      else
        let t := if proto_ltb (t_proton (x_req t)) ProtoV1_1
                 then add_flag REQUEST_SMUGGLING (add_flag REQUEST_INVALID_T_E t) else t in
        let t := set_coding CdChunked t in
        (if is_some (headers_get_nocase_nozero hs (s2b "content-length")) then add_flag REQUEST_SMUGGLING t else t, [])
  | None =>
      match headers_get_nocase_nozero hs (s2b "content-length") with
      | Some cl =>
          let t := if fis_set (hd_flags cl) FIELD_FOLDED then add_flag REQUEST_SMUGGLING t else t in
          let t := if fis_set (hd_flags cl) FIELD_REPEATED then add_flag REQUEST_SMUGGLING t else t in
          let '(n, lg) := parse_content_length_log (hd_value cl) in
          let t := upd_dir SReq (set_t_clen n) t in
          (match n with
           | Some _ => set_coding CdIdentity t
           | None => add_flag REQUEST_INVALID (add_flag REQUEST_INVALID_C_L (set_coding CdInvalid t))
           end, lg)
      | None => (set_coding CdNoBody t, [])
      end
  end.

(** src/transaction.rs:834-889: the request's host. (Lines 827-832 change nothing: the coding was just set.) *)
Definition request_host (ip6 : bytes -> option bool) (t : tx) : tx :=
  let t := match parsed_hostname t with Some h => set_x_host (Some h) t | None => t end in
  let t := match parsed_port_number t with Some p => set_x_port (Some p) t | None => t end in
  match headers_get_nocase_nozero (t_headers (x_req t)) (s2b "host") with
  | Some h =>
      match parse_hostport ip6 (hd_value h) with
      | POk _ (hostname, port_nmb, valid) =>
          let t := if valid then t else add_flag HOSTH_INVALID t in
          match x_host t with
          | None =>
              let t := set_x_host (Some (lowers hostname)) t in
              match port_nmb with Some (_, p) => set_x_port p t | None => t end
          | Some host =>
              let t := if is_eq (cmp_nocase host hostname) then t else add_flag HOST_AMBIGUOUS t in
              match port_nmb with
              | Some (_, p) =>
                  match x_port t with
                  | Some n => if (match p with Some m => n =? m | None => false end) then t else add_flag HOST_AMBIGUOUS t
                  | None => t
                  end
              | None => t
              end
          end
      | _ => if is_some (x_host t) then add_flag HOST_AMBIGUOUS t else t
      end
  | None => if proto_ltb (t_proton (x_req t)) ProtoV1_1 then t else add_flag HOST_MISSING t
  end.

(** src/parsers.rs:373-455; second component: whether the result is Err(DECLINED) (no other error arises). *)
Definition parse_authorization_basic (b64 : bytes -> option bytes) (t : tx) (v : bytes) : tx * bool :=
  match (plet _b := tag_no_case_c (s2b "basic") in take_ascii_whitespace) v with
  | POk rest _ =>
      match b64 rest with
      | Some decoded =>
          match find_sub [58] decoded with
          | Some (username, colon_password) =>
              (set_x_pass (Some (tl colon_password)) (set_x_user (Some username) t), false)
          | None => (t, true)
          end
      | None => (t, true)
      end
  | _ => (t, true)
  end.
Definition parse_authorization (b64 : bytes -> option bytes) (t : tx) : tx * bool :=
  match headers_get_nocase_nozero (t_headers (x_req t)) (s2b "authorization") with
  | None => (set_x_auth AuNone t, false)
  | Some h =>
      let v := hd_value h in
      if starts_with_nocase v (s2b "basic") then parse_authorization_basic b64 (set_x_auth AuBasic t) v
      else if starts_with_nocase v (s2b "digest") then
        let t := set_x_auth AuDigest t in
        match parse_authorization_digest v with
        | POk _ u => (set_x_user (Some u) t, false)
        | _ => (t, true)
        end
      else if starts_with_nocase v (s2b "bearer") then
        let t := set_x_auth AuBearer t in
        match (plet _b := tag_no_case_c (s2b "bearer") in take_ascii_whitespace) v with
        | POk token _ => (set_x_token (Some token) t, false)
        | _ => (t, true)
        end
      else (set_x_auth AuUnrecognized t, false)
  end.

(** src/transaction.rs:894-906. *)
Definition request_auth (e_parse_auth : bool) (b64 : bytes -> option bytes) (t : tx) : tx :=
  if e_parse_auth then
    let '(t, declined) := parse_authorization b64 t in
    if declined then add_flag AUTH_INVALID t else t
  else t.

(** src/transaction.rs:758-907. The boolean says whether the result is Ok; the error is ERROR (from parse_content_type). *)
Definition process_request_headers (parse_auth : bool) (ip6 : bytes -> option bool) (b64 : bytes -> option bytes) (t : tx)
  : bool * tx * list logmsg :=
  let '(t, lg) := request_framing t in
  let t := request_host ip6 t in
  match headers_get_nocase_nozero (t_headers (x_req t)) (s2b "content-type") with
  | Some ct =>
      match parse_content_type (hd_value ct) with
      | Some v => (true, request_auth parse_auth b64 (upd_dir SReq (set_t_ctype (Some v)) t), lg)
      | None => (false, t, lg)
      end
  | None => (true, request_auth parse_auth b64 t, lg)
  end.

(** src/transaction.rs:910-929. *)
Definition validate_response_line (t : tx) : tx * list logmsg :=
  let bad_proto := match t_proton (x_resp t) with ProtoInvalid => true | _ => false end in
  let t := if bad_proto then add_flag STATUS_LINE_INVALID t else t in
  let bad_status := negb (in_range (x_statusn t) 100 999) in
  (if bad_status then add_flag STATUS_LINE_INVALID (set_x_statusn RnInvalid t) else t,
   warn_if bad_proto "RESPONSE_LINE_INVALID_PROTOCOL" ++ warn_if bad_status "RESPONSE_LINE_INVALID_RESPONSE_STATUS").

(** src/transaction.rs:1013-1027. The port text is not copied. *)
Definition normalize_parsed_uri (cfg : decoder_cfg) (raw : uri) (t : tx) : tx :=
  let fl := x_flags t in
  let '(us, fl) := normalized_username cfg raw fl in
  let '(pw, fl) := normalized_password cfg raw fl in
  let '(ho, fl) := normalized_hostname cfg raw fl in
  let '(po, fl) := normalized_port raw fl in
  let '(fr, fl) := normalized_fragment cfg raw fl in
  let '(pa, fl, ex) := normalized_path cfg raw fl (x_expected t) in
  set_x_expected ex (set_x_flags fl (set_x_parsed (Some
    {| u_scheme := normalized_scheme raw; u_username := us; u_password := pw; u_hostname := ho; u_port := None;
       u_port_number := po; u_path := pa; u_query := u_query raw; u_fragment := fr |}) t)).

(** src/transaction.rs:932-950: the URI part of [Transaction::parse_request_line]; [None] is Err(ERROR). *)
Definition parse_request_uri (ip6 : bytes -> option bool) (cfg : decoder_cfg) (t : tx) : option tx :=
  let raw :=
    if is_method (x_methodn t) "CONNECT" then
      match x_uri t with
      | Some u => Some (parse_uri_hostport ip6 uri_default u (x_flags t))
      | None => None
      end
    else match x_uri t with
         | Some u => Some (parse_uri uri_default u, x_flags t)
         | None => Some (uri_default, x_flags t)
         end in
  match raw with
  | None => None
  | Some (raw, fl) =>
      let t := set_x_raw (Some raw) (set_x_flags fl t) in
      Some (if is_some (x_parsed t) then t else normalize_parsed_uri cfg raw t)
  end.

(** src/transaction.rs:951-970: the parameters handed to the parameter processor. *)
Definition query_params (cfg : decoder_cfg) (t : tx) : list (bytes * bytes) :=
  match x_parsed t with
  | Some u => match u_query u with
              | Some q => up_params (parse_complete (urlenp_new cfg) q)
              | None => []
              end
  | None => []
  end.

(** src/transaction.rs:973-978. *)
Definition check_uri_hostname (ip6 : bytes -> option bool) (t : tx) : tx :=
  match parsed_hostname t with
  | Some h => if validate_hostname ip6 h then t else add_flag HOSTU_INVALID t
  | None => t
  end.

(** src/request.rs:850-992, [ConnectionParser::parse_request_line], once the transaction exists. *)
Definition conn_parse_request_line (cfg : config) (line : bytes) (t : tx) : tx * list logmsg :=
  let t := upd_dir SReq (set_t_line (Some line)) t in
  let data := match c_pers cfg with APACHE_2 => fst (span (fun c => negb (c =? 0)) line) | _ => line end in
  let '(ls, rest) := span is_space data in
  let '(method, rest) := span (fun c => negb (is_space c)) rest in
  let '(ws, remaining) := span is_space rest in
  let keep_ls := negb (is_nil ls) && negb (is_ignore (c_ws_unwanted cfg)) in
  let t := if keep_ls then set_x_expected (c_ws_unwanted cfg) t else t in
  let m := if keep_ls then ls ++ method else method in
  let t := set_x_methodn (method_new m) (set_x_method (Some m) t) in
  let lg := warn_if (negb (is_nil ls)) "REQUEST_LINE_LEADING_WHITESPACE" ++
            warn_if (existsb (fun c => negb (c =? 32)) ws) "METHOD_DELIM_NON_COMPLIANT" in
  let set_09 t := upd_dir SReq (set_t_proton ProtoV0_9) (set_x_is09 true t) in
  let unknown := is_unknown (x_methodn t) in
  if is_nil remaining then (set_09 t, lg ++ warn_if unknown "REQUEST_LINE_UNKNOWN_METHOD")
  else
    let remaining := trimmed remaining in
    let '(uri1, proto1) := split_on_predicate remaining (allow_space_uri (c_dcfg cfg)) true (fun c => c =? 32) in
    let retry := (length uri1 =? length remaining)%nat && existsb is_space uri1 in
    let '(uri, proto) :=
      if retry then split_on_predicate remaining (allow_space_uri (c_dcfg cfg)) true is_space else (uri1, proto1) in
    let lg := lg ++ warn_if retry "URI_DELIM_NON_COMPLIANT" in
    let t := set_x_uri (Some uri) t in
    if is_nil proto then (set_09 t, lg ++ warn_if unknown "REQUEST_LINE_UNKNOWN_METHOD_NO_PROTOCOL")
    else
      let '(pn, lg2) := parse_protocol_log proto in
      let t := upd_dir SReq (fun d => set_t_proton pn (set_t_proto (Some proto) d)) t in
      (t, lg ++ lg2 ++ warn_if (unknown && match pn with ProtoInvalid => true | _ => false end)
                               "REQUEST_LINE_UNKNOWN_METHOD_INVALID_PROTOCOL").

(** src/response.rs:731-776, [parse_response_line], once the transaction exists (the parsers it uses never fail). *)
Definition conn_parse_response_line (line : bytes) (t : tx) : tx * list logmsg :=
  let t := set_x_msg None (set_x_statusn RnInvalid (set_x_status None
             (upd_dir SResp (fun d => set_t_proton ProtoInvalid (set_t_line (Some line) d)) t))) in
  let '(_, rest) := span (fun c => is_space c || (c =? 0)) line in
  let '(proto, rest) := span (fun c => negb (is_space c)) rest in
  let '(ws1, rest) := span is_space rest in
  let '(code, rest) := span (fun c => negb (is_space c)) rest in
  let '(ws2, message) := span is_ascii_ws rest in
  if is_nil proto then (t, [])
  else
    let '(pn, lg) := parse_protocol_log proto in
    let t := upd_dir SResp (fun d => set_t_proton pn (set_t_proto (Some proto) d)) t in
    if is_nil ws1 || is_nil code then (t, lg)
    else
      let t := set_x_statusn (match parse_status code with Some n => RnValid n | None => RnInvalid end)
                             (set_x_status (Some code) t) in
      if is_nil ws2 then (t, lg) else (set_x_msg (Some (chomp message)) t, lg).

(** The fast path of src/request.rs:1107-1130 and src/response.rs:1125-1148: the encoding, and whether to go through the list. *)
Definition fast_encoding (v : bytes) : cenc * bool :=
  let is s := is_eq (cmp_nocase_nozero v (s2b s)) in
  if is "gzip"%string || is "x-gzip"%string then (CeGzip, false)
  else if is "deflate"%string || is "x-deflate"%string then (CeDeflate, false)
  else if is "lzma"%string then (CeLzma, false)
  else if is "inflate"%string || is "none"%string then (CeNone, false)
  else (CeNone, true).

(** One element of the list, src/request.rs:1163-1218 and src/response.rs:1184-1234. *)
Definition token_encoding (v : bytes) : cenc * list logmsg :=
  let is s := bytes_eqb v (s2b s) in
  if is_some (index_of_nocase v (s2b "gzip")) then
    (CeGzip, warn_if (negb (is "gzip"%string || is "x-gzip"%string)) "ABNORMAL_CE_HEADER")
  else if is_some (index_of_nocase v (s2b "deflate")) then
    (CeDeflate, warn_if (negb (is "deflate"%string || is "x-deflate"%string)) "ABNORMAL_CE_HEADER")
  else if is "lzma"%string then (CeLzma, [])
  else if is "inflate"%string || is "none"%string then (CeNone, [])
  else (CeNone, [warning "ABNORMAL_CE_HEADER"]).

(** src/request.rs:1239-1270 and src/response.rs:1316-1349: neither constructor fails for the encodings that get here. *)
Definition prepend_decompressor (ce : cenc) (d : txdir) : txdir :=
  match ce with
  | CeNone => d
  | _ => match t_dec d with
         | Some dc => set_t_dec (Some (DoLayer ce :: dc)) d
         | None => set_t_dec (Some [DoLayer ce]) (set_t_cep ce d)
         end
  end.

Definition over (limit : option N) (n : N) : bool := match limit with Some l => l <? n | None => false end.
(** The loops src/request.rs:1146-1220 and src/response.rs:1165-1237. A request compares the number of all layers with the lzma limit,
    a response the number of lzma layers. *)
Fixpoint encoding_list (sd : side) (cfg : config) (layers lzma : N) (l : list bytes) (d : txdir) : txdir * list logmsg :=
  match l with
  | [] => (d, [])
  | v :: r =>
      if is_nil v then encoding_list sd cfg layers lzma r d
      else
        let layers := layers + 1 in
        if over (c_layer_limit cfg) layers then (d, [warning "TOO_MANY_ENCODING_LAYERS"])
        else
          let '(ce, lg) := token_encoding v in
          let is_lzma := match ce with CeLzma => true | _ => false end in
          let lzma := if is_lzma then lzma + 1 else lzma in
          if is_lzma && over (c_lzma_layers cfg) (match sd with SReq => layers | SResp => lzma end)
          then (d, lg ++ [warning (match sd with SReq => "REQUEST_TOO_MANY_LZMA_LAYERS"
                                               | SResp => "RESPONSE_TOO_MANY_LZMA_LAYERS" end)])
          else
            let '(d, lg2) := encoding_list sd cfg layers lzma r (prepend_decompressor ce d) in
            (d, lg ++ lg2)
  end.

Definition decompression_enabled (sd : side) (cfg : config) : bool :=
  match sd with SReq => c_req_decomp cfg | SResp => c_resp_decomp cfg end.
(** src/request.rs:1094-1236 and src/response.rs:1107-1251. *)
Definition initialize_decompressors (sd : side) (cfg : config) (d : txdir) : txdir * list logmsg :=
  let ce := headers_get_nocase_nozero (t_headers d) (s2b "content-encoding") in
  let '(fast, slow_path) := match ce with Some h => fast_encoding (hd_value h) | None => (CeNone, false) end in
  let d := set_t_ce fast d in
  let enabled := decompression_enabled sd cfg in
  let slow_path := enabled && slow_path in
  let cep := if enabled then fast else CeNone in
  let d := set_t_cep cep d in
  match cep with
  | CeNone =>
      match ce with
      | Some h => if slow_path
                  then encoding_list sd cfg 0 0 (split_on (fun c => (c =? 44) || (c =? 32)) (hd_value h)) d
                  else (d, [])
      | None => (d, [])
      end
  | _ => (prepend_decompressor cep d, [])
  end.
