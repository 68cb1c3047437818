(** Model of src/uri.rs. *)
From Verif Require Export Base ModelUtil ModelBstr ModelParsers ModelUrl ModelUtf8.

(** src/uri.rs:17-41; the decoder configuration is passed separately. *)
Record uri := {
  u_scheme : option bytes; u_username : option bytes; u_password : option bytes;
  u_hostname : option bytes; u_port : option bytes; u_port_number : option N;
  u_path : option bytes; u_query : option bytes; u_fragment : option bytes
}.

(** src/uri.rs:59-92. *)
Definition uri_default : uri := {|
  u_scheme := None; u_username := None; u_password := None; u_hostname := None; u_port := None;
  u_port_number := None; u_path := None; u_query := None; u_fragment := None |}.

(** src/uri.rs:95-102. *)
Definition normalized_scheme (u : uri) : option bytes := option_map lowers (u_scheme u).

(** Common shape of src/uri.rs:105-120 and 153-159: (value, flags). *)
Definition normalized_component (cfg : decoder_cfg) (c : option bytes) (flags : N) : option bytes * N :=
  match c with Some b => decode_uri_with_flags cfg flags b | None => (None, flags) end.
Definition normalized_username cfg (u : uri) := normalized_component cfg (u_username u).
Definition normalized_password cfg (u : uri) := normalized_component cfg (u_password u).
Definition normalized_fragment cfg (u : uri) := normalized_component cfg (u_fragment u).

(** src/uri.rs:123-136. *)
Definition normalized_hostname (cfg : decoder_cfg) (u : uri) (flags : N) : option bytes * N :=
  match u_hostname u with
  | Some h =>
      let '(r, flags) := decode_uri_with_flags cfg flags h in
      (option_map (fun h => drop_while_end (fun c => c =? 46) (lowers h)) r, flags)
  | None => (None, flags)
  end.

(** src/uri.rs:139-150. *)
Definition normalized_port (u : uri) (flags : N) : option N * N :=
  match u_port u with
  | Some p => match convert_port p with
              | Some n => (Some n, flags)
              | None => (None, fset flags HOSTU_INVALID)
              end
  | None => (None, flags)
  end.

(** src/uri.rs:371-387; [out] is kept reversed. *)
Definition dot : bytes := [46].
Definition dotdot : bytes := [46; 46].
Definition norm_step (out_rev : list bytes) (segment : bytes) : list bytes :=
  if bytes_eqb segment dot then out_rev
  else if bytes_eqb segment dotdot then
    match out_rev with
    | [[]] => out_rev
    | _ => tl out_rev
    end
  else segment :: out_rev.
Definition normalize_uri_path (s : bytes) : bytes :=
  join [47] (rev (fold_left norm_step (split_on (fun c => c =? 47) s) [])).

(** src/uri.rs:162-176: (path, flags, status). *)
Definition normalized_path (cfg : decoder_cfg) (u : uri) (flags : N) (status : unwanted)
  : option bytes * N * unwanted :=
  match u_path u with
  | Some p =>
      let '(p, flags, status) := path_decode_uri_inplace cfg flags status p in
      let '(p, flags, status) := decode_and_validate_inplace cfg flags status p in
      (Some (normalize_uri_path p), flags, status)
  | None => (None, flags, status)
  end.

(** src/uri.rs:182-219. The parsers used are complete, so the outer tuple of [opt]s always succeeds. *)
Definition scheme_authority : parser (bytes * option (bytes * option bytes) * option (bytes * option bytes)) :=
  plet s := scheme in
  plet c := p_opt credentials in
  plet h := p_opt (plet h := hostname in plet p := p_opt port in pret (h, p)) in
  pret (s, c, h).
Definition uri_tuple : parser (option (bytes * option (bytes * option bytes) * option (bytes * option bytes))
                               * option bytes * option bytes * option bytes) :=
  plet sa := p_opt scheme_authority in
  plet p := p_opt path in
  plet q := p_opt query in
  plet f := p_opt fragment in
  pret (sa, p, q, f).
Definition or_some {A} (n o : option A) : option A := match n with Some _ => n | None => o end.
Definition parse_uri (u : uri) (input : bytes) : uri :=
  match uri_tuple input with
  | POk _ (sa, p, q, f) =>
      let '(s, un, pw, hn, po) :=
        match sa with
        | Some (s, cred, hp) =>
            (Some s, option_map fst cred,
             match cred with Some (_, Some w) => Some w | _ => None end,
             option_map fst hp,
             match hp with Some (_, Some w) => Some w | _ => None end)
        | None => (None, None, None, None, None)
        end in
      {| u_scheme := or_some s (u_scheme u); u_username := or_some un (u_username u);
         u_password := or_some pw (u_password u); u_hostname := or_some hn (u_hostname u);
         u_port := or_some po (u_port u); u_port_number := u_port_number u;
         u_path := or_some p (u_path u); u_query := or_some q (u_query u);
         u_fragment := or_some f (u_fragment u) |}
  | _ => u
  end.

(** src/uri.rs:222-238: (uri, flags). *)
Definition parse_uri_hostport (ip6 : bytes -> option bool) (u : uri) (hostport : bytes) (flags : N) : uri * N :=
  match parse_hostport ip6 hostport with
  | POk _ (host, port_nmb, valid) =>
      let '(po, pn, valid) :=
        match port_nmb with
        | Some (p, Some n) => (Some p, Some n, valid)
        | Some (p, None) => (Some p, None, false)
        | None => (None, None, valid)
        end in
      ({| u_scheme := u_scheme u; u_username := u_username u; u_password := u_password u;
          u_hostname := Some (lowers host); u_port := or_some po (u_port u);
          u_port_number := or_some pn (u_port_number u);
          u_path := u_path u; u_query := u_query u; u_fragment := u_fragment u |},
       if valid then flags else fset flags HOSTU_INVALID)
  | _ => (u, flags)
  end.

(** src/uri.rs:241-366: (partial, full, number of DOUBLE_ENCODED_URI warnings). The capacity precomputation has no effect. *)
Definition opt_bytes (pre : bytes) (o : option bytes) (post : bytes) : bytes :=
  match o with Some b => pre ++ b ++ post | None => [] end.
Definition get_bytes (o : option bytes) : bytes := match o with Some b => b | None => [] end.
Definition generate_normalized_uri (cfg : decoder_cfg) (u : uri) : option bytes * option bytes * nat :=
  let auth :=
    opt_bytes [] (u_scheme u) (s2b "://") ++
    (match u_username u, u_password u with
     | None, None => []
     | un, pw => get_bytes un ++ [58] ++ get_bytes pw ++ [64]
     end) ++
    get_bytes (u_hostname u) ++ opt_bytes [58] (u_port u) [] in
  let '(p, w1) :=
    match u_path u with
    | Some p =>
        if double_decode_normalized_path cfg then
          let p' := decode_uri_inplace cfg p in
          (p', if (length p' <? length p)%nat then 1%nat else 0%nat)
        else (p, 0%nat)
    | None => ([], 0%nat)
    end in
  let '(q, w2) :=
    match u_query u with
    | Some q =>
        let q1 := decode_uri_inplace cfg q in
        if double_decode_normalized_query cfg then
          let q2 := decode_uri_inplace cfg q1 in
          ([63] ++ q2, if (length q2 <? length q1)%nat then 1%nat else 0%nat)
        else ([63] ++ q1, 0%nat)
    | None => ([], 0%nat)
    end in
  let partial := p ++ q ++ opt_bytes [35] (u_fragment u) [] in
  let full := auth ++ partial in
  (match full with [] => None | _ => match partial with [] => None | _ => Some partial end end,
   match full with [] => None | _ => Some full end,
   (w1 + w2)%nat).
