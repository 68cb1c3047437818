(** Properties C60 and C61 of properties.jsonl: the host and the credentials of a request, decided when its header block is complete.
    Vocabulary: SpecHost.v; header lookup: SpecTx.v; [host_text]: SpecMsg.v. *)
From Verif Require Import ProofsUrl ProofsUri.
From Verif Require Import Base Spec SpecTx SpecMsg SpecHost ModelUtil ModelBstr ModelUri ModelHeaders ModelState ModelTx ProofsBase ProofsBstr ProofsTx ProofsHost.

(** * C60 *)
(** The host in the target wins, whatever the Host header says. *)
Theorem C60_target_host_wins : forall p ip6 b64 t ok t' lg h n, process_request_headers p ip6 b64 t = (ok, t', lg) ->
  undecided t -> target_host t h n -> x_host t' = Some h /\ x_port t' = n.
Proof. intros p ip6 b64 t ok t' lg h n. exact (uri_host_wins p ip6 b64 t ok t' lg h n). Qed.
Print Assumptions C60_target_host_wins.
(** Without it the host is that of the Host header, in lower case; nothing is ambiguous then. *)
Theorem C60_header_host : forall p ip6 b64 t ok t' lg l h n, process_request_headers p ip6 b64 t = (ok, t', lg) ->
  undecided t -> target_without_host t -> the_header (t_headers (x_req t)) (s2b "host") l -> host_text (hd_value l) h n ->
  x_host t' = Some (lowers h) /\ x_port t' = n /\ fis_set (x_flags t') HOST_AMBIGUOUS = fis_set (x_flags t) HOST_AMBIGUOUS.
Proof. exact header_host_used. Qed.
Print Assumptions C60_header_host.
(** With both, the flag says exactly whether they differ: in the name, up to letter case, or in the ports if both give one. *)
Theorem C60_ambiguous_exact : forall p ip6 b64 t ok t' lg l h n h' n', process_request_headers p ip6 b64 t = (ok, t', lg) ->
  undecided t -> target_host t h n -> the_header (t_headers (x_req t)) (s2b "host") l -> host_text (hd_value l) h' n' ->
  (fis_set (x_flags t') HOST_AMBIGUOUS = true <->
   fis_set (x_flags t) HOST_AMBIGUOUS = true \/ lowers h <> lowers h' \/ exists a b, n = Some a /\ n' = Some b /\ a <> b).
Proof. exact host_ambiguous. Qed.
Print Assumptions C60_ambiguous_exact.
(** The flag for a missing host says exactly that an HTTP/1.1 request has no Host header, whatever its target. *)
Theorem C60_missing_exact : forall p ip6 b64 t ok t' lg, process_request_headers p ip6 b64 t = (ok, t', lg) ->
  (fis_set (x_flags t') HOST_MISSING = true <->
   fis_set (x_flags t) HOST_MISSING = true \/ (lacks (t_headers (x_req t)) (s2b "host") /\ t_proton (x_req t) = ProtoV1_1)).
Proof. exact host_missing. Qed.
Print Assumptions C60_missing_exact.
(** No host is made up. *)
Theorem C60_no_host : forall p ip6 b64 t ok t' lg, process_request_headers p ip6 b64 t = (ok, t', lg) ->
  undecided t -> target_without_host t -> lacks (t_headers (x_req t)) (s2b "host") -> undecided t' /\
  fis_set (x_flags t') HOST_AMBIGUOUS = fis_set (x_flags t) HOST_AMBIGUOUS /\ fis_set (x_flags t') HOSTH_INVALID = fis_set (x_flags t) HOSTH_INVALID.
Proof. exact host_absent. Qed.
Print Assumptions C60_no_host.
(** The flag for an invalid Host header says exactly that the host breaks the rules of C10, *)
Theorem C60_invalid_exact : forall p ip6 b64 t ok t' lg l h n, process_request_headers p ip6 b64 t = (ok, t', lg) ->
  the_header (t_headers (x_req t)) (s2b "host") l -> host_text (hd_value l) h n -> Forall is_byte h -> (forall addr, ~ bracketed h addr) ->
  (fis_set (x_flags t') HOSTH_INVALID = true <-> fis_set (x_flags t) HOSTH_INVALID = true \/ ~ good_hostname h).
Proof. exact host_invalid. Qed.
Print Assumptions C60_invalid_exact.
(** or, for an address in brackets, that the address parser refuses it. *)
Theorem C60_invalid_address_exact : forall p ip6 b64 t ok t' lg l h n addr good, process_request_headers p ip6 b64 t = (ok, t', lg) ->
  the_header (t_headers (x_req t)) (s2b "host") l -> host_text (hd_value l) h n -> bracketed h addr -> (length h <= 255)%nat -> ip6 addr = Some good ->
  (fis_set (x_flags t') HOSTH_INVALID = true <-> fis_set (x_flags t) HOSTH_INVALID = true \/ good = false).
Proof. exact host_literal_invalid. Qed.
Print Assumptions C60_invalid_address_exact.
(** A port that is no port number sets it too. *)
Theorem C60_invalid_port : forall p ip6 b64 t ok t' lg l h d, process_request_headers p ip6 b64 t = (ok, t', lg) ->
  the_header (t_headers (x_req t)) (s2b "host") l -> hd_value l = h ++ s2b ":" ++ d -> plain_host h \/ literal_host h -> bad_port d ->
  fis_set (x_flags t') HOSTH_INVALID = true.
Proof. exact port_invalid. Qed.
Print Assumptions C60_invalid_port.
(** So does anything else that follows the host, *)
Theorem C60_invalid_rest : forall p ip6 b64 t ok t' lg l h r, process_request_headers p ip6 b64 t = (ok, t', lg) ->
  the_header (t_headers (x_req t)) (s2b "host") l -> hd_value l = h ++ r -> plain_host h \/ literal_host h -> no_port r ->
  fis_set (x_flags t') HOSTH_INVALID = true.
Proof. exact rest_invalid. Qed.
Print Assumptions C60_invalid_rest.
(** A request with the given target host, and Host header. *)
Definition asks (h : string) (n : option N) (hs : list (string * string)) : tx :=
  upd_dir SReq (fun d => set_t_proton ProtoV1_1 (set_t_headers (map (fun x => mk_header (s2b (fst x)) (s2b (snd x)) 0) hs) d))
    (set_x_parsed (Some {| u_scheme := None; u_username := None; u_password := None; u_hostname := match s2b h with [] => None | b => Some b end; u_port := None; u_port_number := n;
                           u_path := Some (s2b "/"); u_query := None; u_fragment := None |}) tx_new).
Definition decided (t : tx) : bool * option bytes * option N * bool * bool * bool :=
  let '(ok, t, _) := process_request_headers true (fun _ => None) (fun _ => None) t in
  (ok, x_host t, x_port t, fis_set (x_flags t) HOST_AMBIGUOUS, fis_set (x_flags t) HOST_MISSING, fis_set (x_flags t) HOSTH_INVALID).
Example C60_ex :
  decided (asks "h" (Some 81) [("hOST", "H:81")]%string) = (true, Some (s2b "h"), Some 81, false, false, false) /\
  decided (asks "h" (Some 81) [("Host", "h:82")]%string) = (true, Some (s2b "h"), Some 81, true, false, false) /\
  decided (asks "h" None [("Host", "g")]%string) = (true, Some (s2b "h"), None, true, false, false) /\
  decided (asks "" None [("X", "1"); ("Host", "WWW.g.org:8080"); ("Host", "h")]%string) = (true, Some (s2b "www.g.org"), Some 8080, false, false, false) /\
  decided (asks "" None [("Host", "a..b:99999")]%string) = (true, Some (s2b "a..b"), None, false, false, true) /\
  decided (asks "" None [("Host", "g/x")]%string) = (true, Some (s2b "g"), None, false, false, true) /\
  decided (asks "" None [("Host", "g:")]%string) = (true, Some (s2b "g"), None, false, false, true) /\
  decided (asks "h" None []) = (true, Some (s2b "h"), None, false, true, false) /\
  decided (asks "" None [("Host", "/")]%string) = (true, None, None, false, false, false).
Proof. repeat split; vm_compute; reflexivity. Qed.

(** * C61 *)
(** Credentials are read when [p] asks for it (and the header block is accepted): otherwise nothing changes. *)
Theorem C61_off : forall ip6 b64 t ok t' lg, process_request_headers false ip6 b64 t = (ok, t', lg) ->
  identity t' = identity t /\ fis_set (x_flags t') AUTH_INVALID = fis_set (x_flags t) AUTH_INVALID.
Proof. exact auth_off. Qed.
Print Assumptions C61_off.
Theorem C61_none : forall ip6 b64 t t' lg, process_request_headers true ip6 b64 t = (true, t', lg) -> lacks (t_headers (x_req t)) (s2b "authorization") ->
  identity t' = (AuNone, x_user t, x_pass t, x_token t) /\ fis_set (x_flags t') AUTH_INVALID = fis_set (x_flags t) AUTH_INVALID.
Proof. exact auth_none. Qed.
Print Assumptions C61_none.
(** Basic: the user is what the decoded text has before its first colon, the password all the rest. *)
Theorem C61_basic : forall ip6 b64 t t' lg a, process_request_headers true ip6 b64 t = (true, t', lg) -> the_header (t_headers (x_req t)) (s2b "authorization") a ->
  forall enc u pw, says_credentials "basic" (hd_value a) enc -> b64 enc = Some (u ++ s2b ":" ++ pw) -> ~ In 58 u ->
  identity t' = (AuBasic, Some u, Some pw, x_token t) /\ fis_set (x_flags t') AUTH_INVALID = fis_set (x_flags t) AUTH_INVALID.
Proof. exact auth_basic. Qed.
Print Assumptions C61_basic.
(** Text that does not decode, or to something without a colon, is flagged and no name is reported. *)
Theorem C61_basic_invalid : forall ip6 b64 t t' lg a, process_request_headers true ip6 b64 t = (true, t', lg) -> the_header (t_headers (x_req t)) (s2b "authorization") a ->
  forall enc, says_credentials "basic" (hd_value a) enc -> (forall d, b64 enc = Some d -> ~ In 58 d) ->
  identity t' = (AuBasic, x_user t, x_pass t, x_token t) /\ fis_set (x_flags t') AUTH_INVALID = true.
Proof. exact auth_basic_bad. Qed.
Print Assumptions C61_basic_invalid.
Theorem C61_bearer : forall ip6 b64 t t' lg a, process_request_headers true ip6 b64 t = (true, t', lg) -> the_header (t_headers (x_req t)) (s2b "authorization") a ->
  forall tok, says_credentials "bearer" (hd_value a) tok ->
  identity t' = (AuBearer, x_user t, x_pass t, Some tok) /\ fis_set (x_flags t') AUTH_INVALID = fis_set (x_flags t) AUTH_INVALID.
Proof. exact auth_bearer. Qed.
Print Assumptions C61_bearer.
(** Digest: the user is the quoted text behind the first "username=" (C47). *)
Theorem C61_digest : forall ip6 b64 t t' lg a, process_request_headers true ip6 b64 t = (true, t', lg) -> the_header (t_headers (x_req t)) (s2b "authorization") a ->
  forall pre ws u rest, says_scheme "digest" (hd_value a) -> hd_value a = pre ++ s2b "username=" ++ ws ++ [34] ++ escape_quotes u ++ [34] ++ rest ->
  (forall x y, pre ++ s2b "username=" = x ++ s2b "username=" ++ y -> y = []) -> Forall ascii_space ws -> (forall v, u <> v ++ [92]) ->
  identity t' = (AuDigest, Some u, x_pass t, x_token t) /\ fis_set (x_flags t') AUTH_INVALID = fis_set (x_flags t) AUTH_INVALID.
Proof. exact auth_digest. Qed.
Print Assumptions C61_digest.
Theorem C61_digest_invalid : forall ip6 b64 t t' lg a, process_request_headers true ip6 b64 t = (true, t', lg) -> the_header (t_headers (x_req t)) (s2b "authorization") a ->
  says_scheme "digest" (hd_value a) -> (forall x y, hd_value a <> x ++ s2b "username=" ++ y) ->
  identity t' = (AuDigest, x_user t, x_pass t, x_token t) /\ fis_set (x_flags t') AUTH_INVALID = true.
Proof. exact auth_digest_bad. Qed.
Print Assumptions C61_digest_invalid.
Theorem C61_other : forall ip6 b64 t t' lg a, process_request_headers true ip6 b64 t = (true, t', lg) -> the_header (t_headers (x_req t)) (s2b "authorization") a ->
  ~ says_scheme "basic" (hd_value a) -> ~ says_scheme "digest" (hd_value a) -> ~ says_scheme "bearer" (hd_value a) ->
  identity t' = (AuUnrecognized, x_user t, x_pass t, x_token t) /\ fis_set (x_flags t') AUTH_INVALID = fis_set (x_flags t) AUTH_INVALID.
Proof. exact auth_other. Qed.
Print Assumptions C61_other.
(** With a decoder that drops the first byte. *)
Definition says (v : bytes) : bool * (authtype * option bytes * option bytes * option bytes) * bool :=
  let '(ok, t, _) := process_request_headers true (fun _ => None) (fun b => match b with [] => None | _ :: r => Some r end)
    (upd_dir SReq (set_t_headers [mk_header (s2b "AUTHORIZATION") v 0]) tx_new) in
  (ok, identity t, fis_set (x_flags t) AUTH_INVALID).
Example C61_ex :
  says (s2b "bAsic  xann:a:b") = (true, (AuBasic, Some (s2b "ann"), Some (s2b "a:b"), None), false) /\
  says (s2b "Basic xann") = (true, (AuBasic, None, None, None), true) /\
  says (s2b "Bearer tok en") = (true, (AuBearer, None, None, Some (s2b "tok en")), false) /\
  says (s2b "Digest realm=x, username=" ++ [34; 97; 92; 34; 98; 34]) = (true, (AuDigest, Some [97; 34; 98], None, None), false) /\
  says (s2b "Digest user=x") = (true, (AuDigest, None, None, None), true) /\
  says (s2b "Negotiate x") = (true, (AuUnrecognized, None, None, None), false).
Proof. repeat split; vm_compute; reflexivity. Qed.
Example C61_ex_credentials : says_credentials "basic" (s2b "bAsic  xann:a:b") (s2b "xann:a:b").
Proof.
  exists (s2b "bAsic"), [32; 32]. split; [reflexivity|]. split; [apply name_eq_lowers; reflexivity|]. split; [repeat constructor; unfold ascii_space; lia|].
  intros x r [= <- _]. unfold ascii_space. lia.
Qed.
