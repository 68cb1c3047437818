(** Property theorems for the byte-string, line and field parsers (C01-C10, C42, C47). *)
From Verif Require Import Base Spec ModelUtil ModelBstr ModelParsers ProofsBase ProofsBstr ProofsParsers.

(** * C01 *)
Theorem C01_table_lookup_first_match : forall (T : Type) (t : table T) (k : bytes),
  (forall e, table_get_nocase t k = Some e <-> first_such (fun x => key_matches (fst x) k) t e) /\
  (table_get_nocase t k = None <-> Forall (fun x => ~ key_matches (fst x) k) t).
Proof. exact table_lookup_first_match. Qed.
Print Assumptions C01_table_lookup_first_match.
Theorem C01_header_lookup_first_match : forall (t : headers_tab) (k : bytes),
  (forall h, headers_get_nocase_nozero t k = Some h <-> first_such (fun x => hkey_matches (hd_name x) k) t h) /\
  (headers_get_nocase_nozero t k = None <-> Forall (fun x => ~ hkey_matches (hd_name x) k) t).
Proof. exact header_lookup_first_match. Qed.
Print Assumptions C01_header_lookup_first_match.
Theorem C01_header_lookup_nul_sensitive : forall (t : headers_tab) (k : bytes),
  (forall h, headers_get_nocase t k = Some h <-> first_such (fun x => key_matches (hd_name x) k) t h) /\
  (headers_get_nocase t k = None <-> Forall (fun x => ~ key_matches (hd_name x) k) t).
Proof. exact header_lookup_exact_first_match. Qed.
Print Assumptions C01_header_lookup_nul_sensitive.
Theorem C01_lookup_case_blind : forall (T : Type) (t : table T) (hs : headers_tab) (k k' : bytes), name_eq k k' ->
  table_get_nocase t k = table_get_nocase t k' /\ headers_get_nocase_nozero hs k = headers_get_nocase_nozero hs k'.
Proof. exact lookup_case_blind. Qed.
Print Assumptions C01_lookup_case_blind.
Example C01_ex :
  table_get_nocase [(s2b "A", 1); (s2b " fOo ", 2); (s2b "foo", 3)] (s2b "FOO") = Some (s2b " fOo ", 2) /\
  headers_get_nocase_nozero [mk_header (s2b "X") [] 0; mk_header ([72; 0] ++ s2b "ost") [49] 0] (s2b "host")
    = Some (mk_header ([72; 0] ++ s2b "ost") [49] 0).
Proof. vm_compute. auto. Qed.

(** * C02 *)
Theorem C02_search_found : forall h n i, index_of_nocase_nozero h n = Some i <->
  n <> [] /\ occurs_nonul_at h n i /\ (forall j, (j < i)%nat -> ~ occurs_nonul_at h n j).
Proof. exact index_of_nocase_nozero_found. Qed.
Print Assumptions C02_search_found.
Theorem C02_search_complete : forall h n,
  (exists i, index_of_nocase_nozero h n = Some i) <->
  n <> [] /\ exists a w b, nonul h = a ++ w ++ b /\ name_eq w n.
Proof. exact search_complete. Qed.
Print Assumptions C02_search_complete.
Example C02_ex : index_of_nocase_nozero (s2b "gz, CH" ++ [0] ++ s2b "unked") (s2b "chunked") = Some 4%nat.
Proof. reflexivity. Qed.

(** * C03 *)
Theorem C03_take_till_lf : forall data,
  (forall rest line, take_till_lf data = POk rest line <-> data = line ++ rest /\ exists l, line = l ++ [10] /\ ~ In 10 l)
  /\ (take_till_lf data = PInc <-> ~ In 10 data) /\ take_till_lf data <> PErr.
Proof. exact take_till_lf_spec. Qed.
Print Assumptions C03_take_till_lf.
Theorem C03_take_till_lf_null : forall data,
  (forall rest line, take_till_lf_null data = POk rest line <->
     data = line ++ rest /\ exists l c, line = l ++ [c] /\ (c = 10 \/ c = 0) /\ ~ In 10 l /\ ~ In 0 l)
  /\ (take_till_lf_null data = PInc <-> ~ In 10 data /\ ~ In 0 data) /\ take_till_lf_null data <> PErr.
Proof. exact take_till_lf_null_spec. Qed.
Print Assumptions C03_take_till_lf_null.
Theorem C03_chomp : forall l, exists t, l = chomp l ++ t /\ Forall (fun b => b = 10 \/ b = 13) t /\
  (forall x a, chomp l = a ++ [x] -> x <> 10 /\ x <> 13).
Proof. exact chomp_spec. Qed.
Print Assumptions C03_chomp.
Theorem C03_trimmed : forall l, trims_to c_space l (trimmed l).
Proof. exact trimmed_spec. Qed.
Print Assumptions C03_trimmed.
Example C03_ex : take_till_lf (s2b "ab" ++ [13; 10] ++ s2b "c") = POk (s2b "c") (s2b "ab" ++ [13; 10])
  /\ chomp (s2b "ab" ++ [10; 13; 10]) = s2b "ab" /\ trimmed (s2b "  a b ") = s2b "a b".
Proof. vm_compute. auto. Qed.

(** * C04 *)
Theorem C04_eol_stable : forall data more rest line k,
  take_till_eol data = POk rest (line, k) -> take_till_eol (data ++ more) = POk (rest ++ more) (line, k).
Proof. exact take_till_eol_stable. Qed.
Print Assumptions C04_eol_stable.
Theorem C04_eol_line : forall data rest line k, take_till_eol data = POk rest (line, k) ->
  exists l e, data = line ++ rest /\ line = l ++ e /\ ~ In 10 l /\ ~ In 13 l /\
    ((k = EolLF /\ e = [10]) \/ (k = EolCR /\ e = [13]) \/ (k = EolCRLF /\ e = [13; 10]) \/ (k = EolLFCR /\ e = [10; 13])).
Proof. exact take_till_eol_line. Qed.
Print Assumptions C04_eol_line.
Theorem C04_eol_never_fails : forall data, take_till_eol data <> PErr /\
  (take_till_eol data = PInc -> exists more rest line k, take_till_eol (data ++ more) = POk rest (line, k)).
Proof. exact take_till_eol_total. Qed.
Print Assumptions C04_eol_never_fails.
Example C04_ex : take_till_eol (s2b "a" ++ [10; 13] ++ s2b "b") = POk (s2b "b") (s2b "a" ++ [10; 13], EolLFCR)
  /\ take_till_eol (s2b "a" ++ [10; 13]) = PInc /\ take_till_eol (s2b "a" ++ [10; 13; 10]) = POk [13; 10] (s2b "a" ++ [10], EolLF).
Proof. vm_compute. auto. Qed.

(** * C05 *)
Theorem C05_content_length_exact : forall v n,
  fst (parse_content_length v) = Some n <-> exists ds, first_digit_run v ds /\ dec_value ds = n /\ n < 2 ^ 64.
Proof. exact parse_content_length_value. Qed.
Print Assumptions C05_content_length_exact.
Theorem C05_content_length_none : forall v,
  fst (parse_content_length v) = None <->
  Forall (fun b => ~ digit b) v \/ exists ds, first_digit_run v ds /\ 2 ^ 64 <= dec_value ds.
Proof. exact parse_content_length_none. Qed.
Print Assumptions C05_content_length_none.
(** The two warnings: something other than blanks before, or after, the digits. *)
Theorem C05_content_length_warnings : forall v junk ds rest,
  v = junk ++ ds ++ rest -> Forall (fun b => ~ digit b) junk -> ds <> [] -> Forall digit ds -> (forall x rest', rest = x :: rest' -> ~ digit x) ->
  (fst (snd (parse_content_length v)) = true <-> ~ Forall sp_or_tab junk) /\
  (snd (snd (parse_content_length v)) = true <-> ~ Forall sp_or_tab rest).
Proof. exact parse_content_length_warnings. Qed.
Print Assumptions C05_content_length_warnings.
Example C05_ex : fst (parse_content_length (s2b "a 18446744073709551615;9")) = Some 18446744073709551615
  /\ fst (parse_content_length (s2b "18446744073709551616")) = None.
Proof. vm_compute. auto. Qed.

(** * C06 *)
Theorem C06_chunk_length_value : forall line n ext,
  parse_chunked_length line = Some (Some n, ext) <->
  exists hex trail, chunk_line line hex trail /\ hex <> [] /\ hex_value hex = n /\ n <= 2 ^ 31 - 1 /\ (ext = true <-> In 59 trail).
Proof. exact parse_chunked_length_value. Qed.
Print Assumptions C06_chunk_length_value.
Theorem C06_chunk_length_absent : forall line b,
  parse_chunked_length line = Some (None, b) <->
  b = false /\ exists hex trail, chunk_line line hex trail /\
    ((hex = [] /\ trail = []) \/ (hex <> [] /\ 2 ^ 31 <= hex_value hex < 2 ^ 64)).
Proof. exact parse_chunked_length_absent. Qed.
Print Assumptions C06_chunk_length_absent.
Theorem C06_chunk_length_error : forall line,
  parse_chunked_length line = None <->
  exists hex trail, chunk_line line hex trail /\ ((hex = [] /\ trail <> []) \/ 2 ^ 64 <= hex_value hex).
Proof. exact parse_chunked_length_error. Qed.
Print Assumptions C06_chunk_length_error.
Example C06_ex : parse_chunked_length ([13; 10; 32] ++ s2b "7fFFffff ;x") = Some (Some 2147483647, true)
  /\ parse_chunked_length (s2b "80000000") = Some (None, false) /\ parse_chunked_length (s2b "xyz") = None
  /\ parse_chunked_length (s2b "10000000000000000") = None.
Proof. vm_compute. auto. Qed.

(** * C07 *)
Theorem C07_status_exact : forall s n,
  parse_status s = Some n <->
  exists a ds b, s = a ++ ds ++ b /\ Forall sp_or_tab a /\ Forall sp_or_tab b /\ ds <> [] /\ Forall digit ds
    /\ dec_value ds = n /\ 100 <= n <= 999.
Proof. exact parse_status_spec. Qed.
Print Assumptions C07_status_exact.
Example C07_ex : parse_status (s2b " 0200 ") = Some 200 /\ parse_status (s2b "99") = None /\ parse_status (s2b "1000") = None
  /\ parse_status (s2b "2 00") = None.
Proof. vm_compute. auto. Qed.

(** * C08 *)
Theorem C08_protocol_exact : forall s,
  (fst (parse_protocol s) = ProtoV0_9 <-> protocol_text s (s2b ".9")) /\
  (fst (parse_protocol s) = ProtoV1_0 <-> protocol_text s (s2b "1.0")) /\
  (fst (parse_protocol s) = ProtoV1_1 <-> protocol_text s (s2b "1.1")) /\
  (fst (parse_protocol s) = ProtoInvalid <-> forall v, In v [s2b ".9"; s2b "1.0"; s2b "1.1"] -> ~ protocol_text s v).
Proof. exact parse_protocol_exact. Qed.
Print Assumptions C08_protocol_exact.
(** The warning about extra data says exactly that something stands around the slash. *)
Theorem C08_extra_data_exact : forall w1 h w2 z v w3, Forall ascii_space w1 -> name_eq h (s2b "HTTP") -> Forall ascii_space w2 ->
  Forall (fun c => ascii_space c \/ c = 48) z -> Forall ascii_space w3 -> In v [s2b ".9"; s2b "1.0"; s2b "1.1"] ->
  (snd (parse_protocol (w1 ++ h ++ w2 ++ [47] ++ z ++ v ++ w3)) = true <-> w2 <> [] \/ z <> []).
Proof. exact parse_protocol_extra. Qed.
Print Assumptions C08_extra_data_exact.
Theorem C08_invalid_quiet : forall s, fst (parse_protocol s) = ProtoInvalid -> snd (parse_protocol s) = false.
Proof. exact parse_protocol_quiet. Qed.
Print Assumptions C08_invalid_quiet.
Example C08_ex_extra : map (fun s => snd (parse_protocol (s2b s))) [" HTTP/1.1 "; "HTTP /1.1"; "HTTP/ 1.0"; "HTTP/01.1"; "HTTP/0.9"; "HTTP /2"]%string = [false; true; true; true; true; false].
Proof. vm_compute. reflexivity. Qed.
Example C08_ex : fst (parse_protocol (s2b " hTTp / 01.1 ")) = ProtoV1_1 /\ fst (parse_protocol (s2b "HTTP/0.9")) = ProtoV0_9
  /\ fst (parse_protocol (s2b "HTTP/1.2")) = ProtoInvalid.
Proof. vm_compute. auto. Qed.

(** * C09 *)
Theorem C09_port_exact : forall p n,
  convert_port p = Some n <->
  exists ds, (p = ds \/ p = 43 :: ds) /\ ds <> [] /\ Forall digit ds /\ dec_value ds = n /\ 1 <= n <= 65535.
Proof. exact convert_port_spec. Qed.
Print Assumptions C09_port_exact.
(** The stronger reading, that accepted text is digits only, is false. *)
Theorem C09_digits_only_refuted : exists p n, convert_port p = Some n /\ ~ Forall digit p.
Proof. exact convert_port_plus. Qed.
Print Assumptions C09_digits_only_refuted.
Example C09_ex : convert_port (s2b "0080") = Some 80 /\ convert_port (s2b "65536") = None /\ convert_port (s2b "0") = None.
Proof. vm_compute. auto. Qed.

(** * C10 *)
Theorem C10_hostname_exact : forall ip6 h, Forall is_byte h -> (forall addr, ~ bracketed h addr) ->
  (validate_hostname ip6 h = true <-> good_hostname h).
Proof. exact validate_plain. Qed.
Print Assumptions C10_hostname_exact.
Theorem C10_bracketed : forall ip6 h addr, bracketed h addr -> (length h <= 255)%nat -> ip6 addr <> None ->
  validate_hostname ip6 h = match ip6 addr with Some ok => ok | None => false end.
Proof. exact validate_bracketed. Qed.
Print Assumptions C10_bracketed.
Example C10_ex : good_hostname (s2b "www.ex_ample-1.com") /\ (forall addr, ~ bracketed (s2b "www.ex_ample-1.com") addr)
  /\ validate_hostname (fun _ => None) (s2b "a..b") = false.
Proof. exact validate_example. Qed.

(** * C42 *)
Theorem C42_set_then_test : forall w f, f <> 0 -> fis_set (fset w f) f = true.
Proof. exact fset_is_set. Qed.
Print Assumptions C42_set_then_test.
Theorem C42_set_exact : forall w f i, N.testbit (fset w f) i = N.testbit w i || N.testbit f i.
Proof. exact fset_testbit. Qed.
Print Assumptions C42_set_exact.
Theorem C42_unset_exact : forall w f i, N.testbit (funset w f) i = N.testbit w i && negb (N.testbit f i).
Proof. exact funset_testbit. Qed.
Print Assumptions C42_unset_exact.
Theorem C42_unset_then_test : forall w f, fis_set (funset w f) f = false.
Proof. exact funset_is_set. Qed.
Print Assumptions C42_unset_then_test.
(** A single-bit flag test is exact... *)
Theorem C42_single_bit_independent : forall w i j, i <> j ->
  fis_set (fset w (N.shiftl 1 i)) (N.shiftl 1 j) = fis_set w (N.shiftl 1 j).
Proof. exact single_bit_independent. Qed.
Print Assumptions C42_single_bit_independent.
(** ... a composite one is not: setting one defined flag makes another, distinct one test true. *)
Theorem C42_composite_flags_refuted :
  fis_set (fset 0 RESPONSE_MISSING_BYTES) REQUEST_MISSING_BYTES = true /\ REQUEST_MISSING_BYTES <> RESPONSE_MISSING_BYTES
  /\ fis_set (fset 0 HOSTU_INVALID) HOST_INVALID = true /\ N.land HOSTU_INVALID HOST_INVALID <> HOST_INVALID.
Proof. exact composite_flags. Qed.
Print Assumptions C42_composite_flags_refuted.
Example C42_ex : fis_set (fset PATH_INVALID REQUEST_SMUGGLING) PATH_INVALID = true
  /\ fis_set (funset (fset PATH_INVALID REQUEST_SMUGGLING) PATH_INVALID) REQUEST_SMUGGLING = true.
Proof. vm_compute. auto. Qed.

(** * C47 *)
Theorem C47_digest_username_roundtrip : forall pre ws u rest,
  (forall a b, pre ++ s2b "username=" = a ++ s2b "username=" ++ b -> b = []) ->
  Forall ascii_space ws -> (forall v, u <> v ++ [92]) ->
  parse_authorization_digest (pre ++ s2b "username=" ++ ws ++ [34] ++ escape_quotes u ++ [34] ++ rest) = POk rest u.
Proof. exact digest_roundtrip. Qed.
Print Assumptions C47_digest_username_roundtrip.
(** The side condition on the last byte is needed. *)
Theorem C47_trailing_backslash_refuted : exists u rest,
  parse_authorization_digest (s2b "username=" ++ [34] ++ escape_quotes u ++ [34] ++ rest) <> POk rest u.
Proof. exact digest_backslash. Qed.
Print Assumptions C47_trailing_backslash_refuted.
Example C47_ex : parse_authorization_digest (s2b "Digest username= " ++ [34; 97; 92; 34; 98; 34] ++ s2b ", x") = POk (s2b ", x") [97; 34; 98].
Proof. reflexivity. Qed.
