(** Property theorems for URL decoding, UTF-8 and URI handling (C11-C20, C48). *)
From Verif Require Import Base Spec ModelUtil ModelBstr ModelBestfit ModelParsers ModelUrl ModelUtf8 ModelUri.
From Verif Require Import ProofsBase ProofsUrl ProofsUtf8 ProofsUri.

(** * C11 *)
Theorem C11_decoding_never_lengthens : forall cfg i, exists out fl st,
  decode_uri cfg i = Some (POk [] (out, fl, st)) /\ (length out <= length i)%nat.
Proof. exact decode_uri_shortens. Qed.
Print Assumptions C11_decoding_never_lengthens.
Theorem C11_plain_text_unchanged : forall cfg i, ~ In 37 i /\ ~ In 43 i /\ ~ In 0 i ->
  decode_uri cfg i = Some (POk [] (i, 0, UIgnore)).
Proof. exact decode_uri_plain. Qed.
Print Assumptions C11_plain_text_unchanged.
Example C11_ex : decode_uri decoder_default (s2b "/a%zz%4") = Some (POk [] (s2b "/a%zz%4", URLEN_INVALID_ENCODING, UIgnore))
  /\ decode_uri decoder_default (s2b "abc") = Some (POk [] (s2b "abc", 0, UIgnore)).
Proof. vm_compute. auto. Qed.

(** * C12 *)
Theorem C12_percent_roundtrip : forall cfg plain enc,
  nul_encoded_terminates cfg = false -> nul_raw_terminates cfg = false ->
  pct_enc (plusspace_decode cfg) plain enc ->
  exists fl st, decode_uri cfg enc = Some (POk [] (plain, fl, st)) /\ fis_set fl URLEN_INVALID_ENCODING = false.
Proof. exact decode_uri_roundtrip. Qed.
Print Assumptions C12_percent_roundtrip.
Theorem C12_every_text_has_an_encoding : forall plus plain, Forall is_byte plain -> exists enc, pct_enc plus plain enc.
Proof. exact pct_enc_exists. Qed.
Print Assumptions C12_every_text_has_an_encoding.
Example C12_ex : pct_enc true (s2b "a b/") (s2b "%61+b%2F") /\
  decode_uri decoder_default (s2b "%61+b%2F") = Some (POk [] (s2b "a b/", 0, UIgnore)).
Proof.
  split; [|vm_compute; reflexivity].
  apply (pe_hex true 54 49); [left; lia|left; lia|]. apply (pe_plus true); [reflexivity|].
  apply (pe_raw true 98); [discriminate|left; discriminate|].
  apply (pe_hex true 50 70); [left; lia|right; left; lia|constructor].
Qed.

(** * C13 *)
Theorem C13_no_nul_in_output : forall cfg i, nul_raw_terminates cfg = true -> nul_encoded_terminates cfg = true ->
  exists out fl st, decode_uri cfg i = Some (POk [] (out, fl, st)) /\ ~ In 0 out.
Proof. exact decode_uri_nonul. Qed.
Print Assumptions C13_no_nul_in_output.
Theorem C13_raw_nul_cuts : forall cfg plain enc rest, nul_raw_terminates cfg = true ->
  pct_enc (plusspace_decode cfg) plain enc -> ~ In 0 plain ->
  exists fl st, decode_uri cfg (enc ++ [0] ++ rest) = Some (POk [] (plain, fl, st)) /\ fis_set fl URLEN_RAW_NUL = true.
Proof. exact decode_uri_raw_nul_terminates. Qed.
Print Assumptions C13_raw_nul_cuts.
Theorem C13_encoded_nul_cuts : forall cfg plain enc rest, nul_encoded_terminates cfg = true ->
  pct_enc (plusspace_decode cfg) plain enc -> ~ In 0 plain ->
  exists fl st, decode_uri cfg (enc ++ s2b "%00" ++ rest) = Some (POk [] (plain, fl, st)) /\ fis_set fl URLEN_ENCODED_NUL = true.
Proof. exact decode_uri_encoded_nul_terminates. Qed.
Print Assumptions C13_encoded_nul_cuts.
Definition cfg_nul : decoder_cfg := {|
  double_decode_normalized_path := false; double_decode_normalized_query := false;
  backslash_convert_slashes := false; convert_lowercase := false;
  path_separators_compress := false; path_separators_decode := false; plusspace_decode := true;
  nul_raw_terminates := true; nul_raw_unwanted := UIgnore; control_chars_unwanted := UIgnore;
  allow_space_uri := false; u_encoding_decode := true; u_encoding_unwanted := UIgnore;
  url_encoding_invalid_handling := PROCESS_INVALID; url_encoding_invalid_unwanted := UIgnore;
  nul_encoded_terminates := true; nul_encoded_unwanted := U404; utf8_invalid_unwanted := UIgnore;
  utf8_convert_bestfit := true; bestfit := {| bm_map := []; bm_repl := 63 |} |}.
Example C13_ex : decode_uri cfg_nul (s2b "ab%00cd") = Some (POk [] (s2b "ab", URLEN_ENCODED_NUL, U404)).
Proof. vm_compute. reflexivity. Qed.

(** * C14 *)
Theorem C14_segmentation_independent : forall cfg sep dec chunks,
  urlenp_finalize (fold_left parse_partial chunks (urlenp_fresh cfg sep dec)) = parse_complete (urlenp_fresh cfg sep dec) (concat chunks).
Proof. exact urlenp_segmentation. Qed.
Print Assumptions C14_segmentation_independent.
Example C14_ex : up_params (urlenp_finalize (fold_left parse_partial [s2b "p=%"; s2b "31&"; []; s2b "q"; s2b "=2"] (urlenp_new decoder_default)))
  = [(s2b "p", s2b "1"); (s2b "q", s2b "2")].
Proof. vm_compute. reflexivity. Qed.

(** * C15 *)
Theorem C15_parameters : forall cfg sep dec d segs, pieces sep d segs ->
  let params := up_params (parse_complete (urlenp_fresh cfg sep dec) d) in
  let wanted := filter nonempty segs in
  (d = [] -> params = []) /\
  (d <> [] -> wanted = [] -> params = [([], [])]) /\
  (wanted <> [] -> Forall2 (param_for (decodes cfg dec)) wanted params).
Proof. exact urlenp_parameters. Qed.
Print Assumptions C15_parameters.
Example C15_ex : pieces 38 (s2b "a=1=2&&b") [s2b "a=1=2"; []; s2b "b"] /\
  up_params (parse_complete (urlenp_new decoder_default) (s2b "a=1=2&&b")) = [(s2b "a", s2b "1=2"); (s2b "b", [])].
Proof.
  split; [|vm_compute; reflexivity]. split; [discriminate|]. split; [reflexivity|].
  repeat constructor; cbn; intuition discriminate.
Qed.

(** * C16 *)
Theorem C16_utf8_decoded : forall m cs, Forall scalar cs ->
  decode_and_validate m (concat (map utf8_encode cs)) =
  (map (fun c => if c <? 0x100 then c else bestfit_get m c) cs,
   N.lor (if existsb (fun c => (0xff00 <=? c) && (c <=? 0xffef)) cs then PATH_HALF_FULL_RANGE else 0)
         (if existsb (fun c => 0x80 <=? c) cs then PATH_UTF8_VALID else 0)).
Proof. exact utf8_decode_valid. Qed.
Print Assumptions C16_utf8_decoded.
Example C16_ex : Forall scalar [0x41; 0xe9; 0x2044; 0x1f600] /\
  decode_and_validate {| bm_map := [(0x2044, 47)]; bm_repl := 63 |} (concat (map utf8_encode [0x41; 0xe9; 0x2044; 0x1f600]))
  = ([0x41; 0xe9; 47; 63], PATH_UTF8_VALID).
Proof. split; [repeat constructor; unfold scalar; lia|vm_compute; reflexivity]. Qed.

(** * C17 *)
Theorem C17_never_lengthens : forall m i, (length (fst (decode_and_validate m i)) <= length i)%nat.
Proof. exact utf8_length. Qed.
Print Assumptions C17_never_lengthens.
Theorem C17_unflagged_is_wellformed_up_to_truncation : forall m i, Forall is_byte i ->
  fis_set (snd (decode_and_validate m i)) PATH_UTF8_INVALID = false ->
  fis_set (snd (decode_and_validate m i)) PATH_UTF8_OVERLONG = false ->
  exists cs tail, i = concat (map utf8_encode cs) ++ tail /\ Forall scalar cs /\ (tail = [] \/ truncated_char tail).
Proof. exact utf8_unflagged. Qed.
Print Assumptions C17_unflagged_is_wellformed_up_to_truncation.
Theorem C17_truncation_unflagged_refuted : forall m,
  decode_and_validate m (s2b "a" ++ [0xe2; 0x82]) = ([97; bm_repl m], 0).
Proof. exact utf8_truncated_unflagged. Qed.
Print Assumptions C17_truncation_unflagged_refuted.
Example C17_ex : snd (decode_and_validate bestfit_default [0xc0; 0xaf]) = PATH_UTF8_OVERLONG + PATH_UTF8_VALID /\
  snd (decode_and_validate bestfit_default [0xff]) = PATH_UTF8_INVALID.
Proof. vm_compute. auto. Qed.

(** * C18 *)
Theorem C18_no_dot_segments : forall s segs, pieces 47 (normalize_uri_path s) segs ->
  Forall (fun x => x <> [46] /\ x <> [46; 46]) segs.
Proof. exact normalize_pieces. Qed.
Print Assumptions C18_no_dot_segments.
Theorem C18_idempotent : forall s, normalize_uri_path (normalize_uri_path s) = normalize_uri_path s.
Proof. exact normalize_idempotent. Qed.
Print Assumptions C18_idempotent.
Theorem C18_never_lengthens : forall s, (length (normalize_uri_path s) <= length s)%nat.
Proof. exact normalize_length. Qed.
Print Assumptions C18_never_lengthens.
Theorem C18_absolute_path_walk : forall r segs, pieces 47 r segs ->
  normalize_uri_path (47 :: r) = concat (map (fun s => 47 :: s) (rev (walk [] segs))).
Proof. exact normalize_absolute. Qed.
Print Assumptions C18_absolute_path_walk.
Theorem C18_absolute_stays_absolute : forall r,
  normalize_uri_path (47 :: r) = [] \/ exists r', normalize_uri_path (47 :: r) = 47 :: r'.
Proof. exact normalize_stays_absolute. Qed.
Print Assumptions C18_absolute_stays_absolute.
(** RFC 3986 5.2.4 keeps the slash after the last complete segment: "/a/b/.." gives "/a/", "/a/.." gives "/". *)
Theorem C18_rfc3986_refuted : normalize_uri_path (s2b "/a/b/..") = s2b "/a" /\ normalize_uri_path (s2b "/a/..") = [].
Proof. exact normalize_not_rfc3986. Qed.
Print Assumptions C18_rfc3986_refuted.
Theorem C18_relative_stays_relative_refuted : exists p, not_starting 47 p /\ exists r, normalize_uri_path p = 47 :: r.
Proof. exact normalize_relative_escapes. Qed.
Print Assumptions C18_relative_stays_relative_refuted.
Example C18_ex : normalize_uri_path (s2b "/a/./b/../../../c/") = s2b "/c/".
Proof. vm_compute. reflexivity. Qed.

(** * C19 *)
Theorem C19_path_decoding : forall cfg i, exists out fl st,
  path_decode_uri cfg i = Some (POk [] (out, fl, st)) /\ (length out <= length i)%nat /\
  Forall (fun b => (backslash_convert_slashes cfg = true -> b <> 92) /\ (convert_lowercase cfg = true -> ~ 65 <= b <= 90)) out /\
  (path_separators_compress cfg = true -> no_double_slash out).
Proof. exact path_decode_facts. Qed.
Print Assumptions C19_path_decoding.
Theorem C19_normalized_path_refuted : exists cfg p out, path_separators_compress cfg = true /\
  fst (fst (normalized_path cfg (uri_of_path p) 0 UIgnore)) = Some out /\ ~ no_double_slash out.
Proof. exact bestfit_double_slash. Qed.
Print Assumptions C19_normalized_path_refuted.
Example C19_ex : path_decode_uri cfg_iis (s2b "/A\%5c%2fB/") = Some (POk [] (s2b "/a/b/", PATH_ENCODED_SEPARATOR, UIgnore)).
Proof. vm_compute. reflexivity. Qed.

(** * C20 *)
Theorem C20_absolute_uri : forall c, good_parts c ->
  parse_uri uri_default (uri_text c) = {|
    u_scheme := Some (up_scheme c); u_username := option_map fst (up_cred c);
    u_password := match up_cred c with Some (_, p) => p | None => None end;
    u_hostname := Some (up_host c); u_port := up_portt c; u_port_number := None;
    u_path := up_path c; u_query := up_query c; u_fragment := up_frag c |}.
Proof. exact parse_uri_parts. Qed.
Print Assumptions C20_absolute_uri.
Theorem C20_origin_form : forall c p, good_tail c -> up_path c = Some p ->
  parse_uri uri_default (tail_text c) = {|
    u_scheme := None; u_username := None; u_password := None; u_hostname := None; u_port := None; u_port_number := None;
    u_path := up_path c; u_query := up_query c; u_fragment := up_frag c |}.
Proof. exact parse_uri_origin. Qed.
Print Assumptions C20_origin_form.
Theorem C20_empty_query_refuted : u_fragment (parse_uri uri_default (s2b "/p?#frag")) = None.
Proof. exact parse_uri_empty_query. Qed.
Print Assumptions C20_empty_query_refuted.
Theorem C20_at_sign_in_path_refuted : u_hostname (parse_uri uri_default (s2b "http://host/a@evil/b")) = Some (s2b "evil")
  /\ u_path (parse_uri uri_default (s2b "http://host/a@evil/b")) = Some (s2b "/b").
Proof. exact parse_uri_at_in_path. Qed.
Print Assumptions C20_at_sign_in_path_refuted.
Example C20_ex : let c := {| up_scheme := s2b "http"; up_cred := Some (s2b "u", Some (s2b "p")); up_host := s2b "[::1]";
    up_portt := Some (s2b "80"); up_path := Some (s2b "/a"); up_query := Some (s2b "q"); up_frag := Some (s2b "f#") |} in
  good_parts c /\ uri_text c = s2b "http://u:p@[::1]:80/a?q#f#".
Proof.
  split; [|reflexivity]. unfold good_parts, good_tail, no_bytes, not_starting; cbn.
  repeat split; try (intros; discriminate).
  all: try (repeat constructor; cbn; intuition discriminate).
  - intros p' E. injection E as <-. repeat constructor; cbn; intuition discriminate.
  - right. exists (s2b "::1"). split; [reflexivity|]. split; [discriminate|]. repeat constructor; cbn; intuition discriminate.
  - injection H as <-. discriminate.
  - injection H as <-. repeat constructor; cbn; intuition discriminate.
  - injection H as <-. eexists; reflexivity.
  - injection H as <-. repeat constructor; cbn; intuition discriminate.
  - injection H as <-. discriminate.
  - injection H as <-. repeat constructor; cbn; intuition discriminate.
Qed.

(** * C48 *)
Theorem C48_hex_pairs : forall h1 h2, hexdigit h1 -> hexdigit h2 ->
  x2c_val h1 h2 = 16 * hex_digit_value h1 + hex_digit_value h2 /\
  x2c_checked h1 h2 = Some (16 * hex_digit_value h1 + hex_digit_value h2).
Proof. exact x2c_hex. Qed.
Print Assumptions C48_hex_pairs.
Theorem C48_other_bytes_overflow_refuted : exists c1 c2, is_byte c1 /\ is_byte c2 /\ x2c_checked c1 c2 = None.
Proof. exact x2c_overflow. Qed.
Print Assumptions C48_other_bytes_overflow_refuted.
Example C48_ex : hexdigit 70 /\ hexdigit 97 /\ x2c_val 70 97 = 250.
Proof. unfold hexdigit. repeat split; lia. Qed.
