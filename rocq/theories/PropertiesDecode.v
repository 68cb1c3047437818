(** Properties C66 to C69 of properties.jsonl: what every text decodes to, and the normalized URI. Vocabulary: SpecDecode.v
    (the pieces of a text), SpecNorm.v (the normalized URI),
    SpecUtf8.v. *)
From Verif Require Import Base Spec SpecDecode SpecNorm SpecUtf8 ModelUtil ModelBstr ModelBestfit ModelUrl ModelUtf8 ModelUri ModelState ModelTx.
From Verif Require Import ProofsBase ProofsDecode ProofsNorm ProofsUtf8Read.

(** * C66 *)
(** Every path can be read piece by piece, under every configuration, *)
Theorem C66_every_path_is_read : forall cfg i, exists out fl cs, read_by (path_step cfg) i out fl cs.
Proof. exact path_reads_total. Qed.
Print Assumptions C66_every_path_is_read.
(** and the decoder outputs the bytes of the pieces (without repeated separators if so configured), raises exactly their flags and
    asks for the status of the last piece. *)
Theorem C66_path_decoded : forall cfg i out fl cs, read_by (path_step cfg) i out fl cs ->
  path_decode_uri cfg i = Some (POk [] (if path_separators_compress cfg then squeezed out else out, all_flags fl, final cs)).
Proof. exact path_decoded. Qed.
Print Assumptions C66_path_decoded.

(** A request for a status is lost when any piece follows, although its flag stays. *)
Theorem C66_status_of_earlier_pieces_refuted : exists cfg i out fl cs, read_by (path_step cfg) i out fl cs /\ In U400 cs /\
  path_decode_uri cfg i = Some (POk [] (s2b "/zza", PATH_INVALID_ENCODING, UIgnore)).
Proof. exact status_lost. Qed.
Print Assumptions C66_status_of_earlier_pieces_refuted.
Example C66_ex : path_decode_uri strict (s2b "/A%5C/%2f%u0042%c3%41%uFF0") =
  Some (POk [] (s2b "/a/b" ++ [0xc3] ++ s2b "auff0", PATH_ENCODED_SEPARATOR + PATH_OVERLONG_U + PATH_INVALID_ENCODING, UIgnore)).
Proof. vm_compute. reflexivity. Qed.
Example C66_read_ex : read_by (path_step strict) (s2b "/%41%2f") (s2b "/a/") [0; 0; PATH_ENCODED_SEPARATOR] [UIgnore; UIgnore; UIgnore].
Proof.
  change (s2b "/a/") with (match Some 47 with Some b => b :: s2b "a/" | None => s2b "a/" end).
  eapply rb_step; [apply (ps_raw strict 47 (s2b "%41%2f")); [discriminate|left; discriminate]|].
  change (s2b "a/") with (match Some 97 with Some b => b :: s2b "/" | None => s2b "/" end).
  eapply rb_step; [apply (ps_hex strict 52 49 (s2b "%2f")); [unfold hexdigit; lia|unfold hexdigit; lia|reflexivity|left; discriminate]|].
  change (s2b "/") with (match Some 47 with Some b => b :: [] | None => [] end).
  eapply rb_step; [apply (ps_separator strict 50 102 []); [unfold hexdigit; lia|unfold hexdigit; lia|reflexivity|reflexivity]|apply rb_nil].
Qed.

(** * C67 *)
Theorem C67_every_text_is_read : forall cfg i, exists out fl cs, read_by (param_step cfg) i out fl cs.
Proof. exact param_reads_total. Qed.
Print Assumptions C67_every_text_is_read.
(** The decoder outputs the bytes of the pieces, raises exactly their flags and asks for the last status any of them asks for. *)
Theorem C67_text_decoded : forall cfg i out fl cs, read_by (param_step cfg) i out fl cs ->
  decode_uri cfg i = Some (POk [] (out, all_flags fl, asks cs)).
Proof. exact param_decoded. Qed.
Print Assumptions C67_text_decoded.
(** In the components of a URI the flags for invalid encoding and for NUL bytes are reported, and no others. *)
Theorem C67_component_flags : forall cfg flags i out fl cs, read_by (param_step cfg) i out fl cs ->
  decode_uri_with_flags cfg flags i = (Some out, all_flags (flags :: component_flags fl)).
Proof. exact component_decoded. Qed.
Print Assumptions C67_component_flags.
Example C67_ex : decode_uri strict (s2b "a+b%2x%u0043%u4%7") =
  Some (POk [] (s2b "a b2xCu47", URLEN_INVALID_ENCODING + URLEN_OVERLONG_U, U400)).
Proof. vm_compute. reflexivity. Qed.

(** * C68 *)
(** The parsed URI of a request: every component by its rule, the flags exactly those of the components. The port is the number
    that [convert_port] reads (C09). *)
Theorem C68_components : forall cfg raw t, exists u fu fp fh fo ff fa before st,
  normalize_parsed_uri cfg raw t = set_x_expected st (set_x_flags (N.lor before fa) (set_x_parsed (Some u) t)) /\
  u_scheme u = option_map lowers (u_scheme raw) /\
  component cfg (u_username raw) (u_username u) fu /\ component cfg (u_password raw) (u_password u) fp /\
  host_component cfg (u_hostname raw) (u_hostname u) fh /\
  u_port u = None /\ port_component (fun p n => convert_port p = Some n) (u_port raw) (u_port_number u) fo /\
  component cfg (u_fragment raw) (u_fragment u) ff /\ u_query u = u_query raw /\
  before = all_flags (x_flags t :: component_flags fu ++ component_flags fp ++ component_flags fh ++ [fo] ++ component_flags ff) /\
  path_component cfg before (x_expected t) (u_path raw) (u_path u) fa st.
Proof. exact normalized_parts. Qed.
Print Assumptions C68_components.
(** The partial text is path, query and fragment; the complete one has scheme, credentials and host before it. *)
Theorem C68_texts : forall cfg u partial full n, generate_normalized_uri cfg u = (partial, full, n) ->
  exists s c h o p q f w1 w2, around [] (u_scheme u) (s2b "://") s /\ credentials_shown (u_username u) (u_password u) c /\
    around [] (u_hostname u) [] h /\ around [58] (u_port u) [] o /\ path_shown cfg (u_path u) p w1 /\ query_shown cfg (u_query u) q w2 /\
    around [35] (u_fragment u) [] f /\
    unless_empty (p ++ q ++ f) partial /\ unless_empty (s ++ c ++ h ++ o ++ p ++ q ++ f) full /\ n = (w1 + w2)%nat.
Proof. exact normalized_texts. Qed.
Print Assumptions C68_texts.
(** The complete normalized URI of a request has no port, because the parsed URI keeps only its number. *)
Definition full_text (cfg : decoder_cfg) (target : bytes) : option bytes :=
  match x_parsed (normalize_parsed_uri cfg (parse_uri uri_default target) tx_new) with
  | Some u => snd (fst (generate_normalized_uri cfg u))
  | None => None
  end.
Theorem C68_port_in_complete_uri_refuted :
  full_text decoder_default (s2b "http://h:8080/p") = Some (s2b "http://h/p") /\
  full_text decoder_default (s2b "http://h:80/p") = full_text decoder_default (s2b "http://h:8080/p").
Proof. vm_compute. split; reflexivity. Qed.
Print Assumptions C68_port_in_complete_uri_refuted.
Example C68_ex : full_text strict (s2b "HTTP://Us%65r:pw@Host..:80/A/../%42\c?q=%2531#F%41") = Some (s2b "http://User:pw@host/b/c?q=1#FA").
Proof. vm_compute. reflexivity. Qed.

(** * C69 *)
Theorem C69_every_text_is_read : forall m i, Forall is_byte i -> exists out fl v, utf8_read m i out fl v.
Proof. exact utf8_read_total. Qed.
Print Assumptions C69_every_text_is_read.
(** The decoder outputs what the pieces say, raises exactly their flags, and reports valid UTF-8 exactly when some piece is a
    character of several bytes and none is invalid. *)
Theorem C69_utf8_decoded : forall m i out fl v, utf8_read m i out fl v -> Forall is_byte i ->
  decode_and_validate m i = (out, all_flags (fl ++ [on (v && negb (raised fl PATH_UTF8_INVALID)) PATH_UTF8_VALID])).
Proof. exact utf8_read_exact. Qed.
Print Assumptions C69_utf8_decoded.
Example C69_ex : decode_and_validate bestfit_default [97; 0xc0; 0xaf; 0xe2; 0x82; 98; 0xff; 0xed; 0xa0; 0xf0; 0x9f] =
  ([97; 47; bm_repl bestfit_default; 98; bm_repl bestfit_default; bm_repl bestfit_default; bm_repl bestfit_default; bm_repl bestfit_default],
   N.lor PATH_UTF8_OVERLONG PATH_UTF8_INVALID).
Proof. vm_compute. reflexivity. Qed.
Example C69_read_ex : utf8_read bestfit_default [97; 0xc3; 0xa9; 0xe2] [97; 0xe9] [0; 0; 0] true.
Proof.
  apply (ur_step _ _ [97] 0 false [0xc3; 0xa9; 0xe2] [0xe9] [0; 0] true); [now apply us_ascii|].
  apply (ur_step _ ([0xc3; 0xa9] ++ [0xe2]) [0xe9] 0 true [0xe2] [] [0] false); [apply (us_char bestfit_default [0xc0 + 3; 0x80 + 41] (41 + 3 * 64) [0xe2]); now apply co2|].
  apply (ur_step _ [0xe2] [] 0 false [] [] [] false); [|apply ur_nil].
  apply (us_cut bestfit_default [0xe2]). split; [discriminate|]. exists [0x80; 0x80]. eexists. split; [discriminate|]. apply (co3 2 0 0); lia.
Qed.
