(** The configuration calls: src/config.rs, the options of src/decompressors.rs and src/c_api/config.rs.
    Registering callbacks is not part of this file: the callbacks are the parameter [e_cb] of the connection model. *)
From Verif Require Import Base ModelBestfit ModelUtil ModelUrl ModelState.
From Coq Require Import ZArith.

(** src/config.rs:242-268. *)
Inductive pers := PMinimal | PGeneric | PIds | PIis40 | PIis50 | PIis51 | PIis60 | PIis70 | PIis75 | PApache2.
(** What the parser distinguishes of it (src/util.rs:351, src/request.rs:860). *)
Definition pers_seen (p : pers) : personality := match p with PIis50 => ModelUtil.IIS_5_0 | PApache2 => ModelUtil.APACHE_2 | _ => PersOther end.

(** src/config.rs:15-111 with src/decompressors.rs:26-44: the part of the configuration that the parser looks at, and the options that only
    the C layer or the decoders look at. [path_separators_encoded_unwanted], which nothing reads or sets, is left out. *)
Record settings := mk_settings {
  g_cfg : config;
  g_pers : pers;
  g_include_all : bool;      (** normalized_uri_include_all *)
  g_lzma_memlimit : option N; (** None: no LZMA *)
  g_time_limit : N
}.
Definition set_g_cfg (v : config) (g : settings) : settings := mk_settings v (g_pers g) (g_include_all g) (g_lzma_memlimit g) (g_time_limit g).
Definition set_g_include_all (v : bool) (g : settings) : settings := mk_settings (g_cfg g) (g_pers g) v (g_lzma_memlimit g) (g_time_limit g).
Definition set_g_lzma_memlimit (v : option N) (g : settings) : settings := mk_settings (g_cfg g) (g_pers g) (g_include_all g) v (g_time_limit g).
Definition set_g_time_limit (v : N) (g : settings) : settings := mk_settings (g_cfg g) (g_pers g) (g_include_all g) (g_lzma_memlimit g) v.
(** src/config.rs:113-155, src/decompressors.rs:130-145. *)
Definition settings_default : settings := mk_settings config_default PMinimal false (Some 1048576) 100000.

(** * Fields of the decoder configuration *)
Definition put_double_decode_normalized_path (v : bool) (d : decoder_cfg) : decoder_cfg := {| double_decode_normalized_path := v; double_decode_normalized_query := double_decode_normalized_query d; backslash_convert_slashes := backslash_convert_slashes d; convert_lowercase := convert_lowercase d; path_separators_compress := path_separators_compress d; path_separators_decode := path_separators_decode d; plusspace_decode := plusspace_decode d; nul_raw_terminates := nul_raw_terminates d; nul_raw_unwanted := nul_raw_unwanted d; control_chars_unwanted := control_chars_unwanted d; allow_space_uri := allow_space_uri d; u_encoding_decode := u_encoding_decode d; u_encoding_unwanted := u_encoding_unwanted d; url_encoding_invalid_handling := url_encoding_invalid_handling d; url_encoding_invalid_unwanted := url_encoding_invalid_unwanted d; nul_encoded_terminates := nul_encoded_terminates d; nul_encoded_unwanted := nul_encoded_unwanted d; utf8_invalid_unwanted := utf8_invalid_unwanted d; utf8_convert_bestfit := utf8_convert_bestfit d; bestfit := bestfit d |}.
Definition put_double_decode_normalized_query (v : bool) (d : decoder_cfg) : decoder_cfg := {| double_decode_normalized_path := double_decode_normalized_path d; double_decode_normalized_query := v; backslash_convert_slashes := backslash_convert_slashes d; convert_lowercase := convert_lowercase d; path_separators_compress := path_separators_compress d; path_separators_decode := path_separators_decode d; plusspace_decode := plusspace_decode d; nul_raw_terminates := nul_raw_terminates d; nul_raw_unwanted := nul_raw_unwanted d; control_chars_unwanted := control_chars_unwanted d; allow_space_uri := allow_space_uri d; u_encoding_decode := u_encoding_decode d; u_encoding_unwanted := u_encoding_unwanted d; url_encoding_invalid_handling := url_encoding_invalid_handling d; url_encoding_invalid_unwanted := url_encoding_invalid_unwanted d; nul_encoded_terminates := nul_encoded_terminates d; nul_encoded_unwanted := nul_encoded_unwanted d; utf8_invalid_unwanted := utf8_invalid_unwanted d; utf8_convert_bestfit := utf8_convert_bestfit d; bestfit := bestfit d |}.
Definition put_backslash_convert_slashes (v : bool) (d : decoder_cfg) : decoder_cfg := {| double_decode_normalized_path := double_decode_normalized_path d; double_decode_normalized_query := double_decode_normalized_query d; backslash_convert_slashes := v; convert_lowercase := convert_lowercase d; path_separators_compress := path_separators_compress d; path_separators_decode := path_separators_decode d; plusspace_decode := plusspace_decode d; nul_raw_terminates := nul_raw_terminates d; nul_raw_unwanted := nul_raw_unwanted d; control_chars_unwanted := control_chars_unwanted d; allow_space_uri := allow_space_uri d; u_encoding_decode := u_encoding_decode d; u_encoding_unwanted := u_encoding_unwanted d; url_encoding_invalid_handling := url_encoding_invalid_handling d; url_encoding_invalid_unwanted := url_encoding_invalid_unwanted d; nul_encoded_terminates := nul_encoded_terminates d; nul_encoded_unwanted := nul_encoded_unwanted d; utf8_invalid_unwanted := utf8_invalid_unwanted d; utf8_convert_bestfit := utf8_convert_bestfit d; bestfit := bestfit d |}.
Definition put_convert_lowercase (v : bool) (d : decoder_cfg) : decoder_cfg := {| double_decode_normalized_path := double_decode_normalized_path d; double_decode_normalized_query := double_decode_normalized_query d; backslash_convert_slashes := backslash_convert_slashes d; convert_lowercase := v; path_separators_compress := path_separators_compress d; path_separators_decode := path_separators_decode d; plusspace_decode := plusspace_decode d; nul_raw_terminates := nul_raw_terminates d; nul_raw_unwanted := nul_raw_unwanted d; control_chars_unwanted := control_chars_unwanted d; allow_space_uri := allow_space_uri d; u_encoding_decode := u_encoding_decode d; u_encoding_unwanted := u_encoding_unwanted d; url_encoding_invalid_handling := url_encoding_invalid_handling d; url_encoding_invalid_unwanted := url_encoding_invalid_unwanted d; nul_encoded_terminates := nul_encoded_terminates d; nul_encoded_unwanted := nul_encoded_unwanted d; utf8_invalid_unwanted := utf8_invalid_unwanted d; utf8_convert_bestfit := utf8_convert_bestfit d; bestfit := bestfit d |}.
Definition put_path_separators_compress (v : bool) (d : decoder_cfg) : decoder_cfg := {| double_decode_normalized_path := double_decode_normalized_path d; double_decode_normalized_query := double_decode_normalized_query d; backslash_convert_slashes := backslash_convert_slashes d; convert_lowercase := convert_lowercase d; path_separators_compress := v; path_separators_decode := path_separators_decode d; plusspace_decode := plusspace_decode d; nul_raw_terminates := nul_raw_terminates d; nul_raw_unwanted := nul_raw_unwanted d; control_chars_unwanted := control_chars_unwanted d; allow_space_uri := allow_space_uri d; u_encoding_decode := u_encoding_decode d; u_encoding_unwanted := u_encoding_unwanted d; url_encoding_invalid_handling := url_encoding_invalid_handling d; url_encoding_invalid_unwanted := url_encoding_invalid_unwanted d; nul_encoded_terminates := nul_encoded_terminates d; nul_encoded_unwanted := nul_encoded_unwanted d; utf8_invalid_unwanted := utf8_invalid_unwanted d; utf8_convert_bestfit := utf8_convert_bestfit d; bestfit := bestfit d |}.
Definition put_path_separators_decode (v : bool) (d : decoder_cfg) : decoder_cfg := {| double_decode_normalized_path := double_decode_normalized_path d; double_decode_normalized_query := double_decode_normalized_query d; backslash_convert_slashes := backslash_convert_slashes d; convert_lowercase := convert_lowercase d; path_separators_compress := path_separators_compress d; path_separators_decode := v; plusspace_decode := plusspace_decode d; nul_raw_terminates := nul_raw_terminates d; nul_raw_unwanted := nul_raw_unwanted d; control_chars_unwanted := control_chars_unwanted d; allow_space_uri := allow_space_uri d; u_encoding_decode := u_encoding_decode d; u_encoding_unwanted := u_encoding_unwanted d; url_encoding_invalid_handling := url_encoding_invalid_handling d; url_encoding_invalid_unwanted := url_encoding_invalid_unwanted d; nul_encoded_terminates := nul_encoded_terminates d; nul_encoded_unwanted := nul_encoded_unwanted d; utf8_invalid_unwanted := utf8_invalid_unwanted d; utf8_convert_bestfit := utf8_convert_bestfit d; bestfit := bestfit d |}.
Definition put_plusspace_decode (v : bool) (d : decoder_cfg) : decoder_cfg := {| double_decode_normalized_path := double_decode_normalized_path d; double_decode_normalized_query := double_decode_normalized_query d; backslash_convert_slashes := backslash_convert_slashes d; convert_lowercase := convert_lowercase d; path_separators_compress := path_separators_compress d; path_separators_decode := path_separators_decode d; plusspace_decode := v; nul_raw_terminates := nul_raw_terminates d; nul_raw_unwanted := nul_raw_unwanted d; control_chars_unwanted := control_chars_unwanted d; allow_space_uri := allow_space_uri d; u_encoding_decode := u_encoding_decode d; u_encoding_unwanted := u_encoding_unwanted d; url_encoding_invalid_handling := url_encoding_invalid_handling d; url_encoding_invalid_unwanted := url_encoding_invalid_unwanted d; nul_encoded_terminates := nul_encoded_terminates d; nul_encoded_unwanted := nul_encoded_unwanted d; utf8_invalid_unwanted := utf8_invalid_unwanted d; utf8_convert_bestfit := utf8_convert_bestfit d; bestfit := bestfit d |}.
Definition put_nul_raw_terminates (v : bool) (d : decoder_cfg) : decoder_cfg := {| double_decode_normalized_path := double_decode_normalized_path d; double_decode_normalized_query := double_decode_normalized_query d; backslash_convert_slashes := backslash_convert_slashes d; convert_lowercase := convert_lowercase d; path_separators_compress := path_separators_compress d; path_separators_decode := path_separators_decode d; plusspace_decode := plusspace_decode d; nul_raw_terminates := v; nul_raw_unwanted := nul_raw_unwanted d; control_chars_unwanted := control_chars_unwanted d; allow_space_uri := allow_space_uri d; u_encoding_decode := u_encoding_decode d; u_encoding_unwanted := u_encoding_unwanted d; url_encoding_invalid_handling := url_encoding_invalid_handling d; url_encoding_invalid_unwanted := url_encoding_invalid_unwanted d; nul_encoded_terminates := nul_encoded_terminates d; nul_encoded_unwanted := nul_encoded_unwanted d; utf8_invalid_unwanted := utf8_invalid_unwanted d; utf8_convert_bestfit := utf8_convert_bestfit d; bestfit := bestfit d |}.
Definition put_nul_raw_unwanted (v : unwanted) (d : decoder_cfg) : decoder_cfg := {| double_decode_normalized_path := double_decode_normalized_path d; double_decode_normalized_query := double_decode_normalized_query d; backslash_convert_slashes := backslash_convert_slashes d; convert_lowercase := convert_lowercase d; path_separators_compress := path_separators_compress d; path_separators_decode := path_separators_decode d; plusspace_decode := plusspace_decode d; nul_raw_terminates := nul_raw_terminates d; nul_raw_unwanted := v; control_chars_unwanted := control_chars_unwanted d; allow_space_uri := allow_space_uri d; u_encoding_decode := u_encoding_decode d; u_encoding_unwanted := u_encoding_unwanted d; url_encoding_invalid_handling := url_encoding_invalid_handling d; url_encoding_invalid_unwanted := url_encoding_invalid_unwanted d; nul_encoded_terminates := nul_encoded_terminates d; nul_encoded_unwanted := nul_encoded_unwanted d; utf8_invalid_unwanted := utf8_invalid_unwanted d; utf8_convert_bestfit := utf8_convert_bestfit d; bestfit := bestfit d |}.
Definition put_control_chars_unwanted (v : unwanted) (d : decoder_cfg) : decoder_cfg := {| double_decode_normalized_path := double_decode_normalized_path d; double_decode_normalized_query := double_decode_normalized_query d; backslash_convert_slashes := backslash_convert_slashes d; convert_lowercase := convert_lowercase d; path_separators_compress := path_separators_compress d; path_separators_decode := path_separators_decode d; plusspace_decode := plusspace_decode d; nul_raw_terminates := nul_raw_terminates d; nul_raw_unwanted := nul_raw_unwanted d; control_chars_unwanted := v; allow_space_uri := allow_space_uri d; u_encoding_decode := u_encoding_decode d; u_encoding_unwanted := u_encoding_unwanted d; url_encoding_invalid_handling := url_encoding_invalid_handling d; url_encoding_invalid_unwanted := url_encoding_invalid_unwanted d; nul_encoded_terminates := nul_encoded_terminates d; nul_encoded_unwanted := nul_encoded_unwanted d; utf8_invalid_unwanted := utf8_invalid_unwanted d; utf8_convert_bestfit := utf8_convert_bestfit d; bestfit := bestfit d |}.
Definition put_allow_space_uri (v : bool) (d : decoder_cfg) : decoder_cfg := {| double_decode_normalized_path := double_decode_normalized_path d; double_decode_normalized_query := double_decode_normalized_query d; backslash_convert_slashes := backslash_convert_slashes d; convert_lowercase := convert_lowercase d; path_separators_compress := path_separators_compress d; path_separators_decode := path_separators_decode d; plusspace_decode := plusspace_decode d; nul_raw_terminates := nul_raw_terminates d; nul_raw_unwanted := nul_raw_unwanted d; control_chars_unwanted := control_chars_unwanted d; allow_space_uri := v; u_encoding_decode := u_encoding_decode d; u_encoding_unwanted := u_encoding_unwanted d; url_encoding_invalid_handling := url_encoding_invalid_handling d; url_encoding_invalid_unwanted := url_encoding_invalid_unwanted d; nul_encoded_terminates := nul_encoded_terminates d; nul_encoded_unwanted := nul_encoded_unwanted d; utf8_invalid_unwanted := utf8_invalid_unwanted d; utf8_convert_bestfit := utf8_convert_bestfit d; bestfit := bestfit d |}.
Definition put_u_encoding_decode (v : bool) (d : decoder_cfg) : decoder_cfg := {| double_decode_normalized_path := double_decode_normalized_path d; double_decode_normalized_query := double_decode_normalized_query d; backslash_convert_slashes := backslash_convert_slashes d; convert_lowercase := convert_lowercase d; path_separators_compress := path_separators_compress d; path_separators_decode := path_separators_decode d; plusspace_decode := plusspace_decode d; nul_raw_terminates := nul_raw_terminates d; nul_raw_unwanted := nul_raw_unwanted d; control_chars_unwanted := control_chars_unwanted d; allow_space_uri := allow_space_uri d; u_encoding_decode := v; u_encoding_unwanted := u_encoding_unwanted d; url_encoding_invalid_handling := url_encoding_invalid_handling d; url_encoding_invalid_unwanted := url_encoding_invalid_unwanted d; nul_encoded_terminates := nul_encoded_terminates d; nul_encoded_unwanted := nul_encoded_unwanted d; utf8_invalid_unwanted := utf8_invalid_unwanted d; utf8_convert_bestfit := utf8_convert_bestfit d; bestfit := bestfit d |}.
Definition put_u_encoding_unwanted (v : unwanted) (d : decoder_cfg) : decoder_cfg := {| double_decode_normalized_path := double_decode_normalized_path d; double_decode_normalized_query := double_decode_normalized_query d; backslash_convert_slashes := backslash_convert_slashes d; convert_lowercase := convert_lowercase d; path_separators_compress := path_separators_compress d; path_separators_decode := path_separators_decode d; plusspace_decode := plusspace_decode d; nul_raw_terminates := nul_raw_terminates d; nul_raw_unwanted := nul_raw_unwanted d; control_chars_unwanted := control_chars_unwanted d; allow_space_uri := allow_space_uri d; u_encoding_decode := u_encoding_decode d; u_encoding_unwanted := v; url_encoding_invalid_handling := url_encoding_invalid_handling d; url_encoding_invalid_unwanted := url_encoding_invalid_unwanted d; nul_encoded_terminates := nul_encoded_terminates d; nul_encoded_unwanted := nul_encoded_unwanted d; utf8_invalid_unwanted := utf8_invalid_unwanted d; utf8_convert_bestfit := utf8_convert_bestfit d; bestfit := bestfit d |}.
Definition put_url_encoding_invalid_handling (v : url_handling) (d : decoder_cfg) : decoder_cfg := {| double_decode_normalized_path := double_decode_normalized_path d; double_decode_normalized_query := double_decode_normalized_query d; backslash_convert_slashes := backslash_convert_slashes d; convert_lowercase := convert_lowercase d; path_separators_compress := path_separators_compress d; path_separators_decode := path_separators_decode d; plusspace_decode := plusspace_decode d; nul_raw_terminates := nul_raw_terminates d; nul_raw_unwanted := nul_raw_unwanted d; control_chars_unwanted := control_chars_unwanted d; allow_space_uri := allow_space_uri d; u_encoding_decode := u_encoding_decode d; u_encoding_unwanted := u_encoding_unwanted d; url_encoding_invalid_handling := v; url_encoding_invalid_unwanted := url_encoding_invalid_unwanted d; nul_encoded_terminates := nul_encoded_terminates d; nul_encoded_unwanted := nul_encoded_unwanted d; utf8_invalid_unwanted := utf8_invalid_unwanted d; utf8_convert_bestfit := utf8_convert_bestfit d; bestfit := bestfit d |}.
Definition put_url_encoding_invalid_unwanted (v : unwanted) (d : decoder_cfg) : decoder_cfg := {| double_decode_normalized_path := double_decode_normalized_path d; double_decode_normalized_query := double_decode_normalized_query d; backslash_convert_slashes := backslash_convert_slashes d; convert_lowercase := convert_lowercase d; path_separators_compress := path_separators_compress d; path_separators_decode := path_separators_decode d; plusspace_decode := plusspace_decode d; nul_raw_terminates := nul_raw_terminates d; nul_raw_unwanted := nul_raw_unwanted d; control_chars_unwanted := control_chars_unwanted d; allow_space_uri := allow_space_uri d; u_encoding_decode := u_encoding_decode d; u_encoding_unwanted := u_encoding_unwanted d; url_encoding_invalid_handling := url_encoding_invalid_handling d; url_encoding_invalid_unwanted := v; nul_encoded_terminates := nul_encoded_terminates d; nul_encoded_unwanted := nul_encoded_unwanted d; utf8_invalid_unwanted := utf8_invalid_unwanted d; utf8_convert_bestfit := utf8_convert_bestfit d; bestfit := bestfit d |}.
Definition put_nul_encoded_terminates (v : bool) (d : decoder_cfg) : decoder_cfg := {| double_decode_normalized_path := double_decode_normalized_path d; double_decode_normalized_query := double_decode_normalized_query d; backslash_convert_slashes := backslash_convert_slashes d; convert_lowercase := convert_lowercase d; path_separators_compress := path_separators_compress d; path_separators_decode := path_separators_decode d; plusspace_decode := plusspace_decode d; nul_raw_terminates := nul_raw_terminates d; nul_raw_unwanted := nul_raw_unwanted d; control_chars_unwanted := control_chars_unwanted d; allow_space_uri := allow_space_uri d; u_encoding_decode := u_encoding_decode d; u_encoding_unwanted := u_encoding_unwanted d; url_encoding_invalid_handling := url_encoding_invalid_handling d; url_encoding_invalid_unwanted := url_encoding_invalid_unwanted d; nul_encoded_terminates := v; nul_encoded_unwanted := nul_encoded_unwanted d; utf8_invalid_unwanted := utf8_invalid_unwanted d; utf8_convert_bestfit := utf8_convert_bestfit d; bestfit := bestfit d |}.
Definition put_nul_encoded_unwanted (v : unwanted) (d : decoder_cfg) : decoder_cfg := {| double_decode_normalized_path := double_decode_normalized_path d; double_decode_normalized_query := double_decode_normalized_query d; backslash_convert_slashes := backslash_convert_slashes d; convert_lowercase := convert_lowercase d; path_separators_compress := path_separators_compress d; path_separators_decode := path_separators_decode d; plusspace_decode := plusspace_decode d; nul_raw_terminates := nul_raw_terminates d; nul_raw_unwanted := nul_raw_unwanted d; control_chars_unwanted := control_chars_unwanted d; allow_space_uri := allow_space_uri d; u_encoding_decode := u_encoding_decode d; u_encoding_unwanted := u_encoding_unwanted d; url_encoding_invalid_handling := url_encoding_invalid_handling d; url_encoding_invalid_unwanted := url_encoding_invalid_unwanted d; nul_encoded_terminates := nul_encoded_terminates d; nul_encoded_unwanted := v; utf8_invalid_unwanted := utf8_invalid_unwanted d; utf8_convert_bestfit := utf8_convert_bestfit d; bestfit := bestfit d |}.
Definition put_utf8_invalid_unwanted (v : unwanted) (d : decoder_cfg) : decoder_cfg := {| double_decode_normalized_path := double_decode_normalized_path d; double_decode_normalized_query := double_decode_normalized_query d; backslash_convert_slashes := backslash_convert_slashes d; convert_lowercase := convert_lowercase d; path_separators_compress := path_separators_compress d; path_separators_decode := path_separators_decode d; plusspace_decode := plusspace_decode d; nul_raw_terminates := nul_raw_terminates d; nul_raw_unwanted := nul_raw_unwanted d; control_chars_unwanted := control_chars_unwanted d; allow_space_uri := allow_space_uri d; u_encoding_decode := u_encoding_decode d; u_encoding_unwanted := u_encoding_unwanted d; url_encoding_invalid_handling := url_encoding_invalid_handling d; url_encoding_invalid_unwanted := url_encoding_invalid_unwanted d; nul_encoded_terminates := nul_encoded_terminates d; nul_encoded_unwanted := nul_encoded_unwanted d; utf8_invalid_unwanted := v; utf8_convert_bestfit := utf8_convert_bestfit d; bestfit := bestfit d |}.
Definition put_utf8_convert_bestfit (v : bool) (d : decoder_cfg) : decoder_cfg := {| double_decode_normalized_path := double_decode_normalized_path d; double_decode_normalized_query := double_decode_normalized_query d; backslash_convert_slashes := backslash_convert_slashes d; convert_lowercase := convert_lowercase d; path_separators_compress := path_separators_compress d; path_separators_decode := path_separators_decode d; plusspace_decode := plusspace_decode d; nul_raw_terminates := nul_raw_terminates d; nul_raw_unwanted := nul_raw_unwanted d; control_chars_unwanted := control_chars_unwanted d; allow_space_uri := allow_space_uri d; u_encoding_decode := u_encoding_decode d; u_encoding_unwanted := u_encoding_unwanted d; url_encoding_invalid_handling := url_encoding_invalid_handling d; url_encoding_invalid_unwanted := url_encoding_invalid_unwanted d; nul_encoded_terminates := nul_encoded_terminates d; nul_encoded_unwanted := nul_encoded_unwanted d; utf8_invalid_unwanted := utf8_invalid_unwanted d; utf8_convert_bestfit := v; bestfit := bestfit d |}.
Definition put_bestfit (v : bestfit_map) (d : decoder_cfg) : decoder_cfg := {| double_decode_normalized_path := double_decode_normalized_path d; double_decode_normalized_query := double_decode_normalized_query d; backslash_convert_slashes := backslash_convert_slashes d; convert_lowercase := convert_lowercase d; path_separators_compress := path_separators_compress d; path_separators_decode := path_separators_decode d; plusspace_decode := plusspace_decode d; nul_raw_terminates := nul_raw_terminates d; nul_raw_unwanted := nul_raw_unwanted d; control_chars_unwanted := control_chars_unwanted d; allow_space_uri := allow_space_uri d; u_encoding_decode := u_encoding_decode d; u_encoding_unwanted := u_encoding_unwanted d; url_encoding_invalid_handling := url_encoding_invalid_handling d; url_encoding_invalid_unwanted := url_encoding_invalid_unwanted d; nul_encoded_terminates := nul_encoded_terminates d; nul_encoded_unwanted := nul_encoded_unwanted d; utf8_invalid_unwanted := utf8_invalid_unwanted d; utf8_convert_bestfit := utf8_convert_bestfit d; bestfit := v |}.
Definition put_dec (f : decoder_cfg -> decoder_cfg) (g : settings) : settings := set_g_cfg (set_c_dcfg (f (c_dcfg (g_cfg g))) (g_cfg g)) g.

(** * src/config.rs: the setters *)
(** 406-408 *)
Definition set_double_decode_normalized_path (v : bool) : settings -> settings := put_dec (put_double_decode_normalized_path v).
(** 411-413 *)
Definition set_double_decode_normalized_query (v : bool) : settings -> settings := put_dec (put_double_decode_normalized_query v).
(** 560-562 *)
Definition set_backslash_convert_slashes (v : bool) : settings -> settings := put_dec (put_backslash_convert_slashes v).
(** 589-591 *)
Definition set_convert_lowercase (v : bool) : settings -> settings := put_dec (put_convert_lowercase v).
(** 576-578 *)
Definition set_path_separators_compress (v : bool) : settings -> settings := put_dec (put_path_separators_compress v).
(** 568-570 *)
Definition set_path_separators_decode (v : bool) : settings -> settings := put_dec (put_path_separators_decode v).
(** 583-585 *)
Definition set_plusspace_decode (v : bool) : settings -> settings := put_dec (put_plusspace_decode v).
(** 540-542 *)
Definition set_nul_raw_terminates (v : bool) : settings -> settings := put_dec (put_nul_raw_terminates v).
(** 605-607 *)
Definition set_control_chars_unwanted (v : unwanted) : settings -> settings := put_dec (put_control_chars_unwanted v).
(** 429-431 *)
Definition set_allow_space_uri (v : bool) : settings -> settings := put_dec (put_allow_space_uri v).
(** 553-555 *)
Definition set_u_encoding_decode (v : bool) : settings -> settings := put_dec (put_u_encoding_decode v).
(** 600-602 *)
Definition set_u_encoding_unwanted (v : unwanted) : settings -> settings := put_dec (put_u_encoding_unwanted v).
(** 535-537 *)
Definition set_url_encoding_invalid_handling (v : url_handling) : settings -> settings := put_dec (put_url_encoding_invalid_handling v).
(** 615-617 *)
Definition set_url_encoding_invalid_unwanted (v : unwanted) : settings -> settings := put_dec (put_url_encoding_invalid_unwanted v).
(** 547-549 *)
Definition set_nul_encoded_terminates (v : bool) : settings -> settings := put_dec (put_nul_encoded_terminates v).
(** 595-597 *)
Definition set_utf8_convert_bestfit (v : bool) : settings -> settings := put_dec (put_utf8_convert_bestfit v).
(** 523-525 *)
Definition set_bestfit_map (v : bestfit_map) : settings -> settings := put_dec (put_bestfit v).
(** 530-532 *)
Definition set_bestfit_replacement_byte (b : N) (g : settings) : settings :=
  put_dec (fun d => put_bestfit {| bm_map := bm_map (bestfit d); bm_repl := b |} d) g.
(** 417-419 *)
Definition set_parse_urlencoded (v : bool) (g : settings) : settings := set_g_cfg (set_c_parse_urlenc v (g_cfg g)) g.
(** 424-426 *)
Definition set_field_limit (v : N) (g : settings) : settings := set_g_cfg (set_c_field_limit v (g_cfg g)) g.
(** 501-503 *)
Definition set_tx_auto_destroy (v : bool) (g : settings) : settings := set_g_cfg (set_c_auto_destroy v (g_cfg g)) g.
(** 517-519 *)
Definition set_flush_incomplete (v : bool) (g : settings) : settings := set_g_cfg (set_c_flush v (g_cfg g)) g.
(** 620-622 *)
Definition set_requestline_leading_whitespace_unwanted (v : unwanted) (g : settings) : settings := set_g_cfg (set_c_ws_unwanted v (g_cfg g)) g.
(** 625-627 *)
Definition set_request_decompression (v : bool) (g : settings) : settings := set_g_cfg (set_c_req_decomp v (g_cfg g)) g.
(** 630-632 *)
Definition set_decompression_layer_limit (v : option N) (g : settings) : settings := set_g_cfg (set_c_layer_limit v (g_cfg g)) g.
(** 610-612 *)
Definition set_normalized_uri_include_all (v : bool) (g : settings) : settings := set_g_include_all v g.
(** src/decompressors.rs:58-67 *)
Definition set_lzma_memlimit (v : N) (g : settings) : settings := set_g_lzma_memlimit (if v =? 0 then None else Some v) g.
(** 70-72 *)
Definition set_lzma_layers (v : option N) (g : settings) : settings := set_g_cfg (set_c_lzma_layers v (g_cfg g)) g.
(** 85-87 *)
Definition set_bomb_limit (v : N) (g : settings) : settings := set_g_cfg (set_c_bomb_limit v (g_cfg g)) g.
(** 95-97 *)
Definition set_bomb_ratio (v : N) (g : settings) : settings := set_g_cfg (set_c_bomb_ratio v (g_cfg g)) g.
(** 105-107 *)
Definition set_time_limit (v : N) (g : settings) : settings := set_g_time_limit v g.

(** 435-496; [None]: Err(ERROR), and the configuration is as before. *)
Definition set_server_personality (p : pers) (g : settings) : option settings :=
  let done g := Some (mk_settings (set_c_pers (pers_seen p) (g_cfg g)) p (g_include_all g) (g_lzma_memlimit g) (g_time_limit g)) in
  match p with
  | PMinimal => done g
  | PGeneric =>
      let g := set_backslash_convert_slashes true g in
      let g := set_path_separators_decode true g in
      let g := set_path_separators_compress true g in
      done g
  | PIds =>
      let g := set_backslash_convert_slashes true g in
      let g := set_path_separators_decode true g in
      let g := set_path_separators_compress true g in
      let g := set_convert_lowercase true g in
      let g := set_utf8_convert_bestfit true g in
      let g := set_u_encoding_decode true g in
      let g := set_requestline_leading_whitespace_unwanted UIgnore g in
      done g
  | PApache2 =>
      let g := set_backslash_convert_slashes false g in
      let g := set_path_separators_decode false g in
      let g := set_path_separators_compress true g in
      let g := set_u_encoding_decode false g in
      let g := set_url_encoding_invalid_handling PRESERVE_PERCENT g in
      let g := set_url_encoding_invalid_unwanted U400 g in
      let g := set_control_chars_unwanted UIgnore g in
      let g := set_requestline_leading_whitespace_unwanted U400 g in
      done g
  | PIis51 =>
      let g := set_backslash_convert_slashes true g in
      let g := set_path_separators_decode true g in
      let g := set_path_separators_compress true g in
      let g := set_u_encoding_decode false g in
      let g := set_url_encoding_invalid_handling PRESERVE_PERCENT g in
      let g := set_control_chars_unwanted UIgnore g in
      let g := set_requestline_leading_whitespace_unwanted UIgnore g in
      done g
  | PIis60 =>
      let g := set_backslash_convert_slashes true g in
      let g := set_path_separators_decode true g in
      let g := set_path_separators_compress true g in
      let g := set_u_encoding_decode true g in
      let g := set_url_encoding_invalid_handling PRESERVE_PERCENT g in
      let g := set_u_encoding_unwanted U400 g in
      let g := set_control_chars_unwanted U400 g in
      let g := set_requestline_leading_whitespace_unwanted UIgnore g in
      done g
  | PIis70 | PIis75 =>
      let g := set_backslash_convert_slashes true g in
      let g := set_path_separators_decode true g in
      let g := set_path_separators_compress true g in
      let g := set_u_encoding_decode true g in
      let g := set_url_encoding_invalid_handling PRESERVE_PERCENT g in
      let g := set_url_encoding_invalid_unwanted U400 g in
      let g := set_control_chars_unwanted U400 g in
      let g := set_requestline_leading_whitespace_unwanted UIgnore g in
      done g
  | PIis40 | PIis50 => None
  end.

(** * The calls of the Rust interface *)
Inductive rust_call :=
| RDoubleDecodeNormalizedPath (v : bool)
| RDoubleDecodeNormalizedQuery (v : bool)
| RBackslashConvertSlashes (v : bool)
| RConvertLowercase (v : bool)
| RPathSeparatorsCompress (v : bool)
| RPathSeparatorsDecode (v : bool)
| RPlusspaceDecode (v : bool)
| RNulRawTerminates (v : bool)
| RControlCharsUnwanted (v : unwanted)
| RAllowSpaceUri (v : bool)
| RUEncodingDecode (v : bool)
| RUEncodingUnwanted (v : unwanted)
| RUrlEncodingInvalidHandling (v : url_handling)
| RUrlEncodingInvalidUnwanted (v : unwanted)
| RNulEncodedTerminates (v : bool)
| RUtf8ConvertBestfit (v : bool)
| RBestfitMap (v : bestfit_map)
| RBestfitReplacementByte (v : N)
| RParseUrlencoded (v : bool)
| RFieldLimit (v : N)
| RTxAutoDestroy (v : bool)
| RFlushIncomplete (v : bool)
| RRequestlineLeadingWhitespaceUnwanted (v : unwanted)
| RRequestDecompression (v : bool)
| RDecompressionLayerLimit (v : option N)
| RNormalizedUriIncludeAll (v : bool)
| RLzmaMemlimit (v : N)
| RLzmaLayers (v : option N)
| RBombLimit (v : N)
| RBombRatio (v : N)
| RTimeLimit (v : N)
| RServerPersonality (p : pers).
(** The new configuration, and whether the call succeeded. *)
Definition rust_config (c : rust_call) (g : settings) : settings * bool :=
  match c with
  | RDoubleDecodeNormalizedPath v => (set_double_decode_normalized_path v g, true)
  | RDoubleDecodeNormalizedQuery v => (set_double_decode_normalized_query v g, true)
  | RBackslashConvertSlashes v => (set_backslash_convert_slashes v g, true)
  | RConvertLowercase v => (set_convert_lowercase v g, true)
  | RPathSeparatorsCompress v => (set_path_separators_compress v g, true)
  | RPathSeparatorsDecode v => (set_path_separators_decode v g, true)
  | RPlusspaceDecode v => (set_plusspace_decode v g, true)
  | RNulRawTerminates v => (set_nul_raw_terminates v g, true)
  | RControlCharsUnwanted v => (set_control_chars_unwanted v g, true)
  | RAllowSpaceUri v => (set_allow_space_uri v g, true)
  | RUEncodingDecode v => (set_u_encoding_decode v g, true)
  | RUEncodingUnwanted v => (set_u_encoding_unwanted v g, true)
  | RUrlEncodingInvalidHandling v => (set_url_encoding_invalid_handling v g, true)
  | RUrlEncodingInvalidUnwanted v => (set_url_encoding_invalid_unwanted v g, true)
  | RNulEncodedTerminates v => (set_nul_encoded_terminates v g, true)
  | RUtf8ConvertBestfit v => (set_utf8_convert_bestfit v g, true)
  | RBestfitMap v => (set_bestfit_map v g, true)
  | RBestfitReplacementByte v => (set_bestfit_replacement_byte v g, true)
  | RParseUrlencoded v => (set_parse_urlencoded v g, true)
  | RFieldLimit v => (set_field_limit v g, true)
  | RTxAutoDestroy v => (set_tx_auto_destroy v g, true)
  | RFlushIncomplete v => (set_flush_incomplete v g, true)
  | RRequestlineLeadingWhitespaceUnwanted v => (set_requestline_leading_whitespace_unwanted v g, true)
  | RRequestDecompression v => (set_request_decompression v g, true)
  | RDecompressionLayerLimit v => (set_decompression_layer_limit v g, true)
  | RNormalizedUriIncludeAll v => (set_normalized_uri_include_all v g, true)
  | RLzmaMemlimit v => (set_lzma_memlimit v g, true)
  | RLzmaLayers v => (set_lzma_layers v g, true)
  | RBombLimit v => (set_bomb_limit v g, true)
  | RBombRatio v => (set_bomb_ratio v g, true)
  | RTimeLimit v => (set_time_limit v g, true)
  | RServerPersonality p => match set_server_personality p g with Some g' => (g', true) | None => (g, false) end
  end.

(** * src/c_api/config.rs. C's int is [Z], its unsigned types are [N]. *)
Inductive c_call :=
| CBackslashConvertSlashes (enabled : Z)
| CConvertLowercase (enabled : Z)
| CNulEncodedTerminates (enabled : Z)
| CNulRawTerminates (enabled : Z)
| CPathSeparatorsCompress (enabled : Z)
| CPlusspaceDecode (enabled : Z)
| CPathSeparatorsDecode (enabled : Z)
| CRequestDecompression (enabled : Z)
| CUEncodingDecode (enabled : Z)
| CUtf8ConvertBestfit (enabled : Z)
| CTxAutoDestroy (enabled : Z)
| CFlushIncomplete (enabled : Z)
| CParseUrlencoded (enabled : Z)
| CAllowSpaceUri (set : bool)
| CDoubleDecodeNormalizedQuery (set : bool)
| CDoubleDecodeNormalizedPath (set : bool)
| CNormalizedUriIncludeAll (set : bool)
| CBestfitReplacementByte (b : Z)
| CCompressionBombLimit (limit : N)
| CCompressionTimeLimit (limit : N)
| CFieldLimit (limit : N)
| CLzmaMemlimit (limit : N)
| CLzmaLayers (limit : Z)
| CMaxTx (limit : N)
| CParseRequestCookies (v : Z)
| CDecompressionLayerLimit (limit : Z)
| CServerPersonality (p : pers)
| CUrlEncodingInvalidHandling (h : url_handling).
(** [b as u8] *)
Definition z_u8 (z : Z) : N := Z.to_N (z mod 256).
(** 341-350, 458-470: [limit.try_into().ok()] on a positive int *)
Definition z_limit (z : Z) : option N := if (z <=? 0)%Z then None else Some (Z.to_N z).
Definition c_config_some (c : c_call) (g : settings) : settings * bool :=
  match c with
  | CBackslashConvertSlashes z => (set_backslash_convert_slashes (z =? 1)%Z g, true)  (** 255-262 *)
  | CConvertLowercase z => (set_convert_lowercase (z =? 1)%Z g, true)  (** 309-313 *)
  | CNulEncodedTerminates z => (set_nul_encoded_terminates (z =? 1)%Z g, true)  (** 367-374 *)
  | CNulRawTerminates z => (set_nul_raw_terminates (z =? 1)%Z g, true)  (** 380-384 *)
  | CPathSeparatorsCompress z => (set_path_separators_compress (z =? 1)%Z g, true)  (** 404-411 *)
  | CPlusspaceDecode z => (set_plusspace_decode (z =? 1)%Z g, true)  (** 419-423 *)
  | CPathSeparatorsDecode z => (set_path_separators_decode (z =? 1)%Z g, true)  (** 432-439 *)
  | CRequestDecompression z => (set_request_decompression (z =? 1)%Z g, true)  (** 445-452 *)
  | CUEncodingDecode z => (set_u_encoding_decode (z =? 1)%Z g, true)  (** 499-503 *)
  | CUtf8ConvertBestfit z => (set_utf8_convert_bestfit (z =? 1)%Z g, true)  (** 523-530 *)
  | CTxAutoDestroy z => (set_tx_auto_destroy (z =? 1)%Z g, true)  (** 572-579 *)
  | CFlushIncomplete z => (set_flush_incomplete (z =? 1)%Z g, true)  (** 597-604 *)
  | CParseUrlencoded z => (set_parse_urlencoded (z =? 1)%Z g, true)  (** 611-618 *)
  | CAllowSpaceUri b => (set_allow_space_uri b g, true)  (** 475-479 *)
  | CDoubleDecodeNormalizedQuery b => (set_double_decode_normalized_query b g, true)  (** 536-543 *)
  | CDoubleDecodeNormalizedPath b => (set_double_decode_normalized_path b g, true)  (** 549-553 *)
  | CNormalizedUriIncludeAll b => (set_normalized_uri_include_all b g, true)  (** 560-564 *)
  | CBestfitReplacementByte x => (set_bestfit_replacement_byte (z_u8 x) g, true)  (** 270-274 *)
  | CCompressionBombLimit x => (set_bomb_limit x g, true)  (** 280-289 *)
  | CCompressionTimeLimit x => (set_time_limit x g, true)  (** 295-302 *)
  | CFieldLimit x => (set_field_limit x g, true)  (** 321-325 *)
  | CLzmaMemlimit x => (set_lzma_memlimit x g, true)  (** 331-335 *)
  | CLzmaLayers x => (set_lzma_layers (z_limit x) g, true)  (** 341-349 *)
  | CMaxTx x => (set_g_cfg (set_c_max_tx x (g_cfg g)) g, true)  (** 355-359 *)
  | CParseRequestCookies _ => (g, true)  (** 390-395 *)
  | CDecompressionLayerLimit x => (set_decompression_layer_limit (z_limit x) g, true)  (** 458-469 *)
  | CServerPersonality p => match set_server_personality p g with Some g' => (g', true) | None => (g, false) end  (** 485-492 *)
  | CUrlEncodingInvalidHandling h => (set_url_encoding_invalid_handling h g, true)  (** 509-516 *)
  end.
(** With a pointer that may be NULL: [None]. Only one function has a return value, ERROR for NULL (485-493). *)
Definition c_config (c : c_call) (p : option settings) : option settings * bool :=
  match p with
  | Some g => let '(g', ok) := c_config_some c g in (Some g', ok)
  | None => (None, match c with CServerPersonality _ => false | _ => true end)
  end.
(** A sequence of calls on a new configuration (htp_config_create, 12-16). *)
Definition rust_configured (l : list rust_call) : settings := fold_left (fun g c => fst (rust_config c g)) l settings_default.
Definition c_configured (l : list c_call) : option settings := fold_left (fun p c => fst (c_config c p)) l (Some settings_default).
(** src/c_api/connection_parser.rs:51-55: a connection made without a configuration has the default one. *)
Definition htp_connp_create (p : option settings) : settings := match p with Some g => g | None => settings_default end.
