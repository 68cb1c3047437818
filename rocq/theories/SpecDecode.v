(** Vocabulary of C66 and C67: what each piece of a percent-encoded text decodes to. A step reads one piece at the front of the text:
    [step text out flags status rest] outputs [out] (a byte or nothing), raises [flags], asks for [status] and leaves [rest]. *)
From Verif Require Import Base Spec ModelUtil ModelBestfit ModelUrl.

Definition pair_of (h1 h2 : N) : N := 16 * hex_digit_value h1 + hex_digit_value h2.
(** Two bytes that are not both hexadecimal digits, processed as if they were: byte arithmetic on the letter codes. *)
Definition raw_digit (c : N) : N := if c <? 65 then (c + 208) mod 256 else (N.land c 0xdf + 201) mod 256.
Definition raw_pair (c1 c2 : N) : N := (raw_digit c1 * 16 mod 256 + raw_digit c2) mod 256.
Definition letter_u (u : N) : Prop := u = 117 \/ u = 85.
Definition hex2 (l : bytes) : Prop := length l = 2%nat /\ Forall hexdigit l.
Definition hex4 (l : bytes) : Prop := length l = 4%nat /\ Forall hexdigit l.
(** The byte that the 16-bit character [hi lo] is mapped to. *)
Definition wide (cfg : decoder_cfg) (hi lo : N) : N := if hi =? 0 then lo else bestfit_get (bestfit cfg) (256 * hi + lo).
(** The last request for a status in a list. *)
Fixpoint asks (l : list unwanted) : unwanted :=
  match l with
  | [] => UIgnore
  | u :: r => match asks r with UIgnore => u | v => v end
  end.
Definition all_flags (l : list N) : N := fold_right N.lor 0 l.
(** Some piece raised the flag [m]. *)
Definition raised (l : list N) (m : N) : bool := existsb (fun f => fis_set f m) l.
Definition on (c : bool) (f : N) : N := if c then f else 0.
Definition asks_if (c : bool) (u : unwanted) : unwanted := if c then u else UIgnore.

(** * C66: paths *)
Definition separator (cfg : decoder_cfg) (b : N) : bool := (b =? 47) || (backslash_convert_slashes cfg && (b =? 92)).
(** How a byte of a path appears in the output, and the status a control character asks for. *)
Definition shown (cfg : decoder_cfg) (b : N) : N :=
  let b := if backslash_convert_slashes cfg && (b =? 92) then 47 else b in
  if convert_lowercase cfg && ((65 <=? b) && (b <=? 90)) then b + 32 else b.
Definition control (cfg : decoder_cfg) (b : N) : unwanted := asks_if (b <? 32) (control_chars_unwanted cfg).
Definition wide_flags (cfg : decoder_cfg) (hi lo : N) : N :=
  all_flags [on (hi =? 0) PATH_OVERLONG_U; on (hi =? 255) PATH_HALF_FULL_RANGE; on (separator cfg (wide cfg hi lo)) PATH_ENCODED_SEPARATOR].

Inductive path_step (cfg : decoder_cfg) : bytes -> option N -> N -> unwanted -> bytes -> Prop :=
(** a byte as it is; a NUL may end the path *)
| ps_raw b r : b <> 37 -> b <> 0 \/ nul_raw_terminates cfg = false ->
    path_step cfg (b :: r) (Some (shown cfg b)) 0 (control cfg b) r
| ps_raw_nul r : nul_raw_terminates cfg = true -> path_step cfg (0 :: r) None 0 (nul_raw_unwanted cfg) []
(** %hh *)
| ps_hex h1 h2 r : hexdigit h1 -> hexdigit h2 -> separator cfg (pair_of h1 h2) = false ->
    pair_of h1 h2 <> 0 \/ nul_encoded_terminates cfg = false ->
    path_step cfg (37 :: h1 :: h2 :: r) (Some (shown cfg (pair_of h1 h2))) (on (pair_of h1 h2 =? 0) PATH_ENCODED_NUL) (control cfg (pair_of h1 h2)) r
| ps_hex_nul h1 h2 r : hexdigit h1 -> hexdigit h2 -> pair_of h1 h2 = 0 -> nul_encoded_terminates cfg = true ->
    path_step cfg (37 :: h1 :: h2 :: r) None PATH_ENCODED_NUL (nul_encoded_unwanted cfg) []
| ps_separator h1 h2 r : hexdigit h1 -> hexdigit h2 -> separator cfg (pair_of h1 h2) = true -> path_separators_decode cfg = true ->
    path_step cfg (37 :: h1 :: h2 :: r) (Some (shown cfg (pair_of h1 h2))) PATH_ENCODED_SEPARATOR UIgnore r
| ps_separator_kept h1 h2 r : hexdigit h1 -> hexdigit h2 -> separator cfg (pair_of h1 h2) = true -> path_separators_decode cfg = false ->
    path_step cfg (37 :: h1 :: h2 :: r) (Some 37) PATH_ENCODED_SEPARATOR UIgnore (h1 :: h2 :: r)
(** two bytes that are not both digits *)
| ps_bad_kept c1 c2 r : ~ letter_u c1 -> ~ hex2 [c1; c2] -> url_encoding_invalid_handling cfg = PRESERVE_PERCENT ->
    path_step cfg (37 :: c1 :: c2 :: r) (Some 37) PATH_INVALID_ENCODING UIgnore (c1 :: c2 :: r)
| ps_bad_removed c1 c2 r : ~ letter_u c1 -> ~ hex2 [c1; c2] -> url_encoding_invalid_handling cfg = REMOVE_PERCENT ->
    path_step cfg (37 :: c1 :: c2 :: r) None PATH_INVALID_ENCODING (url_encoding_invalid_unwanted cfg) (c1 :: c2 :: r)
| ps_bad_processed c1 c2 r : ~ letter_u c1 -> ~ hex2 [c1; c2] -> url_encoding_invalid_handling cfg = PROCESS_INVALID ->
    path_step cfg (37 :: c1 :: c2 :: r) (Some (shown cfg (raw_pair c1 c2))) PATH_INVALID_ENCODING (control cfg (raw_pair c1 c2)) r
(** the text ends too early *)
| ps_cut r : (length r < 2)%nat -> (forall u s, r = u :: s -> ~ letter_u u) ->
    path_step cfg (37 :: r) (match url_encoding_invalid_handling cfg with REMOVE_PERCENT => None | _ => Some 37 end)
              PATH_INVALID_ENCODING (url_encoding_invalid_unwanted cfg) r
| ps_wide_cut u r : letter_u u -> u_encoding_decode cfg = true -> (length r < 4)%nat ->
    path_step cfg (37 :: u :: r) (match url_encoding_invalid_handling cfg with REMOVE_PERCENT => None | _ => Some 37 end)
              PATH_INVALID_ENCODING (url_encoding_invalid_unwanted cfg) (u :: r)
(** %u without the decoding of 16-bit characters *)
| ps_wide_off u r : letter_u u -> u_encoding_decode cfg = false -> path_step cfg (37 :: u :: r) (Some 37) 0 UIgnore (u :: r)
(** %uhhhh *)
| ps_wide u h1 h2 h3 h4 r hi lo w : letter_u u -> u_encoding_decode cfg = true -> hex4 [h1; h2; h3; h4] ->
    hi = pair_of h1 h2 -> lo = pair_of h3 h4 -> w = wide cfg hi lo -> w <> 0 \/ nul_encoded_terminates cfg = false ->
    path_step cfg (37 :: u :: h1 :: h2 :: h3 :: h4 :: r) (Some (shown cfg w)) (all_flags [wide_flags cfg hi lo; on (w =? 0) PATH_ENCODED_NUL])
              (asks [u_encoding_unwanted cfg; asks_if (w =? 0) (nul_encoded_unwanted cfg); control cfg w]) r
| ps_wide_nul u h1 h2 h3 h4 r hi lo : letter_u u -> u_encoding_decode cfg = true -> hex4 [h1; h2; h3; h4] ->
    hi = pair_of h1 h2 -> lo = pair_of h3 h4 -> wide cfg hi lo = 0 -> nul_encoded_terminates cfg = true ->
    path_step cfg (37 :: u :: h1 :: h2 :: h3 :: h4 :: r) None (all_flags [wide_flags cfg hi lo; PATH_ENCODED_NUL])
              (asks [u_encoding_unwanted cfg; nul_encoded_unwanted cfg]) []
(** %u and four bytes that are not all digits *)
| ps_wide_bad_kept u a r : letter_u u -> u_encoding_decode cfg = true -> length a = 4%nat -> ~ hex4 a -> url_encoding_invalid_handling cfg = PRESERVE_PERCENT ->
    path_step cfg (37 :: u :: a ++ r) (Some 37) PATH_INVALID_ENCODING (url_encoding_invalid_unwanted cfg) (u :: a ++ r)
| ps_wide_bad_removed u a r : letter_u u -> u_encoding_decode cfg = true -> length a = 4%nat -> ~ hex4 a -> url_encoding_invalid_handling cfg = REMOVE_PERCENT ->
    path_step cfg (37 :: u :: a ++ r) None PATH_INVALID_ENCODING (url_encoding_invalid_unwanted cfg) (u :: a ++ r)
| ps_wide_bad_processed u c1 c2 c3 c4 r hi lo w : letter_u u -> u_encoding_decode cfg = true -> ~ hex4 [c1; c2; c3; c4] ->
    url_encoding_invalid_handling cfg = PROCESS_INVALID -> hi = raw_pair c1 c2 -> lo = raw_pair c3 c4 -> w = wide cfg hi lo ->
    path_step cfg (37 :: u :: c1 :: c2 :: c3 :: c4 :: r) (Some (shown cfg w)) (all_flags [PATH_INVALID_ENCODING; wide_flags cfg hi lo])
              (asks [url_encoding_invalid_unwanted cfg; asks_if (negb (hi =? 0)) (u_encoding_unwanted cfg); control cfg w]) r.

(** The whole text, step by step: the bytes output, and the flags and the requests for a status of each step. *)
Inductive read_by (step : bytes -> option N -> N -> unwanted -> bytes -> Prop) : bytes -> bytes -> list N -> list unwanted -> Prop :=
| rb_nil : read_by step [] [] [] []
| rb_step i o f c r out fl cs : step i o f c r -> read_by step r out fl cs ->
    read_by step i (match o with Some b => b :: out | None => out end) (f :: fl) (c :: cs).
(** Without a '/' that directly follows another. *)
Fixpoint squeezed (l : bytes) : bytes :=
  match l with
  | [] => []
  | a :: r => match r with
              | b :: _ => if (a =? 47) && (b =? 47) then squeezed r else a :: squeezed r
              | [] => [a]
              end
  end.
Definition final (l : list unwanted) : unwanted := last l UIgnore.

(** * C67: queries, parameters and other components *)
Definition param_flags (hi lo : N) : N :=
  all_flags [on (hi =? 0) URLEN_OVERLONG_U; on ((hi =? 255) && (lo <=? 239)) URLEN_HALF_FULL_RANGE].
(** What a percent sign and what follows it stand for: as a step, before the NUL rule. *)
Inductive percent_step (cfg : decoder_cfg) : bytes -> N -> bool -> N -> unwanted -> bytes -> Prop :=
| qs_hex h1 h2 r : hexdigit h1 -> hexdigit h2 -> percent_step cfg (h1 :: h2 :: r) (pair_of h1 h2) true 0 UIgnore r
| qs_bad_kept r : (forall u s, r = u :: s -> ~ letter_u u) -> (forall c1 c2 s, r = c1 :: c2 :: s -> ~ hex2 [c1; c2]) ->
    url_encoding_invalid_handling cfg = PRESERVE_PERCENT ->
    percent_step cfg r 37 true URLEN_INVALID_ENCODING (url_encoding_invalid_unwanted cfg) r
| qs_bad_removed r : (forall u s, r = u :: s -> ~ letter_u u) -> (forall c1 c2 s, r = c1 :: c2 :: s -> ~ hex2 [c1; c2]) ->
    url_encoding_invalid_handling cfg = REMOVE_PERCENT ->
    percent_step cfg r 37 false URLEN_INVALID_ENCODING (url_encoding_invalid_unwanted cfg) r
| qs_bad_processed c1 c2 r : ~ letter_u c1 -> ~ hex2 [c1; c2] -> url_encoding_invalid_handling cfg = PROCESS_INVALID ->
    percent_step cfg (c1 :: c2 :: r) (raw_pair c1 c2) true URLEN_INVALID_ENCODING (url_encoding_invalid_unwanted cfg) r
| qs_cut r : (length r < 2)%nat -> (forall u s, r = u :: s -> ~ letter_u u) -> url_encoding_invalid_handling cfg = PROCESS_INVALID ->
    percent_step cfg r 37 true URLEN_INVALID_ENCODING (url_encoding_invalid_unwanted cfg) r
| qs_wide_cut u r : letter_u u -> u_encoding_decode cfg = true -> (length r < 4)%nat ->
    percent_step cfg (u :: r) 37 (match url_encoding_invalid_handling cfg with REMOVE_PERCENT => false | _ => true end)
                 URLEN_INVALID_ENCODING (url_encoding_invalid_unwanted cfg) (u :: r)
| qs_wide_off u r : letter_u u -> u_encoding_decode cfg = false -> percent_step cfg (u :: r) 37 true 0 UIgnore (u :: r)
| qs_wide u h1 h2 h3 h4 r hi lo : letter_u u -> u_encoding_decode cfg = true -> hex4 [h1; h2; h3; h4] ->
    hi = pair_of h1 h2 -> lo = pair_of h3 h4 ->
    percent_step cfg (u :: h1 :: h2 :: h3 :: h4 :: r) (wide cfg hi lo) true (param_flags hi lo) (u_encoding_unwanted cfg) r
| qs_wide_bad_kept u a r : letter_u u -> u_encoding_decode cfg = true -> length a = 4%nat -> ~ hex4 a -> url_encoding_invalid_handling cfg = PRESERVE_PERCENT ->
    percent_step cfg (u :: a ++ r) 37 true URLEN_INVALID_ENCODING (asks [u_encoding_unwanted cfg; url_encoding_invalid_unwanted cfg]) (u :: a ++ r)
| qs_wide_bad_removed u a r : letter_u u -> u_encoding_decode cfg = true -> length a = 4%nat -> ~ hex4 a -> url_encoding_invalid_handling cfg = REMOVE_PERCENT ->
    percent_step cfg (u :: a ++ r) 37 false URLEN_INVALID_ENCODING (asks [u_encoding_unwanted cfg; url_encoding_invalid_unwanted cfg]) (u :: a ++ r)
| qs_wide_bad_processed u c1 c2 c3 c4 r hi lo : letter_u u -> u_encoding_decode cfg = true -> ~ hex4 [c1; c2; c3; c4] ->
    url_encoding_invalid_handling cfg = PROCESS_INVALID -> hi = raw_pair c1 c2 -> lo = raw_pair c3 c4 ->
    percent_step cfg (u :: c1 :: c2 :: c3 :: c4 :: r) (wide cfg hi lo) true (all_flags [URLEN_INVALID_ENCODING; param_flags hi lo])
                 (asks [u_encoding_unwanted cfg; url_encoding_invalid_unwanted cfg]) r.
Inductive param_step (cfg : decoder_cfg) : bytes -> option N -> N -> unwanted -> bytes -> Prop :=
| qp_raw b r : b <> 37 -> b <> 43 -> b <> 0 -> param_step cfg (b :: r) (Some b) 0 UIgnore r
| qp_plus r : param_step cfg (43 :: r) (Some (if plusspace_decode cfg then 32 else 43)) 0 UIgnore r
| qp_nul r : nul_raw_terminates cfg = false -> param_step cfg (0 :: r) (Some 0) URLEN_RAW_NUL (nul_raw_unwanted cfg) r
| qp_nul_end r : nul_raw_terminates cfg = true -> param_step cfg (0 :: r) None URLEN_RAW_NUL (nul_raw_unwanted cfg) []
| qp_percent i b (out : bool) f c r : percent_step cfg i b out f c r -> b <> 0 ->
    param_step cfg (37 :: i) (if out then Some b else None) f c r
| qp_encoded_nul i f c r : percent_step cfg i 0 true f c r -> nul_encoded_terminates cfg = false ->
    param_step cfg (37 :: i) (Some 0) (all_flags [f; URLEN_ENCODED_NUL]) (asks [c; nul_encoded_unwanted cfg]) r
| qp_encoded_nul_end i f c r : percent_step cfg i 0 true f c r -> nul_encoded_terminates cfg = true ->
    param_step cfg (37 :: i) None (all_flags [f; URLEN_ENCODED_NUL]) (asks [c; nul_encoded_unwanted cfg]) [].
