(** Vocabulary of C68: the normalized URI of a request. *)
From Verif Require Import Base Spec SpecDecode ModelUtil ModelUrl ModelUtf8 ModelUri.

(** [s] decodes to [out] under the rules of C67, its pieces raising the flags [fl]. *)
Definition decodes_to (cfg : decoder_cfg) (s out : bytes) (fl : list N) : Prop := exists cs, read_by (param_step cfg) s out fl cs.
(** User name, password, fragment: nothing, or the decoded text. *)
Definition component (cfg : decoder_cfg) (o r : option bytes) (fl : list N) : Prop :=
  match o with
  | None => r = None /\ fl = []
  | Some s => exists out, decodes_to cfg s out fl /\ r = Some out
  end.
Definition component_flags (fl : list N) : list N :=
  [on (raised fl URLEN_INVALID_ENCODING) PATH_INVALID_ENCODING; on (raised fl URLEN_ENCODED_NUL) PATH_ENCODED_NUL; on (raised fl URLEN_RAW_NUL) PATH_RAW_NUL].
(** The host: decoded, in lower case, without dots at its end. *)
Definition without_final_dots (s m : bytes) : Prop :=
  exists dots, s = m ++ dots /\ Forall (fun c => c = 46) dots /\ forall a, m <> a ++ [46].
Definition host_component (cfg : decoder_cfg) (o r : option bytes) (fl : list N) : Prop :=
  match o with
  | None => r = None /\ fl = []
  | Some s => exists out m, decodes_to cfg s out fl /\ without_final_dots (lowers out) m /\ r = Some m
  end.
(** The port: its number, or the flag for an invalid one. [number] says which texts are port numbers (C09). *)
Definition port_component (number : bytes -> N -> Prop) (o : option bytes) (r : option N) (fl : N) : Prop :=
  match o with
  | None => r = None /\ fl = 0
  | Some p => (exists n, number p n /\ r = Some n /\ fl = 0) \/ ((forall n, ~ number p n) /\ r = None /\ fl = HOSTU_INVALID)
  end.
(** The path: decoded by the rules of C66, read as UTF-8 (C16, C17; the characters replace the bytes only if so configured), and
    its dot segments resolved (C18). [before] are the flags raised earlier: an invalid UTF-8 flag asks for its status again. *)
Definition path_component (cfg : decoder_cfg) (before : N) (status : unwanted) (o r : option bytes) (fl : N) (status' : unwanted) : Prop :=
  match o with
  | None => r = None /\ fl = 0 /\ status' = status
  | Some p => exists out pf cs text chars uf,
      read_by (path_step cfg) p out pf cs /\ text = (if path_separators_compress cfg then squeezed out else out) /\
      decode_and_validate (bestfit cfg) text = (chars, uf) /\
      r = Some (normalize_uri_path (if utf8_convert_bestfit cfg then chars else text)) /\
      fl = all_flags (pf ++ [uf]) /\
      status' = match utf8_invalid_unwanted cfg with
                | UIgnore => final cs
                | u => if raised (before :: pf ++ [uf]) PATH_UTF8_INVALID then u else final cs
                end
  end.

(** The two texts of a normalized URI. *)
Definition decoded_once (cfg : decoder_cfg) (s out : bytes) : Prop := exists fl, decodes_to cfg s out fl.
Definition shorter (a b : bytes) : nat := if (length a <? length b)%nat then 1 else 0.
(** The path as it is, or decoded once more, with the number of warnings about double encoding. *)
Definition path_shown (cfg : decoder_cfg) (o : option bytes) (t : bytes) (n : nat) : Prop :=
  match o with
  | None => t = [] /\ n = 0%nat
  | Some p => if double_decode_normalized_path cfg then decoded_once cfg p t /\ n = shorter t p else t = p /\ n = 0%nat
  end.
(** The query decoded once or twice. *)
Definition query_shown (cfg : decoder_cfg) (o : option bytes) (t : bytes) (n : nat) : Prop :=
  match o with
  | None => t = [] /\ n = 0%nat
  | Some q => exists q1, decoded_once cfg q q1 /\
      if double_decode_normalized_query cfg then exists q2, decoded_once cfg q1 q2 /\ t = 63 :: q2 /\ n = shorter q2 q1 else t = 63 :: q1 /\ n = 0%nat
  end.
Definition credentials_shown (us pw : option bytes) (t : bytes) : Prop :=
  (us = None /\ pw = None /\ t = []) \/
  (exists u, us = Some u /\ ((exists p, pw = Some p /\ t = u ++ [58] ++ p ++ [64]) \/ (pw = None /\ t = u ++ [58; 64]))) \/
  (us = None /\ exists p, pw = Some p /\ t = [58] ++ p ++ [64]).
Definition around (pre : bytes) (o : option bytes) (post : bytes) (t : bytes) : Prop :=
  match o with None => t = [] | Some s => t = pre ++ s ++ post end.
Definition unless_empty (t : bytes) (o : option bytes) : Prop := (t = [] /\ o = None) \/ (t <> [] /\ o = Some t).
