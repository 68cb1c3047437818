(** Vocabulary of C71: configured limits. *)
From Verif Require Import Base ModelState ModelTx ModelConn.

(** The messages that report an exceeded limit. *)
Definition limit_codes : list string :=
  ["REQUEST_FIELD_TOO_LONG"; "RESPONSE_FIELD_TOO_LONG"; "COMPRESSION_BOMB"; "TOO_MANY_ENCODING_LAYERS"; "REQUEST_TOO_MANY_LZMA_LAYERS"; "RESPONSE_TOO_MANY_LZMA_LAYERS"]%string.
Definition exceeded (l : list logmsg) : Prop := exists m, In m l /\ In (lg_code m) limit_codes.
(** No limit at all is [None]. *)
Definition opt_le (a b : option N) : Prop := match b with None => True | Some y => exists x, a = Some x /\ x <= y end.
(** The same surroundings, with higher limits for the length of a field, the size of decompressed bodies and the number of encodings. *)
Definition looser (e e' : env) : Prop := exists F B Ly Lz,
  e' = mk_env (set_c_field_limit F (set_c_bomb_limit B (set_c_layer_limit Ly (set_c_lzma_layers Lz (e_cfg e))))) (e_cb e) (e_codec e) (e_ip6 e) (e_b64 e) /\
  c_field_limit (e_cfg e) <= F /\ c_bomb_limit (e_cfg e) <= B /\ opt_le (c_layer_limit (e_cfg e)) Ly /\ opt_le (c_lzma_layers (e_cfg e)) Lz.
