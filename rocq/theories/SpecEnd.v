(** Vocabulary of the property statements about the end of a connection: a last response that goes on until it is closed. *)
From Verif Require Import Base Spec SpecTx ModelState ModelTx ModelConn SpecMsg SpecResp.

(** [w] is somewhere in [v], in capitals or not. *)
Definition contains (v : bytes) (w : string) : Prop := exists a x b, v = a ++ x ++ b /\ name_eq x (s2b w).
(** No line of the head tells where the body ends. *)
Definition endless (ls : list hline) : Prop :=
  no_line "content-length" ls /\ no_line "transfer-encoding" ls /\
  (no_line "content-type" ls \/ exists l, only_line "content-type" ls l /\ ~ contains (hl_value l) "multipart/byteranges").
(** A final response (200-999) to [m] with such a body. *)
Definition open_response (m : message) (r : response) : Prop :=
  length (rp_code r) = 3%nat /\ Forall digit (rp_code r) /\ 200 <= rp_status r /\
  Forall (fun c => c <> 10 /\ c <> 13) (rp_reason r) /\ (forall c x, rp_reason r = c :: x -> is_ascii_ws c = false) /\
  Forall good_hline (rp_lines r) /\ rp_lines r <> [] /\ no_line "content-encoding" (rp_lines r) /\
  ~ bodiless m r /\ endless (rp_lines r) /\
  (exists body, rp_content r = Plain body /\ blen body < 2 ^ 64 /\ smooth body) /\
  (400 <= rp_status r <= 499 -> no_line "expect" (rq_lines (m_req m) ++ trailer_of (m_content m))).
(** The last round: one request and a response that the end of the connection ends. *)
Definition last_round (rd : round) : Prop :=
  exists m r, rd_exchanges rd = [(m, r)] /\ good_message m /\ open_response m r /\
    concat (rd_up rd) = texts [m] /\ ~ In [] (rd_up rd) /\ clean [m] (rd_up rd) [] /\
    concat (rd_down rd) = response_text r /\ ~ In [] (rd_down rd) /\ reply_clean [r] (rd_down rd) [].
(** A conversation and the end of the connection. *)
Definition closed_after (rs : list round) : list op := conversation rs ++ [OpClose].
Definition closed_calls (rs : list round) : list (option sstate) := all_calls rs ++ [None].
