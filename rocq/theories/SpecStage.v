(** Vocabulary of C62, C63, C64, C74 and C75: what a callback finds when it looks at the transaction it is called for. *)
From Verif Require Import Base Spec SpecTx SpecMsg SpecHost SpecLine.
From Verif Require Import ModelUtil ModelUri ModelState ModelTx ModelConn.

(** * C63: what was decided about a request from its head *)
Definition flagged (t : tx) (f : N) : Prop := fis_set (x_flags t) f = true.
Record request_decided (t : tx) : Prop := {
  (** chunked framing, and what is suspicious about it *)
  rq_chunked : forall te, the_header (t_headers (x_req t)) (s2b "transfer-encoding") te -> mentions (hd_value te) (s2b "chunked") ->
    t_coding (x_req t) = CdChunked /\
    (forall cl, the_header (t_headers (x_req t)) (s2b "content-length") cl -> flagged t REQUEST_SMUGGLING) /\
    (t_proton (x_req t) <> ProtoV1_1 -> flagged t REQUEST_SMUGGLING /\ flagged t REQUEST_INVALID_T_E);
  (** another transfer coding *)
  rq_other : forall te, the_header (t_headers (x_req t)) (s2b "transfer-encoding") te -> ~ mentions (hd_value te) (s2b "chunked") ->
    t_coding (x_req t) = CdInvalid /\ flagged t REQUEST_INVALID_T_E /\ flagged t REQUEST_INVALID;
  (** a length *)
  rq_length : forall cl, lacks (t_headers (x_req t)) (s2b "transfer-encoding") -> the_header (t_headers (x_req t)) (s2b "content-length") cl ->
    (forall n, t_clen (x_req t) = Some n <-> exists ds, first_digit_run (hd_value cl) ds /\ dec_value ds = n /\ n < 2 ^ 64) /\
    (t_coding (x_req t) = match t_clen (x_req t) with Some _ => CdIdentity | None => CdInvalid end) /\
    (t_clen (x_req t) = None -> flagged t REQUEST_INVALID_C_L /\ flagged t REQUEST_INVALID) /\
    (fis_set (hd_flags cl) FIELD_REPEATED = true -> flagged t REQUEST_SMUGGLING);
  rq_none : lacks (t_headers (x_req t)) (s2b "transfer-encoding") -> lacks (t_headers (x_req t)) (s2b "content-length") ->
    t_coding (x_req t) = CdNoBody;
  (** the host *)
  rq_missing : lacks (t_headers (x_req t)) (s2b "host") -> t_proton (x_req t) = ProtoV1_1 -> flagged t HOST_MISSING;
  rq_target : forall h p, target_host t h (Some p) -> x_host t = Some h /\ x_port t = Some p;
  rq_differs : forall h p l h' p', target_host t h (Some p) -> the_header (t_headers (x_req t)) (s2b "host") l -> host_text (hd_value l) h' p' ->
    lowers h <> lowers h' \/ (exists q, p' = Some q /\ q <> p) -> flagged t HOST_AMBIGUOUS
}.

(** * C64: what was decided about a response from its head *)
Definition has_method (t : tx) (m : string) : Prop := x_methodn t = MKnown (s2b m).
Definition status_in (t : tx) (a b : N) : Prop := exists n, x_statusn t = RnValid n /\ a <= n <= b.
(** A response that switches the connection to a tunnel: it has no body of its own. *)
Definition tunnels (t : tx) : Prop :=
  (has_method t "CONNECT" /\ status_in t 200 299) \/
  (status_in t 101 101 /\ lacks (t_headers (x_resp t)) (s2b "transfer-encoding") /\ lacks (t_headers (x_resp t)) (s2b "content-length")).
(** A response that never has a body. *)
Definition bodiless (t : tx) : Prop :=
  has_method t "HEAD" \/
  ((status_in t 100 199 \/ status_in t 204 204 \/ status_in t 304 304) /\
   lacks (t_headers (x_resp t)) (s2b "transfer-encoding") /\ lacks (t_headers (x_resp t)) (s2b "content-length")).
Definition unchunked (t : tx) : Prop :=
  forall te, the_header (t_headers (x_resp t)) (s2b "transfer-encoding") te -> ~ mentions (hd_value te) (s2b "chunked").
Record response_decided (t : tx) : Prop := {
  rp_bodiless : ~ tunnels t -> bodiless t -> t_coding (x_resp t) = CdNoBody;
  rp_chunked : forall te, ~ tunnels t -> ~ bodiless t ->
    the_header (t_headers (x_resp t)) (s2b "transfer-encoding") te -> mentions (hd_value te) (s2b "chunked") ->
    t_coding (x_resp t) = CdChunked /\ t_prog (x_resp t) = PBody /\
    (forall cl, the_header (t_headers (x_resp t)) (s2b "content-length") cl -> flagged t REQUEST_SMUGGLING);
  rp_length : forall cl, ~ tunnels t -> ~ bodiless t -> unchunked t -> the_header (t_headers (x_resp t)) (s2b "content-length") cl ->
    t_coding (x_resp t) = CdIdentity /\
    (exists n ds, t_clen (x_resp t) = Some n /\ first_digit_run (hd_value cl) ds /\ dec_value ds = n /\ n < 2 ^ 64 /\ (0 < n -> t_prog (x_resp t) = PBody)) /\
    (fis_set (hd_flags cl) FIELD_REPEATED = true -> flagged t REQUEST_SMUGGLING);
  rp_rest : ~ tunnels t -> ~ bodiless t -> unchunked t -> lacks (t_headers (x_resp t)) (s2b "content-length") ->
    t_coding (x_resp t) = CdIdentity /\ t_prog (x_resp t) = PBody
}.

(** * C74, C75: what was read of the first lines *)
Definition request_line_read (c : config) (t : tx) : Prop :=
  exists line w, t_line (x_req t) = Some line /\ reads_request c line w /\ tells_request c w t /\ (forall u tg, ~ has_method t "CONNECT" -> x_raw t = Some u -> w_target w = Some tg -> located tg u).
Definition status_line_read (t : tx) : Prop := exists line w, t_line (x_resp t) = Some line /\ reads_status line w /\ tells_status w t.

(** * C62: the stage a callback announces *)
Definition line_checked (t : tx) : Prop :=
  (t_proton (x_resp t) = ProtoInvalid -> flagged t STATUS_LINE_INVALID) /\
  (status_in t 100 999 \/ (x_statusn t = RnInvalid /\ flagged t STATUS_LINE_INVALID)).
Definition stage (c : config) (h : hook) (t : tx) : Prop :=
  match h with
  | HRequestStart => t_prog (x_req t) = PLine
  | HRequestUriNormalize | HRequestLine => x_raw t <> None /\ x_parsed t <> None /\ request_line_read c t
  | HRequestHeaders => (t_prog (x_req t) = PLine \/ t_prog (x_req t) = PHeaders) /\ request_decided t
  | HRequestTrailer => t_prog (x_req t) <> PNotStarted /\ t_prog (x_req t) <> PLine /\ t_prog (x_req t) <> PHeaders
  | HRequestComplete => t_prog (x_req t) = PComplete
  | HResponseStart => t_prog (x_resp t) = if x_is09 t then PBody else PLine
  | HResponseLine => line_checked t /\ status_line_read t
  | HResponseHeaders => response_decided t
  | HResponseComplete => t_prog (x_resp t) = PComplete
  | HTransactionComplete => c_flush c = true \/ (t_prog (x_req t) = PComplete /\ t_prog (x_resp t) = PComplete)
  | _ => True
  end.
(** Whose turn it is: the message that is being parsed. *)
Definition turn (h : hook) (s : st) : option N :=
  match h with
  | HRequestStart | HRequestUriNormalize | HRequestLine | HRequestHeaders | HRequestTrailer | HRequestComplete
  | HRequestHeaderData | HRequestTrailerData | HRequestBodyTx | HRequestBody | HParam => Some (s_ridx s)
  | HResponseStart | HResponseLine | HResponseHeaders | HResponseTrailer | HResponseComplete
  | HResponseHeaderData | HResponseTrailerData | HResponseBodyTx | HResponseBody => Some (s_pidx s)
  | _ => None
  end.
(** In [s] the callback called with [ev] finds its transaction, in the stage [ev] announces. *)
Definition in_stage (c : config) (s : st) (ev : event) : Prop :=
  (exists t, tx_get (ev_tx ev) (s_txs s) = Some t /\ stage c (ev_hook ev) t) /\
  forall i, turn (ev_hook ev) s = Some i -> ev_tx ev = i.
(** The same environment with other callbacks. *)
Definition with_callbacks (cb : st -> event -> status) (e : env) : env := mk_env (e_cfg e) cb (e_codec e) (e_ip6 e) (e_b64 e).
