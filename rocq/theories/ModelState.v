(** Data types of the connection model (generated by tools/gen_state.py; edit there).
    The Rust structs [ConnectionParser] and [Transaction] hold one group of fields per direction, with the
    same names up to the prefix request_/response_; each group is one record here ([dir], [txdir]). *)
From Verif Require Export Base ModelUtil ModelBstr ModelParsers ModelUrl ModelUri ModelHeaders.

(** src/lib.rs:16-43, [HtpStatus]; the two reserved values are [SReserved]. *)
Inductive status := SError | SDeclined | SOk | SData | SDataOther | SStop | SDataBuffer | SReserved.

(** src/connection_parser.rs:62-81, [HtpStreamState]. *)
Inductive sstate := SsNew | SsOpen | SsClosed | SsError | SsTunnel | SsDataOther | SsStop | SsData.

(** src/connection_parser.rs:19-57, [State]. *)
Inductive pstate :=
  StNone | StIdle | StLine | StHeaders | StChunkedDataEnd | StChunkedData | StChunkedLength | StBodyDetermine
| StFinalize | StProtocol | StConnectCheck | StConnectProbe | StConnectWait | StIdentity | StIgnore09
| StStreamClose | StClKnown.

(** src/transaction.rs:257-301, [HtpRequestProgress] and [HtpResponseProgress], which list the same values in the same order. *)
Inductive progress := PNotStarted | PLine | PHeaders | PBody | PTrailer | PComplete | PError | PGap.
(** Their derived order ([PartialOrd]). *)
Definition prog_rank (p : progress) : N :=
  match p with PNotStarted => 0 | PLine => 1 | PHeaders => 2 | PBody => 3 | PTrailer => 4 | PComplete => 5
             | PError => 6 | PGap => 7 end.

(** src/transaction.rs:106-119, [HtpTransferCoding]. *)
Inductive coding := CdUnknown | CdNoBody | CdIdentity | CdChunked | CdInvalid | CdError.
(** src/decompressors.rs:201-214, [HtpContentEncoding]. *)
Inductive cenc := CeNone | CeGzip | CeDeflate | CeZlib | CeLzma | CeError.
(** src/transaction.rs:123-130, [HtpResponseNumber]. *)
Inductive respnum := RnUnknown | RnInvalid | RnValid (n : N).
(** src/transaction.rs:304-323, [HtpAuthType]. *)
Inductive authtype := AuUnknown | AuNone | AuBasic | AuDigest | AuBearer | AuUnrecognized | AuError.
(** src/request.rs:33-132, [HtpMethod]: a recognised constructor is represented by the literal it is recognised from. *)
Inductive hmethod := MUnknown | MKnown (name : bytes).

Definition sstate_eqb (a b : sstate) : bool :=
  match a, b with
  | SsNew, SsNew | SsOpen, SsOpen | SsClosed, SsClosed | SsError, SsError | SsTunnel, SsTunnel
  | SsDataOther, SsDataOther | SsStop, SsStop | SsData, SsData => true
  | _, _ => false
  end.
Definition pstate_eqb (a b : pstate) : bool :=
  match a, b with
  | StNone, StNone | StIdle, StIdle | StLine, StLine | StHeaders, StHeaders | StChunkedDataEnd, StChunkedDataEnd
  | StChunkedData, StChunkedData | StChunkedLength, StChunkedLength | StBodyDetermine, StBodyDetermine
  | StFinalize, StFinalize | StProtocol, StProtocol | StConnectCheck, StConnectCheck | StConnectProbe, StConnectProbe
  | StConnectWait, StConnectWait | StIdentity, StIdentity | StIgnore09, StIgnore09 | StStreamClose, StStreamClose
  | StClKnown, StClKnown => true
  | _, _ => false
  end.
Definition prog_eqb (a b : progress) : bool := prog_rank a =? prog_rank b.
Definition coding_eqb (a b : coding) : bool :=
  match a, b with
  | CdUnknown, CdUnknown | CdNoBody, CdNoBody | CdIdentity, CdIdentity | CdChunked, CdChunked
  | CdInvalid, CdInvalid | CdError, CdError => true
  | _, _ => false
  end.

(** The hooks of src/config.rs:41-101 a parser can run, the two transaction-level body hooks
    (src/transaction.rs:452-457) and the parameter processor (src/config.rs:29). *)
Inductive hook :=
  HRequestStart | HRequestLine | HRequestUriNormalize | HRequestHeaderData | HRequestHeaders | HRequestBodyTx | HRequestBody
| HRequestTrailerData | HRequestTrailer | HRequestComplete
| HResponseStart | HResponseLine | HResponseHeaderData | HResponseHeaders | HResponseBodyTx | HResponseBody
| HResponseTrailerData | HResponseTrailer | HResponseComplete | HTransactionComplete | HParam.
(** What a callback is handed besides its transaction: nothing (transaction hooks; the end of a body), bytes, the length
    of a gap, or a query parameter. *)
Inductive payload := PlNone | PlData (b : bytes) | PlGap (n : N) | PlParam (name value : bytes).
(** One run of a hook: all the callbacks registered on it, for the transaction with that index. *)
Record event := mk_ev { ev_hook : hook; ev_tx : N; ev_data : payload }.

(** src/log.rs:171-186, [HtpLogLevel], by rank. *)
Definition LvError : N := 1.
Definition LvWarning : N := 2.
Definition LvNotice : N := 3.
Definition LvInfo : N := 4.
(** A log message: its level and code (the name of the [HtpLogCode]); file, line and text are not modelled. *)
Record logmsg := mk_log { lg_level : N; lg_code : string }.

(** src/decompressors.rs:218-227, [Decompressor], as the story of how it was built and used, latest first: a layer of an encoding was
    prepended; it was given bytes to decompress and, afterwards, was told to pass data through or not. ModelDecomp.v says what state
    such a decompressor is in. *)
Inductive dop := DoLayer (ce : cenc) | DoFeed (b : bytes) (pass : bool).
Definition decomp := list dop.
(** The encodings of the layers, outermost first. *)
Definition dc_layers (dc : decomp) : list cenc := flat_map (fun o => match o with DoLayer ce => [ce] | DoFeed _ _ => [] end) dc.

(** src/connection_parser.rs:85-94, [ParserData]. *)
Record pdata := mk_pdata {
  pd_data : option bytes;
  pd_gap : option N;
  pd_pos : N;
  pd_cb : N  (** callback_position *)
}.
Definition set_pd_data (v : option bytes) (r : pdata) : pdata := mk_pdata v (pd_gap r) (pd_pos r) (pd_cb r).
Definition set_pd_gap (v : option N) (r : pdata) : pdata := mk_pdata (pd_data r) v (pd_pos r) (pd_cb r).
Definition set_pd_pos (v : N) (r : pdata) : pdata := mk_pdata (pd_data r) (pd_gap r) v (pd_cb r).
Definition set_pd_cb (v : N) (r : pdata) : pdata := mk_pdata (pd_data r) (pd_gap r) (pd_pos r) v.

(** src/transaction.rs:342-571, the fields of [Transaction] that exist once per direction. *)
Record txdir := mk_txdir {
  t_ignored : N;  (** *_ignored_lines *)
  t_line : option bytes;
  t_proto : option bytes;
  t_proton : protocol;  (** *_protocol_number *)
  t_mlen : N;  (** *_message_len *)
  t_elen : N;  (** *_entity_len *)
  t_headers : headers_tab;
  t_coding : coding;
  t_ce : cenc;  (** *_content_encoding *)
  t_cep : cenc;  (** *_content_encoding_processing *)
  t_ctype : option bytes;
  t_dec : option decomp;  (** *_decompressor *)
  t_clen : option N;  (** *_content_length *)
  t_prog : progress;
  t_reps : N;  (** *_header_repetitions *)
  t_hpc : bool  (** *_header_parser.complete *)
}.
Definition set_t_ignored (v : N) (r : txdir) : txdir := mk_txdir v (t_line r) (t_proto r) (t_proton r) (t_mlen r) (t_elen r) (t_headers r) (t_coding r) (t_ce r) (t_cep r) (t_ctype r) (t_dec r) (t_clen r) (t_prog r) (t_reps r) (t_hpc r).
Definition set_t_line (v : option bytes) (r : txdir) : txdir := mk_txdir (t_ignored r) v (t_proto r) (t_proton r) (t_mlen r) (t_elen r) (t_headers r) (t_coding r) (t_ce r) (t_cep r) (t_ctype r) (t_dec r) (t_clen r) (t_prog r) (t_reps r) (t_hpc r).
Definition set_t_proto (v : option bytes) (r : txdir) : txdir := mk_txdir (t_ignored r) (t_line r) v (t_proton r) (t_mlen r) (t_elen r) (t_headers r) (t_coding r) (t_ce r) (t_cep r) (t_ctype r) (t_dec r) (t_clen r) (t_prog r) (t_reps r) (t_hpc r).
Definition set_t_proton (v : protocol) (r : txdir) : txdir := mk_txdir (t_ignored r) (t_line r) (t_proto r) v (t_mlen r) (t_elen r) (t_headers r) (t_coding r) (t_ce r) (t_cep r) (t_ctype r) (t_dec r) (t_clen r) (t_prog r) (t_reps r) (t_hpc r).
Definition set_t_mlen (v : N) (r : txdir) : txdir := mk_txdir (t_ignored r) (t_line r) (t_proto r) (t_proton r) v (t_elen r) (t_headers r) (t_coding r) (t_ce r) (t_cep r) (t_ctype r) (t_dec r) (t_clen r) (t_prog r) (t_reps r) (t_hpc r).
Definition set_t_elen (v : N) (r : txdir) : txdir := mk_txdir (t_ignored r) (t_line r) (t_proto r) (t_proton r) (t_mlen r) v (t_headers r) (t_coding r) (t_ce r) (t_cep r) (t_ctype r) (t_dec r) (t_clen r) (t_prog r) (t_reps r) (t_hpc r).
Definition set_t_headers (v : headers_tab) (r : txdir) : txdir := mk_txdir (t_ignored r) (t_line r) (t_proto r) (t_proton r) (t_mlen r) (t_elen r) v (t_coding r) (t_ce r) (t_cep r) (t_ctype r) (t_dec r) (t_clen r) (t_prog r) (t_reps r) (t_hpc r).
Definition set_t_coding (v : coding) (r : txdir) : txdir := mk_txdir (t_ignored r) (t_line r) (t_proto r) (t_proton r) (t_mlen r) (t_elen r) (t_headers r) v (t_ce r) (t_cep r) (t_ctype r) (t_dec r) (t_clen r) (t_prog r) (t_reps r) (t_hpc r).
Definition set_t_ce (v : cenc) (r : txdir) : txdir := mk_txdir (t_ignored r) (t_line r) (t_proto r) (t_proton r) (t_mlen r) (t_elen r) (t_headers r) (t_coding r) v (t_cep r) (t_ctype r) (t_dec r) (t_clen r) (t_prog r) (t_reps r) (t_hpc r).
Definition set_t_cep (v : cenc) (r : txdir) : txdir := mk_txdir (t_ignored r) (t_line r) (t_proto r) (t_proton r) (t_mlen r) (t_elen r) (t_headers r) (t_coding r) (t_ce r) v (t_ctype r) (t_dec r) (t_clen r) (t_prog r) (t_reps r) (t_hpc r).
Definition set_t_ctype (v : option bytes) (r : txdir) : txdir := mk_txdir (t_ignored r) (t_line r) (t_proto r) (t_proton r) (t_mlen r) (t_elen r) (t_headers r) (t_coding r) (t_ce r) (t_cep r) v (t_dec r) (t_clen r) (t_prog r) (t_reps r) (t_hpc r).
Definition set_t_dec (v : option decomp) (r : txdir) : txdir := mk_txdir (t_ignored r) (t_line r) (t_proto r) (t_proton r) (t_mlen r) (t_elen r) (t_headers r) (t_coding r) (t_ce r) (t_cep r) (t_ctype r) v (t_clen r) (t_prog r) (t_reps r) (t_hpc r).
Definition set_t_clen (v : option N) (r : txdir) : txdir := mk_txdir (t_ignored r) (t_line r) (t_proto r) (t_proton r) (t_mlen r) (t_elen r) (t_headers r) (t_coding r) (t_ce r) (t_cep r) (t_ctype r) (t_dec r) v (t_prog r) (t_reps r) (t_hpc r).
Definition set_t_prog (v : progress) (r : txdir) : txdir := mk_txdir (t_ignored r) (t_line r) (t_proto r) (t_proton r) (t_mlen r) (t_elen r) (t_headers r) (t_coding r) (t_ce r) (t_cep r) (t_ctype r) (t_dec r) (t_clen r) v (t_reps r) (t_hpc r).
Definition set_t_reps (v : N) (r : txdir) : txdir := mk_txdir (t_ignored r) (t_line r) (t_proto r) (t_proton r) (t_mlen r) (t_elen r) (t_headers r) (t_coding r) (t_ce r) (t_cep r) (t_ctype r) (t_dec r) (t_clen r) (t_prog r) v (t_hpc r).
Definition set_t_hpc (v : bool) (r : txdir) : txdir := mk_txdir (t_ignored r) (t_line r) (t_proto r) (t_proton r) (t_mlen r) (t_elen r) (t_headers r) (t_coding r) (t_ce r) (t_cep r) (t_ctype r) (t_dec r) (t_clen r) (t_prog r) (t_reps r) v.

(** src/transaction.rs:342-571, [Transaction]. Not modelled: logger, cfg, user data, and index (the key under which the transaction is stored; it never changes). *)
Record tx := mk_tx {
  x_req : txdir;
  x_resp : txdir;
  x_flags : N;
  x_method : option bytes;
  x_methodn : hmethod;
  x_uri : option bytes;
  x_is09 : bool;  (** is_protocol_0_9 *)
  x_parsed : option uri;
  x_raw : option uri;
  x_norm_complete : option bytes;
  x_norm_partial : option bytes;
  x_auth : authtype;
  x_user : option bytes;
  x_pass : option bytes;
  x_token : option bytes;
  x_host : option bytes;
  x_port : option N;
  x_status : option bytes;  (** response_status *)
  x_statusn : respnum;
  x_expected : unwanted;  (** response_status_expected_number *)
  x_msg : option bytes;
  x_seen100 : bool;
  x_h2 : bool;  (** is_http_2_upgrade *)
  x_dflt : bool  (** parsed_uri is the placeholder of src/response.rs:1436-1441, which carries the default decoder configuration *)
}.
Definition set_x_req (v : txdir) (r : tx) : tx := mk_tx v (x_resp r) (x_flags r) (x_method r) (x_methodn r) (x_uri r) (x_is09 r) (x_parsed r) (x_raw r) (x_norm_complete r) (x_norm_partial r) (x_auth r) (x_user r) (x_pass r) (x_token r) (x_host r) (x_port r) (x_status r) (x_statusn r) (x_expected r) (x_msg r) (x_seen100 r) (x_h2 r) (x_dflt r).
Definition set_x_resp (v : txdir) (r : tx) : tx := mk_tx (x_req r) v (x_flags r) (x_method r) (x_methodn r) (x_uri r) (x_is09 r) (x_parsed r) (x_raw r) (x_norm_complete r) (x_norm_partial r) (x_auth r) (x_user r) (x_pass r) (x_token r) (x_host r) (x_port r) (x_status r) (x_statusn r) (x_expected r) (x_msg r) (x_seen100 r) (x_h2 r) (x_dflt r).
Definition set_x_flags (v : N) (r : tx) : tx := mk_tx (x_req r) (x_resp r) v (x_method r) (x_methodn r) (x_uri r) (x_is09 r) (x_parsed r) (x_raw r) (x_norm_complete r) (x_norm_partial r) (x_auth r) (x_user r) (x_pass r) (x_token r) (x_host r) (x_port r) (x_status r) (x_statusn r) (x_expected r) (x_msg r) (x_seen100 r) (x_h2 r) (x_dflt r).
Definition set_x_method (v : option bytes) (r : tx) : tx := mk_tx (x_req r) (x_resp r) (x_flags r) v (x_methodn r) (x_uri r) (x_is09 r) (x_parsed r) (x_raw r) (x_norm_complete r) (x_norm_partial r) (x_auth r) (x_user r) (x_pass r) (x_token r) (x_host r) (x_port r) (x_status r) (x_statusn r) (x_expected r) (x_msg r) (x_seen100 r) (x_h2 r) (x_dflt r).
Definition set_x_methodn (v : hmethod) (r : tx) : tx := mk_tx (x_req r) (x_resp r) (x_flags r) (x_method r) v (x_uri r) (x_is09 r) (x_parsed r) (x_raw r) (x_norm_complete r) (x_norm_partial r) (x_auth r) (x_user r) (x_pass r) (x_token r) (x_host r) (x_port r) (x_status r) (x_statusn r) (x_expected r) (x_msg r) (x_seen100 r) (x_h2 r) (x_dflt r).
Definition set_x_uri (v : option bytes) (r : tx) : tx := mk_tx (x_req r) (x_resp r) (x_flags r) (x_method r) (x_methodn r) v (x_is09 r) (x_parsed r) (x_raw r) (x_norm_complete r) (x_norm_partial r) (x_auth r) (x_user r) (x_pass r) (x_token r) (x_host r) (x_port r) (x_status r) (x_statusn r) (x_expected r) (x_msg r) (x_seen100 r) (x_h2 r) (x_dflt r).
Definition set_x_is09 (v : bool) (r : tx) : tx := mk_tx (x_req r) (x_resp r) (x_flags r) (x_method r) (x_methodn r) (x_uri r) v (x_parsed r) (x_raw r) (x_norm_complete r) (x_norm_partial r) (x_auth r) (x_user r) (x_pass r) (x_token r) (x_host r) (x_port r) (x_status r) (x_statusn r) (x_expected r) (x_msg r) (x_seen100 r) (x_h2 r) (x_dflt r).
Definition set_x_parsed (v : option uri) (r : tx) : tx := mk_tx (x_req r) (x_resp r) (x_flags r) (x_method r) (x_methodn r) (x_uri r) (x_is09 r) v (x_raw r) (x_norm_complete r) (x_norm_partial r) (x_auth r) (x_user r) (x_pass r) (x_token r) (x_host r) (x_port r) (x_status r) (x_statusn r) (x_expected r) (x_msg r) (x_seen100 r) (x_h2 r) (x_dflt r).
Definition set_x_raw (v : option uri) (r : tx) : tx := mk_tx (x_req r) (x_resp r) (x_flags r) (x_method r) (x_methodn r) (x_uri r) (x_is09 r) (x_parsed r) v (x_norm_complete r) (x_norm_partial r) (x_auth r) (x_user r) (x_pass r) (x_token r) (x_host r) (x_port r) (x_status r) (x_statusn r) (x_expected r) (x_msg r) (x_seen100 r) (x_h2 r) (x_dflt r).
Definition set_x_norm_complete (v : option bytes) (r : tx) : tx := mk_tx (x_req r) (x_resp r) (x_flags r) (x_method r) (x_methodn r) (x_uri r) (x_is09 r) (x_parsed r) (x_raw r) v (x_norm_partial r) (x_auth r) (x_user r) (x_pass r) (x_token r) (x_host r) (x_port r) (x_status r) (x_statusn r) (x_expected r) (x_msg r) (x_seen100 r) (x_h2 r) (x_dflt r).
Definition set_x_norm_partial (v : option bytes) (r : tx) : tx := mk_tx (x_req r) (x_resp r) (x_flags r) (x_method r) (x_methodn r) (x_uri r) (x_is09 r) (x_parsed r) (x_raw r) (x_norm_complete r) v (x_auth r) (x_user r) (x_pass r) (x_token r) (x_host r) (x_port r) (x_status r) (x_statusn r) (x_expected r) (x_msg r) (x_seen100 r) (x_h2 r) (x_dflt r).
Definition set_x_auth (v : authtype) (r : tx) : tx := mk_tx (x_req r) (x_resp r) (x_flags r) (x_method r) (x_methodn r) (x_uri r) (x_is09 r) (x_parsed r) (x_raw r) (x_norm_complete r) (x_norm_partial r) v (x_user r) (x_pass r) (x_token r) (x_host r) (x_port r) (x_status r) (x_statusn r) (x_expected r) (x_msg r) (x_seen100 r) (x_h2 r) (x_dflt r).
Definition set_x_user (v : option bytes) (r : tx) : tx := mk_tx (x_req r) (x_resp r) (x_flags r) (x_method r) (x_methodn r) (x_uri r) (x_is09 r) (x_parsed r) (x_raw r) (x_norm_complete r) (x_norm_partial r) (x_auth r) v (x_pass r) (x_token r) (x_host r) (x_port r) (x_status r) (x_statusn r) (x_expected r) (x_msg r) (x_seen100 r) (x_h2 r) (x_dflt r).
Definition set_x_pass (v : option bytes) (r : tx) : tx := mk_tx (x_req r) (x_resp r) (x_flags r) (x_method r) (x_methodn r) (x_uri r) (x_is09 r) (x_parsed r) (x_raw r) (x_norm_complete r) (x_norm_partial r) (x_auth r) (x_user r) v (x_token r) (x_host r) (x_port r) (x_status r) (x_statusn r) (x_expected r) (x_msg r) (x_seen100 r) (x_h2 r) (x_dflt r).
Definition set_x_token (v : option bytes) (r : tx) : tx := mk_tx (x_req r) (x_resp r) (x_flags r) (x_method r) (x_methodn r) (x_uri r) (x_is09 r) (x_parsed r) (x_raw r) (x_norm_complete r) (x_norm_partial r) (x_auth r) (x_user r) (x_pass r) v (x_host r) (x_port r) (x_status r) (x_statusn r) (x_expected r) (x_msg r) (x_seen100 r) (x_h2 r) (x_dflt r).
Definition set_x_host (v : option bytes) (r : tx) : tx := mk_tx (x_req r) (x_resp r) (x_flags r) (x_method r) (x_methodn r) (x_uri r) (x_is09 r) (x_parsed r) (x_raw r) (x_norm_complete r) (x_norm_partial r) (x_auth r) (x_user r) (x_pass r) (x_token r) v (x_port r) (x_status r) (x_statusn r) (x_expected r) (x_msg r) (x_seen100 r) (x_h2 r) (x_dflt r).
Definition set_x_port (v : option N) (r : tx) : tx := mk_tx (x_req r) (x_resp r) (x_flags r) (x_method r) (x_methodn r) (x_uri r) (x_is09 r) (x_parsed r) (x_raw r) (x_norm_complete r) (x_norm_partial r) (x_auth r) (x_user r) (x_pass r) (x_token r) (x_host r) v (x_status r) (x_statusn r) (x_expected r) (x_msg r) (x_seen100 r) (x_h2 r) (x_dflt r).
Definition set_x_status (v : option bytes) (r : tx) : tx := mk_tx (x_req r) (x_resp r) (x_flags r) (x_method r) (x_methodn r) (x_uri r) (x_is09 r) (x_parsed r) (x_raw r) (x_norm_complete r) (x_norm_partial r) (x_auth r) (x_user r) (x_pass r) (x_token r) (x_host r) (x_port r) v (x_statusn r) (x_expected r) (x_msg r) (x_seen100 r) (x_h2 r) (x_dflt r).
Definition set_x_statusn (v : respnum) (r : tx) : tx := mk_tx (x_req r) (x_resp r) (x_flags r) (x_method r) (x_methodn r) (x_uri r) (x_is09 r) (x_parsed r) (x_raw r) (x_norm_complete r) (x_norm_partial r) (x_auth r) (x_user r) (x_pass r) (x_token r) (x_host r) (x_port r) (x_status r) v (x_expected r) (x_msg r) (x_seen100 r) (x_h2 r) (x_dflt r).
Definition set_x_expected (v : unwanted) (r : tx) : tx := mk_tx (x_req r) (x_resp r) (x_flags r) (x_method r) (x_methodn r) (x_uri r) (x_is09 r) (x_parsed r) (x_raw r) (x_norm_complete r) (x_norm_partial r) (x_auth r) (x_user r) (x_pass r) (x_token r) (x_host r) (x_port r) (x_status r) (x_statusn r) v (x_msg r) (x_seen100 r) (x_h2 r) (x_dflt r).
Definition set_x_msg (v : option bytes) (r : tx) : tx := mk_tx (x_req r) (x_resp r) (x_flags r) (x_method r) (x_methodn r) (x_uri r) (x_is09 r) (x_parsed r) (x_raw r) (x_norm_complete r) (x_norm_partial r) (x_auth r) (x_user r) (x_pass r) (x_token r) (x_host r) (x_port r) (x_status r) (x_statusn r) (x_expected r) v (x_seen100 r) (x_h2 r) (x_dflt r).
Definition set_x_seen100 (v : bool) (r : tx) : tx := mk_tx (x_req r) (x_resp r) (x_flags r) (x_method r) (x_methodn r) (x_uri r) (x_is09 r) (x_parsed r) (x_raw r) (x_norm_complete r) (x_norm_partial r) (x_auth r) (x_user r) (x_pass r) (x_token r) (x_host r) (x_port r) (x_status r) (x_statusn r) (x_expected r) (x_msg r) v (x_h2 r) (x_dflt r).
Definition set_x_h2 (v : bool) (r : tx) : tx := mk_tx (x_req r) (x_resp r) (x_flags r) (x_method r) (x_methodn r) (x_uri r) (x_is09 r) (x_parsed r) (x_raw r) (x_norm_complete r) (x_norm_partial r) (x_auth r) (x_user r) (x_pass r) (x_token r) (x_host r) (x_port r) (x_status r) (x_statusn r) (x_expected r) (x_msg r) (x_seen100 r) v (x_dflt r).
Definition set_x_dflt (v : bool) (r : tx) : tx := mk_tx (x_req r) (x_resp r) (x_flags r) (x_method r) (x_methodn r) (x_uri r) (x_is09 r) (x_parsed r) (x_raw r) (x_norm_complete r) (x_norm_partial r) (x_auth r) (x_user r) (x_pass r) (x_token r) (x_host r) (x_port r) (x_status r) (x_statusn r) (x_expected r) (x_msg r) (x_seen100 r) (x_h2 r) v.

(** src/connection_parser.rs:275-356, the fields of [ConnectionParser] that exist once per direction. *)
Record dir := mk_dir {
  d_status : sstate;
  d_consumed : N;  (** *_bytes_consumed *)
  d_buf : bytes;
  d_header : option bytes;  (** the pending header text *)
  d_clen : option N;
  d_left : option N;  (** *_body_data_left *)
  d_chunk : option N;  (** *_chunked_length *)
  d_state : pstate;
  d_prev : pstate;
  d_recv : option hook  (** *_data_receiver_hook *)
}.
Definition set_d_status (v : sstate) (r : dir) : dir := mk_dir v (d_consumed r) (d_buf r) (d_header r) (d_clen r) (d_left r) (d_chunk r) (d_state r) (d_prev r) (d_recv r).
Definition set_d_consumed (v : N) (r : dir) : dir := mk_dir (d_status r) v (d_buf r) (d_header r) (d_clen r) (d_left r) (d_chunk r) (d_state r) (d_prev r) (d_recv r).
Definition set_d_buf (v : bytes) (r : dir) : dir := mk_dir (d_status r) (d_consumed r) v (d_header r) (d_clen r) (d_left r) (d_chunk r) (d_state r) (d_prev r) (d_recv r).
Definition set_d_header (v : option bytes) (r : dir) : dir := mk_dir (d_status r) (d_consumed r) (d_buf r) v (d_clen r) (d_left r) (d_chunk r) (d_state r) (d_prev r) (d_recv r).
Definition set_d_clen (v : option N) (r : dir) : dir := mk_dir (d_status r) (d_consumed r) (d_buf r) (d_header r) v (d_left r) (d_chunk r) (d_state r) (d_prev r) (d_recv r).
Definition set_d_left (v : option N) (r : dir) : dir := mk_dir (d_status r) (d_consumed r) (d_buf r) (d_header r) (d_clen r) v (d_chunk r) (d_state r) (d_prev r) (d_recv r).
Definition set_d_chunk (v : option N) (r : dir) : dir := mk_dir (d_status r) (d_consumed r) (d_buf r) (d_header r) (d_clen r) (d_left r) v (d_state r) (d_prev r) (d_recv r).
Definition set_d_state (v : pstate) (r : dir) : dir := mk_dir (d_status r) (d_consumed r) (d_buf r) (d_header r) (d_clen r) (d_left r) (d_chunk r) v (d_prev r) (d_recv r).
Definition set_d_prev (v : pstate) (r : dir) : dir := mk_dir (d_status r) (d_consumed r) (d_buf r) (d_header r) (d_clen r) (d_left r) (d_chunk r) (d_state r) v (d_recv r).
Definition set_d_recv (v : option hook) (r : dir) : dir := mk_dir (d_status r) (d_consumed r) (d_buf r) (d_header r) (d_clen r) (d_left r) (d_chunk r) (d_state r) (d_prev r) v.

(** src/connection_parser.rs:275-356 [ConnectionParser], with the [Transactions] (src/transactions.rs:9-15) and [Connection] (src/connection.rs:24-47) it owns, the chunk being parsed ([s_input]; an argument of every handler in the code), and two records of what was observable so far, latest first: the hook runs with their results, and the log channel. Timestamps, addresses and user data are not modelled. *)
Record st := mk_st {
  s_req : dir;
  s_resp : dir;
  s_other_at_end : bool;  (** response_data_other_at_tx_end *)
  s_chunk_count : N;
  s_chunk_idx : N;  (** request_chunk_request_index *)
  s_ridx : N;  (** Transactions.request *)
  s_pidx : N;  (** Transactions.response *)
  s_txs : list (N * tx);  (** by increasing index *)
  s_cflags : N;  (** Connection.flags *)
  s_in : N;  (** request_data_counter *)
  s_out : N;  (** response_data_counter *)
  s_trace : list (event * status);
  s_logs : list logmsg;
  s_input : pdata
}.
Definition set_s_req (v : dir) (r : st) : st := mk_st v (s_resp r) (s_other_at_end r) (s_chunk_count r) (s_chunk_idx r) (s_ridx r) (s_pidx r) (s_txs r) (s_cflags r) (s_in r) (s_out r) (s_trace r) (s_logs r) (s_input r).
Definition set_s_resp (v : dir) (r : st) : st := mk_st (s_req r) v (s_other_at_end r) (s_chunk_count r) (s_chunk_idx r) (s_ridx r) (s_pidx r) (s_txs r) (s_cflags r) (s_in r) (s_out r) (s_trace r) (s_logs r) (s_input r).
Definition set_s_other_at_end (v : bool) (r : st) : st := mk_st (s_req r) (s_resp r) v (s_chunk_count r) (s_chunk_idx r) (s_ridx r) (s_pidx r) (s_txs r) (s_cflags r) (s_in r) (s_out r) (s_trace r) (s_logs r) (s_input r).
Definition set_s_chunk_count (v : N) (r : st) : st := mk_st (s_req r) (s_resp r) (s_other_at_end r) v (s_chunk_idx r) (s_ridx r) (s_pidx r) (s_txs r) (s_cflags r) (s_in r) (s_out r) (s_trace r) (s_logs r) (s_input r).
Definition set_s_chunk_idx (v : N) (r : st) : st := mk_st (s_req r) (s_resp r) (s_other_at_end r) (s_chunk_count r) v (s_ridx r) (s_pidx r) (s_txs r) (s_cflags r) (s_in r) (s_out r) (s_trace r) (s_logs r) (s_input r).
Definition set_s_ridx (v : N) (r : st) : st := mk_st (s_req r) (s_resp r) (s_other_at_end r) (s_chunk_count r) (s_chunk_idx r) v (s_pidx r) (s_txs r) (s_cflags r) (s_in r) (s_out r) (s_trace r) (s_logs r) (s_input r).
Definition set_s_pidx (v : N) (r : st) : st := mk_st (s_req r) (s_resp r) (s_other_at_end r) (s_chunk_count r) (s_chunk_idx r) (s_ridx r) v (s_txs r) (s_cflags r) (s_in r) (s_out r) (s_trace r) (s_logs r) (s_input r).
Definition set_s_txs (v : list (N * tx)) (r : st) : st := mk_st (s_req r) (s_resp r) (s_other_at_end r) (s_chunk_count r) (s_chunk_idx r) (s_ridx r) (s_pidx r) v (s_cflags r) (s_in r) (s_out r) (s_trace r) (s_logs r) (s_input r).
Definition set_s_cflags (v : N) (r : st) : st := mk_st (s_req r) (s_resp r) (s_other_at_end r) (s_chunk_count r) (s_chunk_idx r) (s_ridx r) (s_pidx r) (s_txs r) v (s_in r) (s_out r) (s_trace r) (s_logs r) (s_input r).
Definition set_s_in (v : N) (r : st) : st := mk_st (s_req r) (s_resp r) (s_other_at_end r) (s_chunk_count r) (s_chunk_idx r) (s_ridx r) (s_pidx r) (s_txs r) (s_cflags r) v (s_out r) (s_trace r) (s_logs r) (s_input r).
Definition set_s_out (v : N) (r : st) : st := mk_st (s_req r) (s_resp r) (s_other_at_end r) (s_chunk_count r) (s_chunk_idx r) (s_ridx r) (s_pidx r) (s_txs r) (s_cflags r) (s_in r) v (s_trace r) (s_logs r) (s_input r).
Definition set_s_trace (v : list (event * status)) (r : st) : st := mk_st (s_req r) (s_resp r) (s_other_at_end r) (s_chunk_count r) (s_chunk_idx r) (s_ridx r) (s_pidx r) (s_txs r) (s_cflags r) (s_in r) (s_out r) v (s_logs r) (s_input r).
Definition set_s_logs (v : list logmsg) (r : st) : st := mk_st (s_req r) (s_resp r) (s_other_at_end r) (s_chunk_count r) (s_chunk_idx r) (s_ridx r) (s_pidx r) (s_txs r) (s_cflags r) (s_in r) (s_out r) (s_trace r) v (s_input r).
Definition set_s_input (v : pdata) (r : st) : st := mk_st (s_req r) (s_resp r) (s_other_at_end r) (s_chunk_count r) (s_chunk_idx r) (s_ridx r) (s_pidx r) (s_txs r) (s_cflags r) (s_in r) (s_out r) (s_trace r) (s_logs r) v.

(** src/config.rs:15-114, [Config], without the hooks (see [env]), and src/decompressors.rs:26-41, [Options], without what only concerns the inside of the codecs. *)
Record config := mk_config {
  c_field_limit : N;
  c_log_level : N;
  c_auto_destroy : bool;
  c_pers : personality;
  c_dcfg : decoder_cfg;
  c_resp_decomp : bool;
  c_parse_urlenc : bool;
  c_parse_auth : bool;
  c_param_proc : bool;  (** whether a parameter_processor is set *)
  c_ws_unwanted : unwanted;
  c_req_decomp : bool;
  c_flush : bool;
  c_max_tx : N;
  c_layer_limit : option N;
  c_lzma_layers : option N;
  c_bomb_limit : N;
  c_bomb_ratio : N
}.
Definition set_c_field_limit (v : N) (r : config) : config := mk_config v (c_log_level r) (c_auto_destroy r) (c_pers r) (c_dcfg r) (c_resp_decomp r) (c_parse_urlenc r) (c_parse_auth r) (c_param_proc r) (c_ws_unwanted r) (c_req_decomp r) (c_flush r) (c_max_tx r) (c_layer_limit r) (c_lzma_layers r) (c_bomb_limit r) (c_bomb_ratio r).
Definition set_c_log_level (v : N) (r : config) : config := mk_config (c_field_limit r) v (c_auto_destroy r) (c_pers r) (c_dcfg r) (c_resp_decomp r) (c_parse_urlenc r) (c_parse_auth r) (c_param_proc r) (c_ws_unwanted r) (c_req_decomp r) (c_flush r) (c_max_tx r) (c_layer_limit r) (c_lzma_layers r) (c_bomb_limit r) (c_bomb_ratio r).
Definition set_c_auto_destroy (v : bool) (r : config) : config := mk_config (c_field_limit r) (c_log_level r) v (c_pers r) (c_dcfg r) (c_resp_decomp r) (c_parse_urlenc r) (c_parse_auth r) (c_param_proc r) (c_ws_unwanted r) (c_req_decomp r) (c_flush r) (c_max_tx r) (c_layer_limit r) (c_lzma_layers r) (c_bomb_limit r) (c_bomb_ratio r).
Definition set_c_pers (v : personality) (r : config) : config := mk_config (c_field_limit r) (c_log_level r) (c_auto_destroy r) v (c_dcfg r) (c_resp_decomp r) (c_parse_urlenc r) (c_parse_auth r) (c_param_proc r) (c_ws_unwanted r) (c_req_decomp r) (c_flush r) (c_max_tx r) (c_layer_limit r) (c_lzma_layers r) (c_bomb_limit r) (c_bomb_ratio r).
Definition set_c_dcfg (v : decoder_cfg) (r : config) : config := mk_config (c_field_limit r) (c_log_level r) (c_auto_destroy r) (c_pers r) v (c_resp_decomp r) (c_parse_urlenc r) (c_parse_auth r) (c_param_proc r) (c_ws_unwanted r) (c_req_decomp r) (c_flush r) (c_max_tx r) (c_layer_limit r) (c_lzma_layers r) (c_bomb_limit r) (c_bomb_ratio r).
Definition set_c_resp_decomp (v : bool) (r : config) : config := mk_config (c_field_limit r) (c_log_level r) (c_auto_destroy r) (c_pers r) (c_dcfg r) v (c_parse_urlenc r) (c_parse_auth r) (c_param_proc r) (c_ws_unwanted r) (c_req_decomp r) (c_flush r) (c_max_tx r) (c_layer_limit r) (c_lzma_layers r) (c_bomb_limit r) (c_bomb_ratio r).
Definition set_c_parse_urlenc (v : bool) (r : config) : config := mk_config (c_field_limit r) (c_log_level r) (c_auto_destroy r) (c_pers r) (c_dcfg r) (c_resp_decomp r) v (c_parse_auth r) (c_param_proc r) (c_ws_unwanted r) (c_req_decomp r) (c_flush r) (c_max_tx r) (c_layer_limit r) (c_lzma_layers r) (c_bomb_limit r) (c_bomb_ratio r).
Definition set_c_parse_auth (v : bool) (r : config) : config := mk_config (c_field_limit r) (c_log_level r) (c_auto_destroy r) (c_pers r) (c_dcfg r) (c_resp_decomp r) (c_parse_urlenc r) v (c_param_proc r) (c_ws_unwanted r) (c_req_decomp r) (c_flush r) (c_max_tx r) (c_layer_limit r) (c_lzma_layers r) (c_bomb_limit r) (c_bomb_ratio r).
Definition set_c_param_proc (v : bool) (r : config) : config := mk_config (c_field_limit r) (c_log_level r) (c_auto_destroy r) (c_pers r) (c_dcfg r) (c_resp_decomp r) (c_parse_urlenc r) (c_parse_auth r) v (c_ws_unwanted r) (c_req_decomp r) (c_flush r) (c_max_tx r) (c_layer_limit r) (c_lzma_layers r) (c_bomb_limit r) (c_bomb_ratio r).
Definition set_c_ws_unwanted (v : unwanted) (r : config) : config := mk_config (c_field_limit r) (c_log_level r) (c_auto_destroy r) (c_pers r) (c_dcfg r) (c_resp_decomp r) (c_parse_urlenc r) (c_parse_auth r) (c_param_proc r) v (c_req_decomp r) (c_flush r) (c_max_tx r) (c_layer_limit r) (c_lzma_layers r) (c_bomb_limit r) (c_bomb_ratio r).
Definition set_c_req_decomp (v : bool) (r : config) : config := mk_config (c_field_limit r) (c_log_level r) (c_auto_destroy r) (c_pers r) (c_dcfg r) (c_resp_decomp r) (c_parse_urlenc r) (c_parse_auth r) (c_param_proc r) (c_ws_unwanted r) v (c_flush r) (c_max_tx r) (c_layer_limit r) (c_lzma_layers r) (c_bomb_limit r) (c_bomb_ratio r).
Definition set_c_flush (v : bool) (r : config) : config := mk_config (c_field_limit r) (c_log_level r) (c_auto_destroy r) (c_pers r) (c_dcfg r) (c_resp_decomp r) (c_parse_urlenc r) (c_parse_auth r) (c_param_proc r) (c_ws_unwanted r) (c_req_decomp r) v (c_max_tx r) (c_layer_limit r) (c_lzma_layers r) (c_bomb_limit r) (c_bomb_ratio r).
Definition set_c_max_tx (v : N) (r : config) : config := mk_config (c_field_limit r) (c_log_level r) (c_auto_destroy r) (c_pers r) (c_dcfg r) (c_resp_decomp r) (c_parse_urlenc r) (c_parse_auth r) (c_param_proc r) (c_ws_unwanted r) (c_req_decomp r) (c_flush r) v (c_layer_limit r) (c_lzma_layers r) (c_bomb_limit r) (c_bomb_ratio r).
Definition set_c_layer_limit (v : option N) (r : config) : config := mk_config (c_field_limit r) (c_log_level r) (c_auto_destroy r) (c_pers r) (c_dcfg r) (c_resp_decomp r) (c_parse_urlenc r) (c_parse_auth r) (c_param_proc r) (c_ws_unwanted r) (c_req_decomp r) (c_flush r) (c_max_tx r) v (c_lzma_layers r) (c_bomb_limit r) (c_bomb_ratio r).
Definition set_c_lzma_layers (v : option N) (r : config) : config := mk_config (c_field_limit r) (c_log_level r) (c_auto_destroy r) (c_pers r) (c_dcfg r) (c_resp_decomp r) (c_parse_urlenc r) (c_parse_auth r) (c_param_proc r) (c_ws_unwanted r) (c_req_decomp r) (c_flush r) (c_max_tx r) (c_layer_limit r) v (c_bomb_limit r) (c_bomb_ratio r).
Definition set_c_bomb_limit (v : N) (r : config) : config := mk_config (c_field_limit r) (c_log_level r) (c_auto_destroy r) (c_pers r) (c_dcfg r) (c_resp_decomp r) (c_parse_urlenc r) (c_parse_auth r) (c_param_proc r) (c_ws_unwanted r) (c_req_decomp r) (c_flush r) (c_max_tx r) (c_layer_limit r) (c_lzma_layers r) v (c_bomb_ratio r).
Definition set_c_bomb_ratio (v : N) (r : config) : config := mk_config (c_field_limit r) (c_log_level r) (c_auto_destroy r) (c_pers r) (c_dcfg r) (c_resp_decomp r) (c_parse_urlenc r) (c_parse_auth r) (c_param_proc r) (c_ws_unwanted r) (c_req_decomp r) (c_flush r) (c_max_tx r) (c_layer_limit r) (c_lzma_layers r) (c_bomb_limit r) v.

(** What one call into a decompressor does, as seen from the parser: it calls the data callback some number of times, each call
    depending on whether the previous ones succeeded, and returns whether it succeeded and whether the time limit was exceeded. *)
Inductive dtree := DRet (ok slow : bool) | DCall (d : option bytes) (k : bool -> dtree).

(** What the model takes from its surroundings: the configuration; the callbacks, which see the whole state and are otherwise
    arbitrary (they do not modify the transaction); the codecs; the IPv6 recogniser (std) and the base64 decoder (base64 crate). *)
Record env := mk_env {
  e_cfg : config;
  e_cb : st -> event -> status;
  e_codec : st -> decomp -> option bytes -> dtree;
  e_ip6 : bytes -> option bool;
  e_b64 : bytes -> option bytes
}.

(** src/connection_parser.rs:84,216-258, [ParserData::from] for a slice and for a gap, and [default]. *)
Definition pd_slice (b : bytes) : pdata := mk_pdata (Some b) None 0 0.
Definition pd_gapped (n : N) : pdata := mk_pdata None (Some n) 0 0.
Definition pd_default : pdata := mk_pdata None None 0 0.
Definition txdir_new : txdir :=
  mk_txdir 0 None None ProtoUnknown 0 0 [] CdUnknown CeNone CeNone None None None PNotStarted 0 false.
(** src/transaction.rs:647-710. *)
Definition tx_new : tx :=
  mk_tx txdir_new txdir_new 0 None MUnknown None false None None None None AuUnknown None None None None None
        None RnUnknown UIgnore None false false false.
Definition dir_new : dir := mk_dir SsNew 0 [] None None None None StIdle StNone None.
(** src/connection_parser.rs:371-407. *)
Definition st_new : st := mk_st dir_new dir_new false 0 0 0 0 [] 0 0 0 [] [] pd_default.
(** src/config.rs:116-155 and src/decompressors.rs:130-145. *)
Definition config_default : config :=
  mk_config 18000 LvNotice false PersOther decoder_default true false true false UIgnore false false 512
            (Some 2) (Some 1) 1048576 2048.

