#!/usr/bin/env python3
"""Writes rocq/theories/ModelState.v: the records of the connection model and one setter per field."""
import os
out = []
def p(s=""): out.append(s)

def record(name, mk, doc, fields):
    p(f"(** {doc} *)")
    p(f"Record {name} := {mk} {{")
    for i, (f, ty, com) in enumerate(fields):
        sep = ";" if i < len(fields) - 1 else ""
        c = f"  (** {com} *)" if com else ""
        p(f"  {f} : {ty}{sep}{c}")
    p("}.")
    names = [f for f, _, _ in fields]
    for f, ty, _ in fields:
        args = " ".join("v" if g == f else f"({g} r)" for g in names)
        p(f"Definition set_{f} (v : {ty}) (r : {name}) : {name} := {mk} {args}.")
    p()

p("(** Data types of the connection model (generated by tools/gen_state.py; edit there).")
p("    The Rust structs [ConnectionParser] and [Transaction] hold one group of fields per direction, with the")
p("    same names up to the prefix request_/response_; each group is one record here ([dir], [txdir]). *)")
p("From Verif Require Export Base ModelUtil ModelBstr ModelParsers ModelUrl ModelUri ModelHeaders.")
p()
p("""(** src/lib.rs:16-43, [HtpStatus]; the two reserved values are [SReserved]. *)
Inductive status := SError | SDeclined | SOk | SData | SDataOther | SStop | SDataBuffer | SReserved.

(** src/connection_parser.rs:62-81, [HtpStreamState]. *)
Inductive sstate := SsNew | SsOpen | SsClosed | SsError | SsTunnel | SsDataOther | SsStop | SsData.

(** src/connection_parser.rs:19-57, [State]. *)
Inductive pstate :=
  StNone | StIdle | StLine | StHeaders | StChunkedDataEnd | StChunkedData | StChunkedLength | StBodyDetermine
| StFinalize | StProtocol | StConnectCheck | StConnectProbe | StConnectWait | StIdentity | StIgnore09
| StStreamClose | StClKnown.

(** src/transaction.rs:257-301, [HtpRequestProgress] and [HtpResponseProgress], which list the same values in the same order. *)
Inductive progress := PNotStarted | PLine | PHeaders | PBody | PTrailer | PComplete | PError | PGap.
(** Their derived order ([PartialOrd]). *)
Definition prog_rank (p : progress) : N :=
  match p with PNotStarted => 0 | PLine => 1 | PHeaders => 2 | PBody => 3 | PTrailer => 4 | PComplete => 5
             | PError => 6 | PGap => 7 end.

(** src/transaction.rs:106-119, [HtpTransferCoding]. *)
Inductive coding := CdUnknown | CdNoBody | CdIdentity | CdChunked | CdInvalid | CdError.
(** src/decompressors.rs:201-214, [HtpContentEncoding]. *)
Inductive cenc := CeNone | CeGzip | CeDeflate | CeZlib | CeLzma | CeError.
(** src/transaction.rs:123-130, [HtpResponseNumber]. *)
Inductive respnum := RnUnknown | RnInvalid | RnValid (n : N).
(** src/transaction.rs:304-323, [HtpAuthType]. *)
Inductive authtype := AuUnknown | AuNone | AuBasic | AuDigest | AuBearer | AuUnrecognized | AuError.
(** src/request.rs:33-132, [HtpMethod]: a recognised constructor is represented by the literal it is recognised from. *)
Inductive hmethod := MUnknown | MKnown (name : bytes).

Definition sstate_eqb (a b : sstate) : bool :=
  match a, b with
  | SsNew, SsNew | SsOpen, SsOpen | SsClosed, SsClosed | SsError, SsError | SsTunnel, SsTunnel
  | SsDataOther, SsDataOther | SsStop, SsStop | SsData, SsData => true
  | _, _ => false
  end.
Definition pstate_eqb (a b : pstate) : bool :=
  match a, b with
  | StNone, StNone | StIdle, StIdle | StLine, StLine | StHeaders, StHeaders | StChunkedDataEnd, StChunkedDataEnd
  | StChunkedData, StChunkedData | StChunkedLength, StChunkedLength | StBodyDetermine, StBodyDetermine
  | StFinalize, StFinalize | StProtocol, StProtocol | StConnectCheck, StConnectCheck | StConnectProbe, StConnectProbe
  | StConnectWait, StConnectWait | StIdentity, StIdentity | StIgnore09, StIgnore09 | StStreamClose, StStreamClose
  | StClKnown, StClKnown => true
  | _, _ => false
  end.
Definition prog_eqb (a b : progress) : bool := prog_rank a =? prog_rank b.
Definition coding_eqb (a b : coding) : bool :=
  match a, b with
  | CdUnknown, CdUnknown | CdNoBody, CdNoBody | CdIdentity, CdIdentity | CdChunked, CdChunked
  | CdInvalid, CdInvalid | CdError, CdError => true
  | _, _ => false
  end.
""")
p("""(** The hooks of src/config.rs:41-101 a parser can run, the two transaction-level body hooks
    (src/transaction.rs:452-457) and the parameter processor (src/config.rs:29). *)
Inductive hook :=
  HRequestStart | HRequestLine | HRequestUriNormalize | HRequestHeaderData | HRequestHeaders | HRequestBodyTx | HRequestBody
| HRequestTrailerData | HRequestTrailer | HRequestComplete
| HResponseStart | HResponseLine | HResponseHeaderData | HResponseHeaders | HResponseBodyTx | HResponseBody
| HResponseTrailerData | HResponseTrailer | HResponseComplete | HTransactionComplete | HParam.
(** What a callback is handed besides its transaction: nothing (transaction hooks; the end of a body), bytes, the length
    of a gap, or a query parameter. *)
Inductive payload := PlNone | PlData (b : bytes) | PlGap (n : N) | PlParam (name value : bytes).
(** One run of a hook: all the callbacks registered on it, for the transaction with that index. *)
Record event := mk_ev { ev_hook : hook; ev_tx : N; ev_data : payload }.

(** src/log.rs:171-186, [HtpLogLevel], by rank. *)
Definition LvError : N := 1.
Definition LvWarning : N := 2.
Definition LvNotice : N := 3.
Definition LvInfo : N := 4.
(** A log message: its level and code (the name of the [HtpLogCode]); file, line and text are not modelled. *)
Record logmsg := mk_log { lg_level : N; lg_code : string }.
""")
p("""(** src/decompressors.rs:218-227, [Decompressor], as the story of how it was built and used, latest first: a layer of an encoding was
    prepended; it was given bytes to decompress and, afterwards, was told to pass data through or not. ModelDecomp.v says what state
    such a decompressor is in. *)
Inductive dop := DoLayer (ce : cenc) | DoFeed (b : bytes) (pass : bool).
Definition decomp := list dop.
(** The encodings of the layers, outermost first. *)
Definition dc_layers (dc : decomp) : list cenc := flat_map (fun o => match o with DoLayer ce => [ce] | DoFeed _ _ => [] end) dc.
""")
record("pdata", "mk_pdata",
  "src/connection_parser.rs:85-94, [ParserData].",
  [("pd_data", "option bytes", ""), ("pd_gap", "option N", ""), ("pd_pos", "N", ""), ("pd_cb", "N", "callback_position")])
record("txdir", "mk_txdir",
  "src/transaction.rs:342-571, the fields of [Transaction] that exist once per direction.",
  [("t_ignored", "N", "*_ignored_lines"), ("t_line", "option bytes", ""), ("t_proto", "option bytes", ""),
   ("t_proton", "protocol", "*_protocol_number"), ("t_mlen", "N", "*_message_len"), ("t_elen", "N", "*_entity_len"),
   ("t_headers", "headers_tab", ""), ("t_coding", "coding", ""), ("t_ce", "cenc", "*_content_encoding"),
   ("t_cep", "cenc", "*_content_encoding_processing"), ("t_ctype", "option bytes", ""),
   ("t_dec", "option decomp", "*_decompressor"), ("t_clen", "option N", "*_content_length"),
   ("t_prog", "progress", ""), ("t_reps", "N", "*_header_repetitions"), ("t_hpc", "bool", "*_header_parser.complete")])
record("tx", "mk_tx",
  "src/transaction.rs:342-571, [Transaction]. Not modelled: logger, cfg, user data, and index (the key under which the transaction is stored; it never changes).",
  [("x_req", "txdir", ""), ("x_resp", "txdir", ""), ("x_flags", "N", ""), ("x_method", "option bytes", ""),
   ("x_methodn", "hmethod", ""), ("x_uri", "option bytes", ""), ("x_is09", "bool", "is_protocol_0_9"),
   ("x_parsed", "option uri", ""), ("x_raw", "option uri", ""), ("x_norm_complete", "option bytes", ""),
   ("x_norm_partial", "option bytes", ""), ("x_auth", "authtype", ""), ("x_user", "option bytes", ""),
   ("x_pass", "option bytes", ""), ("x_token", "option bytes", ""), ("x_host", "option bytes", ""),
   ("x_port", "option N", ""), ("x_status", "option bytes", "response_status"), ("x_statusn", "respnum", ""),
   ("x_expected", "unwanted", "response_status_expected_number"), ("x_msg", "option bytes", ""),
   ("x_seen100", "bool", ""), ("x_h2", "bool", "is_http_2_upgrade"), ("x_dflt", "bool", "parsed_uri is the placeholder of src/response.rs:1436-1441, which carries the default decoder configuration")])
record("dir", "mk_dir",
  "src/connection_parser.rs:275-356, the fields of [ConnectionParser] that exist once per direction.",
  [("d_status", "sstate", ""), ("d_consumed", "N", "*_bytes_consumed"), ("d_buf", "bytes", ""),
   ("d_header", "option bytes", "the pending header text"), ("d_clen", "option N", ""), ("d_left", "option N", "*_body_data_left"),
   ("d_chunk", "option N", "*_chunked_length"), ("d_state", "pstate", ""), ("d_prev", "pstate", ""),
   ("d_recv", "option hook", "*_data_receiver_hook")])
record("st", "mk_st",
  "src/connection_parser.rs:275-356 [ConnectionParser], with the [Transactions] (src/transactions.rs:9-15) and [Connection] (src/connection.rs:24-47) it owns, the chunk being parsed ([s_input]; an argument of every handler in the code), and two records of what was observable so far, latest first: the hook runs with their results, and the log channel. Timestamps, addresses and user data are not modelled.",
  [("s_req", "dir", ""), ("s_resp", "dir", ""), ("s_other_at_end", "bool", "response_data_other_at_tx_end"),
   ("s_chunk_count", "N", ""), ("s_chunk_idx", "N", "request_chunk_request_index"),
   ("s_ridx", "N", "Transactions.request"), ("s_pidx", "N", "Transactions.response"), ("s_txs", "list (N * tx)", "by increasing index"),
   ("s_cflags", "N", "Connection.flags"), ("s_in", "N", "request_data_counter"), ("s_out", "N", "response_data_counter"),
   ("s_trace", "list (event * status)", ""), ("s_logs", "list logmsg", ""), ("s_input", "pdata", "")])
record("config", "mk_config",
  "src/config.rs:15-114, [Config], without the hooks (see [env]), and src/decompressors.rs:26-41, [Options], without what only concerns the inside of the codecs.",
  [("c_field_limit", "N", ""), ("c_log_level", "N", ""), ("c_auto_destroy", "bool", ""), ("c_pers", "personality", ""),
   ("c_dcfg", "decoder_cfg", ""), ("c_resp_decomp", "bool", ""), ("c_parse_urlenc", "bool", ""), ("c_parse_auth", "bool", ""),
   ("c_param_proc", "bool", "whether a parameter_processor is set"),
   ("c_ws_unwanted", "unwanted", ""), ("c_req_decomp", "bool", ""), ("c_flush", "bool", ""), ("c_max_tx", "N", ""),
   ("c_layer_limit", "option N", ""), ("c_lzma_layers", "option N", ""), ("c_bomb_limit", "N", ""), ("c_bomb_ratio", "N", "")])
p("""(** What one call into a decompressor does, as seen from the parser: it calls the data callback some number of times, each call
    depending on whether the previous ones succeeded, and returns whether it succeeded and whether the time limit was exceeded. *)
Inductive dtree := DRet (ok slow : bool) | DCall (d : option bytes) (k : bool -> dtree).

(** What the model takes from its surroundings: the configuration; the callbacks, which see the whole state and are otherwise
    arbitrary (they do not modify the transaction); the codecs; the IPv6 recogniser (std) and the base64 decoder (base64 crate). *)
Record env := mk_env {
  e_cfg : config;
  e_cb : st -> event -> status;
  e_codec : st -> decomp -> option bytes -> dtree;
  e_ip6 : bytes -> option bool;
  e_b64 : bytes -> option bytes
}.
""")
p("""(** src/connection_parser.rs:84,216-258, [ParserData::from] for a slice and for a gap, and [default]. *)
Definition pd_slice (b : bytes) : pdata := mk_pdata (Some b) None 0 0.
Definition pd_gapped (n : N) : pdata := mk_pdata None (Some n) 0 0.
Definition pd_default : pdata := mk_pdata None None 0 0.
Definition txdir_new : txdir :=
  mk_txdir 0 None None ProtoUnknown 0 0 [] CdUnknown CeNone CeNone None None None PNotStarted 0 false.
(** src/transaction.rs:647-710. *)
Definition tx_new : tx :=
  mk_tx txdir_new txdir_new 0 None MUnknown None false None None None None AuUnknown None None None None None
        None RnUnknown UIgnore None false false false.
Definition dir_new : dir := mk_dir SsNew 0 [] None None None None StIdle StNone None.
(** src/connection_parser.rs:371-407. *)
Definition st_new : st := mk_st dir_new dir_new false 0 0 0 0 [] 0 0 0 [] [] pd_default.
(** src/config.rs:116-155 and src/decompressors.rs:130-145. *)
Definition config_default : config :=
  mk_config 18000 LvNotice false PersOther decoder_default true false true false UIgnore false false 512
            (Some 2) (Some 1) 1048576 2048.
""")
open(os.path.join(os.path.dirname(__file__), "..", "rocq", "theories", "ModelState.v"), "w").write("\n".join(out) + "\n")
