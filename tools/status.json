{
 "C09": {
  "status": "proved",
  "note": "the exact language accepted is proved; the digits-only reading is refuted by a leading plus sign"
 },
 "C10": {
  "status": "proved",
  "note": "std's IPv6 parser is a parameter of the model"
 },
 "C42": {
  "status": "proved",
  "note": "last clause refuted: composite flags share bits"
 },
 "C47": {
  "status": "proved",
  "note": "side condition on a trailing backslash shown necessary"
 },
 "C17": {
  "status": "proved",
  "note": "proved with the truncated-final-character exception; the exception is necessary (refuted theorem)"
 },
 "C18": {
  "status": "proved",
  "note": "deviation from RFC 3986 remove_dot_segments exhibited by a refuted theorem"
 },
 "C19": {
  "status": "proved",
  "note": "for the path decoder; refuted for the whole normalisation pipeline with best-fit conversion"
 },
 "C48": {
  "status": "proved",
  "note": "overflow on non-hex bytes exhibited by a refuted theorem"
 },
 "C21": {
  "status": "proved",
  "note": "both sides; on the response side the bytes after the block must not look like part of the empty line, and the refuted theorem shows that condition is needed"
 },
 "C23": {
  "status": "proved",
  "note": "all inputs, both sides, complete flag on or off"
 },
 "C27": {
  "status": "proved",
  "note": "refuted as stated: the flag the check tests is proved never to be set, and a witness block goes unreported"
 },
 "C30": {
  "status": "proved",
  "note": "log channel and warn-once flags; file, line and text of messages are not modelled"
 },
 "C29": {
  "status": "proved",
  "note": "callbacks are arbitrary state transformers"
 },
 "C28": {
  "status": "proved",
  "note": "bound, table moves of a data call, and retention without auto-destroy; callbacks do not edit the table"
 },
 "C31": {
  "status": "proved",
  "note": "explicit iteration relation without fuel, linear bound; work inside one iteration is structural recursion in the model"
 },
 "C34": {
  "status": "proved",
  "note": "request side proved for bytes; gap, STOP and response-side variants refuted with witnesses"
 },
 "C35": {
  "status": "proved",
  "note": "statement refined to what holds: a refused gap still marks (or begins) the current transaction"
 },
 "C36": {
  "status": "proved",
  "note": "close() ends a tunnel: shown as a finding"
 },
 "C49": {
  "status": "proved",
  "note": "release-mode integer semantics (wrap-around where the code can wrap); callbacks return any status but do not modify transactions"
 },
 "C41": {
  "status": "proved",
  "note": "proved for every hook the parser heeds; REQUEST_START, raw data at the end of a chunk and body hooks behind a decompressor refuted with witnesses"
 },
 "C40": {
  "status": "proved",
  "note": "responses unconditionally; requests under the listed conditions, each shown to be needed by a refutation where marked; statement SpecFlow.announced"
 },
 "C39": {
  "status": "proved",
  "note": "for accepting callbacks, no auto-destroy and no removal; TRANSACTION_COMPLETE at most twice; witnesses show that each condition and the number two are needed"
 },
 "C22": {
  "status": "proved",
  "note": "requests, and responses in conversations, of any number; well-formed messages; the cuts the statement excludes are refuted with witnesses"
 },
 "C44": {
  "status": "proved",
  "note": "for cuts outside the two-byte fields; cuts inside either are refuted with witnesses; the inflater is a parameter with a contract"
 },
 "C45": {
  "status": "proved",
  "note": "one layer is always allowed: a limit of 0 is refuted; layer bound stated for the set-up of one message"
 },
 "C46": {
  "status": "proved",
  "note": "for the sequence of body pieces of one message and its end"
 },
 "C38": {
  "status": "proved",
  "note": "request side; the excluded cuts are shown to break the claim"
 },
 "C56": {
  "status": "proved",
  "note": "HTTP/1.1 final responses (no 1xx, none delimited by the end of the connection) without content coding; witnesses show that the excluded cuts and body beginnings are needed"
 },
 "C57": {
  "status": "proved",
  "note": "same hypotheses as C56"
 },
 "C58": {
  "status": "proved",
  "note": "messages as in C51 and C56; a response must not come before its request has arrived with nothing of an unfinished next request line; both shown to be needed by witnesses"
 },
 "C59": {
  "status": "proved",
  "note": "same hypotheses as C58"
 },
 "C60": {
  "status": "proved",
  "note": "Host values that are a host and an optional port; a malformed port covered by C60_invalid_port"
 },
 "C61": {
  "status": "proved",
  "note": "the base64 decoder is a parameter"
 },
 "C62": {
  "status": "proved",
  "note": "callbacks of the model answer with a status and change nothing themselves; with flushing of incomplete transactions configured nothing is claimed about the progress at TRANSACTION_COMPLETE"
 },
 "C63": {
  "status": "proved",
  "note": "the exact host rules are C60; here the implications that hold in every history"
 },
 "C64": {
  "status": "proved",
  "note": ""
 },
 "C65": {
  "status": "proved",
  "note": ""
 },
 "C66": {
  "status": "proved",
  "note": "C66_status_of_earlier_pieces_refuted: the status asked for by an earlier piece is lost"
 },
 "C67": {
  "status": "proved",
  "note": ""
 },
 "C68": {
  "status": "proved",
  "note": "C68_port_in_complete_uri_refuted: the port of the target is missing in the complete normalized URI"
 },
 "C69": {
  "status": "proved",
  "note": ""
 },
 "C70": {
  "status": "proved",
  "note": ""
 },
 "C71": {
  "status": "proved",
  "note": "C71_higher_ratio_refuted: a higher compression ratio can be stricter, because the product overflows"
 },
 "C72": {
  "status": "proved",
  "note": "C72_minimal_refuted, C72_true_values_refuted: two readings of the documentation that do not hold"
 },
 "C73": {
  "status": "proved",
  "note": "C73_escaped_refuted, C73_transactions_refuted, C73_null_refuted: what does not hold; C73_transactions is for callbacks that refuse nothing"
 },
 "C74": {
  "status": "proved",
  "note": "that a target not present leaves the stored target alone, rather than being absent, is because of transactions that a response began (see C62)"
 },
 "C75": {
  "status": "proved",
  "note": ""
 },
 "C76": {
  "status": "proved",
  "note": "C76_blank_line_refuted: the reported exception. Blocks with a CR inside a line, or with what follows the empty line mistaken for part of it (C21_response_tail_refuted), are outside"
 },
 "C77": {
  "status": "proved",
  "note": "C77_empty_name_refuted: the reported exception"
 },
 "C78": {
  "status": "proved",
  "note": "C78_idle_words_refuted, C78_lzma_refuted: the reported exceptions"
 },
 "C79": {
  "status": "proved",
  "note": "C79_port_refuted: the reported exceptions"
 },
 "C80": {
  "status": "proved",
  "note": "C80_no_header_lines_refuted, C80_multipart_refuted, C80_cut_off_refuted: the reported exceptions"
 },
 "C81": {
  "status": "proved",
  "note": "C81_server_first_refuted: the reported exception"
 },
 "C82": {
  "status": "proved",
  "note": "C82_segments_refuted, C82_final_refuted and C82_limit_refuted: the reported exceptions"
 },
 "C83": {
  "status": "proved",
  "note": "C83_no_tunnel_refuted: the reported exceptions"
 },
 "C84": {
  "status": "proved",
  "note": "C84_segments_refuted: the reported exception"
 },
 "C85": {
  "status": "proved",
  "note": "C85_gaps_elsewhere_refuted: gaps outside a body of known length"
 },
 "C86": {
  "status": "proved",
  "note": "C86_gaps_elsewhere_refuted: gaps outside a body of known length"
 },
 "C87": {
  "status": "proved",
  "note": "C87_cut_elsewhere_refuted: a request that ends in its line, header block or trailer is reported as complete"
 },
 "C88": {
  "status": "proved",
  "note": "C88_cut_elsewhere_refuted: a response that ends in its status line, header block, trailer or body of known length is reported as complete; C88_close_again_refuted: without auto-destroy a second close runs TRANSACTION_COMPLETE again"
 },
 "C89": {
  "status": "proved",
  "note": "a user who wants to know whether the whole body came has to compare response_message_len with the announced length"
 },
 "C90": {
  "status": "proved",
  "note": "C90_inside_refuted: inside the head of a request the call completes the request, and what is given to the parser afterwards is read as another request"
 },
 "C91": {
  "status": "proved",
  "note": "C91_too_early_refuted: a transaction that is removed before its response has ended comes back blank and is never completed"
 },
 "C92": {
  "status": "proved",
  "note": "C35 has single empty chunks in any state; C90 is the special case of request_close"
 },
 "C93": {
  "status": "proved",
  "note": "closing while an exchange is unfinished is C87 and C88; C92 has the calls that bring nothing inside a round"
 },
 "C94": {
  "status": "proved",
  "note": "C94_flushed_early_refuted: if closing flushes, TRANSACTION_COMPLETE runs for the waiting transaction at the close and once more after its response"
 }
}