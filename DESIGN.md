# A Rocq model of libhtp-rs

The model is written in Coq 8.16.1 (`rocq/theories/`, logical name `Verif`), standard library only.

## Layout

| Layer | Files | Contents |
|---|---|---|
| model | `Base.v`, `Model*.v` | executable Gallina functions, each citing the Rust lines it models; no proofs |
| specification | `Spec*.v` | small, model-independent definitions the theorem statements use |
| proofs | `Proofs*.v` | lemmas |
| statements | `Properties*.v` | only `Theorem … exact …`, `Print Assumptions`, and `Example`s showing the hypotheses are met |
| oracle checks | `Tests*.v` | the repository's own unit-test literals evaluated on the model (tests, not proofs) |

## Conventions

* A byte is an `N`; a byte string is `list N`. Theorems that depend on bytes being below 256 say so (`Forall byte`).
* `&mut self` becomes a returned value. `Result` and `Option` stay data. A Rust panic is an explicit value.
* Loops become structural recursion or recursion on fuel; fuel exhaustion is a distinct result which theorems exclude.
* nom parsers become functions returning `POk rest value | PErr | PInc`; `streaming` and `complete` variants are distinguished
  exactly where the code does.
* Machine integers: wrap-around is written explicitly where the code uses `wrapping_*`; `parse::<uN>` overflow is a failure value.

## Plan per property

The English properties are in `properties.jsonl`. Shape of the intended theorem for each:

| Id | Modelled as | Proof method |
|---|---|---|
| C01 | `Table`, `Headers` lookups over an association list | characterisation of `find`; case-insensitivity by lower-casing |
| C02 | the iterator machine `index_of` with `idx`/`first` | invariant of the iterator; equivalence with first occurrence in the NUL-stripped text |
| C03 | `take_till_lf`, `chomp`, `trimmed` | list induction |
| C04 | `take_till_eol` with streaming nom semantics | case analysis on the bytes at the terminator |
| C05–C09 | `parse_content_length`, `parse_chunked_length`, `parse_status`, `parse_protocol`, `convert_port` | decomposition of the input into runs; exact numeral value function |
| C10 | `validate_hostname`, with the IPv6 recogniser as an explicit argument | iff characterisation |
| C11–C13, C48 | `decode_uri` and its alternatives, `x2c` with explicit overflow | strong induction on input length; finite sweep of hex digits |
| C14, C15 | the urlencoded `Parser` as a state machine | refinement: state after any chunking is a function of the concatenation |
| C16, C17 | the table-driven UTF-8 automaton | finite sweeps of the tables lifted to all bytes, induction on code points |
| C18 | `normalize_uri_path` | invariant on the output segment stack |
| C19 | `path_decode_uri` | invariant "last output byte is not /" |
| C20 | `parse_uri` | forward rewriting on delimiter-free components |
| C21–C23 | `headers.rs` parser combinators | induction on the header list; suffix/progress lemmas for every parser |
| C24, C25 | `process_request_header`/`process_response_header` over a table | refinement to a grouping specification |
| C26, C27 | `process_request_headers` decision logic | case analysis, statement as implications |
| C28 | `Transactions` | invariant over operation lists |
| C29, C30, C42, C43 | hook runner, logger, flags, counters | induction |
| C31–C41 | the whole `ConnectionParser` request/response machines in a state-and-error monad; callbacks are an arbitrary oracle over the history of events | invariants over operation lists; a lexicographic measure for termination; witnesses by computation for the refuted ones |
| C44 | `GzipBufWriter` header machine with an abstract inflater | refinement to a one-shot header skipper |
| C45, C46 | `InnerDecompressor`, layer loop, decompressor callback with an abstract decoder | invariants |
| C47 | `parse_authorization_digest` | induction on the escaped name |
| C49 | every history of the connection model | corollary of the weakest-precondition lemmas |
| C50 | two runs with different accepting callbacks and log levels | a relation on pairs of states kept by every handler |
| C52 | decoders with a contract (`decodes`), composed layer by layer | a layer over a working chain is a working chain; induction on layers and segments; then `body_data` in the connection |
| C54 | the timer as a parameter: the call that is late is named by its number | chains that a flush does not change (`dry`) and that pass data on |
| C55 | `finish` of every layer, with a clause for it in the decoder contract | same induction as C52 |
| C53 | the decompressors as programs that call a callback | structural induction on the program |
| C51 (with C22, C37, C38) | a stream of well-formed requests (`SpecMsg.v`), cut at will | a description of the state at every byte position of the stream; one step per handler; induction on the segments |
| C56, C57 (with C22) | rounds of well-formed requests and responses (`SpecResp.v`), both directions cut at will | the same description for the response stream; a round takes a level state to a level state; induction on the rounds |
| C58, C59 | the same exchanges, the segments of both directions interleaved at will as long as no response precedes its request (`SpecWeave.v`) | each direction is followed in a copy of the state whose trace has only its events; a call is run on the copy and carried over to the state (two runs from states that differ in the past of the trace, `ProofsQuiet.v`); the other direction keeps its place because the call touches none of what its description mentions |
| C60, C61 | `process_request_headers`, its host and authorization parts (`SpecHost.v`) | which fields and flags each part leaves alone; case analysis; the parsers run on the specified texts |
| C62, C63, C64 | what callbacks find in every history (`SpecStage.v`): the stage of each hook, and the framing decisions at the ends of header blocks | two runs whose callbacks answer alike in stage are equal, one lemma per function that calls a hook; the invariant carries the raw data hook of each side and that every recorded call was in stage |
| C65 | comparison, prefix test, search and bounded append of byte strings against texts up to letter case (`SpecBytes.v`) | the iterators of src/bstr.rs are run to the end; induction over the texts |
| C66, C67, C69 | `path_decode_uri`, `decode_uri`, `decode_and_validate` on every text under every configuration: a text is read piece by piece (`SpecDecode.v`, `SpecUtf8.v`), each piece with its output, flags and status | every piece corresponds to one application of the parser alternatives (or a walk of the UTF-8 automaton); reading is total by induction over the length; the folds are computed |
| C68 | `normalize_parsed_uri`, `generate_normalized_uri` (`SpecNorm.v`) | composition of C66 and C67 component by component |
| C50, C70 | two runs of one history (`ProofsTwo.v`): every function of `ModelConn.v` relates equal states up to log and answers; closing is split into what precedes flushing and the loop | induction over the flushed transactions, keys of the table are distinct |
| C71 | two runs under different limits (`SpecLimit.v`) | `ProofsLimit.v`: as long as no limit message is in the log both runs are equal, one lemma per function of `ModelConn.v` |
| C72 | the setters of `src/config.rs` and `src/c_api/config.rs` as functions on a record (`ModelConfig.v`) | a table of what each call says (`SpecConfig.v`); induction over the calls, case analysis over call and option |
| C73 | the C functions that compute something (`ModelCApi.v`); pointers that may be NULL are options, signed results are `Z` | list inductions; C31, C32 and the invariant behind C39 (extended: which numbers are in use) for sessions |
| C74 | `conn_parse_request_line` against a relation between lines and readings (`SpecLine.v`) that is total and single-valued | runs and trims are unique; the stage machinery of C62 carries the reading to the callbacks |
| C75 | `conn_parse_response_line` and `validate_response_line`, likewise | as C74 |
| C76 | `h_headers`, given the text of a list of fields (`SpecField.v`: lines, endings, continuation lines) | the parser's steps at a line end, induction over continuation lines and over fields; the reading is also shown to be single-valued |
| C77 | `add_headers` and its messages, for the headers that C76 says are read | the flag and warning steps of one header as a list of rows; induction over rows and headers |
| C78 | `initialize_decompressors` against the words of the value (`SpecCoding.v`: whole names, words, limits) | the split is the list of words; induction over the words with the words already passed as state |
| C79 | `parse_uri` and `parse_uri_hostport` on every byte string against a relation between texts and components (`SpecSplit.v`) | each parser finds a part exactly if it is there and nothing else (`reads`); optional parts compose |
| C80 | conversations of C56 followed by one exchange with a response of unknown length and the closing call (`SpecEnd.v`) | the invariant of C56 up to the last round; a small one for the last response (`lpaused`); closing evaluated step by step (`ProofsClose.v`) |
| C81 | conversations of C56, a handshake, and what follows it (`SpecConnect.v`) | the invariant of C56 before and after; phases for the request, the wait, the granting response and the probing (`ProofsConnect.v`, `ProofsConnect2.v`, `ProofsConnect3.v`); assembled in `ProofsConnect4.v`; calls refused while the answer is awaited in `ProofsConnect5.v` |
| C82 | conversations of C56 with interim responses in each round (`SpecInterim.v`) | phases of an interim head (`ProofsInterim.v`); the final response is read as from the state in which no interim response was seen (`ProofsInterim2.v`); assembled in `ProofsInterim3.v` |
| C83 | conversations of C56 followed by a request, a 101 response and any traffic (`SpecUpgrade.v`) | phases of the response head as for CONNECT, ending in a step that reports the tunnel (`ProofsUpgrade.v`) |
| C84 | conversations of C56 followed by the request line and any mix of segments from both sides (`SpecOld.v`) | phases of the request line, then an invariant kept by every later call of either side, and the close (`ProofsOld.v`) |
| C85 | conversations of C56 followed by a request whose body comes in parts and by a stream of C51 (`SpecLoss.v`) | the phases of C51 up to the body, steps for a gap, induction over the parts, the phases of C51 again (`ProofsLoss.v`) |
| C86 | conversations of C56 in which a round may be one whose first response comes in parts (`SpecRLoss.v`) | the phases of C56 up to the body, steps for a gap, induction over the parts, the phases of C56 again, induction over the rounds (`ProofsRLoss.v`) |
| C87 | conversations of C56, then requests of C51 of which the last stops at a place in its body (`SpecCut.v`) | the phases of C51 up to that place, the call that closing makes in each of the four body states, the flush of C70 (`ProofsCut.v`) |
| C88 | conversations of C56, then a round of which the last response stops at a place in its chunks (`SpecRCut.v`) | the phases of C56 up to that place, the call that closing makes in each of the three states for chunks, the flush of C70 (`ProofsRCut.v`) |
| C89 | conversations of C56, then a round of which the last response stops at a place in its body of known length (`SpecRShort.v`) | the phases of C56 up to that place, the call that closing makes in the state for bodies of known length, and a flush that finds nothing unfinished (`ProofsRShort.v`) |
| C90 | conversations of C56 with calls of `request_close` between the two halves of a round (`SpecHalf.v`) | the call in the state between requests keeps the invariant of C51; the rest is the induction of C56 (`ProofsHalf.v`) |
| C91 | conversations of C56 with removals after each round and a count of the transactions left (`SpecClear.v`) | a removal keeps the invariant between rounds of C56 and lowers its bound on the table; induction over the rounds (`ProofsClear.v`) |
| C92 | conversations of C56 with such calls between the two halves of a round (`SpecIdle.v`) | each call keeps the invariants of C51 and C56 for the state between messages; induction over the calls and the rounds (`ProofsIdle.v`) |
| C93 | conversations of C56 with closes and the calls of C92 after each round (`SpecPause.v`) | closing keeps the invariant of C56 for the state between rounds if all exchanges are over; induction over the calls and the rounds (`ProofsPause.v`) |
| C94 | conversations of C56 with the calls of C93 before and after the responses of each round; closing before them only without flushing (`SpecWait.v`) | closing keeps the invariants of C51 and C56 for the state between requests and responses; induction over the calls and the rounds (`ProofsWait.v`) |

Properties found false of the faithful model are proved as `…_refuted` with a computed witness and listed below under Findings.


## What is modelled

| Code | Model | Not modelled |
|---|---|---|
| `util.rs`, `bstr.rs`, `table.rs` | `ModelUtil`, `ModelBstr`, `ModelParsers` | lossy UTF-8 display, `Debug` |
| `urlencoded.rs`, `unicode_bestfit_map.rs`, `utf8_decoder.rs` | `ModelUrl`, `ModelUtf8`, `ModelBestfit` | — |
| `uri.rs` | `ModelUri` | — |
| `headers.rs` | `ModelHeaders` | — |
| `transaction.rs` (header processing, request line, host, credentials, parameters) | `ModelTx` | timestamps, user data |
| `transactions.rs`, `connection.rs`, `connection_parser.rs`, `request.rs`, `response.rs` | `ModelState`, `ModelConn` | addresses, times, file extraction to disk |
| `hook.rs`, `log.rs` | `ModelHook` | file, line and text of a log message |
| `decompressors.rs` | `ModelDecomp`: gzip header machine, layers, chain, restarts, pass-through; in the connection model any decompressor is allowed (`e_codec`), `libhtp_codec` is this one | the decoders of flate2 and lzma-rs (a parameter, record `raw`), the clock (a parameter: was a call too slow) |
| `config.rs`, `c_api/config.rs` | `ModelConfig` | registering callbacks, direct assignment to public fields |
| `c_api/bstr.rs`, `header.rs`, `transaction.rs`, `connection.rs`, `connection_parser.rs` | `ModelCApi.v` | functions that only hand out a pointer to a field, user data, addresses, times, allocation and freeing |

Parameters of the model (arbitrary functions; the theorems hold for all of them): the callbacks `e_cb`, the decompressors
`e_codec`, std's IPv6 parser `e_ip6`, the base64 decoder `e_b64`.

Simplifications that matter:

* a callback returns any status, which may depend on the whole state, but it does not modify transactions, the configuration or
  the parser;
* integer arithmetic has release semantics: where the code can wrap, the model wraps (`wadd`); theorems about panics do not cover
  the overflow checks of a debug build;
* memory exhaustion is not modelled.

`TestsConn.v` runs the 141 scenarios of `/repo/tests/main.rs` (generated by `tools/gen_tests_conn.py`) on the model,
`TestsHeaders.v` the unit-test literals of the header parser: the model gives the values the authors recorded.

## Trusted base

* Coq 8.16.1's kernel, and `vm_compute` (used in `Example`s, in refutations, and in finite sweeps).
* The hand translation from Rust to Gallina, checked only by the oracle tests above and by reading.
* Axioms: `Print Assumptions` prints "Closed under the global context" for every theorem in `Properties*.v`.
* No plugin, no axiom, no disabled check; only Coq's standard library is imported.

## How the connection theorems are proved

`ModelConn.v` is a program in the monad `M A = env -> st -> res A * st`.

* `ProofsConn.v`: a relation on states kept by every primitive is kept by every handler (`stable`), giving frame
  properties once.
* `ProofsCore.v`, `ProofsStep.v`, `ProofsStepResp.v`: a weakest-precondition calculus over the part of the state that decides
  control flow; one lemma per handler, with a measure for termination and the input-position invariant.
* `ProofsLoop.v`: the loop, a call, a history: no panic, no fuel exhaustion, position in range, buffers within the limit.
* `ProofsHist.v`: counters, transaction table, sticky errors, tunnels, gaps, iteration count.
* `ProofsQuiet.v`: two-run relation for C50 (accepting callbacks and the log level change nothing).
* `ProofsHonest.v`: a refusing callback ends the call that ran it (C41).
* `ProofsRel.v`: what a step that neither starts nor ends a message can do to the transactions, the indices and the callbacks.
  `ProofsOnce.v`: with the steps that do, the invariant behind C39. `ProofsOwner.v`: triples over the same steps for C40.
* `ProofsEval.v`, `ProofsBody.v`, `ProofsHead.v`, `ProofsFrame.v`: exact evaluation of single handlers on well-formed input: request
  line, header block, header table, framing decision, body.
* `ProofsStream.v`: the handler loop as a relation between milestones. `ProofsChunk.v`: the same for chunked bodies and trailers. `ProofsMsg.v`: from any point inside a message, a segment
  leads to the point its bytes reach (`paused_goes`); induction gives the theorems of `PropertiesMsg.v`.
* `ProofsRStream.v`, `ProofsRHead.v`, `ProofsRBody.v`: the same for responses. `ProofsRMsg.v`: streams of responses, rounds, conversations.
  `ProofsTalk.v`: bodies, header tables, and decision procedures for the hypotheses.
  `ProofsWeave.v`, `ProofsSchedule.v`: interleavings, on top of both.

* `ProofsDecomp.v`: every decompression program stops at a failed callback and hands out bounded pieces. `ProofsInflate.v`: a
  layer whose writer meets the decoder contract, on top of a chain that does, is a chain that does. `ProofsGzip.v`: the gzip header
  machine meets it. `ProofsBomb.v`, `ProofsLayers.v`, `ProofsDeliver.v`: the bomb limit, the layer limits, and delivery in a
  connection. `ProofsToy.v`: a decoder for the examples.

## Findings (proved as refutations or witnesses)

| Where | What | Theorem |
|---|---|---|
| C09 | a leading `+` is accepted in ports | `C09_…refuted` |
| C17, C18, C19, C47, C48 | exceptions to the naive reading | see the `_refuted` theorems in `PropertiesText.v`, `PropertiesUrl.v` |
| C21 | a response body starting with CR right after the header block is taken into it | `PropertiesHeaders.v` |
| C27 | the folding check in `process_request_headers` tests a flag that is never set | `PropertiesTx.v` |
| C34 | ERROR returned for a gap with a full transaction table is forgotten by the next call | `C34_gap_error_refuted` |
| C34 | STOP is undone by `request_close` / `close` | `C34_stop_refuted` |
| C34 | ERROR on the response side becomes TUNNEL through the CONNECT probe of the request side | `C34_response_error_refuted` |
| C36 | `request_close` ends a tunnel; later bytes are parsed as HTTP | `C36_close_ends_tunnel` |
| C37, C51 | the empty line that ends a request's headers cut between CR and LF, with more bytes behind the LF in the second segment: two bytes are consumed instead of one, so the first byte of the body (or of the next request) disappears | `C51_cut_in_empty_line_refuted` |
| C51 | the end of a request body is signalled twice (once for an empty body with a length, never without one) | part of `message_events`, `SpecMsg.v` |
| C51 | a Content-Type header that is empty or starts with `;` or `,` makes `request_data` fail with ERROR | the hypothesis `typed` of `SpecMsg.v` excludes it |
| C38, C51 | a chunk size line cut in two: the part before the cut stays in the buffer and is read in front of the next size line | `C38_cut_in_size_line_refuted` |
| C38 | the CR LF behind the data of a chunk cut in two: the message length counts the bytes seen before the cut twice | `C38_cut_in_chunk_end_refuted` |
| C39 | a failed CONNECT runs TRANSACTION_COMPLETE twice for its transaction; with auto-destroy, RESPONSE_COMPLETE as well | `C39_transaction_complete_refuted`, `C39_response_complete_refuted` |
| C39 | after a TRANSACTION_COMPLETE callback answered STOP, `request_close` parses what is buffered as the same transaction again: a second REQUEST_START and REQUEST_COMPLETE | `C39_request_complete_refuted` |
| C40 | a response for which there is no request moves the request index on: the rest of a body goes to another transaction | `C40_response_ahead_refuted` |
| C40 | a 4xx response to a request with `Expect: 100-continue` ends the request being read, even if that is a later, pipelined one: its body is parsed as the next request | `C40_expect_body_refuted` |
| C40 | the same between two requests: a transaction gets body data and REQUEST_COMPLETE without REQUEST_START | `C40_expect_refuted` |
| C42 | composite flags share bits, so testing one is triggered by another | `PropertiesText.v` |
| C44 | a gzip header cut between the two bytes of XLEN or of the header CRC loses the byte before the cut; the deflate stream then starts a byte late | `C44_cut_in_field_refuted` |
| C45 | a layer limit (or lzma layer limit) of 0 still lets one layer through: the fast path does not look at the limit | `C45_limit_zero_refuted` |
| C56 | a response delivered one byte per segment is never recognised: the status line goes on for ever, no header and no body is reported | `C56_bytewise_refuted` |
| C22, C56 | segments that end before and after the LF of a status line: the first header line is taken for part of the reason and lost | `C22_status_line_cut_refuted` |
| C66 | the status that a piece of a path asks for (for instance for an invalid escape) is overwritten by the next piece, so it survives only at the very end of the path | `C66_status_of_earlier_pieces_refuted` |
| C68 | the complete normalized URI of a request never has a port: `normalize_parsed_uri` copies only the port number, `generate_normalized_uri` prints only the port text | `C68_port_in_complete_uri_refuted` |
| C57 | a response chunk size line cut in two: the data of the chunk is lost, framing is delivered as data | `C57_size_line_cut_refuted` |
| C56 | a response without header lines, or chunked without trailer, hides the next response when both are in one segment: the rest of the segment is swallowed | `C56_next_response_hidden_refuted` |
| C57 | a response body that starts with CR CR LF or SP CR LF in the segment of its header block loses these bytes | `C57_body_start_refuted` |
| C58 | the segment that ends a request also has a part of the next request line: the request stays incomplete until more comes, its response is complete before it | `C58_partial_line_refuted` |
| C58 | a response that comes before its request gets a transaction of its own, the request the next one | `C58_response_first_refuted` |
| C60 | a Host header from which no host can be read (empty, or starting with `/`) leaves no flag at all when the target has no host: neither HOST_MISSING nor HOSTH_INVALID | last line of `C60_ex` |
| C71 | a higher compression ratio can be stricter: the product of length and ratio overflows, and an overflow counts as a bomb | `C71_higher_ratio_refuted` |
| C08 | `HTTP/0.9` always gives the warning about leading zeros or extra data: the digit 0 counts as padding | `C08_ex_extra` |
| C70 | closing with flushing leaves the transaction created in advance for the next request in the table | `C70_ex` |
| C72 | personality MINIMAL disables nothing; IIS 4.0 and 5.0 are refused although the parser has a rule for IIS 5.0; in C a flag is set by 1 only, not by every true value | `C72_minimal_refuted`, `C72_iis_5_0_unavailable`, `C72_true_values_refuted` |
| C73 | `htp_tx_normalized_uri(NULL)` reads through the pointer before checking it (as does `htp_connp_destroy_all(NULL)`, not modelled); a NUL and the two characters backslash, zero give the same C string; destroying the current transaction lowers the number of transactions reported | `C73_null_refuted`, `C73_escaped_refuted`, `C73_transactions_refuted` |
| C76 | a continuation line consisting of one blank and ended by a bare LF ends the header block: fields after it are left over as body bytes, while the same line ended by CR LF continues the value (`C76_blank_line_refuted`); in a response a continuation line that looks like `token:` becomes a header of its own and the field before it loses its folding mark even if it had other continuation lines (`C76_response_cut`) |
| C77 | `HeaderFlags::MISSING_COLON` contains the bit of `NAME_EMPTY` and `is_set` asks for any bit: a field `:v` is told as one without a colon, and REQUEST_INVALID_EMPTY_NAME and RESPONSE_INVALID_EMPTY_NAME are never logged | `C77_empty_name_refuted` |
| C78 | words of a Content-Encoding list that mean no coding count for the layer limit: with the default limit of 2, `identity, identity, gzip` leaves the body compressed; `LZMA` is a coding alone but not in a list, and a request counts all words for its lzma limit | `C78_idle_words_refuted`, `C78_lzma_refuted` |
| C79 | with an empty port (`http://h:/p`) the colon becomes part of the path; what follows a space in a port is in no component; `h.com:80/p` has the scheme `h.com` and the host `80` | `C79_port_refuted` |
| C80 | a response without header lines and without length loses the body bytes of the segment of its head; a multipart/byteranges response without length is an error and never complete; a response cut off in a body of known length or in its status line is complete when the connection is closed | `C80_no_header_lines_refuted`, `C80_multipart_refuted`, `C80_cut_off_refuted` |
| C81 | through a granted tunnel, bytes of the server that come before any of the client are taken for the response to a made-up request and delivered as its body, and the tunnel is never reported; in the segment of the granting response they are delivered as its body | `C81_server_first_refuted` |
| C82 | an interim response of only a status line is not left if its segment has more bytes: the final response is delivered as raw header data and never parsed; with header lines, its raw header data is lost if the next status line is in the segment of its end, and bytes of a cut status line are delivered as raw header data; 100 with Content-Length and 101-199 are taken for the final response; the repeated lines of interim responses count against the limit of 64 of the final one | `C82_segments_refuted`, `C82_final_refuted`, `C82_limit_refuted` |
| C83 | a 101 response never runs RESPONSE_COMPLETE or TRANSACTION_COMPLETE; with Content-Length: 0 it is no tunnel; one of only a status line with bytes of the new protocol in its segment is never left, and all bytes of the server are delivered as raw header data | `C83_upgrade_is_tunnel`, `C83_no_tunnel_refuted` |
| C84 | a request line without a protocol is of HTTP/0.9 or of HTTP/1.x depending on whether more bytes arrived in its segment; in the first case the header lines that follow are silently ignored | `C84_segments_refuted` |
| C85 | a gap that exactly ends, or goes beyond, a request body completes the request, is then refused as an invalid gap, and the call returns CLOSED, although the connection stays usable; in a header block or a chunked body a gap is refused with CLOSED and the bytes after it are joined to those before it | `C85_lost_request_bytes`, `C85_gaps_elsewhere_refuted` |
| C86 | a gap in a response body that ends with the connection is told to the callbacks, but its bytes are not counted in the message length, unlike one in a body of known length | `C86_gaps_elsewhere_refuted` |
| C87 | when the connection is closed a request that stops in its request line, header block or trailer is completed (REQUEST_COMPLETE runs), one that stops in its body is not | `C87_cut_elsewhere_refuted` |
| C88 | when the connection is closed a response that stops in its status line, header block, trailer or in a body of known length is completed (RESPONSE_COMPLETE runs) like a whole one; only one that stops in its chunks is not | `C88_cut_elsewhere_refuted` |
| C88 | with `flush_incomplete` and without auto-destroy a second `close` runs TRANSACTION_COMPLETE again for the transactions that the first one flushed | `C88_close_again_refuted` |
| C90 | `request_close` does not close the direction: bytes given to the parser afterwards are parsed; inside the head of a request the call completes it and the rest of the head becomes another request | `C90_inside_refuted` |
| C91 | a transaction that the user removes before its response has ended is created again, blank, under the same index, and RESPONSE_COMPLETE and TRANSACTION_COMPLETE never run for it | `C91_too_early_refuted` |
| C94 | with `flush_incomplete` closing runs TRANSACTION_COMPLETE for a transaction that awaits its response, and a response given afterwards is accepted and runs it once more, also with auto-destroy | C94_flushed_early_refuted |

Seen while modelling, not stated as theorems:

* `flush_writer` puts the old writer back after a restart caused by a flush error, so that restart has no effect but to count.
* when `flush_writer` fails, the inner chain and the writer are lost; the layer then drops everything silently.
* the time check inside the decompressor callbacks never runs, because the decompressor is out of its slot while it runs; time is only
  checked after each call.
* the request side compares the number of all layers with the lzma layer limit, the response side the number of lzma layers.
* the callback closure of a decompressor holds a raw pointer to the parser (`unsafe`); aliasing is outside the model.
