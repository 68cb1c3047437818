{
 "claims": [
  {
   "property": "C01",
   "status": "proved",
   "theorems": [
    "C01_table_lookup_first_match",
    "C01_header_lookup_first_match",
    "C01_header_lookup_nul_sensitive",
    "C01_lookup_case_blind"
   ],
   "note": ""
  },
  {
   "property": "C02",
   "status": "proved",
   "theorems": [
    "C02_search_found",
    "C02_search_complete"
   ],
   "note": ""
  },
  {
   "property": "C03",
   "status": "proved",
   "theorems": [
    "C03_take_till_lf",
    "C03_take_till_lf_null",
    "C03_chomp",
    "C03_trimmed"
   ],
   "note": ""
  },
  {
   "property": "C04",
   "status": "proved",
   "theorems": [
    "C04_eol_stable",
    "C04_eol_line",
    "C04_eol_never_fails"
   ],
   "note": ""
  },
  {
   "property": "C05",
   "status": "proved",
   "theorems": [
    "C05_content_length_exact",
    "C05_content_length_none",
    "C05_content_length_warnings"
   ],
   "note": ""
  },
  {
   "property": "C06",
   "status": "proved",
   "theorems": [
    "C06_chunk_length_value",
    "C06_chunk_length_absent",
    "C06_chunk_length_error"
   ],
   "note": ""
  },
  {
   "property": "C07",
   "status": "proved",
   "theorems": [
    "C07_status_exact"
   ],
   "note": ""
  },
  {
   "property": "C08",
   "status": "proved",
   "theorems": [
    "C08_protocol_exact",
    "C08_extra_data_exact",
    "C08_invalid_quiet"
   ],
   "note": ""
  },
  {
   "property": "C09",
   "status": "proved",
   "theorems": [
    "C09_port_exact",
    "C09_digits_only_refuted"
   ],
   "note": "the exact language accepted is proved; the digits-only reading is refuted by a leading plus sign"
  },
  {
   "property": "C10",
   "status": "proved",
   "theorems": [
    "C10_hostname_exact",
    "C10_bracketed"
   ],
   "note": "std's IPv6 parser is a parameter of the model"
  },
  {
   "property": "C11",
   "status": "proved",
   "theorems": [
    "C11_decoding_never_lengthens",
    "C11_plain_text_unchanged"
   ],
   "note": ""
  },
  {
   "property": "C12",
   "status": "proved",
   "theorems": [
    "C12_percent_roundtrip",
    "C12_every_text_has_an_encoding"
   ],
   "note": ""
  },
  {
   "property": "C13",
   "status": "proved",
   "theorems": [
    "C13_no_nul_in_output",
    "C13_raw_nul_cuts",
    "C13_encoded_nul_cuts"
   ],
   "note": ""
  },
  {
   "property": "C14",
   "status": "proved",
   "theorems": [
    "C14_segmentation_independent"
   ],
   "note": ""
  },
  {
   "property": "C15",
   "status": "proved",
   "theorems": [
    "C15_parameters"
   ],
   "note": ""
  },
  {
   "property": "C16",
   "status": "proved",
   "theorems": [
    "C16_utf8_decoded"
   ],
   "note": ""
  },
  {
   "property": "C17",
   "status": "proved",
   "theorems": [
    "C17_never_lengthens",
    "C17_unflagged_is_wellformed_up_to_truncation",
    "C17_truncation_unflagged_refuted"
   ],
   "note": "proved with the truncated-final-character exception; the exception is necessary (refuted theorem)"
  },
  {
   "property": "C18",
   "status": "proved",
   "theorems": [
    "C18_no_dot_segments",
    "C18_idempotent",
    "C18_never_lengthens",
    "C18_absolute_path_walk",
    "C18_absolute_stays_absolute",
    "C18_rfc3986_refuted",
    "C18_relative_stays_relative_refuted"
   ],
   "note": "deviation from RFC 3986 remove_dot_segments exhibited by a refuted theorem"
  },
  {
   "property": "C19",
   "status": "proved",
   "theorems": [
    "C19_path_decoding",
    "C19_normalized_path_refuted"
   ],
   "note": "for the path decoder; refuted for the whole normalisation pipeline with best-fit conversion"
  },
  {
   "property": "C20",
   "status": "proved",
   "theorems": [
    "C20_absolute_uri",
    "C20_origin_form",
    "C20_empty_query_refuted",
    "C20_at_sign_in_path_refuted"
   ],
   "note": ""
  },
  {
   "property": "C21",
   "status": "proved",
   "theorems": [
    "C21_request_block",
    "C21_response_block",
    "C21_response_tail_refuted",
    "C21_request_folded",
    "C21_response_folded",
    "C21_request_odd_name"
   ],
   "note": "both sides; on the response side the bytes after the block must not look like part of the empty line, and the refuted theorem shows that condition is needed"
  },
  {
   "property": "C22",
   "status": "proved",
   "theorems": [
    "C22_request_header_tables",
    "C22_conversation_header_tables",
    "C22_status_line_cut_refuted"
   ],
   "note": "requests, and responses in conversations, of any number; well-formed messages; the cuts the statement excludes are refuted with witnesses"
  },
  {
   "property": "C23",
   "status": "proved",
   "theorems": [
    "C23_total_suffix_progress"
   ],
   "note": "all inputs, both sides, complete flag on or off"
  },
  {
   "property": "C24",
   "status": "proved",
   "theorems": [
    "C24_table_is_merged",
    "C24_parsed_names_tight"
   ],
   "note": ""
  },
  {
   "property": "C25",
   "status": "proved",
   "theorems": [
    "C25_repetitions_bounded",
    "C25_storage_bounded",
    "C25_kept_lines_bounded"
   ],
   "note": ""
  },
  {
   "property": "C26",
   "status": "proved",
   "theorems": [
    "C26_chunked",
    "C26_other_transfer_encoding",
    "C26_content_length",
    "C26_no_body"
   ],
   "note": ""
  },
  {
   "property": "C27",
   "status": "proved",
   "theorems": [
    "C27_flag_never_set",
    "C27_folded_length_refuted"
   ],
   "note": "refuted as stated: the flag the check tests is proved never to be set, and a witness block goes unreported"
  },
  {
   "property": "C28",
   "status": "proved",
   "theorems": [
    "C28_at_most_max_tx",
    "C28_data_calls_only_drop_complete",
    "C28_kept_without_auto_destroy"
   ],
   "note": "bound, table moves of a data call, and retention without auto-destroy; callbacks do not edit the table"
  },
  {
   "property": "C29",
   "status": "proved",
   "theorems": [
    "C29_all_run",
    "C29_first_failure",
    "C29_registration_order"
   ],
   "note": "callbacks are arbitrary state transformers"
  },
  {
   "property": "C30",
   "status": "proved",
   "theorems": [
    "C30_drained_in_order",
    "C30_channel_order",
    "C30_warned_once"
   ],
   "note": "log channel and warn-once flags; file, line and text of messages are not modelled"
  },
  {
   "property": "C31",
   "status": "proved",
   "theorems": [
    "C31_calls_terminate"
   ],
   "note": "explicit iteration relation without fuel, linear bound; work inside one iteration is structural recursion in the model"
  },
  {
   "property": "C32",
   "status": "proved",
   "theorems": [
    "C32_consumed_within_chunk"
   ],
   "note": ""
  },
  {
   "property": "C33",
   "status": "proved",
   "theorems": [
    "C33_retained_bounded"
   ],
   "note": ""
  },
  {
   "property": "C34",
   "status": "proved",
   "theorems": [
    "C34_request_error_sticky",
    "C34_gap_error_refuted",
    "C34_stop_refuted",
    "C34_response_error_refuted"
   ],
   "note": "request side proved for bytes; gap, STOP and response-side variants refuted with witnesses"
  },
  {
   "property": "C35",
   "status": "proved",
   "theorems": [
    "C35_empty_chunk",
    "C35_never_left_closed",
    "C35_refusing_stream",
    "C35_refused_gap"
   ],
   "note": "statement refined to what holds: a refused gap still marks (or begins) the current transaction"
  },
  {
   "property": "C36",
   "status": "proved",
   "theorems": [
    "C36_tunnel_untouched",
    "C36_close_ends_tunnel"
   ],
   "note": "close() ends a tunnel: shown as a finding"
  },
  {
   "property": "C37",
   "status": "proved",
   "theorems": [
    "C37_bodies_exact",
    "C37_bodies_prompt"
   ],
   "note": ""
  },
  {
   "property": "C38",
   "status": "proved",
   "theorems": [
    "C38_chunked_bodies_exact",
    "C38_chunked_bodies_prompt",
    "C38_cut_in_size_line_refuted",
    "C38_cut_in_chunk_end_refuted"
   ],
   "note": "request side; the excluded cuts are shown to break the claim"
  },
  {
   "property": "C39",
   "status": "proved",
   "theorems": [
    "C39_completions_at_most_once",
    "C39_request_complete_refuted",
    "C39_transaction_complete_at_most_twice",
    "C39_transaction_complete_refuted",
    "C39_response_complete_refuted"
   ],
   "note": "for accepting callbacks, no auto-destroy and no removal; TRANSACTION_COMPLETE at most twice; witnesses show that each condition and the number two are needed"
  },
  {
   "property": "C40",
   "status": "proved",
   "theorems": [
    "C40_responses_announced",
    "C40_requests_announced",
    "C40_response_ahead_refuted",
    "C40_expect_body_refuted",
    "C40_expect_refuted"
   ],
   "note": "responses unconditionally; requests under the listed conditions, each shown to be needed by a refutation where marked; statement SpecFlow.announced"
  },
  {
   "property": "C41",
   "status": "proved",
   "theorems": [
    "C41_refusal_ends_call",
    "C41_body_refusal_ends_call",
    "C41_request_start_refuted",
    "C41_header_data_refuted",
    "C41_decompressed_body_refuted"
   ],
   "note": "proved for every hook the parser heeds; REQUEST_START, raw data at the end of a chunk and body hooks behind a decompressor refuted with witnesses"
  },
  {
   "property": "C42",
   "status": "proved",
   "theorems": [
    "C42_set_then_test",
    "C42_set_exact",
    "C42_unset_exact",
    "C42_unset_then_test",
    "C42_single_bit_independent",
    "C42_composite_flags_refuted"
   ],
   "note": "last clause refuted: composite flags share bits"
  },
  {
   "property": "C43",
   "status": "proved",
   "theorems": [
    "C43_counters"
   ],
   "note": ""
  },
  {
   "property": "C44",
   "status": "proved",
   "theorems": [
    "C44_gzip_header_any_cut",
    "C44_cut_in_field_refuted"
   ],
   "note": "for cuts outside the two-byte fields; cuts inside either are refuted with witnesses; the inflater is a parameter with a contract"
  },
  {
   "property": "C45",
   "status": "proved",
   "theorems": [
    "C45_restarts_bounded",
    "C45_unwanted_data_passes_through",
    "C45_layers_bounded",
    "C45_limit_zero_refuted"
   ],
   "note": "one layer is always allowed: a limit of 0 is refuted; layer bound stated for the set-up of one message"
  },
  {
   "property": "C46",
   "status": "proved",
   "theorems": [
    "C46_pieces_bounded",
    "C46_bomb_limit"
   ],
   "note": "for the sequence of body pieces of one message and its end"
  },
  {
   "property": "C47",
   "status": "proved",
   "theorems": [
    "C47_digest_username_roundtrip",
    "C47_trailing_backslash_refuted"
   ],
   "note": "side condition on a trailing backslash shown necessary"
  },
  {
   "property": "C48",
   "status": "proved",
   "theorems": [
    "C48_hex_pairs",
    "C48_other_bytes_overflow_refuted"
   ],
   "note": "overflow on non-hex bytes exhibited by a refuted theorem"
  },
  {
   "property": "C49",
   "status": "proved",
   "theorems": [
    "C49_histories_return"
   ],
   "note": "release-mode integer semantics (wrap-around where the code can wrap); callbacks return any status but do not modify transactions"
  },
  {
   "property": "C50",
   "status": "proved",
   "theorems": [
    "C50_accepting_callbacks_change_nothing",
    "C50_log_level_filters",
    "C50_declined_is_ok"
   ],
   "note": ""
  },
  {
   "property": "C51",
   "status": "proved",
   "theorems": [
    "C51_well_formed_stream_is_parsed",
    "C51_cut_in_empty_line_refuted"
   ],
   "note": ""
  },
  {
   "property": "C52",
   "status": "proved",
   "theorems": [
    "C52_decoded_whatever_the_cut",
    "C52_body_callbacks_get_decoded"
   ],
   "note": ""
  },
  {
   "property": "C53",
   "status": "proved",
   "theorems": [
    "C53_failed_callback_ends_decompression"
   ],
   "note": ""
  },
  {
   "property": "C54",
   "status": "proved",
   "theorems": [
    "C54_late_data_passes_through",
    "C54_time_limit"
   ],
   "note": ""
  },
  {
   "property": "C55",
   "status": "proved",
   "theorems": [
    "C55_end_after_all_data",
    "C55_body_callbacks_get_end"
   ],
   "note": ""
  },
  {
   "property": "C56",
   "status": "proved",
   "theorems": [
    "C56_conversation_is_parsed",
    "C56_bytewise_refuted",
    "C56_next_response_hidden_refuted"
   ],
   "note": "HTTP/1.1 final responses (no 1xx, none delimited by the end of the connection) without content coding; witnesses show that the excluded cuts and body beginnings are needed"
  },
  {
   "property": "C57",
   "status": "proved",
   "theorems": [
    "C57_conversation_bodies_exact",
    "C57_size_line_cut_refuted",
    "C57_body_start_refuted"
   ],
   "note": "same hypotheses as C56"
  },
  {
   "property": "C58",
   "status": "proved",
   "theorems": [
    "C58_interleaved_conversation_is_parsed",
    "C58_partial_line_refuted",
    "C58_response_first_refuted"
   ],
   "note": "messages as in C51 and C56; a response must not come before its request has arrived with nothing of an unfinished next request line; both shown to be needed by witnesses"
  },
  {
   "property": "C59",
   "status": "proved",
   "theorems": [
    "C59_interleaved_bodies_exact",
    "C59_schedule_irrelevant"
   ],
   "note": "same hypotheses as C58"
  },
  {
   "property": "C60",
   "status": "proved",
   "theorems": [
    "C60_target_host_wins",
    "C60_header_host",
    "C60_ambiguous_exact",
    "C60_missing_exact",
    "C60_no_host",
    "C60_invalid_exact",
    "C60_invalid_address_exact",
    "C60_invalid_port",
    "C60_invalid_rest"
   ],
   "note": "Host values that are a host and an optional port; a malformed port covered by C60_invalid_port"
  },
  {
   "property": "C61",
   "status": "proved",
   "theorems": [
    "C61_off",
    "C61_none",
    "C61_basic",
    "C61_basic_invalid",
    "C61_bearer",
    "C61_digest",
    "C61_digest_invalid",
    "C61_other"
   ],
   "note": "the base64 decoder is a parameter"
  },
  {
   "property": "C62",
   "status": "proved",
   "theorems": [
    "C62_only_in_stage",
    "C62_found",
    "C62_never_surprised"
   ],
   "note": "callbacks of the model answer with a status and change nothing themselves; with flushing of incomplete transactions configured nothing is claimed about the progress at TRANSACTION_COMPLETE"
  },
  {
   "property": "C63",
   "status": "proved",
   "theorems": [
    "C63_request_decided",
    "C63_request_checks"
   ],
   "note": "the exact host rules are C60; here the implications that hold in every history"
  },
  {
   "property": "C64",
   "status": "proved",
   "theorems": [
    "C64_response_decided",
    "C64_response_checks"
   ],
   "note": ""
  },
  {
   "property": "C65",
   "status": "proved",
   "theorems": [
    "C65_order",
    "C65_order_nozero",
    "C65_equal",
    "C65_prefix",
    "C65_append_in_capacity",
    "C65_search"
   ],
   "note": ""
  },
  {
   "property": "C66",
   "status": "proved",
   "theorems": [
    "C66_every_path_is_read",
    "C66_path_decoded",
    "C66_status_of_earlier_pieces_refuted"
   ],
   "note": "C66_status_of_earlier_pieces_refuted: the status asked for by an earlier piece is lost"
  },
  {
   "property": "C67",
   "status": "proved",
   "theorems": [
    "C67_every_text_is_read",
    "C67_text_decoded",
    "C67_component_flags"
   ],
   "note": ""
  },
  {
   "property": "C68",
   "status": "proved",
   "theorems": [
    "C68_components",
    "C68_texts",
    "C68_port_in_complete_uri_refuted"
   ],
   "note": "C68_port_in_complete_uri_refuted: the port of the target is missing in the complete normalized URI"
  },
  {
   "property": "C69",
   "status": "proved",
   "theorems": [
    "C69_every_text_is_read",
    "C69_utf8_decoded"
   ],
   "note": ""
  },
  {
   "property": "C70",
   "status": "proved",
   "theorems": [
    "C70_close_flushes"
   ],
   "note": ""
  },
  {
   "property": "C71",
   "status": "proved",
   "theorems": [
    "C71_limits_matter_when_exceeded",
    "C71_higher_ratio_refuted"
   ],
   "note": "C71_higher_ratio_refuted: a higher compression ratio can be stricter, because the product overflows"
  },
  {
   "property": "C72",
   "status": "proved",
   "theorems": [
    "C72_last_call_counts",
    "C72_last_call_counts_c",
    "C72_refused",
    "C72_refused_c",
    "C72_null",
    "C72_iis_5_0_unavailable",
    "C72_minimal_refuted",
    "C72_true_values_refuted"
   ],
   "note": "C72_minimal_refuted, C72_true_values_refuted: two readings of the documentation that do not hold"
  },
  {
   "property": "C73",
   "status": "proved",
   "theorems": [
    "C73_escaped",
    "C73_escaped_refuted",
    "C73_compare",
    "C73_compare_nocase",
    "C73_header",
    "C73_headers",
    "C73_headers_flags",
    "C73_lengths",
    "C73_session",
    "C73_consumed",
    "C73_transactions",
    "C73_begun",
    "C73_logs",
    "C73_transactions_refuted",
    "C73_null",
    "C73_null_refuted"
   ],
   "note": "C73_escaped_refuted, C73_transactions_refuted, C73_null_refuted: what does not hold; C73_transactions is for callbacks that refuse nothing"
  },
  {
   "property": "C74",
   "status": "proved",
   "theorems": [
    "C74_request_line_exact",
    "C74_target_unique",
    "C74_request_line_found",
    "C74_request_line_checks"
   ],
   "note": "that a target not present leaves the stored target alone, rather than being absent, is because of transactions that a response began (see C62)"
  },
  {
   "property": "C75",
   "status": "proved",
   "theorems": [
    "C75_status_line_exact",
    "C75_status_line_found",
    "C75_status_line_checks"
   ],
   "note": ""
  },
  {
   "property": "C76",
   "status": "proved",
   "theorems": [
    "C76_fields_read",
    "C76_says_one_thing",
    "C76_response_cut",
    "C76_blank_line_refuted"
   ],
   "note": "C76_blank_line_refuted: the reported exception. Blocks with a CR inside a line, or with what follows the empty line mistaken for part of it (C21_response_tail_refuted), are outside"
  },
  {
   "property": "C77",
   "status": "proved",
   "theorems": [
    "C77_flags_exact",
    "C77_warned_once",
    "C77_stored_flags",
    "C77_empty_name_refuted"
   ],
   "note": "C77_empty_name_refuted: the reported exception"
  },
  {
   "property": "C78",
   "status": "proved",
   "theorems": [
    "C78_value_read",
    "C78_no_header",
    "C78_one_reading",
    "C78_idle_words_refuted",
    "C78_lzma_refuted"
   ],
   "note": "C78_idle_words_refuted, C78_lzma_refuted: the reported exceptions"
  },
  {
   "property": "C79",
   "status": "proved",
   "theorems": [
    "C79_target_split",
    "C79_connect",
    "C79_port_refuted"
   ],
   "note": "C79_port_refuted: the reported exceptions"
  },
  {
   "property": "C80",
   "status": "proved",
   "theorems": [
    "C80_close_ends_last_response",
    "C80_last_body_exact",
    "C80_close_quiet",
    "C80_no_header_lines_refuted",
    "C80_multipart_refuted",
    "C80_cut_off_refuted"
   ],
   "note": "C80_no_header_lines_refuted, C80_multipart_refuted, C80_cut_off_refuted: the reported exceptions"
  },
  {
   "property": "C81",
   "status": "proved",
   "theorems": [
    "C81_tunnel_left_alone",
    "C81_requests_go_on",
    "C81_client_waits",
    "C81_server_first_refuted"
   ],
   "note": "C81_server_first_refuted: the reported exception"
  },
  {
   "property": "C82",
   "status": "proved",
   "theorems": [
    "C82_interim_responses_left_out",
    "C82_segments_refuted",
    "C82_final_refuted",
    "C82_limit_refuted"
   ],
   "note": "C82_segments_refuted, C82_final_refuted and C82_limit_refuted: the reported exceptions"
  },
  {
   "property": "C83",
   "status": "proved",
   "theorems": [
    "C83_upgrade_is_tunnel",
    "C83_no_tunnel_refuted"
   ],
   "note": "C83_no_tunnel_refuted: the reported exceptions"
  },
  {
   "property": "C84",
   "status": "proved",
   "theorems": [
    "C84_simple_request",
    "C84_simple_end",
    "C84_segments_refuted"
   ],
   "note": "C84_segments_refuted: the reported exception"
  },
  {
   "property": "C85",
   "status": "proved",
   "theorems": [
    "C85_lost_request_bytes",
    "C85_gaps_elsewhere_refuted"
   ],
   "note": "C85_gaps_elsewhere_refuted: gaps outside a body of known length"
  },
  {
   "property": "C86",
   "status": "proved",
   "theorems": [
    "C86_lost_response_bytes",
    "C86_gaps_elsewhere_refuted"
   ],
   "note": "C86_gaps_elsewhere_refuted: gaps outside a body of known length"
  },
  {
   "property": "C87",
   "status": "proved",
   "theorems": [
    "C87_cut_off_request",
    "C87_cut_elsewhere_refuted"
   ],
   "note": "C87_cut_elsewhere_refuted: a request that ends in its line, header block or trailer is reported as complete"
  },
  {
   "property": "C88",
   "status": "proved",
   "theorems": [
    "C88_cut_off_response",
    "C88_cut_elsewhere_refuted",
    "C88_close_again_refuted"
   ],
   "note": "C88_cut_elsewhere_refuted: a response that ends in its status line, header block, trailer or body of known length is reported as complete; C88_close_again_refuted: without auto-destroy a second close runs TRANSACTION_COMPLETE again"
  },
  {
   "property": "C89",
   "status": "proved",
   "theorems": [
    "C89_short_response"
   ],
   "note": "a user who wants to know whether the whole body came has to compare response_message_len with the announced length"
  },
  {
   "property": "C90",
   "status": "proved",
   "theorems": [
    "C90_half_closed",
    "C90_inside_refuted"
   ],
   "note": "C90_inside_refuted: inside the head of a request the call completes the request, and what is given to the parser afterwards is read as another request"
  },
  {
   "property": "C91",
   "status": "proved",
   "theorems": [
    "C91_removing_is_local",
    "C91_too_early_refuted"
   ],
   "note": "C91_too_early_refuted: a transaction that is removed before its response has ended comes back blank and is never completed"
  },
  {
   "property": "C92",
   "status": "proved",
   "theorems": [
    "C92_idle_calls"
   ],
   "note": "C35 has single empty chunks in any state; C90 is the special case of request_close"
  },
  {
   "property": "C93",
   "status": "proved",
   "theorems": [
    "C93_closing_between_rounds"
   ],
   "note": "closing while an exchange is unfinished is C87 and C88; C92 has the calls that bring nothing inside a round"
  },
  {
   "property": "C94",
   "status": "proved",
   "theorems": [
    "C94_closing_before_responses",
    "C94_flushed_early_refuted"
   ],
   "note": "C94_flushed_early_refuted: if closing flushes, TRANSACTION_COMPLETE runs for the waiting transaction at the close and once more after its response"
  }
 ]
}
