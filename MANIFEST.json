{
 "claims": [
  {
   "property": "C01",
   "status": "proved",
   "theorems": [
    "C01_segmentation_invisible"
   ],
   "note": ""
  },
  {
   "property": "C02",
   "status": "proved",
   "theorems": [
    "C02_head_parsed"
   ],
   "note": ""
  },
  {
   "property": "C03",
   "status": "proved",
   "theorems": [
    "C03_only_printable"
   ],
   "note": ""
  },
  {
   "property": "C04",
   "status": "proved",
   "theorems": [
    "C04_limits_respected"
   ],
   "note": ""
  },
  {
   "property": "C05",
   "status": "partial",
   "theorems": [
    "C05_not_altered_partial",
    "C05_long_method_refuted",
    "C05_long_target_refuted"
   ],
   "note": "The code violates the full statement: over-long methods and targets are accepted with a byte lost and the fields shifted (refuted theorems, for all of them). Proved: within the limits nothing is altered."
  },
  {
   "property": "C06",
   "status": "partial",
   "theorems": [
    "C06_zero_limit_partial",
    "C06_count_ignored_refuted"
   ],
   "note": "The code violates the full statement for every positive limit: the counter restarts with each line. Proved: limit 0 is enforced."
  },
  {
   "property": "C07",
   "status": "partial",
   "theorems": [
    "C07_lines_lookup_partial",
    "C07_empty_name_refuted"
   ],
   "note": "The code violates the full statement when a line has an empty name: its value is given to the next header. Proved for all heads without blank names."
  },
  {
   "property": "C08",
   "status": "partial",
   "theorems": [
    "C08_bad_colonless_refused_partial",
    "C08_colonless_ignored_refuted"
   ],
   "note": "The code silently ignores every printable line without a colon of up to 256 bytes; proved: the others are refused."
  },
  {
   "property": "C09",
   "status": "partial",
   "theorems": [
    "C09_head_ends_partial",
    "C09_any_byte_ends_refuted",
    "C09_truncated_head_refuted"
   ],
   "note": "The code accepts any byte followed by LF, or two bytes followed by end of stream, as the end of the head. Proved: otherwise an accepted head ends with a two-byte line, and what comes before that line ends with LF or with a piece at least as long as a line limit."
  },
  {
   "property": "C10",
   "status": "proved",
   "theorems": [
    "C10_body_exact",
    "C10_no_length_no_body",
    "C10_decoder_exact"
   ],
   "note": ""
  },
  {
   "property": "C11",
   "status": "partial",
   "theorems": [
    "C11_broken_body_partial",
    "C11_truncated_body_refuted",
    "C11_connection_lost_refuted"
   ],
   "note": "The code violates the statement when the peer closes inside a body: the read loop spins forever. Proved for read errors."
  },
  {
   "property": "C12",
   "status": "partial",
   "theorems": [
    "C12_normal_bound_partial",
    "C12_normal_refuses_partial",
    "C12_decoder_bound_partial",
    "C12_unbounded_refuted"
   ],
   "note": "The connection loop never consults max_body_size. Proved for read_body_normal, which it does not call."
  },
  {
   "property": "C13",
   "status": "partial",
   "theorems": [
    "C13_one_decimal_chunk_partial",
    "C13_first_chunk_only_refuted",
    "C13_hexadecimal_refuted",
    "C13_not_decoded_refuted"
   ],
   "note": "The code reads one chunk with a decimal size; the connection loop ignores transfer-encoding."
  },
  {
   "property": "C14",
   "status": "partial",
   "theorems": [
    "C14_malformed_closes_partial",
    "C14_handler_sees_number_partial",
    "C14_plus_accepted_refuted"
   ],
   "note": "Violated only for a leading plus sign, which is accepted."
  },
  {
   "property": "C15",
   "status": "proved",
   "theorems": [
    "C15_pipelined",
    "C15_builtin_answer"
   ],
   "note": ""
  },
  {
   "property": "C16",
   "status": "partial",
   "theorems": [
    "C16_first_request_partial",
    "C16_own_body_partial",
    "C16_bodies_accumulate_refuted"
   ],
   "note": "The code violates the statement: bodies of earlier requests stay in front. Proved for the first request and, for handlers that leave the request alone, exactly for the requests before which no body was sent."
  },
  {
   "property": "C17",
   "status": "partial",
   "theorems": [
    "C17_first_greeting_partial",
    "C17_greetings_pile_up_refuted"
   ],
   "note": "The code violates the statement: the k-th response carries k+1 greetings. Proved for the first response."
  },
  {
   "property": "C18",
   "status": "proved",
   "theorems": [
    "C18_builtin_truthful"
   ],
   "note": ""
  },
  {
   "property": "C19",
   "status": "partial",
   "theorems": [
    "C19_scripts_truthful_partial",
    "C19_no_deletions_partial",
    "C19_gap_refuted",
    "C19_delete_refuted",
    "C19_capital_refuted",
    "C19_line_break_refuted"
   ],
   "note": "Violated when a deletion leaves a gap in front of the place for content-length, by capital letters and by line breaks; proved for all other histories whose header calls keep clear of gaps."
  },
  {
   "property": "C20",
   "status": "partial",
   "theorems": [
    "C20_hello_line_partial",
    "C20_hello_line_refuted",
    "C20_fs_line_refuted"
   ],
   "note": "The version is written twice whenever the request version is valid, and the file service writes an empty status line."
  },
  {
   "property": "C21",
   "status": "proved",
   "theorems": [
    "C21_round_trip"
   ],
   "note": "Headers whose last value was removed are not serialised; this is stated in the theorem."
  },
  {
   "property": "C22",
   "status": "partial",
   "theorems": [
    "C22_version_exact_partial",
    "C22_minor_lost_refuted"
   ],
   "note": "The minor number is parsed from the major digits; the exact behaviour is proved."
  },
  {
   "property": "C23",
   "status": "partial",
   "theorems": [
    "C23_closed_partial",
    "C23_kept_refuted"
   ],
   "note": "HTTP/1.0 connections are kept alive; only major version 0 closes."
  },
  {
   "property": "C24",
   "status": "proved",
   "theorems": [
    "C24_only_responses_written"
   ],
   "note": ""
  },
  {
   "property": "C25",
   "status": "partial",
   "theorems": [
    "C25_stalled_waits_refuted",
    "C25_unread_refuted"
   ],
   "note": "The code never looks at idle_timeout: a client that stops sending, or stops reading its response, is waited for forever. Only the TLS handshake is limited in time: see C129."
  },
  {
   "property": "C26",
   "status": "proved",
   "theorems": [
    "C26_table_refines_map"
   ],
   "note": ""
  },
  {
   "property": "C27",
   "status": "partial",
   "theorems": [
    "C27_table_refines_map_with_delete_partial",
    "C27_delete_then_set_refuted",
    "C27_delete_then_append_refuted",
    "C27_every_other_set_refuted",
    "C27_every_other_append_refuted"
   ],
   "note": "The code violates the full statement: a set after a delete can lose its value and an append after a delete can hide earlier values. Proved: exactly which histories go right (writes before the first gap left by a deletion, appends to absent names); every other write goes wrong at once."
  },
  {
   "property": "C28",
   "status": "proved",
   "theorems": [
    "C28_remove_value"
   ],
   "note": ""
  },
  {
   "property": "C29",
   "status": "proved",
   "theorems": [
    "C29_each_visits_once",
    "C29_each_with_delete_refuted",
    "C29_each_mut",
    "C29_length",
    "C29_length_with_delete_refuted"
   ],
   "note": "The _refuted theorems show that the hypothesis 'without deletion' is needed: after a delete, iteration visits a phantom empty name, and it is counted."
  },
  {
   "property": "C30",
   "status": "partial",
   "theorems": [
    "C30_switch_transparent_partial",
    "C30_with_delete_partial",
    "C30_switch_refuted"
   ],
   "note": "False for tables with duplicate keys produced by delete-then-append; true for tables built without deletion and for all histories covered by the C27 partial theorem."
  },
  {
   "property": "C31",
   "status": "proved",
   "theorems": [
    "C31_clear_is_new"
   ],
   "note": ""
  },
  {
   "property": "C32",
   "status": "partial",
   "theorems": [
    "C32_clear_writable_partial",
    "C32_clear_failing_partial",
    "C32_clear_keeps_refuted",
    "C32_clear_panics_refuted"
   ],
   "note": "clear() does not empty the body; it only ends compression."
  },
  {
   "property": "C33",
   "status": "partial",
   "theorems": [
    "C33_encoded_partial",
    "C33_mixed_refuted",
    "C33_accumulates_refuted"
   ],
   "note": "The code violates the property: bytes written earlier are sent in the clear before the encoding. Proved: the exact bytes sent after any history of writes, compressions, ends and clears, for any streaming encoder."
  },
  {
   "property": "C34",
   "status": "partial",
   "theorems": [
    "C34_decoder_gets_all_partial",
    "C34_decoded_partial",
    "C34_decoded_chunk_partial",
    "C34_decoder_loses_refuted"
   ],
   "note": "The number of bytes the decoder accepts is ignored."
  },
  {
   "property": "C35",
   "status": "proved",
   "theorems": [
    "C35_sizes_sum"
   ],
   "note": ""
  },
  {
   "property": "C36",
   "status": "partial",
   "theorems": [
    "C36_gigabyte_refuted",
    "C36_at_least_partial"
   ],
   "note": "The code violates the statement: G is 1024*1024*1204 bytes; the exact factor is proved. What holds: sizes with G are never below what is meant and exceed it by at most the factor 1204/1024."
  },
  {
   "property": "C37",
   "status": "partial",
   "theorems": [
    "C37_wraps_refuted",
    "C37_big_number_partial"
   ],
   "note": "The code violates the statement: products and sums wrap (release) or panic (dev); a single number that does not fit is refused."
  },
  {
   "property": "C38",
   "status": "partial",
   "theorems": [
    "C38_crash_refuted",
    "C38_errors_partial",
    "C38_accepted_exactly_partial"
   ],
   "note": "The code can crash on some strings; proved: no crash on the others, and exactly which strings are accepted."
  },
  {
   "property": "C39",
   "status": "proved",
   "theorems": [
    "C39_durations_sum"
   ],
   "note": ""
  },
  {
   "property": "C40",
   "status": "proved",
   "theorems": [
    "C40_case_and_space"
   ],
   "note": ""
  },
  {
   "property": "C41",
   "status": "proved",
   "theorems": [
    "C41_buffers",
    "C41_loaded",
    "C41_loaded_root",
    "C41_root_buffers"
   ],
   "note": ""
  },
  {
   "property": "C42",
   "status": "proved",
   "theorems": [
    "C42_limits",
    "C42_loaded",
    "C42_defaults"
   ],
   "note": ""
  },
  {
   "property": "C43",
   "status": "partial",
   "theorems": [
    "C43_inherited_partial",
    "C43_loaded_partial",
    "C43_loaded_refuted",
    "C43_not_inherited_refuted"
   ],
   "note": "The code violates the statement for max_headers_count, max_body_size and websocket."
  },
  {
   "property": "C44",
   "status": "proved",
   "theorems": [
    "C44_twice"
   ],
   "note": ""
  },
  {
   "property": "C45",
   "status": "proved",
   "theorems": [
    "C45_indices"
   ],
   "note": "For every world (any file contents, any iteration order of the service map) and every configuration that loads."
  },
  {
   "property": "C46",
   "status": "proved",
   "theorems": [
    "C46_include",
    "C46_taken",
    "C46_twice",
    "C46_load_fails",
    "C46_load_keeps"
   ],
   "note": "Exact characterisation of including matched entries (success iff no name is taken, result is an append), plus the consequences for loading as a whole."
  },
  {
   "property": "C47",
   "status": "partial",
   "theorems": [
    "C47_names_partial",
    "C47_unique_partial",
    "C47_unique_refuted"
   ],
   "note": "The code violates the property: keys that differ only in surrounding white space load as services with the same name. Proved: names are the trimmed keys, keys are distinct, so names are unique when no key has surrounding white space."
  },
  {
   "property": "C48",
   "status": "proved",
   "theorems": [
    "C48_plain_iff_unset",
    "C48_encrypted"
   ],
   "note": ""
  },
  {
   "property": "C49",
   "status": "partial",
   "theorems": [
    "C49_flag_refuted",
    "C49_distinguishes_partial"
   ],
   "note": "The code violates the property: the flag is inverted on every connection."
  },
  {
   "property": "C50",
   "status": "proved",
   "theorems": [
    "C50_plain",
    "C50_tls",
    "C50_isolated",
    "C50_progress",
    "C50_goes_on",
    "C50_stopped"
   ],
   "note": ""
  },
  {
   "property": "C51",
   "status": "proved",
   "theorems": [
    "C51_files_distinct",
    "C51_section_distinct"
   ],
   "note": "Paths as texts; see C76 for where the paths lead."
  },
  {
   "property": "C52",
   "status": "proved",
   "theorems": [
    "C52_filters"
   ],
   "note": "The appenders of a configuration are, section by section, the configured ones, each with a filter accepting exactly the selected levels."
  },
  {
   "property": "C53",
   "status": "proved",
   "theorems": [
    "C53_routing"
   ],
   "note": "Routing never panics (part of C64_logging_partial)."
  },
  {
   "property": "C54",
   "status": "proved",
   "theorems": [
    "C54_delivery"
   ],
   "note": "For every loaded configuration whose appenders are all consoles or all files, every list of records; assumes the time layout is one chrono can format (otherwise the consumer panics)."
  },
  {
   "property": "C55",
   "status": "partial",
   "theorems": [
    "C55_delivery_partial",
    "C55_delivery_refuted"
   ],
   "note": "The code violates the property: the per-record table of renderers is indexed by appender index, so any record that belongs at some appender but not at an earlier one reads out of bounds. Proved: exact delivery for all other records."
  },
  {
   "property": "C56",
   "status": "partial",
   "theorems": [
    "C56_json_partial",
    "C56_attributes_refuted",
    "C56_control_refuted",
    "C56_quote_refuted"
   ],
   "note": "The code violates the property: attribute names are not quoted and messages are not escaped. Proved: valid JSON when no text needs escaping and attribute names are already JSON strings."
  },
  {
   "property": "C57",
   "status": "partial",
   "theorems": [
    "C57_one_line_partial",
    "C57_many_lines_refuted"
   ],
   "note": "The code violates the property for records with a line feed in a text; proved for all others."
  },
  {
   "property": "C58",
   "status": "proved",
   "theorems": [
    "C58_colours",
    "C58_determined"
   ],
   "note": ""
  },
  {
   "property": "C59",
   "status": "proved",
   "theorems": [
    "C59_nothing_lost",
    "C59_order",
    "C59_reported",
    "C59_failed",
    "C59_kept",
    "C59_held_back",
    "C59_collected"
   ],
   "note": "Nothing lost when no write fails, or as long as all calls report success; with failing writes: append-only, in order, no repetition, and a failing call loses at most one block. What is held back is bounded by the buffer and one block; what fits in the buffer is held back."
  },
  {
   "property": "C60",
   "status": "partial",
   "theorems": [
    "C60_segments_partial",
    "C60_rotation_loses_refuted",
    "C60_retry_partial",
    "C60_again_partial"
   ],
   "note": "The code violates the property: the buffer is dropped at rotation, always including the record that triggers it (if shorter than the buffer). Proved: exactly what each file keeps, for every history."
  },
  {
   "property": "C61",
   "status": "partial",
   "theorems": [
    "C61_next_partial",
    "C61_long_day_refuted",
    "C61_uneven_refuted",
    "C61_crash_refuted"
   ],
   "note": "True away from clock changes; the code violates the property on days with clock changes."
  },
  {
   "property": "C62",
   "status": "proved",
   "theorems": [
    "C62_barrier",
    "C62_returns"
   ],
   "note": "For file appenders, over every schedule of loggers, flushers and the consumer."
  },
  {
   "property": "C63",
   "status": "partial",
   "theorems": [
    "C63_consumed_partial",
    "C63_last_flush_partial",
    "C63_flush_call_partial",
    "C63_lost_refuted"
   ],
   "note": "The code violates the property: the guard returns before the last flush, so buffered records can be lost at exit. Proved: nothing stays in the channel; all is in the file if the last flush ran or the program flushed."
  },
  {
   "property": "C64",
   "status": "partial",
   "theorems": [
    "C64_no_logging_refuted",
    "C64_logging_partial"
   ],
   "note": "The code violates the property: without any appender the consumer is never started and the guard's destructor waits forever. Proved: with at least one appender logging starts."
  },
  {
   "property": "C65",
   "status": "partial",
   "theorems": [
    "C65_late_refuted",
    "C65_hang_refuted",
    "C65_spawn_refuted",
    "C65_none_running_partial",
    "C65_one_service_partial",
    "C65_prompt_partial"
   ],
   "note": "The code violates the property: main can return before a late thread starts, and never returns when all services end early. Proved: no service is running when main returns; all have ended if all took the lock before main looked."
  },
  {
   "property": "C66",
   "status": "proved",
   "theorems": [
    "C66_name"
   ],
   "note": ""
  },
  {
   "property": "C67",
   "status": "proved",
   "theorems": [
    "C67_no_key",
    "C67_key",
    "C67_answer"
   ],
   "note": "SHA-1 and base64 are those of the RFCs (the code uses crates)."
  },
  {
   "property": "C68",
   "status": "proved",
   "theorems": [
    "C68_contains_is_substring"
   ],
   "note": ""
  },
  {
   "property": "C69",
   "status": "proved",
   "theorems": [
    "C69_attributes",
    "C69_determined"
   ],
   "note": "With several numeric 'service' attributes the last one counts."
  },
  {
   "property": "C70",
   "status": "proved",
   "theorems": [
    "C70_rotated_names"
   ],
   "note": ""
  },
  {
   "property": "C71",
   "status": "proved",
   "theorems": [
    "C71_levels",
    "C71_max_level"
   ],
   "note": ""
  },
  {
   "property": "C72",
   "status": "proved",
   "theorems": [
    "C72_hello"
   ],
   "note": "Assumes the working directory, if set, can be entered and the include patterns match no service file."
  },
  {
   "property": "C73",
   "status": "partial",
   "theorems": [
    "C73_long_line_cut_refuted",
    "C04_limits_respected"
   ],
   "note": "The code cuts over-long lines in two instead of refusing them; the true part is that no accepted name or value exceeds the limit (C04_limits_respected)."
  },
  {
   "property": "C74",
   "status": "proved",
   "theorems": [
    "C74_causal"
   ],
   "note": ""
  },
  {
   "property": "C75",
   "status": "partial",
   "theorems": [
    "C75_settings_ignored_refuted",
    "C04_limits_respected"
   ],
   "note": "The connection loop reads three settings only; the size limits among them are enforced (C04_limits_respected)."
  },
  {
   "property": "C76",
   "status": "partial",
   "theorems": [
    "C76_places_partial",
    "C76_below_partial",
    "C76_same_place_refuted",
    "C76_outside_refuted"
   ],
   "note": "The code violates the property for service names containing slashes or dots: 'a' and './a' share files, '..' escapes the log directory. Proved for distinct names that are proper file names. Symbolic links are not modelled."
  },
  {
   "property": "C77",
   "status": "partial",
   "theorems": [
    "C77_lost_refuted",
    "C77_stops_partial"
   ],
   "note": "The code violates the property: each round subscribes to Ctrl-C anew, and a signal meeting a ready connection can be lost."
  },
  {
   "property": "C78",
   "status": "partial",
   "theorems": [
    "C78_partial",
    "C78_crash_refuted",
    "C78_unchecked_refuted",
    "C78_broken_refuted",
    "C78_layouts_partial"
   ],
   "note": "The code violates the property: the layout is not checked and a bad one kills the consumer thread. Proved for layouts the time library accepts."
  },
  {
   "property": "C79",
   "status": "partial",
   "theorems": [
    "C79_archives_kept_partial",
    "C79_overwrites_refuted",
    "C79_long_day_refuted"
   ],
   "note": "The code violates the property: rename replaces an existing file of the same date. Proved to hold without clock changes."
  },
  {
   "property": "C80",
   "status": "partial",
   "theorems": [
    "C80_name_refuted",
    "C80_not_early_partial"
   ],
   "note": "The code violates the property: the name is the date of the rotation, never that of the records."
  },
  {
   "property": "C81",
   "status": "partial",
   "theorems": [
    "C81_forward_refuted",
    "C81_loaded_refuted",
    "C81_starts_partial"
   ],
   "note": "The code violates the property for forward and upstream services (todo!())."
  },
  {
   "property": "C82",
   "status": "partial",
   "theorems": [
    "C82_root_ignored_refuted",
    "C82_timeout_partial"
   ],
   "note": "The code violates the property: only the handshake timeout is inherited."
  },
  {
   "property": "C83",
   "status": "partial",
   "theorems": [
    "C83_freed_refuted",
    "C83_held_partial"
   ],
   "note": "The code violates the property in per-core mode. Proved while the guard is held."
  },
  {
   "property": "C84",
   "status": "proved",
   "theorems": [
    "C84_waits",
    "C84_returns",
    "C84_reports",
    "C84_unaffected"
   ],
   "note": ""
  },
  {
   "property": "C85",
   "status": "partial",
   "theorems": [
    "C85_cut_off_refuted",
    "C85_served_partial"
   ],
   "note": "The code violates the property: connection tasks are not joined. Proved: connections are served as long as some service runs."
  },
  {
   "property": "C86",
   "status": "proved",
   "theorems": [
    "C86_refused",
    "C86_roots"
   ],
   "note": ""
  },
  {
   "property": "C87",
   "status": "proved",
   "theorems": [
    "C87_services"
   ],
   "note": ""
  },
  {
   "property": "C88",
   "status": "proved",
   "theorems": [
    "C88_accepted",
    "C88_unreadable"
   ],
   "note": ""
  },
  {
   "property": "C89",
   "status": "proved",
   "theorems": [
    "C89_no_file",
    "C89_serves",
    "C89_refused"
   ],
   "note": "Release profile. Given that logging can be set up (C64 covers when it cannot)."
  },
  {
   "property": "C90",
   "status": "partial",
   "theorems": [
    "C90_no_file_refuted"
   ],
   "note": "The code violates the property: the file service is a stub. Proved: the exact bytes sent, one answer per request, the same for all."
  },
  {
   "property": "C91",
   "status": "partial",
   "theorems": [
    "C91_bad_terminator_refuted",
    "C91_grammar_accepted_partial",
    "C91_accepted_grammar_partial"
   ],
   "note": "The code violates the property. Proved: the heads accepted are exactly those of an explicit grammar, which determines everything read from them."
  },
  {
   "property": "C92",
   "status": "partial",
   "theorems": [
    "C92_failure_not_sent_partial",
    "C92_failure_sent_empty_refuted"
   ],
   "note": "The code violates the property when the handler ends the body itself. Proved when the failure happens while sending."
  },
  {
   "property": "C93",
   "status": "proved",
   "theorems": [
    "C93_continues",
    "C93_closed",
    "C93_client_gone",
    "C93_panic"
   ],
   "note": ""
  },
  {
   "property": "C94",
   "status": "proved",
   "theorems": [
    "C94_from_stream",
    "C94_all",
    "C94_unambiguous"
   ],
   "note": ""
  },
  {
   "property": "C95",
   "status": "partial",
   "theorems": [
    "C95_not_spoken_refuted",
    "C95_answered_partial"
   ],
   "note": "The code violates the property: the WebSocket loop is empty and the HTTP/2 one is todo!(). Proved: the answer is sent, and no later byte is taken for an HTTP request."
  },
  {
   "property": "C96",
   "status": "partial",
   "theorems": [
    "C96_kept_partial",
    "C96_raised_refuted"
   ],
   "note": "The code violates the property for idle timeouts below ten seconds and buffers below 4 KiB. Proved for everything else."
  },
  {
   "property": "C97",
   "status": "partial",
   "theorems": [
    "C97_written_partial",
    "C97_said_twice_refuted"
   ],
   "note": "The code violates the property: versions and codes given again are appended, and bodies pile up. Proved: exactly what is sent, for every handler whose header calls keep clear of the gaps left by deletions."
  },
  {
   "property": "C98",
   "status": "proved",
   "theorems": [
    "C98_shown",
    "C98_coloured"
   ],
   "note": ""
  },
  {
   "property": "C99",
   "status": "partial",
   "theorems": [
    "C99_due_partial",
    "C99_started_partial",
    "C99_starts_partial",
    "C99_not_renamed_partial",
    "C99_open_failure_refuted"
   ],
   "note": "The code violates the property: if the new file cannot be opened after the rename, the path of the log is gone and later rotations all fail, because they rename that path first. Proved: rotation happens when due and allowed, and while renaming fails nothing changes."
  },
  {
   "property": "C100",
   "status": "partial",
   "theorems": [
    "C100_placed",
    "C100_section_names",
    "C100_started_partial",
    "C100_refused_partial",
    "C100_midnight_refuted"
   ],
   "note": "The code violates the property where today's local midnight does not exist or is not unique: a file rotated daily makes the start panic. Proved for all other cases, and for every successful start."
  },
  {
   "property": "C101",
   "status": "proved",
   "theorems": [
    "C101_utf8",
    "C101_line_is_text",
    "C101_line_refused",
    "C101_numbers",
    "C101_file_numbers",
    "C101_numbers_read",
    "C101_case",
    "C101_white_space",
    "C101_white_bytes"
   ],
   "note": "Also ties the helpers for numbers, case and white space that specifications share with the model to independent definitions."
  },
  {
   "property": "C102",
   "status": "proved",
   "theorems": [
    "C102_config",
    "C102_service",
    "C102_files",
    "C102_refused"
   ],
   "note": "The specification S_Toml says what each record's settings are called, what their values mean and what they default to; the derived readers are proved to accept exactly that. The release profile; whether a table with several entries can stand for an enum is left open."
  },
  {
   "property": "C103",
   "status": "partial",
   "theorems": [
    "C103_ignored_refuted",
    "C103_service_ignored_refuted",
    "C103_choices_partial"
   ],
   "note": "The code violates the property: in every section an unknown setting changes nothing, whatever its value. Proved where it holds: in the tables describing a log output or a kind of service unknown names are refused."
  },
  {
   "property": "C104",
   "status": "partial",
   "theorems": [
    "C104_crash_refuted",
    "C104_included_refuted",
    "C104_only_amounts_partial"
   ],
   "note": "The code violates the property: an amount not starting with a number makes the program panic, in eleven places of the main file and of every included service file. Proved: nothing else in any file does."
  },
  {
   "property": "C105",
   "status": "partial",
   "theorems": [
    "C105_no_outputs_refuted",
    "C105_others_partial"
   ],
   "note": "The code violates the property for logging: a logging section that lists no outputs has none, while without the section the console is used (with no outputs at all the program hangs, C64). Proved for tcp, http and runtime."
  },
  {
   "property": "C106",
   "status": "partial",
   "theorems": [
    "C106_any_text_refuted",
    "C106_form_partial"
   ],
   "note": "The code violates the property: every text is accepted as a condition and makes no difference. Proved: values that are not texts, and answers without their form, are refused."
  },
  {
   "property": "C107",
   "status": "proved",
   "theorems": [
    "C107_delivered",
    "C107_reading_client"
   ],
   "note": "For every socket behaviour (partial writes, failures, stalls; TCP or TLS, which may hold back bytes until flushed) and every buffer size the connection does what it does for an ideal client."
  },
  {
   "property": "C108",
   "status": "partial",
   "theorems": [
    "C108_ignored_refuted",
    "C108_read_size_partial"
   ],
   "note": "The code violates the property: the setting reaches nothing. Proved: the size set for reading decides, a response that fits is written at once, any other as head and body."
  },
  {
   "property": "C109",
   "status": "partial",
   "theorems": [
    "C109_request_line_refuted",
    "C109_empty_body_refuted",
    "C109_failures_refuted",
    "C109_others_partial"
   ],
   "note": "The code violates the property: the first line of a request and the remark that it has no body go to the outputs of the root section only, because these two calls do not name the service; so do failures of requests and services. Proved: all other records of a request reach exactly the outputs of its service that accept trace."
  },
  {
   "property": "C110",
   "status": "partial",
   "theorems": [
    "C110_forged_refuted",
    "C110_one_line_partial"
   ],
   "note": "The code violates the property: a body is logged as it is, and neither renderer escapes line breaks in messages. Proved: every other record about any request on any stream is one line."
  },
  {
   "property": "C111",
   "status": "partial",
   "theorems": [
    "C111_traced_partial",
    "C111_bodies_refuted",
    "C111_version_refuted",
    "C111_quiet"
   ],
   "note": "The code violates the property for bodies (those of earlier requests of the connection come first) and versions (the first number is shown twice). Proved for peer, method, target, all header fields, and that the body shown ends with the body of the request."
  },
  {
   "property": "C112",
   "status": "proved",
   "theorems": [
    "C112_no_crash",
    "C112_builtin",
    "C112_scripts"
   ],
   "note": "With the exact ways a connection can end. A handler that compresses twice, or whose encoder fails, can crash (C32, C92)."
  },
  {
   "property": "C113",
   "status": "partial",
   "theorems": [
    "C113_history_partial",
    "C113_coding_size_refuted"
   ],
   "note": "A body in the middle of a coding says it is empty."
  },
  {
   "property": "C114",
   "status": "proved",
   "theorems": [
    "C114_encoded",
    "C114_decoded",
    "C114_plain",
    "C114_told"
   ],
   "note": "The crates flate2 and brotli are parameters with the contract [honest] of S_Coders.v. Bodies of requests are not read this way: read through write, which may lose text (C34)."
  },
  {
   "property": "C115",
   "status": "partial",
   "theorems": [
    "C115_not_refused_refuted",
    "C115_smuggled_refuted",
    "C115_agreed_partial"
   ],
   "note": "Fails: the first content-length counts, transfer-encoding is ignored. Holds: numbers that agree are respected."
  },
  {
   "property": "C116",
   "status": "partial",
   "theorems": [
    "C116_greeting_refuted",
    "C116_leftovers_refuted",
    "C116_no_body_partial",
    "C116_files_partial",
    "C116_determined"
   ],
   "note": "Fails for hello world, and for handlers that write no body once a body has been sent on the connection (bodies are not cleared, C32). Holds otherwise."
  },
  {
   "property": "C117",
   "status": "partial",
   "theorems": [
    "C117_waits_refuted",
    "C117_unasked_partial"
   ],
   "note": "Fails: nothing is sent and the connection waits forever. Holds: a client that sends the body anyway is answered."
  },
  {
   "property": "C118",
   "status": "partial",
   "theorems": [
    "C118_silence_refuted",
    "C118_closed_partial"
   ],
   "note": "Fails: nothing is ever sent for a refused request. Holds: it reaches no handler and the connection is closed."
  },
  {
   "property": "C119",
   "status": "partial",
   "theorems": [
    "C119_kept_refuted",
    "C119_handler_partial"
   ],
   "note": "Fails for hello world. Holds for handlers that ask to close."
  },
  {
   "property": "C120",
   "status": "proved",
   "theorems": [
    "C120_calendar",
    "C120_days",
    "C120_clock",
    "C120_default",
    "C120_layouts",
    "C120_order"
   ],
   "note": "Years 0 to 9999; chrono's formatting is modelled for the listed specifiers."
  },
  {
   "property": "C121",
   "status": "proved",
   "theorems": [
    "C121_layout",
    "C121_named",
    "C121_archive",
    "C121_distinct",
    "C121_sorted",
    "C121_kept"
   ],
   "note": "Sorting for the years 0 to 9999, without clock changes; the name is that of the rotation's period (see C80)."
  },
  {
   "property": "C122",
   "status": "proved",
   "theorems": [
    "C122_hello",
    "C122_determined",
    "C122_files",
    "C122_served",
    "C122_no_crash"
   ],
   "note": "What the answers look like is C17, C20 and C90."
  },
  {
   "property": "C123",
   "status": "partial",
   "theorems": [
    "C123_root_address_refuted",
    "C123_own_partial",
    "C123_starts_partial"
   ],
   "note": "Fails: the address is not inherited and not required; such a service never listens. Holds: a service listens on its own address, as soon as it starts, if one of its addresses is free."
  },
  {
   "property": "C124",
   "status": "partial",
   "theorems": [
    "C124_shared_refuted",
    "C124_host_refuted",
    "C124_apart_partial"
   ],
   "note": "Fails: the second service cannot listen, and the host is never looked at. Holds for services at different addresses."
  },
  {
   "property": "C125",
   "status": "partial",
   "theorems": [
    "C125_success_refuted",
    "C125_always_refuted",
    "C125_config_partial",
    "C125_runs_partial",
    "C125_ends_partial"
   ],
   "note": "Fails: once services are started the exit status is 0 whatever becomes of them (their errors are logged, C84). Holds for refused configurations, and while a service listens. Main of the multi-threaded mode; for the per-core mode see C65."
  },
  {
   "property": "C126",
   "status": "partial",
   "theorems": [
    "C126_bytes_partial",
    "C126_lines_partial",
    "C126_goes_on",
    "C126_reported_partial",
    "C126_order_refuted",
    "C126_error_refuted",
    "C126_unflushed_refuted",
    "C126_torn_refuted",
    "C126_records_partial"
   ],
   "note": "Fails: lines of different appenders can change places, an error is reported for the line after the one that failed (which is dropped too), lines of more than 2 MiB can be torn apart, and nothing is certain without a flush. Holds: lines of usual size stay whole and keep the order of their appender; a flush that succeeded put everything out; without failures nothing is lost once the consumer has ended; with failures there are as many reports."
  },
  {
   "property": "C127",
   "status": "partial",
   "theorems": [
    "C127_spaces_refuted",
    "C127_last_byte_refuted",
    "C127_cut_length_refuted",
    "C127_exact_partial",
    "C127_refused_partial"
   ],
   "note": "Fails: spaces around names are dropped instead of refused; of a line that ends with LF alone the last character is dropped, so that a length loses its last digit and the end of the body is taken for requests. Holds: lines ended by CRLF with plain names are read exactly, lines with other bytes are refused."
  },
  {
   "property": "C128",
   "status": "partial",
   "theorems": [
    "C128_not_refused_refuted",
    "C128_seen_partial"
   ],
   "note": "Fails: the host is never looked at (see also C124). Holds: the handler finds exactly the hosts the request names."
  },
  {
   "property": "C129",
   "status": "proved",
   "theorems": [
    "C129_not_early",
    "C129_in_time",
    "C129_by_message",
    "C129_can_end",
    "C129_bounded",
    "C129_loop"
   ],
   "note": "Time is counted from the moment the task of the connection first runs. After the handshake nothing limits the time (C25)."
  },
  {
   "property": "C130",
   "status": "partial",
   "theorems": [
    "C130_elsewhere_refuted",
    "C130_absolute_partial",
    "C130_base_partial",
    "C130_logs_partial",
    "C130_certificate_partial"
   ],
   "note": "Fails unless the configuration sets workdir: relative paths then count from the directory the program is started in. Holds: with an absolute workdir nothing depends on the starting directory; in all cases patterns, roots, log files, certificates and keys count from one and the same directory."
  },
  {
   "property": "C131",
   "status": "partial",
   "theorems": [
    "C131_never_waits_partial",
    "C131_backlog_refuted",
    "C131_waiting_partial",
    "C131_drains_partial"
   ],
   "note": "Fails: the channel is unbounded, so any number of records can pile up in memory. Holds: until shutdown log calls never wait and never touch files; what waits is exactly what was handed over last and is dealt with in order."
  },
  {
   "property": "C132",
   "status": "partial",
   "theorems": [
    "C132_crash_refuted",
    "C132_earlier_refuted",
    "C132_named_partial"
   ],
   "note": "Fails for names with a NUL character (allowed in TOML keys): creating the thread panics after the services before it have been started. Holds for all other names."
  },
  {
   "property": "C133",
   "status": "partial",
   "theorems": [
    "C133_missing_refuted",
    "C133_existing_partial"
   ],
   "note": "Fails: no directory is ever created; each section that logs to files needs its directory, for a service a subdirectory of its own name. Holds: where they exist and can be written in, the program starts."
  },
  {
   "property": "C134",
   "status": "partial",
   "theorems": [
    "C134_lost_refuted",
    "C134_old_refuted",
    "C134_waiting_partial",
    "C134_complete_partial",
    "C134_all_read_partial",
    "C134_well_formed_partial"
   ],
   "note": "Fails where the server closes with input unread (after a refused request, or when the handler asks to close and more follows): the reset may destroy answers already written. Holds where the server closes because the client has ended the stream, and where the handler closes after the last thing the client sends."
  },
  {
   "property": "C135",
   "status": "partial",
   "theorems": [
    "C135_sent_refuted",
    "C135_kept_refuted",
    "C135_file_partial",
    "C135_kept_partial"
   ],
   "note": "Fails: bodies are not cleared between requests, so the answers of hello world grow with each request (the total is quadratic) and request bodies pile up in memory. Holds for the file service, and for what is kept of requests without bodies."
  },
  {
   "property": "C136",
   "status": "partial",
   "theorems": [
    "C136_any_refuted",
    "C136_length_refuted",
    "C136_answer_partial"
   ],
   "note": "Fails: only the key is looked at, so any request with a non-empty sec-websocket-key is upgraded; and the 101 answer carries a content-length. Holds: opening handshakes at the start of a connection get the answer of RFC 6455."
  },
  {
   "property": "C137",
   "status": "proved",
   "theorems": [
    "C137_loaded",
    "C137_refused",
    "C137_outputs"
   ],
   "note": "Only the numbers of the services, which are internal, may differ between runs."
  },
  {
   "property": "C138",
   "status": "proved",
   "theorems": [
    "C138_loaded",
    "C138_refused",
    "C138_outputs"
   ],
   "note": "Only the numbers of the services, which are internal, may differ."
  },
  {
   "property": "C139",
   "status": "proved",
   "theorems": [
    "C139_spelling"
   ],
   "note": "Each spelling must fit the limit on the length of header lines."
  },
  {
   "property": "C140",
   "status": "proved",
   "theorems": [
    "C140_order",
    "C140_handlers"
   ],
   "note": "For streams of well-formed requests; fields of the same name keep their order."
  }
 ]
}