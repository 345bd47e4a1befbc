{
 "claims": [
  {
   "property": "C01",
   "status": "proved",
   "theorems": [
    "C01_uint_roundtrip",
    "C01_uint_roundtrip_exact",
    "C01_uint8_roundtrip",
    "C01_uint8_narrowing_refuted",
    "C01_uint8_top_byte",
    "C01_negative_diverges",
    "C01_nonnegative"
   ],
   "note": "Exact for every return width above 8 bits; at 8 bits exact below 256, and the narrowing claim is refuted there (first byte is returned). Negative signed input never terminates."
  },
  {
   "property": "C02",
   "status": "proved",
   "theorems": [
    "C02_uint_minimal",
    "C02_uint_unique",
    "C02_uint_zero"
   ],
   "note": "For every value below 2^64 and every competing byte string."
  },
  {
   "property": "C03",
   "status": "proved",
   "theorems": [
    "C03_set_len",
    "C03_set_uint24",
    "C03_set_padded",
    "C03_set_padded_too_small",
    "C03_layer2_set",
    "C03_layer2_get"
   ],
   "note": "set_padded and layer2::UInt::set with too small a length are out-of-bounds writes (Fault)."
  },
  {
   "property": "C04",
   "status": "proved",
   "theorems": [
    "C04_tokens_distinct",
    "C04_tokens_never_fault",
    "C04_token_length",
    "C04_token_period"
   ],
   "note": "For every starting counter and every pair of calls."
  },
  {
   "property": "C05",
   "status": "proved",
   "theorems": [
    "C05_setters_independent",
    "C05_token_length_assert"
   ],
   "note": "Every initial header, every list of setter calls; a token length above 8 is exactly the failing case."
  },
  {
   "property": "C06",
   "status": "proved",
   "theorems": [
    "C06_wire_layout",
    "C06_wire_bijective",
    "C06_constructed",
    "C06_code_class_detail",
    "C06_request_class",
    "C06_rfc_request_refuted"
   ],
   "note": "Both directions: bytes from fields and fields from bytes; which codes count as requests and responses (the RFC reading of that is refuted)."
  },
  {
   "property": "C07",
   "status": "proved",
   "theorems": [
    "C07_create_response",
    "C07_create_response_assert",
    "C07_process_response",
    "C07_process_reset",
    "C07_reset_empty_refuted"
   ],
   "note": "The previous content of the output header is arbitrary."
  },
  {
   "property": "C08",
   "status": "proved",
   "theorems": [
    "C08_options",
    "C08_short_options",
    "C08_header_exact",
    "C08_header_succeeds"
   ],
   "note": "C08_header_exact gives the exact set of (delta, length) pairs; the RFC grammar opt_head is independent of the model."
  },
  {
   "property": "C09",
   "status": "proved",
   "theorems": [
    "C09_long_values_refuted",
    "C09_long_exact",
    "C09_longer_exact"
   ],
   "note": "Full claim refuted; the remaining theorems characterise exactly which long lengths come out right."
  },
  {
   "property": "C10",
   "status": "proved",
   "theorems": [
    "C10_refines_parser",
    "C10_options_then_marker",
    "C10_options_at_end",
    "C10_length_beyond_16bit_refuted"
   ],
   "note": "Refinement against the RFC parser on every byte stream; the 16-bit limit on declared lengths is refuted beyond 65535."
  },
  {
   "property": "C11",
   "status": "proved",
   "theorems": [
    "C11_reserved_nibble",
    "C11_only_reserved"
   ],
   "note": "C11_only_reserved is over every reachable decoder state."
  },
  {
   "property": "C12",
   "status": "proved",
   "theorems": [
    "C12_chunk_split",
    "C12_two_cuts"
   ],
   "note": "Any cut, from any state in which the decoder may be fed."
  },
  {
   "property": "C13",
   "status": "proved",
   "theorems": [
    "C13_chunk_terminates",
    "C13_buffer_index",
    "C13_drive_total"
   ],
   "note": "Termination, bounds and progress from any state."
  },
  {
   "property": "C14",
   "status": "proved",
   "theorems": [
    "C14_whole_message",
    "C14_session",
    "C14_refines_parser"
   ],
   "note": "Includes any number of messages on one decoder object and, by C14_refines_parser, arbitrary bytes after the token."
  },
  {
   "property": "C15",
   "status": "proved",
   "theorems": [
    "C15_token_only",
    "C15_header_only",
    "C15_stale_payload_refuted",
    "C15_no_stale_payload"
   ],
   "note": "Exact condition for the spurious payload event; the union of token and option decoder is modelled."
  },
  {
   "property": "C16",
   "status": "proved",
   "theorems": [
    "C16_total",
    "C16_total_bytes",
    "C16_cursor",
    "C16_short_header_refuted",
    "C16_short_token_refuted"
   ],
   "note": "The claim without the length condition is refuted (two theorems: the decoder never finishes)."
  },
  {
   "property": "C17",
   "status": "proved",
   "theorems": [
    "C17_order",
    "C17_order_any_calls"
   ],
   "note": "Event automaton as invariant, for arbitrary bytes and arbitrary call sequences."
  },
  {
   "property": "C18",
   "status": "proved",
   "theorems": [
    "C18_long_token_refuted",
    "C18_token_bounds",
    "C18_partial_token"
   ],
   "note": "The overflow is for every nibble 9..15 with more than eight bytes following."
  },
  {
   "property": "C19",
   "status": "proved",
   "theorems": [
    "C19_cut_header_anywhere",
    "C19_cut_value",
    "C19_cut_header",
    "C19_cut_header_exact",
    "C19_reserved_nibble",
    "C19_truncation_detected_refuted"
   ],
   "note": "Full claim refuted; the behaviour on every cut is characterised exactly."
  },
  {
   "property": "C20",
   "status": "proved",
   "theorems": [
    "C20_refines_parser",
    "C20_message",
    "C20_cut_independent",
    "C20_aligned",
    "C20_bytes_delivered_refuted"
   ],
   "note": "Full claim refuted; C20_message gives the exact report for every cut into non-empty chunks."
  },
  {
   "property": "C21",
   "status": "proved",
   "theorems": [
    "C21_no_completed",
    "C21_refines_parser",
    "C21_bare",
    "C21_message",
    "C21_all_delivered_refuted",
    "C21_prefix"
   ],
   "note": "Full claim refuted; C21_refines_parser gives exactly what is delivered."
  },
  {
   "property": "C22",
   "status": "proved",
   "theorems": [
    "C22_encodes",
    "C22_round_trip",
    "C22_injective",
    "C22_integer_option"
   ],
   "note": "Composition of C08 and C14."
  },
  {
   "property": "C23",
   "status": "proved",
   "theorems": [
    "C23_truncation_only",
    "C23_bounded",
    "C23_flag_header",
    "C23_flag_string",
    "C23_flag_payload",
    "C23_flag_empty_string_refuted",
    "C23_flag_array",
    "C23_flag_array_refuted"
   ],
   "note": "The honest calls are exact; array and empty-string overloads are refuted."
  },
  {
   "property": "C24",
   "status": "proved",
   "theorems": [
    "C24_sequence",
    "C24_zero_length",
    "C24_zero_twice_refuted",
    "C24_zero_then_value_refuted",
    "C24_empty_value_refuted",
    "C24_integer_option"
   ],
   "note": "Full claim refuted (silent loss, divergence for every fuel, assertion)."
  },
  {
   "property": "C25",
   "status": "proved",
   "theorems": [
    "C25_only_confirmable",
    "C25_tracked_iff"
   ],
   "note": "Over all histories; netbuf contents are assumed unchanged while tracked."
  },
  {
   "property": "C26",
   "status": "proved",
   "theorems": [
    "C26_backoff",
    "C26_no_others",
    "C26_delta",
    "C26_clock_wrap_refuted"
   ],
   "note": "Assumes a clock that does not wrap (times_ok); refuted without."
  },
  {
   "property": "C27",
   "status": "proved",
   "theorems": [
    "C27_three_at_most",
    "C27_four_refuted"
   ],
   "note": "MAX_RETRANSMIT = 4 refuted; at most three in every history, exactly three when drained (C29)."
  },
  {
   "property": "C28",
   "status": "proved",
   "theorems": [
    "C28_acknowledged",
    "C28_ignored",
    "C28_verdict",
    "C28_every",
    "C28_observed_resend_refuted"
   ],
   "note": "Full claim refuted because the observer tracks retransmissions anew."
  },
  {
   "property": "C29",
   "status": "proved",
   "theorems": [
    "C29_drains",
    "C29_service_possible"
   ],
   "note": "C29_service_possible shows that the schedules spoken of exist."
  },
  {
   "property": "C30",
   "status": "proved",
   "theorems": [
    "C30_earliest_first"
   ],
   "note": "Ties are broken arbitrarily (the choice is an argument)."
  },
  {
   "property": "C31",
   "status": "proved",
   "theorems": [
    "C31_head",
    "C31_24_refuted",
    "C31_sequence",
    "C31_overrun_refuted",
    "C31_layer1",
    "C31_string_array_heads",
    "C31_string_result",
    "C31_lists",
    "C31_items_refuted"
   ],
   "note": "Value 24, the overruns and the list forms are refuted."
  },
  {
   "property": "C32",
   "status": "proved",
   "theorems": [
    "C32_head_decodes",
    "C32_unsigned_negative",
    "C32_round_trip",
    "C32_24_refuted",
    "C32_long_head",
    "C32_24_swallows"
   ],
   "note": "At any position in the data; 64-bit heads are in C43."
  },
  {
   "property": "C33",
   "status": "proved",
   "theorems": [
    "C33_netbuf_encodes",
    "C33_round_trip",
    "C33_tiny_refuted",
    "C33_plain_encoder_refuted",
    "C33_least_refuted"
   ],
   "note": "Full claim refuted; each range of negative values is settled by a general theorem."
  },
  {
   "property": "C34",
   "status": "proved",
   "theorems": [
    "C34_round_trip",
    "C34_decode",
    "C34_number_zero_refuted",
    "C34_empty_value_refuted",
    "C34_any_number",
    "C34_exponent_range_refuted"
   ],
   "note": "Number 0, the empty value and exponents above 7 are refuted."
  },
  {
   "property": "C35",
   "status": "proved",
   "theorems": [
    "C35_history",
    "C35_numbers",
    "C35_exact",
    "C35_long_value_refuted",
    "C35_last_number_refuted"
   ],
   "note": "Arbitrary application content (emit) in C35_history; exact datagrams in C35_exact."
  },
  {
   "property": "C36",
   "status": "proved",
   "theorems": [
    "C36_deregister_refuted",
    "C36_still_notified_refuted",
    "C36_double_registration_refuted",
    "C36_observer_refuted",
    "C36_observer_flag_refuted",
    "C36_observer_empty_fault",
    "C36_observer_interest"
   ],
   "note": "Full claim refuted: deregistration never changes any later output."
  },
  {
   "property": "C37",
   "status": "proved",
   "theorems": [
    "C37_first_row",
    "C37_none",
    "C37_lookup_id",
    "C37_sound",
    "C37_matcher",
    "C37_parents_first",
    "C37_forest",
    "C37_forest_none",
    "C37_after_miss",
    "C37_matchers_agree",
    "C37_duplicate_refuted",
    "C37_late_parent_refuted",
    "C37_second_path_refuted"
   ],
   "note": "Full claim refuted by three tables; exact characterisations otherwise."
  },
  {
   "property": "C38",
   "status": "proved",
   "theorems": [
    "C38_links",
    "C38_link_of_node",
    "C38_no_other_link",
    "C38_deep_refuted",
    "C38_breadth_first_refuted"
   ],
   "note": "Exact for depth-first tables; deeper than 10 and breadth-first tables refuted."
  },
  {
   "property": "C39",
   "status": "proved",
   "theorems": [
    "C39_factory",
    "C39_dispatcher",
    "C39_short_segment_refuted",
    "C39_find",
    "C39_find_none",
    "C39_shadow_refuted",
    "C39_utf8_refuted"
   ],
   "note": "Plain char is taken as signed."
  },
  {
   "property": "C40",
   "status": "proved",
   "theorems": [
    "C40_ten",
    "C40_chosen_is_last",
    "C40_interest",
    "C40_exactly_one",
    "C40_offered",
    "C40_never_again",
    "C40_first_elected_refuted",
    "C40_complete_refuted",
    "C40_parts_refuted",
    "C40_shared_memory_refuted"
   ],
   "note": "Handlers are arbitrary; the memory shared by handler objects is a parameter because the allocator is not in the repository."
  },
  {
   "property": "C41",
   "status": "proved",
   "theorems": [
    "C41_reply",
    "C41_context",
    "C41_request_to_reply",
    "C41_reply_read_back",
    "C41_non_refuted",
    "C41_netbuf_reply",
    "C41_cut_refuted",
    "C41_long_token_fault",
    "C41_token_room"
   ],
   "note": "NON acknowledged, silent cut and long tokens refuted."
  },
  {
   "property": "C42",
   "status": "proved",
   "theorems": [
    "C42_sequence",
    "C42_encode_read",
    "C42_past_end_refuted"
   ],
   "note": "Arbitrary initial decoder memory and arbitrary byte after the data."
  },
  {
   "property": "C43",
   "status": "proved",
   "theorems": [
    "C43_terminates",
    "C43_buffer_refuted",
    "C43_store_exact",
    "C43_truncated_refuted"
   ],
   "note": "Termination on every input; the buffer claim is refuted for every such head."
  },
  {
   "property": "C44",
   "status": "proved",
   "theorems": [
    "C44_head",
    "C44_one_byte_refuted",
    "C44_get_int",
    "C44_get_string",
    "C44_reserved",
    "C44_64_bit"
   ],
   "note": "The range 25..255 is refuted for every value in it."
  },
  {
   "property": "C45",
   "status": "proved",
   "theorems": [
    "C45_header_resumes",
    "C45_option_resumes",
    "C45_ambiguous_refuted",
    "C45_exact_fit_refuted",
    "C45_piece",
    "C45_pieces",
    "C45_pieces_refuted"
   ],
   "note": "Arbitrary lists of chunk capacities; ambiguity and exact fit refuted."
  },
  {
   "property": "C46",
   "status": "proved",
   "theorems": [
    "C46_encodes",
    "C46_round_trip",
    "C46_debug_payload_refuted",
    "C46_header_flag",
    "C46_token_flag",
    "C46_payload_flag",
    "C46_debug_order",
    "C46_debug_options_done"
   ],
   "note": "DEBUG builds refuted for every call sequence."
  },
  {
   "property": "C47",
   "status": "proved",
   "theorems": [
    "C47_delivery",
    "C47_delivery_payload",
    "C47_one_piece",
    "C47_terminates",
    "C47_complete_refuted",
    "C47_last_element_refuted"
   ],
   "note": "Arbitrary cuts; what is lost without payload is characterised exactly (lost)."
  },
  {
   "property": "C48",
   "status": "proved",
   "theorems": [
    "C48_second_refuted",
    "C48_third",
    "C48_second_options_refuted"
   ],
   "note": "Full claim refuted for every message."
  },
  {
   "property": "C49",
   "status": "proved",
   "theorems": [
    "C49_routed",
    "C49_no_path",
    "C49_response",
    "C49_shared_memory_refuted",
    "C49_short_segment_refuted"
   ],
   "note": "Two full claims refuted (short segments; handlers at one address)."
  },
  {
   "property": "C50",
   "status": "proved",
   "theorems": [
    "C50_first_matching",
    "C50_no_match",
    "C50_unmatched_for_good_refuted"
   ],
   "note": "Full claim about unmatched segments refuted."
  },
  {
   "property": "C51",
   "status": "proved",
   "theorems": [
    "C51_nested"
   ],
   "note": "For handlers in separate memory."
  },
  {
   "property": "C52",
   "status": "proved",
   "theorems": [
    "C52_sequence",
    "C52_empty_value_refuted",
    "C52_long_value_refuted"
   ],
   "note": "Full claim about empty and long values refuted."
  },
  {
   "property": "C53",
   "status": "proved",
   "theorems": [
    "C53_cut_header_anywhere",
    "C53_refines_parser",
    "C53_message",
    "C53_payload",
    "C53_aligned",
    "C53_contiguous",
    "C53_bare",
    "C53_ff_dropped_refuted",
    "C53_cut_header_refuted",
    "C53_padded_refuted",
    "C53_long_token_refuted",
    "C53_empty_datagram_refuted",
    "C53_trailing_empty_refuted",
    "C53_options_done"
   ],
   "note": "Full claim refuted for each platform choice; C53_message gives the exact report for every cut, C53_refines_parser for arbitrary bytes."
  },
  {
   "property": "C54",
   "status": "proved",
   "theorems": [
    "C54_boilerplate",
    "C54_boilerplate_whole",
    "C54_version_cut_refuted",
    "C54_cut_path_refuted",
    "C54_auto404",
    "C54_auto404_whole",
    "C54_echo",
    "C54_echo_whole",
    "C54_echo_short_refuted",
    "C54_storm_refuted",
    "C54_echo_storm_refuted",
    "C54_uri_text",
    "C54_uri_long_refuted"
   ],
   "note": "Full claim refuted (replies to acknowledgements, cut Uri-Path values); C54_cut_path_refuted gives the answer for every cut."
  },
  {
   "property": "C55",
   "status": "proved",
   "theorems": [
    "C55_header_token",
    "C55_short_header",
    "C55_short_token",
    "C55_iterator",
    "C55_stale",
    "C55_any_memory",
    "C55_all_options_refuted",
    "C55_first_value_refuted",
    "C55_second_refuted",
    "C55_count",
    "C55_payload_state",
    "C55_uint",
    "C55_uint8",
    "C55_uint8_refuted",
    "C55_order"
   ],
   "note": "Full claim refuted: the exact list of visited options and the final state are proved instead."
  },
  {
   "property": "C56",
   "status": "proved",
   "theorems": [
    "C56_ping",
    "C56_ping_skip",
    "C56_ack_refuted",
    "C56_uri",
    "C56_uri_long",
    "C56_uri_test_refuted",
    "C56_observe",
    "C56_deregister_refuted",
    "C56_second_observe_refuted",
    "C56_found",
    "C56_discover_refuted",
    "C56_path_found",
    "C56_links",
    "C56_debug_refuted"
   ],
   "note": "Full claims refuted; the exact replies, sessions and found nodes are proved instead."
  },
  {
   "property": "C57",
   "status": "proved",
   "theorems": [
    "C57_copy",
    "C57_full_refuted",
    "C57_skip_refuted"
   ],
   "note": "Full claims refuted; exact result where the data fits."
  },
  {
   "property": "C58",
   "status": "proved",
   "theorems": [
    "C58_chunk",
    "C58_first",
    "C58_second",
    "C58_third_refuted",
    "C58_eleventh_refuted",
    "C58_read_two",
    "C58_no_boundary",
    "C58_past_end_refuted"
   ],
   "note": "Full claim refuted; the exact chunk after any number of next() calls is proved instead."
  },
  {
   "property": "C59",
   "status": "proved",
   "theorems": [
    "C59_token",
    "C59_plain",
    "C59_ack_refuted",
    "C59_cut_refuted",
    "C59_long_token_refuted"
   ],
   "note": "Full claims refuted; the exact replies are proved instead."
  },
  {
   "property": "C60",
   "status": "proved",
   "theorems": [
    "C60_format",
    "C60_format_refuted",
    "C60_traits",
    "C60_traits_refuted",
    "C60_tables_agree",
    "C60_numbers",
    "C60_name",
    "C60_named",
    "C60_block_refuted"
   ],
   "note": "Completeness and the block option numbers refuted; the exact missing numbers are proved instead."
  },
  {
   "property": "C61",
   "status": "proved",
   "theorems": [
    "C61_numbers",
    "C61_dump",
    "C61_value",
    "C61_message",
    "C61_bare",
    "C61_overrun_refuted",
    "C61_same_log_refuted"
   ],
   "note": "Full claims refuted; the exact log and the exact condition for the overrun are proved instead."
  },
  {
   "property": "C62",
   "status": "proved",
   "theorems": [
    "C62_line",
    "C62_posix",
    "C62_lwip",
    "C62_stops_refuted",
    "C62_answers",
    "C62_ping",
    "C62_ping_ack_refuted",
    "C62_observable"
   ],
   "note": "Full claims refuted (empty datagram, errors, acknowledgements); the exact traffic is proved for all other runs."
  },
  {
   "property": "C63",
   "status": "proved",
   "theorems": [
    "C63_server",
    "C63_stale",
    "C63_items",
    "C63_number",
    "C63_overrun_refuted",
    "C63_outside_refuted",
    "C63_wraps_refuted",
    "C63_overflow_refuted",
    "C63_reads_on",
    "C63_reads_on_refuted",
    "C63_ends"
   ],
   "note": "Full claim (stays inside the payload) refuted; exact output and reply proved. The file does not compile at this commit (uses a function compiled out and one that does not exist); modelled as written."
  },
  {
   "property": "C64",
   "status": "proved",
   "theorems": [
    "C64_aggregate",
    "C64_everyone",
    "C64_payload_refuted",
    "C64_forgets_refuted",
    "C64_memory_refuted",
    "C64_factories",
    "C64_serve",
    "C64_chunks_refuted",
    "C64_every_second",
    "C64_lost_refuted",
    "C64_notify"
   ],
   "note": "Full claim refuted (state lost between calls, payload and completion not passed on, memory not given back, every second message lost); exact behaviour proved as one equation."
  },
  {
   "property": "C65",
   "status": "proved",
   "theorems": [
    "C65_ends",
    "C65_safe",
    "C65_calls",
    "C65_stops",
    "C65_echo",
    "C65_whole",
    "C65_echoes_refuted",
    "C65_silent",
    "C65_setup",
    "C65_tidy",
    "C65_daemon",
    "C65_restarts",
    "C65_handshake_refuted",
    "C65_attempt",
    "C65_attempts",
    "C65_success_refuted",
    "C65_read"
   ],
   "note": "Full claim refuted (partial write, silent client, failed handshake, handshake() never returns on success); exact behaviour of a turn and of the daemon proved against relational specifications."
  },
  {
   "property": "C66",
   "status": "proved",
   "theorems": [
    "C66_delay",
    "C66_exact",
    "C66_contract_refuted",
    "C66_forward",
    "C66_wraps",
    "C66_forward_refuted",
    "C66_cancelled"
   ],
   "note": "Contract refuted at exact equality and after 2^32 ms; exact behaviour and the condition under which it agrees with the contract proved."
  },
  {
   "property": "C67",
   "status": "proved",
   "theorems": [
    "C67_once",
    "C67_retransmitted_refuted",
    "C67_turn",
    "C67_all",
    "C67_port",
    "C67_endpoint_refuted"
   ],
   "note": "Retransmission and the comparison of endpoints refuted; exactly-once in order, the empty retry queue and the exact condition for a turn to go through proved."
  },
  {
   "property": "C68",
   "status": "proved",
   "theorems": [
    "C68_once",
    "C68_contents",
    "C68_retransmitted_refuted",
    "C68_acknowledged_refuted",
    "C68_before",
    "C68_queue"
   ],
   "note": "Retransmission and matching after the first transmission refuted; at most once, contents, destination and the safe phase proved."
  },
  {
   "property": "C69",
   "status": "proved",
   "theorems": [
    "C69_context",
    "C69_bare_refuted",
    "C69_interest",
    "C69_reused_refuted",
    "C69_parts",
    "C69_parts_refuted"
   ],
   "note": "Messages without options and payload, reuse of a context and tokens in parts refuted; the rest proved for every message that goes on behind its token."
  },
  {
   "property": "C70",
   "status": "proved",
   "theorems": [
    "C70_silent",
    "C70_rounds",
    "C70_second_refuted"
   ],
   "note": "Serving and the one-second rate refuted; silence, the queue and the exact turns of the rounds proved."
  },
  {
   "property": "C71",
   "status": "proved",
   "theorems": [
    "C71_unfilled",
    "C71_filled_refuted",
    "C71_dangling",
    "C71_routed",
    "C71_bytes",
    "C71_answers",
    "C71_token",
    "C71_no_token",
    "C71_same"
   ],
   "note": "Filling the context refuted for every table; dangling pointers, answers and routing proved."
  },
  {
   "property": "C72",
   "status": "proved",
   "theorems": [
    "C72_silent_refuted",
    "C72_walk",
    "C72_map",
    "C72_map_refuted",
    "C72_no_map",
    "C72_bool",
    "C72_null",
    "C72_simple",
    "C72_type_blind_refuted",
    "C72_width"
   ],
   "note": "Reporting refuted for every text; the walk, map heads and simple values proved."
  },
  {
   "property": "C73",
   "status": "proved",
   "theorems": [
    "C73_listing",
    "C73_lines",
    "C73_comma_refuted",
    "C73_attributes",
    "C73_attributes_injective",
    "C73_title",
    "C73_entry",
    "C73_nested",
    "C73_nested_refuted",
    "C73_count",
    "C73_entry_count"
   ],
   "note": "Link-list form refuted; listing, attributes and nested tables proved. What the external stream does when it is full is not modelled."
  },
  {
   "property": "C74",
   "status": "proved",
   "theorems": [
    "C74_one_owner",
    "C74_destroy",
    "C74_contents",
    "C74_lost",
    "C74_acknowledged_refuted",
    "C74_untold_refuted",
    "C74_observed",
    "C74_observed_freed_refuted",
    "C74_observed_count",
    "C74_observed_given_up_refuted",
    "C74_kept_times",
    "C74_kept_safe",
    "C74_kept_freed",
    "C74_queue"
   ],
   "note": "Four full claims refuted; ownership, contents, the careful protocol and its refinement to the queue of C25-C30 proved. The protocol of the last part is one the unit test sketches (con_sent_experimental); no code in src follows it."
  },
  {
   "property": "C75",
   "status": "proved",
   "theorems": [
    "C75_client",
    "C75_network",
    "C75_safe",
    "C75_conserved",
    "C75_quiet",
    "C75_handled",
    "C75_received",
    "C75_processed",
    "C75_delivered",
    "C75_deliverable",
    "C75_last_transmission",
    "C75_once_refuted",
    "C75_last_reply_refuted",
    "C75_stale_refuted"
   ],
   "note": "The network is a specification, not code. Composition of the models of C25-C30, C55, C56 and C62; three full claims refuted."
  },
  {
   "property": "C76",
   "status": "proved",
   "theorems": [
    "C76_finalized",
    "C76_no_leak",
    "C76_operators",
    "C76_cut_refuted",
    "C76_unfinalized",
    "C76_unfinalized_refuted",
    "C76_exchange"
   ],
   "note": "Simulation by the plain buffer of C22/C23; composed with C54 and C14/C15. Memory of a network buffer is one growing list; what does not fit is refuted to be reported."
  },
  {
   "property": "C77",
   "status": "proved",
   "theorems": [
    "C77_exact",
    "C77_same_length",
    "C77_round",
    "C77_one_id_refuted",
    "C77_other_length_refuted",
    "C77_shorter_refuted",
    "C77_longer_refuted",
    "C77_overwrites",
    "C77_token_leak_refuted",
    "C77_past_end_refuted",
    "C77_full_refuted",
    "C77_old_netbuf_refuted"
   ],
   "note": "The class does not compile when instantiated; modelled with the evident reading of five places, listed in MetaModel.v. Six full claims refuted."
  },
  {
   "property": "C78",
   "status": "proved",
   "theorems": [
    "C78_largest",
    "C78_rounds",
    "C78_newest",
    "C78_again_refuted"
   ],
   "note": "The client is a specification (RFC 7641 3.4 without the clock) over the modelled decoder and integer reader. Histories within the limits of C35 with less than 2^23 rounds. One full claim refuted."
  },
  {
   "property": "C79",
   "status": "proved",
   "theorems": [
    "C79_calls",
    "C79_datagram",
    "C79_session",
    "C79_stream_calls",
    "C79_stream",
    "C79_header_refuted"
   ],
   "note": "Two-run (noninterference) proof. One full claim refuted: a four-byte datagram shows whether a payload marker was read before."
  },
  {
   "property": "C80",
   "status": "proved",
   "theorems": [
    "C80_root",
    "C80_option",
    "C80_type"
   ],
   "note": ""
  },
  {
   "property": "C81",
   "status": "proved",
   "theorems": [
    "C81_all",
    "C81_path",
    "C81_chunks",
    "C81_chunks_refuted"
   ],
   "note": "Full claim refuted: the repeater does not look at the option number."
  },
  {
   "property": "C82",
   "status": "proved",
   "theorems": [
    "C82_body",
    "C82_unique",
    "C82_report",
    "C82_faithful",
    "C82_alias_refuted",
    "C82_spellings_refuted",
    "C82_any_order_refuted",
    "C82_second_refuted",
    "C82_stray_refuted"
   ],
   "note": "Full claim refuted; the spellings that collide are given."
  },
  {
   "property": "C83",
   "status": "proved",
   "theorems": [
    "C83_any_size",
    "C83_any",
    "C83_one_reading",
    "C83_every_datagram",
    "C83_spelled_refuted",
    "C83_cut_value_refuted",
    "C83_short_refuted"
   ],
   "note": "Full claim refuted; the reading of every datagram is given and proved unique."
  },
  {
   "property": "C84",
   "status": "proved",
   "theorems": [
    "C84_ping",
    "C84_uri",
    "C84_observe",
    "C84_core",
    "C84_uri_cut",
    "C84_one_session_refuted",
    "C84_filled_refuted",
    "C84_observe_cut",
    "C84_core_cut",
    "C84_links_reached"
   ],
   "note": "Full claim refuted; for every datagram the exact stop condition (ping) or the form of the reply is proved, for a cut only option the exact outcome."
  },
  {
   "property": "C85",
   "status": "proved",
   "theorems": [
    "C85_ping",
    "C85_goes_on_refuted",
    "C85_uri",
    "C85_observe",
    "C85_in_order"
   ],
   "note": "Exact course of the ping program, and what the uri and observe programs may send, for any traffic; that they go on whatever arrives is refuted."
  },
  {
   "property": "C86",
   "status": "proved",
   "theorems": [
    "C86_server",
    "C86_printed",
    "C86_fresh",
    "C86_front",
    "C86_wide_refuted",
    "C86_room"
   ],
   "note": "Exact for any bytes; that no payload stops the server is refuted."
  },
  {
   "property": "C87",
   "status": "proved",
   "theorems": [
    "C87_course",
    "C87_goes_on_refuted"
   ],
   "note": "Exact for any traffic; that it goes on through valid messages is refuted."
  },
  {
   "property": "C88",
   "status": "proved",
   "theorems": [
    "C88_visits",
    "C88_uri",
    "C88_observe",
    "C88_core",
    "C88_complete",
    "C88_readable_refuted"
   ],
   "note": "Exact for any datagram; that readable requests never stop the server is refuted."
  },
  {
   "property": "C89",
   "status": "proved",
   "theorems": [
    "C89_uri",
    "C89_discover",
    "C89_discoverable",
    "C89_goes_on_refuted"
   ],
   "note": "Exact for any traffic; that the uri program goes on is refuted."
  },
  {
   "property": "C90",
   "status": "proved",
   "theorems": [
    "C90_ping",
    "C90_uri",
    "C90_goes_on_refuted"
   ],
   "note": "Exact for any traffic; that the daemons go on is refuted."
  },
  {
   "property": "C91",
   "status": "proved",
   "theorems": [
    "C91_first_agreeing",
    "C91_nobody",
    "C91_like_one_table",
    "C91_one_table_refuted"
   ],
   "note": "Routing through groups is exact; that it equals one table is refuted in general and proved for requests whose first segment agrees."
  },
  {
   "property": "C92",
   "status": "proved",
   "theorems": [
    "C92_course",
    "C92_repeated_refuted",
    "C92_crowd_refuted",
    "C92_eleventh_refuted"
   ],
   "note": "Exact for any traffic; that proper requests do not stop the program is refuted."
  },
  {
   "property": "C93",
   "status": "proved",
   "theorems": [
    "C93_handed_out",
    "C93_room",
    "C93_twins_refuted"
   ],
   "note": "Exact; without the assumption that messages can be told apart refuted."
  },
  {
   "property": "C94",
   "status": "proved",
   "theorems": [
    "C94_same_events",
    "C94_seen",
    "C94_new",
    "C94_reply",
    "C94_token_refuted"
   ],
   "note": "Exact for the first three bytes; the full claim is refuted."
  },
  {
   "property": "C95",
   "status": "proved",
   "theorems": [
    "C95_retransmitted",
    "C95_room",
    "C95_all_answered",
    "C95_lost_refuted"
   ],
   "note": "The network is a model of its own (not in the code); the full claim is refuted."
  },
  {
   "property": "C96",
   "status": "proved",
   "theorems": [
    "C96_history",
    "C96_handed_out"
   ],
   "note": "Only for the way of use in which C74 shows that no freed memory is touched."
  },
  {
   "property": "C97",
   "status": "proved",
   "theorems": [
    "C97_split",
    "C97_reset",
    "C97_begins",
    "C97_fast_forward",
    "C97_lost",
    "C97_other_refuted",
    "C97_encoders",
    "C97_after",
    "C97_after_call",
    "C97_kept_refuted",
    "C97_unset",
    "C97_pointer"
   ],
   "note": ""
  },
  {
   "property": "C98",
   "status": "proved",
   "theorems": [
    "C98_map",
    "C98_map_number",
    "C98_not_found_refuted",
    "C98_create",
    "C98_create_chunk",
    "C98_same",
    "C98_same_refuted",
    "C98_chunk_beyond_refuted",
    "C98_count"
   ],
   "note": ""
  },
  {
   "property": "C99",
   "status": "proved",
   "theorems": [
    "C99_encode",
    "C99_narrow",
    "C99_signed_refuted",
    "C99_decode",
    "C99_decode_byte_refuted"
   ],
   "note": ""
  }
 ]
}