{
 "claims": [
  {
   "property": "C01",
   "status": "proved",
   "theorems": [
    "C01_round_trip"
   ],
   "note": ""
  },
  {
   "property": "C02",
   "status": "proved",
   "theorems": [
    "C02_encode_rfc",
    "C02_encode_independent",
    "C02_encode_empty"
   ],
   "note": ""
  },
  {
   "property": "C03",
   "status": "proved",
   "theorems": [
    "C03_speed_independent",
    "C03_known_speeds"
   ],
   "note": ""
  },
  {
   "property": "C04",
   "status": "proved",
   "theorems": [
    "C04_split_exists",
    "C04_split_unique",
    "C04_decode_result",
    "C04_accepts_iff",
    "C04_tail_shape"
   ],
   "note": ""
  },
  {
   "property": "C05",
   "status": "partial",
   "theorems": [
    "C05_padding_short_partial",
    "C05_rfc_padding_accepted_partial",
    "C05_rfc_padded_decodes_partial",
    "C05_padding_exact_partial",
    "C05_padding_iff_partial",
    "C05_padding_refuted"
   ],
   "note": "Length half proved. The 'padding must be ones' half is false of the code: zero bits are accepted (C05_padding_refuted, input [0x00]); C05_padding_exact_partial gives the exact set."
  },
  {
   "property": "C06",
   "status": "proved",
   "theorems": [
    "C06_eos_rejected"
   ],
   "note": ""
  },
  {
   "property": "C07",
   "status": "proved",
   "theorems": [
    "C07_no_panic"
   ],
   "note": ""
  },
  {
   "property": "C08",
   "status": "proved",
   "theorems": [
    "C08_table_is_rfc",
    "C08_prefix_free",
    "C08_complete",
    "C08_lengths"
   ],
   "note": ""
  },
  {
   "property": "C09",
   "status": "proved",
   "theorems": [
    "C09_flatten_shipped"
   ],
   "note": ""
  },
  {
   "property": "C10",
   "status": "proved",
   "theorems": [
    "C10_flatten_represents",
    "C10_flatten_represents_iff",
    "C10_chunks_right_iff",
    "C10_flatten_represents_checked",
    "C10_walk_unique",
    "C10_flatten_rfc"
   ],
   "note": "C10_flatten_represents_iff is the exact condition for prefix-free tables in both build modes; C10_flatten_represents_checked and C10_chunks_right_iff give it as plain arithmetic when no shift reaches 32 (always so with overflow checks); C10_flatten_represents is the simple sufficient form."
  },
  {
   "property": "C11",
   "status": "proved",
   "theorems": [
    "C11_line",
    "C11_bad_line_panics",
    "C11_lines",
    "C11_any_text",
    "C11_text",
    "C11_asset"
   ],
   "note": ""
  },
  {
   "property": "C12",
   "status": "proved",
   "theorems": [
    "C12_size",
    "C12_injective"
   ],
   "note": ""
  },
  {
   "property": "C13",
   "status": "proved",
   "theorems": [
    "C13_integer_round_trip",
    "C13_decode_integer_accepts",
    "C13_decode_integer_errors",
    "C13_decode_integer_fits_u32",
    "C13_decode_integer_bad_prefix"
   ],
   "note": ""
  },
  {
   "property": "C14",
   "status": "proved",
   "theorems": [
    "C14_encode_integer_wire",
    "C14_bad_prefix"
   ],
   "note": ""
  },
  {
   "property": "C15",
   "status": "partial",
   "theorems": [
    "C15_truncated_panics_refuted",
    "C15_panic_set_partial",
    "C15_integer_panic_set_partial",
    "C15_truncated_partial"
   ],
   "note": "False of the code: truncated input panics (C15_truncated_panics_refuted). Proved: the exact set of panicking inputs, and that every cut of a good block ends in a panic or IntegerUnderflow with everything before the cut processed."
  },
  {
   "property": "C16",
   "status": "proved",
   "theorems": [
    "C16_string_round_trip",
    "C16_encode_string_wire",
    "C16_decode_string_accepts",
    "C16_decode_string_fails"
   ],
   "note": ""
  },
  {
   "property": "C17",
   "status": "proved",
   "theorems": [
    "C17_sessions",
    "C17_encoder_reachable"
   ],
   "note": ""
  },
  {
   "property": "C18",
   "status": "proved",
   "theorems": [
    "C18_insert",
    "C18_resize",
    "C18_run_unique"
   ],
   "note": ""
  },
  {
   "property": "C19",
   "status": "proved",
   "theorems": [
    "C19_none",
    "C19_static",
    "C19_dynamic",
    "C19_static_length",
    "C19_history",
    "C19_iter"
   ],
   "note": ""
  },
  {
   "property": "C20",
   "status": "proved",
   "theorems": [
    "C20_find",
    "C20_find_determined"
   ],
   "note": ""
  },
  {
   "property": "C21",
   "status": "partial",
   "theorems": [
    "C21_session_partial",
    "C21_session_from_partial",
    "C21_large_update_refuted"
   ],
   "note": "Proved for all sessions whose coded strings have at most 2^28+126 octets and whose updates are at most 2^28+30 (and the decoder's limit); beyond that it is false: C21_large_update_refuted."
  },
  {
   "property": "C22",
   "status": "proved",
   "theorems": [
    "C22_one_field",
    "C22_tuple_inputs"
   ],
   "note": ""
  },
  {
   "property": "C23",
   "status": "partial",
   "theorems": [
    "C23_invalid_index_partial",
    "C23_overflow_only_partial",
    "C23_failed_encode_refuted",
    "C23_overflow_effect_partial"
   ],
   "note": "InvalidIndex failures proved to have no effect; the only other failure, IntegerOverflow for a coded string of 2^32 octets or more, does change buffer and table: C23_failed_encode_refuted."
  },
  {
   "property": "C24",
   "status": "proved",
   "theorems": [
    "C24_decode_result",
    "C24_decode_determined"
   ],
   "note": ""
  },
  {
   "property": "C25",
   "status": "proved",
   "theorems": [
    "C25_split",
    "C25_errors_final"
   ],
   "note": ""
  },
  {
   "property": "C26",
   "status": "proved",
   "theorems": [
    "C26_update_rejected",
    "C26_decoder_reachable"
   ],
   "note": ""
  },
  {
   "property": "C27",
   "status": "partial",
   "theorems": [
    "C27_never_indexed_partial",
    "C27_never_indexed_name_partial",
    "C27_marked_iff_partial",
    "C27_reported_iff_partial",
    "C27_never_indexed_refuted"
   ],
   "note": "Proved when bits 0x4 and 0x10 are clear, with the exact condition for being marked; false otherwise: C27_never_indexed_refuted."
  },
  {
   "property": "C28",
   "status": "partial",
   "theorems": [
    "C28_count_partial",
    "C28_count_refuted"
   ],
   "note": "False with table size updates in the block: C28_count_refuted. Proved: the count is the octets of the other representations, and equals the octets removed iff there is no size update."
  },
  {
   "property": "C29",
   "status": "proved",
   "theorems": [
    "C29_decode_exact",
    "C29_decode_exact_determined"
   ],
   "note": ""
  },
  {
   "property": "C30",
   "status": "partial",
   "theorems": [
    "C30_limit_refuted",
    "C30_reported_partial",
    "C30_enforced_partial",
    "C30_history_partial"
   ],
   "note": "False of the code: C30_limit_refuted (the getter returns the table's maximum). Proved: what is reported, and that the limit set is the one enforced."
  },
  {
   "property": "C31",
   "status": "proved",
   "theorems": [
    "C31_encoder",
    "C31_decoder"
   ],
   "note": ""
  },
  {
   "property": "C32",
   "status": "proved",
   "theorems": [
    "C32_terminates",
    "C32_progress"
   ],
   "note": ""
  },
  {
   "property": "C33",
   "status": "proved",
   "theorems": [
    "C33_encode_wire",
    "C33_encode_direct",
    "C33_update_wire",
    "C33_choice",
    "C33_choice_unique",
    "C33_unambiguous"
   ],
   "note": ""
  },
  {
   "property": "C34",
   "status": "proved",
   "theorems": [
    "C34_concat"
   ],
   "note": ""
  },
  {
   "property": "C35",
   "status": "proved",
   "theorems": [
    "C35_round_trip",
    "C35_shape",
    "C35_unique"
   ],
   "note": ""
  },
  {
   "property": "C36",
   "status": "partial",
   "theorems": [
    "C36_panic_refuted",
    "C36_alias_refuted",
    "C36_exact_partial",
    "C36_value_partial"
   ],
   "note": "False of the code: more than ten octets panic in debug builds (C36_panic_refuted) and alias in release builds (C36_alias_refuted). Proved: the exact result on every input, and the exact value up to ten octets."
  },
  {
   "property": "C37",
   "status": "proved",
   "theorems": [
    "C37_round_trip",
    "C37_invalid_tag",
    "C37_decoding",
    "C37_refused",
    "C37_try_from"
   ],
   "note": ""
  },
  {
   "property": "C38",
   "status": "proved",
   "theorems": [
    "C38_sint32",
    "C38_sint64",
    "C38_bijection"
   ],
   "note": ""
  },
  {
   "property": "C39",
   "status": "proved",
   "theorems": [
    "C39_round_trip",
    "C39_payload_exists",
    "C39_field"
   ],
   "note": ""
  },
  {
   "property": "C40",
   "status": "proved",
   "theorems": [
    "C40_round_trip",
    "C40_encode",
    "C40_cut"
   ],
   "note": ""
  },
  {
   "property": "C41",
   "status": "proved",
   "theorems": [
    "C41_encode",
    "C41_field_exists",
    "C41_invalid_tag",
    "C41_vec",
    "C41_interrupted",
    "C41_from",
    "C41_from_variants"
   ],
   "note": "Writers are modelled as a Vec or a writer with a fixed amount of room; payloads are shorter than 2^64 octets."
  },
  {
   "property": "C42",
   "status": "proved",
   "theorems": [
    "C42_message",
    "C42_wire"
   ],
   "note": ""
  },
  {
   "property": "C43",
   "status": "partial",
   "theorems": [
    "C43_one_call_refuted",
    "C43_stops_partial",
    "C43_repeat_partial"
   ],
   "note": "False for one call (C43_one_call_refuted). Proved: where the call stops, and that repeated calls deliver the whole message."
  },
  {
   "property": "C44",
   "status": "proved",
   "theorems": [
    "C44_split",
    "C44_error",
    "C44_pieces"
   ],
   "note": ""
  },
  {
   "property": "C45",
   "status": "proved",
   "theorems": [
    "C45_error",
    "C45_fields_before"
   ],
   "note": ""
  },
  {
   "property": "C46",
   "status": "proved",
   "theorems": [
    "C46_bool",
    "C46_bool_vec",
    "C46_i32",
    "C46_i32_vec",
    "C46_i64",
    "C46_i64_vec",
    "C46_u32",
    "C46_u32_vec",
    "C46_u64",
    "C46_u64_vec",
    "C46_f32",
    "C46_f32_vec",
    "C46_f64",
    "C46_f64_vec",
    "C46_bytes",
    "C46_string"
   ],
   "note": ""
  },
  {
   "property": "C47",
   "status": "proved",
   "theorems": [
    "C47_terminates",
    "C47_count",
    "C47_call",
    "C47_stable"
   ],
   "note": ""
  },
  {
   "property": "C48",
   "status": "proved",
   "theorems": [
    "C48_emitted",
    "C48_valid"
   ],
   "note": ""
  },
  {
   "property": "C49",
   "status": "partial",
   "theorems": [
    "C49_buffer_untouched_refuted",
    "C49_exact_one_partial",
    "C49_when_partial"
   ],
   "note": "False for decode (C49_buffer_untouched_refuted); proved for decode_exact with capacity one."
  },
  {
   "property": "C50",
   "status": "proved",
   "theorems": [
    "C50_decode_speed",
    "C50_decode_exact_speed"
   ],
   "note": ""
  },
  {
   "property": "C51",
   "status": "proved",
   "theorems": [
    "C51_flatten_panics_iff",
    "C51_flatten_total"
   ],
   "note": ""
  },
  {
   "property": "C52",
   "status": "proved",
   "theorems": [
    "C52_huffman_expansion"
   ],
   "note": ""
  },
  {
   "property": "C53",
   "status": "proved",
   "theorems": [
    "C53_huffman_prefix"
   ],
   "note": ""
  },
  {
   "property": "C54",
   "status": "proved",
   "theorems": [
    "C54_huffman_canonical",
    "C54_one_canonical_form"
   ],
   "note": ""
  },
  {
   "property": "C55",
   "status": "proved",
   "theorems": [
    "C55_interoperable_session"
   ],
   "note": ""
  },
  {
   "property": "C56",
   "status": "proved",
   "theorems": [
    "C56_no_silent_desync"
   ],
   "note": ""
  },
  {
   "property": "C57",
   "status": "proved",
   "theorems": [
    "C57_encode_appends",
    "C57_update_appends",
    "C57_session_appends"
   ],
   "note": ""
  },
  {
   "property": "C58",
   "status": "proved",
   "theorems": [
    "C58_shortest",
    "C58_unique"
   ],
   "note": ""
  },
  {
   "property": "C59",
   "status": "proved",
   "theorems": [
    "C59_best_not_longer"
   ],
   "note": ""
  },
  {
   "property": "C60",
   "status": "proved",
   "theorems": [
    "C60_decompression_bound"
   ],
   "note": ""
  },
  {
   "property": "C61",
   "status": "proved",
   "theorems": [
    "C61_entry_count",
    "C61_entry_count_encoder"
   ],
   "note": ""
  },
  {
   "property": "C62",
   "status": "proved",
   "theorems": [
    "C62_forwarding",
    "C62_decoded_flags"
   ],
   "note": ""
  },
  {
   "property": "C63",
   "status": "proved",
   "theorems": [
    "C63_nested",
    "C63_message"
   ],
   "note": ""
  },
  {
   "property": "C64",
   "status": "proved",
   "theorems": [
    "C64_int",
    "C64_uint",
    "C64_sint",
    "C64_fixed",
    "C64_sfixed",
    "C64_int_vec",
    "C64_uint_vec",
    "C64_sint_vec"
   ],
   "note": ""
  },
  {
   "property": "C65",
   "status": "proved",
   "theorems": [
    "C65_message",
    "C65_regrouped",
    "C65_packed_concat"
   ],
   "note": ""
  },
  {
   "property": "C66",
   "status": "proved",
   "theorems": [
    "C66_concat"
   ],
   "note": ""
  },
  {
   "property": "C67",
   "status": "proved",
   "theorems": [
    "C67_injective"
   ],
   "note": ""
  },
  {
   "property": "C68",
   "status": "proved",
   "theorems": [
    "C68_bounded"
   ],
   "note": ""
  },
  {
   "property": "C69",
   "status": "proved",
   "theorems": [
    "C69_decode",
    "C69_conversions"
   ],
   "note": ""
  },
  {
   "property": "C70",
   "status": "proved",
   "theorems": [
    "C70_negative_int",
    "C70_sint",
    "C70_monotone"
   ],
   "note": ""
  },
  {
   "property": "C71",
   "status": "proved",
   "theorems": [
    "C71_field",
    "C71_message",
    "C71_invalid_tag",
    "C71_live",
    "C71_same"
   ],
   "note": ""
  },
  {
   "property": "C72",
   "status": "proved",
   "theorems": [
    "C72_truncated",
    "C72_crash"
   ],
   "note": ""
  },
  {
   "property": "C73",
   "status": "proved",
   "theorems": [
    "C73_call",
    "C73_same",
    "C73_64",
    "C73_message",
    "C73_parsing_differs"
   ],
   "note": ""
  },
  {
   "property": "C74",
   "status": "proved",
   "theorems": [
    "C74_word_size",
    "C74_decode"
   ],
   "note": ""
  },
  {
   "property": "C75",
   "status": "proved",
   "theorems": [
    "C75_capacities",
    "C75_success",
    "C75_one"
   ],
   "note": ""
  },
  {
   "property": "C76",
   "status": "proved",
   "theorems": [
    "C76_connection",
    "C76_errors",
    "C76_no_errors"
   ],
   "note": ""
  },
  {
   "property": "C77",
   "status": "proved",
   "theorems": [
    "C77_decode",
    "C77_decode_exact",
    "C77_encode",
    "C77_32bit_decode",
    "C77_32bit_encode",
    "C77_64bit",
    "C77_overflow"
   ],
   "note": ""
  },
  {
   "property": "C78",
   "status": "proved",
   "theorems": [
    "C78_no_trace",
    "C78_transcript",
    "C78_same_state",
    "C78_own_octets",
    "C78_own_octets_name",
    "C78_length_only"
   ],
   "note": ""
  },
  {
   "property": "C79",
   "status": "proved",
   "theorems": [
    "C79_chain"
   ],
   "note": ""
  },
  {
   "property": "C80",
   "status": "proved",
   "theorems": [
    "C80_octets",
    "C80_verdicts"
   ],
   "note": ""
  },
  {
   "property": "C81",
   "status": "proved",
   "theorems": [
    "C81_stream",
    "C81_values"
   ],
   "note": ""
  },
  {
   "property": "C82",
   "status": "proved",
   "theorems": [
    "C82_forward",
    "C82_obstacle",
    "C82_identity"
   ],
   "note": ""
  },
  {
   "property": "C83",
   "status": "proved",
   "theorems": [
    "C83_larger",
    "C83_smaller",
    "C83_fresh",
    "C83_resync"
   ],
   "note": ""
  },
  {
   "property": "C84",
   "status": "proved",
   "theorems": [
    "C84_items",
    "C84_any_index",
    "C84_loop",
    "C84_sharp"
   ],
   "note": ""
  },
  {
   "property": "C85",
   "status": "proved",
   "theorems": [
    "C85_exact",
    "C85_exact_update",
    "C85_bound",
    "C85_session"
   ],
   "note": ""
  },
  {
   "property": "C86",
   "status": "proved",
   "theorems": [
    "C86_field",
    "C86_message",
    "C86_nested",
    "C86_bound",
    "C86_small"
   ],
   "note": ""
  },
  {
   "property": "C87",
   "status": "proved",
   "theorems": [
    "C87_encoder_resized",
    "C87_decoder_resized",
    "C87_encoder",
    "C87_decoder",
    "C87_repeat"
   ],
   "note": ""
  },
  {
   "property": "C88",
   "status": "proved",
   "theorems": [
    "C88_reads",
    "C88_unknown",
    "C88_by_tag",
    "C88_order",
    "C88_permuted"
   ],
   "note": ""
  },
  {
   "property": "C89",
   "status": "partial",
   "theorems": [
    "C89_attempts_partial",
    "C89_once_partial",
    "C89_retry_refuted"
   ],
   "note": "False as documented (C89_retry_refuted): what the failed call wrote stays in the writer. Proved: exactly when a single retry is harmless, and that only octets of the failed calls have to be taken back."
  },
  {
   "property": "C90",
   "status": "proved",
   "theorems": [
    "C90_decode",
    "C90_decode_exact",
    "C90_unflagged"
   ],
   "note": ""
  },
  {
   "property": "C91",
   "status": "proved",
   "theorems": [
    "C91_decode",
    "C91_flatten",
    "C91_ceil"
   ],
   "note": ""
  },
  {
   "property": "C92",
   "status": "partial",
   "theorems": [
    "C92_position_refuted",
    "C92_update_partial"
   ],
   "note": "Full statement false: C92_position_refuted (update in the middle of a block accepted; no update demanded after the limit was lowered). Proved: the effect of an update wherever it stands."
  },
  {
   "property": "C93",
   "status": "proved",
   "theorems": [
    "C93_huffman_encode",
    "C93_huffman_decode",
    "C93_hpack_encode",
    "C93_hpack_update",
    "C93_hpack_decode",
    "C93_hpack_exact",
    "C93_protos_decode"
   ],
   "note": ""
  },
  {
   "property": "C94",
   "status": "proved",
   "theorems": [
    "C94_encode_join",
    "C94_decode_join",
    "C94_first_string"
   ],
   "note": ""
  },
  {
   "property": "C95",
   "status": "proved",
   "theorems": [
    "C95_no_hidden_state",
    "C95_told_apart",
    "C95_invisible"
   ],
   "note": ""
  },
  {
   "property": "C96",
   "status": "partial",
   "theorems": [
    "C96_understood_or_stopped_partial",
    "C96_shortest_integers",
    "C96_every_block_refuted"
   ],
   "note": "The full statement is refuted (C96_every_block_refuted: a conforming block with a six-octet integer is rejected). The partial theorem says exactly what happens to every RFC block."
  },
  {
   "property": "C97",
   "status": "proved",
   "theorems": [
    "C97_flags",
    "C97_ignored",
    "C97_significant"
   ],
   "note": ""
  },
  {
   "property": "C98",
   "status": "proved",
   "theorems": [
    "C98_one_index",
    "C98_kept"
   ],
   "note": ""
  },
  {
   "property": "C99",
   "status": "proved",
   "theorems": [
    "C99_understood",
    "C99_one_call",
    "C99_pieces",
    "C99_group",
    "C99_encoder"
   ],
   "note": ""
  },
  {
   "property": "C100",
   "status": "proved",
   "theorems": [
    "C100_shortest",
    "C100_same_meaning",
    "C100_reencoded"
   ],
   "note": ""
  },
  {
   "property": "C101",
   "status": "proved",
   "theorems": [
    "C101_once",
    "C101_index",
    "C101_octets",
    "C101_one_octet",
    "C101_sharp"
   ],
   "note": ""
  },
  {
   "property": "C102",
   "status": "proved",
   "theorems": [
    "C102_batches",
    "C102_decode"
   ],
   "note": ""
  },
  {
   "property": "C103",
   "status": "proved",
   "theorems": [
    "C103_threshold",
    "C103_raise"
   ],
   "note": ""
  },
  {
   "property": "C104",
   "status": "proved",
   "theorems": [
    "C104_states",
    "C104_reached",
    "C104_told_apart",
    "C104_no_trace"
   ],
   "note": ""
  },
  {
   "property": "C105",
   "status": "partial",
   "theorems": [
    "C105_at_most_partial",
    "C105_exactly_partial",
    "C105_update_refuted",
    "C105_reused_refuted"
   ],
   "note": "The full statement is false of the code (two refutations). Proved: the upper bound for every input, and exactness in blocks without size updates."
  },
  {
   "property": "C106",
   "status": "proved",
   "theorems": [
    "C106_bounded",
    "C106_bounded_exact",
    "C106_progress",
    "C106_reached"
   ],
   "note": ""
  },
  {
   "property": "C107",
   "status": "partial",
   "theorems": [
    "C107_varint_refuted",
    "C107_refuted",
    "C107_exactly_partial",
    "C107_bounded_partial"
   ],
   "note": "The full statement is false of the code in both builds (C107_refuted). Proved: the exact set of buffers on which a call does nothing."
  },
  {
   "property": "C108",
   "status": "proved",
   "theorems": [
    "C108_texts",
    "C108_huffman",
    "C108_hpack_encode",
    "C108_hpack_decode",
    "C108_protos_encode",
    "C108_protos_decode"
   ],
   "note": ""
  },
  {
   "property": "C109",
   "status": "partial",
   "theorems": [
    "C109_exactly_partial",
    "C109_strings_partial",
    "C109_huffman_refuted",
    "C109_index_refuted",
    "C109_size_refuted"
   ],
   "note": "The full statement is false of the code: three kinds of hopeless input are waited for (C109_huffman_refuted, C109_index_refuted, C109_size_refuted). C109_exactly_partial characterises exactly when a completion exists."
  },
  {
   "property": "C110",
   "status": "partial",
   "theorems": [
    "C110_exactly_partial",
    "C110_wire_type_refuted",
    "C110_large_refuted",
    "C110_ten_refuted"
   ],
   "note": "The full statement is false of the code (C110_wire_type_refuted, C110_large_refuted, C110_ten_refuted). C110_exactly_partial characterises exactly when a wait can end with a field."
  },
  {
   "property": "C111",
   "status": "proved",
   "theorems": [
    "C111_told_apart",
    "C111_histories",
    "C111_no_hidden_state",
    "C111_all_visible",
    "C111_stays"
   ],
   "note": ""
  },
  {
   "property": "C112",
   "status": "proved",
   "theorems": [
    "C112_same_octets",
    "C112_prefix",
    "C112_fields",
    "C112_literals"
   ],
   "note": ""
  },
  {
   "property": "C113",
   "status": "proved",
   "theorems": [
    "C113_encoder",
    "C113_decoder",
    "C113_last_alone",
    "C113_lowered"
   ],
   "note": ""
  },
  {
   "property": "C114",
   "status": "proved",
   "theorems": [
    "C114_encoder",
    "C114_encoder_again",
    "C114_decoder",
    "C114_decoder_again",
    "C114_decoder_no_way_back",
    "C114_encoder_only"
   ],
   "note": ""
  },
  {
   "property": "C115",
   "status": "proved",
   "theorems": [
    "C115_complete_iff",
    "C115_truthful_iff",
    "C115_complete_stays",
    "C115_loss_noticed"
   ],
   "note": ""
  },
  {
   "property": "C116",
   "status": "proved",
   "theorems": [
    "C116_quiet",
    "C116_self_contained",
    "C116_mixed",
    "C116_store_lost"
   ],
   "note": ""
  },
  {
   "property": "C117",
   "status": "proved",
   "theorems": [
    "C117_message_iff",
    "C117_field_apart",
    "C117_message_split",
    "C117_message_at",
    "C117_message_patch"
   ],
   "note": ""
  },
  {
   "property": "C118",
   "status": "proved",
   "theorems": [
    "C118_decode",
    "C118_mask",
    "C118_encode"
   ],
   "note": ""
  },
  {
   "property": "C119",
   "status": "proved",
   "theorems": [
    "C119_received",
    "C119_invisible",
    "C119_asked_text"
   ],
   "note": ""
  },
  {
   "property": "C120",
   "status": "proved",
   "theorems": [
    "C120_read",
    "C120_recovered_iff",
    "C120_recovers",
    "C120_resized_iff",
    "C120_never"
   ],
   "note": ""
  },
  {
   "property": "C121",
   "status": "proved",
   "theorems": [
    "C121_blind",
    "C121_stored",
    "C121_guess_iff",
    "C121_guess_length"
   ],
   "note": ""
  },
  {
   "property": "C122",
   "status": "proved",
   "theorems": [
    "C122_matrix_determines_code",
    "C122_no_blank_iff_complete",
    "C122_blank_at_every_speed",
    "C122_one_bit_fits_all",
    "C122_overlapping_codes",
    "C122_complete_one_bit_iff",
    "C122_complete_every_speed",
    "C122_one_bit_rows",
    "C122_rfc_complete"
   ],
   "note": ""
  }
 ]
}