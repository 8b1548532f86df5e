{
 "claims": [
  {
   "property": "C01",
   "status": "proved",
   "theorems": [
    "C01_primitive_round_trip"
   ],
   "note": "For every primitive and enumeration type. Values come back as written up to the stated relation (timestamps: whole milliseconds)."
  },
  {
   "property": "C02",
   "status": "proved",
   "theorems": [
    "C02_encoded_size",
    "C02_frame_size",
    "C02_sasl_frame_size"
   ],
   "note": "For every encodable type and for AMQP and SASL frames: encoded_size equals the number of bytes written; for frames carrying a message with header sections it is larger by 3 per header (see C25)."
  },
  {
   "property": "C03",
   "status": "proved",
   "theorems": [
    "C03_primitive_layout",
    "C03_primitive_shortest",
    "C03_variant_layout",
    "C03_variant_shortest"
   ],
   "note": ""
  },
  {
   "property": "C04",
   "status": "proved",
   "theorems": [
    "C04_variant_accepts",
    "C04_type_accepts"
   ],
   "note": ""
  },
  {
   "property": "C05",
   "status": "proved",
   "theorems": [
    "C05_variant_round_trip",
    "C05_variant_canonical",
    "C05_static_symbol_refuted"
   ],
   "note": "Finding: false for StaticSymbol (C05_static_symbol_refuted), values with lists (C06), descriptor DUlong 0 (excluded by decodable). Exact statement proved with these excluded."
  },
  {
   "property": "C06",
   "status": "proved",
   "theorems": [
    "C06_list_never_read",
    "C06_containing_list_never_read",
    "C06_only_first_byte",
    "C06_list_round_trip_refuted"
   ],
   "note": "Finding: the property is false; encoded lists carry the codes of arrays and are never read back."
  },
  {
   "property": "C07",
   "status": "proved",
   "theorems": [
    "C07_prefix",
    "C07_frame_prefix",
    "C07_sasl_frame_prefix"
   ],
   "note": ""
  },
  {
   "property": "C08",
   "status": "proved",
   "theorems": [
    "C08_trailing_bytes"
   ],
   "note": ""
  },
  {
   "property": "C09",
   "status": "proved",
   "theorems": [
    "C09_no_proper_prefix"
   ],
   "note": ""
  },
  {
   "property": "C10",
   "status": "proved",
   "theorems": [
    "C10_well_typed",
    "C10_frame_well_typed",
    "C10_sasl_frame_well_typed"
   ],
   "note": ""
  },
  {
   "property": "C11",
   "status": "proved",
   "theorems": [
    "C11_string_utf8",
    "C11_str_utf8",
    "C11_symbol_utf8"
   ],
   "note": ""
  },
  {
   "property": "C12",
   "status": "proved",
   "theorems": [
    "C12_no_panic",
    "C12_flat_composites",
    "C12_kinds_of_panic",
    "C12_map_too_short",
    "C12_variant_map_too_short",
    "C12_array_without_code",
    "C12_list_size_underflow",
    "C12_map_size_underflow",
    "C12_array_size_underflow",
    "C12_composite_size_underflow",
    "C12_map_as_key",
    "C12_timestamp_out_of_range",
    "C12_no_panic_refuted",
    "C12_frame_kinds_of_panic",
    "C12_sasl_frame_kinds_of_panic",
    "C12_frame_refuted"
   ],
   "note": "Finding: the property is false. Proved: the types for which it holds, the kinds of panic possible for the others and for whole frames, each family of panicking inputs, and whole AMQP and SASL frames that panic."
  },
  {
   "property": "C13",
   "status": "proved",
   "theorems": [
    "C13_map_read",
    "C13_map_accepts",
    "C13_key_equivalences"
   ],
   "note": ""
  },
  {
   "property": "C14",
   "status": "proved",
   "theorems": [
    "C14_list_ignores_size",
    "C14_array_ignores_size",
    "C14_list_read",
    "C14_array_read",
    "C14_list_size_refuted",
    "C14_composite_window"
   ],
   "note": "Finding: false for List and Vec (size ignored, C14_list_size_refuted), true for every composite (C14_composite_window)."
  },
  {
   "property": "C15",
   "status": "proved",
   "theorems": [
    "C15_array_round_trip",
    "C15_content_254",
    "C15_array_round_trip_refuted"
   ],
   "note": "Finding: false for content of exactly 254 bytes in debug builds (C15_array_round_trip_refuted); proved otherwise."
  },
  {
   "property": "C16",
   "status": "proved",
   "theorems": [
    "C16_one_is_bare",
    "C16_others_are_arrays",
    "C16_reads_both"
   ],
   "note": ""
  },
  {
   "property": "C17",
   "status": "proved",
   "theorems": [
    "C17_composite_round_trip",
    "C17_union_round_trip"
   ],
   "note": ""
  },
  {
   "property": "C18",
   "status": "proved",
   "theorems": [
    "C18_layout"
   ],
   "note": ""
  },
  {
   "property": "C19",
   "status": "proved",
   "theorems": [
    "C19_C20_reads",
    "C19_missing_mandatory",
    "C19_null_mandatory"
   ],
   "note": ""
  },
  {
   "property": "C20",
   "status": "proved",
   "theorems": [
    "C19_C20_reads"
   ],
   "note": ""
  },
  {
   "property": "C21",
   "status": "proved",
   "theorems": [
    "C21_labels_interchangeable",
    "C21_other_descriptors"
   ],
   "note": ""
  },
  {
   "property": "C22",
   "status": "proved",
   "theorems": [
    "C22_named",
    "C22_other",
    "C22_every_value_has_one_alternative",
    "C22_frame_named",
    "C22_frame_other",
    "C22_frame_empty",
    "C22_frame_covers",
    "C22_frame_accepts"
   ],
   "note": ""
  },
  {
   "property": "C23",
   "status": "proved",
   "theorems": [
    "C23_enumerations"
   ],
   "note": ""
  },
  {
   "property": "C24",
   "status": "proved",
   "theorems": [
    "C24_custom_condition_kept",
    "C24_custom_condition_known",
    "C24_custom_distribution_kept",
    "C24_custom_distribution_known"
   ],
   "note": ""
  },
  {
   "property": "C25",
   "status": "proved",
   "theorems": [
    "C25_message_size",
    "C25_message_size_refuted",
    "C25_nested_header_refuted"
   ],
   "note": "Exact law for all messages at any nesting: encoded_size = bytes written + 3 per header section. Finding: equality is false with a header (C25_message_size_refuted), and a nested message with a header gets a wrong length prefix, making the outer message unreadable (C25_nested_header_refuted)."
  },
  {
   "property": "C26",
   "status": "proved",
   "theorems": [
    "C26_round_trip",
    "C26_received",
    "C26_sequence_refuted"
   ],
   "note": "For messages whose sections are sendable (no sequences, lists or nested headers). Finding: a message with a sequence section cannot be read back (C26_sequence_refuted)."
  },
  {
   "property": "C27",
   "status": "proved",
   "theorems": [
    "C27_nested"
   ],
   "note": "For nested messages without headers; with a header see C25_nested_header_refuted."
  },
  {
   "property": "C28",
   "status": "proved",
   "theorems": [
    "C28_builders",
    "C28_builders_bytes",
    "C28_start",
    "C28_set_value_stale",
    "C28_set_value_refuted",
    "C28_encode_then_edit_refuted"
   ],
   "note": "Holds for every sequence of builder calls other than set_value, size questions and encodings. Findings: set_value leaves the memo stale (C28_set_value_refuted); a value set in a nested message after the outer one was encoded is read as the value of the outer message (C28_encode_then_edit_refuted)."
  },
  {
   "property": "C29",
   "status": "proved",
   "theorems": [
    "C29_observer",
    "C29_encode_observer",
    "C29_equality_refuted"
   ],
   "note": "Size and encoding do not change. Finding: the derived == compares the cache (C29_equality_refuted)."
  },
  {
   "property": "C30",
   "status": "proved",
   "theorems": [
    "C30_round_trip",
    "C30_read",
    "C30_mirrored_refuted",
    "C30_whole_second_refuted"
   ],
   "note": "Finding: false between -999 and -1 ms and for whole negative seconds (refutations); exact reading proved for every i64 (C30_read)."
  },
  {
   "property": "C31",
   "status": "proved",
   "theorems": [
    "C31_header_accepted",
    "C31_sasl_header_accepted",
    "C31_header_refused",
    "C31_cases"
   ],
   "note": ""
  },
  {
   "property": "C32",
   "status": "proved",
   "theorems": [
    "C32_frame_layout",
    "C32_sasl_frame_layout",
    "C32_frame_round_trip",
    "C32_sasl_frame_round_trip",
    "C32_frame_conforms",
    "C32_length_refuted"
   ],
   "note": "Round trip up to frame_canon, which only replaces values by ones equal to them (static symbols, message bodies by their bytes). Finding: a transfer whose message has a header section announces 3 bytes too many (C32_length_refuted)."
  },
  {
   "property": "C33",
   "status": "proved",
   "theorems": [
    "C33_frames_received",
    "C33_sasl_frames_received",
    "C33_any_frames",
    "C33_prompt"
   ],
   "note": "End to end: the stream encoder on any buffer, then the stream decoder under any chunking; also that frames are delivered as soon as complete. Received frames are the sent ones up to amqp_received (see C32)."
  },
  {
   "property": "C34",
   "status": "proved",
   "theorems": [
    "C34_chunks",
    "C34_two_chunkings",
    "C34_loop_ends"
   ],
   "note": ""
  },
  {
   "property": "C35",
   "status": "proved",
   "theorems": [
    "C35_frame_taken",
    "C35_body_taken",
    "C35_frame_given",
    "C35_no_waiting",
    "C35_nothing_lost",
    "C35_later_bytes",
    "C35_trailing_bytes"
   ],
   "note": ""
  },
  {
   "property": "C36",
   "status": "proved",
   "theorems": [
    "C36_not_reset",
    "C36_sasl_not_reset",
    "C36_recovery_refuted",
    "C36_stuck_refuted"
   ],
   "note": "Finding: the property is false. Proved: after any erroneous frame the decoder keeps the old length and never yields a next frame shorter than 16 MB; a concrete pair of frames; and after a frame of length 4 it returns the same error forever without consuming."
  },
  {
   "property": "C37",
   "status": "proved",
   "theorems": [
    "C37_small_length",
    "C37_debug_refuted",
    "C37_release_refuted"
   ],
   "note": "Lengths 4 to 7 are refused. Finding: lengths 0 to 3 panic in debug builds and block the stream forever in release builds, for every continuation."
  },
  {
   "property": "C38",
   "status": "proved",
   "theorems": [
    "C38_waits",
    "C38_cases",
    "C38_accepts",
    "C38_accepts_only",
    "C38_sends"
   ],
   "note": ""
  },
  {
   "property": "C39",
   "status": "proved",
   "theorems": [
    "C39_frame_fits",
    "C39_sasl_frame_fits",
    "C39_encoded_size_is_enough",
    "C39_stale_refuted"
   ],
   "note": "Holds for every frame whose message size memo is right, into every buffer. Finding: with a stale memo (set_value after encoded_size) the encoder panics (C39_stale_refuted)."
  },
  {
   "property": "C40",
   "status": "proved",
   "theorems": [
    "C40_injective"
   ],
   "note": ""
  },
  {
   "property": "C41",
   "status": "proved",
   "theorems": [
    "C41_terminates",
    "C41_depth",
    "C41_recursion",
    "C41_recursion_tight",
    "C41_no_constant_depth",
    "C41_frame_terminates",
    "C41_message_terminates"
   ],
   "note": ""
  },
  {
   "property": "C42",
   "status": "proved",
   "theorems": [
    "C42_nodes",
    "C42_array_amplification_refuted"
   ],
   "note": "True of generic values; refuted for arrays of zero-width booleans (C42_array_amplification_refuted)."
  },
  {
   "property": "C43",
   "status": "proved",
   "theorems": [
    "C43_payload_received",
    "C43_payload_sent",
    "C43_payload_counted",
    "C43_empty_is_absent",
    "C43_received_body",
    "C43_message_body"
   ],
   "note": "An empty body and an absent one have the same encoding; a received body is never empty."
  },
  {
   "property": "C44",
   "status": "proved",
   "theorems": [
    "C44_in_properties",
    "C44_out_properties"
   ],
   "note": "For every sequence of set operations."
  },
  {
   "property": "C45",
   "status": "proved",
   "theorems": [
    "C45_reply"
   ],
   "note": ""
  },
  {
   "property": "C46",
   "status": "proved",
   "theorems": [
    "C46_equal_iff_same_text",
    "C46_equivalence",
    "C46_order_same_storage",
    "C46_order_refuted"
   ],
   "note": "Equality proved an equivalence deciding text equality; finding: Ord disagrees with Eq across storage kinds (C46_order_refuted)."
  },
  {
   "property": "C47",
   "status": "proved",
   "theorems": [
    "C47_equivalence",
    "C47_same_value",
    "C47_floats",
    "C47_lookup",
    "C47_insert",
    "C47_insert_ok"
   ],
   "note": "C47_same_value states the exact meaning of ==; the equivalence laws follow."
  },
  {
   "property": "C48",
   "status": "proved",
   "theorems": [
    "C48_layout",
    "C48_unique"
   ],
   "note": ""
  },
  {
   "property": "C49",
   "status": "proved",
   "theorems": [
    "C49_sections",
    "C49_only_sections",
    "C49_order",
    "C49_unknown_section"
   ],
   "note": "Accepted sequences of sections exactly, order independence, and refusal of unknown sections."
  },
  {
   "property": "C50",
   "status": "proved",
   "theorems": [
    "C50_remainder",
    "C50_consumed_refuted"
   ],
   "note": "Finding: refuted. The remainder is always the bytes of the last section (C50_remainder)."
  },
  {
   "property": "C51",
   "status": "proved",
   "theorems": [
    "C51_other_codes_refused"
   ],
   "note": ""
  },
  {
   "property": "C52",
   "status": "proved",
   "theorems": [
    "C52_text_equality",
    "C52_static_symbol_refuted",
    "C52_as_str"
   ],
   "note": "Finding: a StaticSymbol is not text-comparable (C52_static_symbol_refuted)."
  },
  {
   "property": "C53",
   "status": "proved",
   "theorems": [
    "C53_exact_language"
   ],
   "note": "Finding: boolean 0x56 accepts any nonzero byte as true; included in the exact language."
  },
  {
   "property": "C54",
   "status": "proved",
   "theorems": [
    "C54_language",
    "C54_composites",
    "C54_unions",
    "C54_unique",
    "C54_unambiguous",
    "C54_standard"
   ],
   "note": "Frames, Transfer and messages are not part of this family; their grammars are in C68. A map has a grammar if equality of its keys is an equivalence (C13_key_equivalences)."
  },
  {
   "property": "C55",
   "status": "proved",
   "theorems": [
    "C55_layout",
    "C55_conforms",
    "C55_order",
    "C55_once",
    "C55_body"
   ],
   "note": ""
  },
  {
   "property": "C56",
   "status": "proved",
   "theorems": [
    "C56_set_header",
    "C56_set_properties",
    "C56_set_app_property",
    "C56_set_value",
    "C56_set_body",
    "C56_set_data",
    "C56_data",
    "C56_with_body",
    "C56_with_messages",
    "C56_transfer_body",
    "C56_update"
   ],
   "note": ""
  },
  {
   "property": "C57",
   "status": "proved",
   "theorems": [
    "C57_same_as_frame",
    "C57_round_trip",
    "C57_other_descriptors",
    "C57_size"
   ],
   "note": ""
  },
  {
   "property": "C58",
   "status": "proved",
   "theorems": [
    "C58_equal_hash_alike",
    "C58_told_apart",
    "C58_exact",
    "C58_descriptor",
    "C58_text",
    "C58_storage",
    "C58_panics",
    "C58_hashable"
   ],
   "note": "Hashing of OrderedFloat and String<Bytes> (external crates) is a parameter; C58_storage shows the assumption on String<Bytes> cannot be dropped. Finding: hashing a map panics (C58_panics)."
  },
  {
   "property": "C59",
   "status": "proved",
   "theorems": [
    "C59_resend",
    "C59_second_encoding",
    "C59_canonical_encoding",
    "C59_timestamp",
    "C59_descriptor_zero_refuted",
    "C59_frame_resend",
    "C59_sasl_frame_resend",
    "C59_stream",
    "C59_sasl_stream",
    "C59_message_resend",
    "C59_empty_message_refuted"
   ],
   "note": "Findings: a described value with descriptor 0 in long form is accepted but refused after being sent on (C59_descriptor_zero_refuted); a message without body gains an empty data section (C59_empty_message_refuted)."
  },
  {
   "property": "C60",
   "status": "proved",
   "theorems": [
    "C60_specification"
   ],
   "note": "The JSON text is transcribed as a value (SpecJson.v); the reading of it by serde is modelled. MessageId, ErrorCondition and Frame have hand-written code, whose tables are those of C21 to C24 and C31."
  },
  {
   "property": "C61",
   "status": "proved",
   "theorems": [
    "C61_generated_code",
    "C61_generated_decoder",
    "C61_crate_structs",
    "C61_crate_transfer",
    "C61_crate_unions",
    "C61_crate_sections",
    "C61_crate_enumerations",
    "C61_struct_size",
    "C61_enumeration_size",
    "C61_long_code_refuted",
    "C61_long_symbol_refuted"
   ],
   "note": "Findings: with a descriptor code above 255 the size is 7 too small (and 1 too large for code 0); with an enumeration symbol of 256 bytes or more it is 3 too small; the generator refuses neither (C61_long_code_refuted, C61_long_symbol_refuted). The specification file has no such type."
  },
  {
   "property": "C62",
   "status": "proved",
   "theorems": [
    "C62_type_name",
    "C62_type_name_distinct",
    "C62_member_name",
    "C62_field_name",
    "C62_function_name",
    "C62_type_name_refuted",
    "C62_function_name_refuted"
   ],
   "note": "Findings: names with capitals or other separators collide (C62_type_name_refuted); a one-letter word is joined to the next in function names (C62_function_name_refuted)."
  },
  {
   "property": "C63",
   "status": "proved",
   "theorems": [
    "C63_definitions"
   ],
   "note": "The order of the unions themselves is that of a HashMap and is not claimed."
  },
  {
   "property": "C64",
   "status": "proved",
   "theorems": [
    "C64_stops",
    "C64_no_strings",
    "C64_dropped_refuted",
    "C64_flaw_refuted"
   ],
   "note": "Findings: a described type that is neither a list nor restricted is dropped (C64_dropped_refuted); a described type with a flaw in a field is silently read as an alias (C64_flaw_refuted); is_str is never set (C64_no_strings)."
  },
  {
   "property": "C65",
   "status": "proved",
   "theorems": [
    "C65_parse",
    "C65_unique",
    "C65_reads"
   ],
   "note": "From the JSON value on; structs written as JSON arrays are outside the model."
  },
  {
   "property": "C66",
   "status": "proved",
   "theorems": [
    "C66_specification",
    "C66_type_identifier",
    "C66_member_identifier",
    "C66_keyword_refuted"
   ],
   "note": "Finding: of the Rust keywords only type and return are avoided, so a field named match would give code that does not compile (C66_keyword_refuted); specification.json has no such field."
  },
  {
   "property": "C67",
   "status": "proved",
   "theorems": [
    "C67_types",
    "C67_same",
    "C67_equivalence",
    "C67_size",
    "C67_round_trip",
    "C67_received",
    "C67_map_order",
    "C67_variant_map_order",
    "C67_in_message_same",
    "C67_in_message_equivalence",
    "C67_out_message_same",
    "C67_out_message_equivalence",
    "C67_message_size",
    "C67_message_asked",
    "C67_message_round_trip",
    "C67_messages_received",
    "C67_messages_received_refuted",
    "C67_frame_same",
    "C67_amqp_frame",
    "C67_frame_size",
    "C67_frame_round_trip",
    "C67_sasl_frame_round_trip",
    "C67_frames_received",
    "C67_frames_received_refuted"
   ],
   "note": "Findings: the memo of the size takes part in == (C67_message_asked); equal messages or frames that carry a message with a hash map in another order are received as different ones (C67_messages_received_refuted, C67_frames_received_refuted). Without carried messages equal frames are received equal; with them exactly if the bytes carried agree."
  },
  {
   "property": "C68",
   "status": "proved",
   "theorems": [
    "C68_exists",
    "C68_unique",
    "C68_frame",
    "C68_standard",
    "C68_amqp",
    "C68_sasl",
    "C68_message",
    "C68_stream",
    "C68_total",
    "C68_amqp_stream",
    "C68_sasl_stream",
    "C68_unambiguous",
    "C68_sasl_unambiguous"
   ],
   "note": "Grammars of the types inside are those of C54. The grammars describe what the crate reads, including what the standard does not allow (unused bytes inside the list of a composite). C68_stream assumes fewer than 2^63 bytes received in all: beyond that a frame announced with a length below four would come to its end in a build without overflow checks."
  },
  {
   "property": "C69",
   "status": "proved",
   "theorems": [
    "C69_types",
    "C69_composites",
    "C69_unions",
    "C69_frames",
    "C69_same",
    "C69_same_amqp",
    "C69_same_sasl",
    "C69_same_message",
    "C69_requests",
    "C69_requests_amqp",
    "C69_requests_sasl",
    "C69_requests_message",
    "C69_paid",
    "C69_paid_amqp",
    "C69_paid_sasl",
    "C69_paid_message",
    "C69_list_asks",
    "C69_map_asks",
    "C69_vec_map_asks",
    "C69_array_asks",
    "C69_bounded_refuted",
    "C69_nested",
    "C69_open_refuted",
    "C69_sasl_refuted",
    "C69_message_refuted",
    "C69_no_bytes"
   ],
   "note": "Bounded reservation is refuted for inputs that fail to decode (C69_bounded_refuted, C69_nested, C69_open_refuted). The decoders with capacities are a second model of decode.rs, proved to read the same as the first (C69_same*). Capacities count elements, not bytes; growth of a collection beyond its capacity is not modelled. The bound for decodings that succeed excludes arrays of booleans and unsigned numbers, for which C69_no_bytes shows it false; no composite, union or frame has such an array."
  },
  {
   "property": "C70",
   "status": "proved",
   "theorems": [
    "C70_final",
    "C70_amqp_final",
    "C70_sasl_final",
    "C70_message_final",
    "C70_panic_final",
    "C70_amqp_panic_final",
    "C70_sasl_panic_final",
    "C70_message_panic_final",
    "C70_incomplete",
    "C70_amqp_incomplete",
    "C70_sasl_incomplete",
    "C70_message_incomplete",
    "C70_cut",
    "C70_sasl_cut",
    "C70_amqp_cut",
    "C70_message_cut",
    "C70_truncated",
    "C70_truncated_panic_free",
    "C70_incomplete_refuted"
   ],
   "note": "The converse (Incomplete can be completed) is refuted: C70_incomplete_refuted. An AMQP frame cut short may also decode, but only to its header alone or to a shorter payload (C70_amqp_cut), because a frame decoder is given the whole frame; a message cut between sections decodes to the sections before (C70_message_cut). A cut map or array gives an index out of range instead of Incomplete (finding 3), hence the alternative in C70_cut."
  },
  {
   "property": "C71",
   "status": "proved",
   "theorems": [
    "C71_says",
    "C71_amqp",
    "C71_sasl",
    "C71_message"
   ],
   "note": "Soundness of errors: what is said holds of some part of the input; which of several flaws is reported is not specified. The position within the input is not part of the error and so not of the claim."
  },
  {
   "property": "C72",
   "status": "proved",
   "theorems": [
    "C72_binary",
    "C72_binary_exact",
    "C72_binary_refuted",
    "C72_text",
    "C72_text_exact",
    "C72_string",
    "C72_string_exact",
    "C72_symbol",
    "C72_symbol_exact",
    "C72_text_refuted",
    "C72_prefix",
    "C72_injection",
    "C72_smuggled",
    "C72_frame_refuted",
    "C72_message",
    "C72_message_smuggled",
    "C72_message_refuted"
   ],
   "note": "That every well-typed value comes back as sent is refuted (C72_binary_refuted, C72_text_refuted, C72_frame_refuted, C72_message_refuted, finding 24). Memory is not modelled: the witnesses need more than 4 GiB of it."
  },
  {
   "property": "C73",
   "status": "proved",
   "theorems": [
    "C73_conversation",
    "C73_received",
    "C73_only",
    "C73_complete",
    "C73_chunks",
    "C73_loop_ends",
    "C73_handshake",
    "C73_exchange",
    "C73_exchange_refuted",
    "C73_sasl_refuses",
    "C73_amqp_refuses",
    "C73_header_refuses",
    "C73_header_unnoticed"
   ],
   "note": "The loop is the contract of tokio Framed, which is outside the crate (DESIGN section 2). That a codec can be exchanged while it waits is refuted (C73_exchange_refuted, finding 25)."
  },
  {
   "property": "C74",
   "status": "proved",
   "theorems": [
    "C74_sent",
    "C74_read",
    "C74_sasl_sent",
    "C74_sasl_read",
    "C74_static_symbol_sent",
    "C74_described_sent",
    "C74_condition_symbol_sent",
    "C74_body_sent",
    "C74_condition_symbol_read_refuted",
    "C74_texts",
    "C74_texts_equal",
    "C74_text_variants",
    "C74_other_variants",
    "C74_unwrap",
    "C74_multiple",
    "C74_frame_parts",
    "C74_frame_name",
    "C74_frame_names_differ",
    "C74_empty_name",
    "C74_array_symbol",
    "C74_array_symbol_read",
    "C74_array_symbol_item",
    "C74_clone",
    "C74_clone_refuted"
   ],
   "note": "std::io::Error is a parameter. Refuted parts: a condition made of a standard name is received as the standard error (C74_condition_symbol_read_refuted, see C24), cloning drops an I/O error (C74_clone_refuted, finding 26)."
  },
  {
   "property": "C75",
   "status": "proved",
   "theorems": [
    "C75_work",
    "C75_consumed",
    "C75_amqp",
    "C75_sasl",
    "C75_message",
    "C75_reached",
    "C75_arrays_refuted"
   ],
   "note": "Same model as C69 (Reserve.v), which records both what is asked for and which values are begun; proved to read what the decoders read (C69_same*). Counted are values, not machine steps: what a decoder does for one value is a bounded number of steps plus copying and UTF-8 checking of bytes it consumes, and hashing of keys. For arrays of booleans and unsigned numbers the bound is refuted (C75_arrays_refuted, see finding 6); no composite, union or frame has such an array."
  },
  {
   "property": "C76",
   "status": "proved",
   "theorems": [
    "C76_every_struct",
    "C76_told",
    "C76_kept",
    "C76_transfer_told",
    "C76_transfer_kept",
    "C76_transfer_names",
    "C76_template_told",
    "C76_from_template"
   ],
   "note": "By value, by reference and as_ref are not distinguished. The table of a struct (names, order, defaults) is the one used for C17-C20 and shown to follow from specification.json (C60)."
  },
  {
   "property": "C77",
   "status": "proved",
   "theorems": [
    "C77_parse_apart",
    "C77_codec_apart",
    "C77_protocol_apart",
    "C77_number",
    "C77_value",
    "C77_message",
    "C77_amqp",
    "C77_sasl",
    "C77_names",
    "C77_incomplete",
    "C77_codec_texts",
    "C77_unexpected",
    "C77_protocol_texts",
    "C77_clone",
    "C77_clone_refuted",
    "C77_symbol_debug",
    "C77_symbol_text",
    "C77_symbols_text",
    "C77_descriptor_debug",
    "C77_symbols_debug_refuted",
    "C77_one_line_refuted"
   ],
   "note": "What is printed by uuid, std::str::Utf8Error and io::Error is a parameter. Refuted parts: the clone of an I/O error prints 'Io error: None' (finding 26); Debug of several symbols is ambiguous and a message can hold line breaks sent by the peer, because Debug for Str does not escape (finding 27)."
  },
  {
   "property": "C78",
   "status": "proved",
   "theorems": [
    "C78_same",
    "C78_asks",
    "C78_decoded",
    "C78_work",
    "C78_sasl_work",
    "C78_holds",
    "C78_unlimited",
    "C78_room",
    "C78_fits",
    "C78_fits_refuted"
   ],
   "note": "split_to and reserve of bytes 0.4 are modelled as: the room left does not shrink by split_to, and is at least what was asked for after reserve; any surplus (slack) is allowed. The part 'to fit the whole frame' (a comment in the code) is refuted for frames with more than 32768 bytes missing (C78_fits_refuted). The work bound uses C75, whose exclusion (arrays of elements without bytes) does not concern frames."
  },
  {
   "property": "C79",
   "status": "proved",
   "theorems": [
    "C79_types",
    "C79_messages",
    "C79_amqp_frames",
    "C79_sasl_frames",
    "C79_amqp_streams",
    "C79_sasl_streams",
    "C79_connections",
    "C79_list_wraps",
    "C79_map_wraps",
    "C79_array_wraps",
    "C79_composite_wraps",
    "C79_composite_waits",
    "C79_same_refuted"
   ],
   "note": "The condition on the input ([short]) is necessary for a difference, not sufficient. The part 'both builds accept the same input' is refuted (C79_same_refuted): End with a list header of size 0 swallows the 255 bytes after it."
  },
  {
   "property": "C80",
   "status": "proved",
   "theorems": [
    "C80_renders",
    "C80_blocks",
    "C80_unescaped",
    "C80_declares",
    "C80_functions",
    "C80_balanced",
    "C80_checked_in",
    "C80_trimmed",
    "C80_trimmed_checked_in"
   ],
   "note": "Layout is compared by [same_code] (RenderSpec): tokens, without the braces of a match arm with one expression, superfluous commas and semicolons, and the order of use items. Rustfmt itself is not modelled. Whether handlebars 0.27 leaves out lines that hold only a block tag cannot be read from the repository; both cases are covered (C80_trimmed)."
  },
  {
   "property": "C81",
   "status": "proved",
   "theorems": [
    "C81_delivered",
    "C81_pieces",
    "C81_fits",
    "C81_received",
    "C81_forwarded"
   ],
   "note": "The two applications, one that collects the transfers of a link and one that sends a message in pieces, are part of the specification (DeliverySpec), not code of the crate; they follow parts 2.6.12 to 2.6.14 and 2.7.5 of the standard. A frame is at most 66 bytes longer than its piece."
  },
  {
   "property": "C82",
   "status": "proved",
   "theorems": [
    "C82_same",
    "C82_measure",
    "C82_encode",
    "C82_bound",
    "C82_quadratic",
    "C82_linear_refuted"
   ],
   "note": "Counted are calls of Variant::encoded_size; Work.v writes the encoder of Variant once more with counters, and C82_same shows that it is the one of Encode.v. Only Variant is counted, not the composites and frames around it. What decoding costs is C75, its depth C41."
  }
 ]
}
