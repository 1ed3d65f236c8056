{
 "claims": [
  {
   "property": "C01",
   "status": "proved",
   "theorems": [
    "C01_write_fixed_string",
    "C01_write_fixed_string_no_room",
    "C01_default_form"
   ],
   "note": ""
  },
  {
   "property": "C02",
   "status": "proved",
   "theorems": [
    "C02_fixed_string_round_trip"
   ],
   "note": ""
  },
  {
   "property": "C03",
   "status": "proved",
   "theorems": [
    "C03_fitting_string_loses_only_pads",
    "C03_ascii_string_loses_tail_and_pads",
    "C03_default_forms"
   ],
   "note": ""
  },
  {
   "property": "C04",
   "status": "proved",
   "theorems": [
    "C04_read_fixed_string",
    "C04_value",
    "C04_default_value",
    "C04_negative_length_throws"
   ],
   "note": ""
  },
  {
   "property": "C05",
   "status": "proved",
   "theorems": [
    "C05_trim_left",
    "C05_trim_right",
    "C05_trim_idempotent"
   ],
   "note": ""
  },
  {
   "property": "C06",
   "status": "proved",
   "theorems": [
    "C06_byte_map_is_a_set",
    "C06_short_map_is_a_set",
    "C06_new_map_empty",
    "C06_positions_determine_map"
   ],
   "note": ""
  },
  {
   "property": "C07",
   "status": "proved",
   "theorems": [
    "C07_int_clear_sets",
    "C07_long_clear_sets",
    "C07_int_never_unset",
    "C07_long_never_unset",
    "C07_clear_unsets_refuted"
   ],
   "note": ""
  },
  {
   "property": "C08",
   "status": "proved",
   "theorems": [
    "C08_byte_write",
    "C08_byte_round_trip",
    "C08_byte_read_short"
   ],
   "note": ""
  },
  {
   "property": "C09",
   "status": "proved",
   "theorems": [
    "C09_short_write",
    "C09_short_round_trip",
    "C09_round_trip_refuted"
   ],
   "note": ""
  },
  {
   "property": "C10",
   "status": "proved",
   "theorems": [
    "C10_int_round_trip",
    "C10_long_round_trip",
    "C10_write_room",
    "C10_round_trip_refuted"
   ],
   "note": ""
  },
  {
   "property": "C11",
   "status": "proved",
   "theorems": [
    "C11_int_read_stops",
    "C11_long_read_stops",
    "C11_runs_out",
    "C11_terminates",
    "C11_long_terminates"
   ],
   "note": ""
  },
  {
   "property": "C12",
   "status": "proved",
   "theorems": [
    "C12_sum_modulo_256",
    "C12_equals_c_code"
   ],
   "note": ""
  },
  {
   "property": "C13",
   "status": "proved",
   "theorems": [
    "C13_crc16_is_modbus"
   ],
   "note": ""
  },
  {
   "property": "C14",
   "status": "proved",
   "theorems": [
    "C14_crc32_is_iso_hdlc",
    "C14_services_are_functions_of_readable_bytes"
   ],
   "note": ""
  },
  {
   "property": "C15",
   "status": "proved",
   "theorems": [
    "C15_crc16_detects_bursts",
    "C15_crc32_detects_bursts",
    "C15_byte_window",
    "C15_sums_detect_one_byte",
    "C15_sums_miss_swaps"
   ],
   "note": ""
  },
  {
   "property": "C16",
   "status": "proved",
   "theorems": [
    "C16_crc16_residue",
    "C16_crc32_residue",
    "C16_receiver_check",
    "C16_root_packet_frame_residue"
   ],
   "note": ""
  },
  {
   "property": "C17",
   "status": "proved",
   "theorems": [
    "C17_verify_iff",
    "C17_verify_library"
   ],
   "note": ""
  },
  {
   "property": "C18",
   "status": "proved",
   "theorems": [
    "C18_first_registration_wins",
    "C18_null_if_none",
    "C18_answer",
    "C18_initially",
    "C18_other_names"
   ],
   "note": ""
  },
  {
   "property": "C19",
   "status": "proved",
   "theorems": [
    "C19_one_after_the_other",
    "C19_refuted",
    "C19_all_may_get_true",
    "C19_every_interleaving",
    "C19_atomic_calls"
   ],
   "note": ""
  },
  {
   "property": "C20",
   "status": "proved",
   "theorems": [
    "C20_last_registration_wins",
    "C20_otherwise_illegal_argument",
    "C20_remove_answers_presence",
    "C20_factories_independent",
    "C20_factory_changes"
   ],
   "note": ""
  },
  {
   "property": "C21",
   "status": "proved",
   "theorems": [
    "C21_initially_one_to_one",
    "C21_message_types",
    "C21_from_value_otherwise",
    "C21_after_any_history",
    "C21_remove_refuted",
    "C21_register_refuted",
    "C21_values"
   ],
   "note": ""
  },
  {
   "property": "C22",
   "status": "proved",
   "theorems": [
    "C22_round_trip"
   ],
   "note": ""
  },
  {
   "property": "C23",
   "status": "proved",
   "theorems": [
    "C23_encode_appends_wire_form",
    "C23_declaration_order"
   ],
   "note": ""
  },
  {
   "property": "C24",
   "status": "proved",
   "theorems": [
    "C24_consumes_what_encode_wrote",
    "C24_streams"
   ],
   "note": ""
  },
  {
   "property": "C25",
   "status": "proved",
   "theorems": [
    "C25_injective_and_prefix_free"
   ],
   "note": ""
  },
  {
   "property": "C26",
   "status": "proved",
   "theorems": [
    "C26_length_field_measures_body",
    "C26_bjse_writes_stored_values",
    "C26_bjse_refuted"
   ],
   "note": ""
  },
  {
   "property": "C27",
   "status": "proved",
   "theorems": [
    "C27_checksum_covers_unread_bytes",
    "C27_own_checksum_if_nothing_unread",
    "C27_own_checksum_refuted"
   ],
   "note": ""
  },
  {
   "property": "C28",
   "status": "proved",
   "theorems": [
    "C28_no_exchange_service_initially",
    "C28_stored_checksum_without_service",
    "C28_byte_sum_with_service"
   ],
   "note": ""
  },
  {
   "property": "C29",
   "status": "proved",
   "theorems": [
    "C29_length_and_checksum_ignored",
    "C29_corrupted_frame_rejected_refuted"
   ],
   "note": ""
  },
  {
   "property": "C30",
   "status": "proved",
   "theorems": [
    "C30_truncated_message_rejected",
    "C30_spare_capacity_refuted"
   ],
   "note": ""
  },
  {
   "property": "C31",
   "status": "proved",
   "theorems": [
    "C31_decode_is_total",
    "C31_nesting_at_most_4",
    "C31_nesting_bounded_by_input"
   ],
   "note": ""
  },
  {
   "property": "C32",
   "status": "proved",
   "theorems": [
    "C32_collections_bounded_by_input",
    "C32_new_objects"
   ],
   "note": ""
  },
  {
   "property": "C33",
   "status": "proved",
   "theorems": [
    "C33_unknown_tag",
    "C33_covers",
    "C33_unknown_tag_after_values",
    "C33_values_cover_all"
   ],
   "note": ""
  },
  {
   "property": "C34",
   "status": "proved",
   "theorems": [
    "C34_any_bytes",
    "C34_overwritten",
    "C34_value",
    "C34_stale_refuted"
   ],
   "note": ""
  },
  {
   "property": "C35",
   "status": "proved",
   "theorems": [
    "C35_prefix_written",
    "C35_never_decoded",
    "C35_strings_not_read_back"
   ],
   "note": ""
  },
  {
   "property": "C36",
   "status": "proved",
   "theorems": [
    "C36_empty_elements_dropped"
   ],
   "note": ""
  },
  {
   "property": "C37",
   "status": "proved",
   "theorems": [
    "C37_null_parts_throw",
    "C37_null_string_list_body_allowed",
    "C37_no_null_after_decode",
    "C37_null_body_never_read_back",
    "C37_null_body_is_shorter"
   ],
   "note": ""
  },
  {
   "property": "C38",
   "status": "proved",
   "theorems": [
    "C38_only_length_and_checksum_change",
    "C38_plain_classes_unchanged",
    "C38_encoding_again"
   ],
   "note": ""
  },
  {
   "property": "C39",
   "status": "proved",
   "theorems": [
    "C39_failed_encode_keeps_content",
    "C39_complete_objects_throw_only_without_room"
   ],
   "note": ""
  },
  {
   "property": "C40",
   "status": "proved",
   "theorems": [
    "C40_equals_iff",
    "C40_field_wise",
    "C40_null",
    "C40_reflexive",
    "C40_symmetric",
    "C40_transitive",
    "C40_decoded_equals",
    "C40_decoded_equals_refuted"
   ],
   "note": ""
  },
  {
   "property": "C41",
   "status": "proved",
   "theorems": [
    "C41_hash_value",
    "C41_equal_objects_equal_hashes",
    "C41_terminates_iff",
    "C41_void_refuted",
    "C41_containing_void_refuted"
   ],
   "note": ""
  },
  {
   "property": "C42",
   "status": "proved",
   "theorems": [
    "C42_statements",
    "C42_every_class_has_a_protocol",
    "C42_written",
    "C42_read"
   ],
   "note": ""
  },
  {
   "property": "C43",
   "status": "proved",
   "theorems": [
    "C43_encoded_size",
    "C43_constant_size"
   ],
   "note": ""
  },
  {
   "property": "C44",
   "status": "proved",
   "theorems": [
    "C44_encoding_is_utf8",
    "C44_valid_round_trip",
    "C44_concatenation",
    "C44_unpaired_surrogate",
    "C44_decode_valid",
    "C44_ascii",
    "C44_malformed"
   ],
   "note": ""
  },
  {
   "property": "C45",
   "status": "proved",
   "theorems": [
    "C45_tables_unambiguous",
    "C45_one_table_per_class",
    "C45_tags_can_be_read",
    "C45_dispatch"
   ],
   "note": ""
  },
  {
   "property": "C46",
   "status": "proved",
   "theorems": [
    "C46_same_bytes",
    "C46_ascii",
    "C46_cut_character_refuted",
    "C46_left_pads_refuted",
    "C46_empty_element_refuted"
   ],
   "note": ""
  },
  {
   "property": "C47",
   "status": "proved",
   "theorems": [
    "C47_left_padded_empty_writes_nothing",
    "C47_always_len_bytes_refuted",
    "C47_reader_takes_what_follows"
   ],
   "note": ""
  },
  {
   "property": "C48",
   "status": "proved",
   "theorems": [
    "C48_byte_outside",
    "C48_short_outside",
    "C48_modulo",
    "C48_bit_count",
    "C48_get_outside_false_refuted"
   ],
   "note": ""
  },
  {
   "property": "C49",
   "status": "proved",
   "theorems": [
    "C49_crc16_parity",
    "C49_crc16_detects_odd",
    "C49_crc16_detects_two_bits",
    "C49_crc32_detects_two_bits",
    "C49_crc16_misses_at_32767"
   ],
   "note": ""
  },
  {
   "property": "C50",
   "status": "proved",
   "theorems": [
    "C50_first_part",
    "C50_retry",
    "C50_spare_capacity_refuted"
   ],
   "note": ""
  },
  {
   "property": "C51",
   "status": "proved",
   "theorems": [
    "C51_decode_sees_only_unread_bytes",
    "C51_spare_capacity_refuted",
    "C51_encode_same_bytes"
   ],
   "note": ""
  },
  {
   "property": "C52",
   "status": "proved",
   "theorems": [
    "C52_stack",
    "C52_encode_needs"
   ],
   "note": ""
  },
  {
   "property": "C53",
   "status": "proved",
   "theorems": [
    "C53_stream_cut_into_frames",
    "C53_bjse_refuted"
   ],
   "note": ""
  },
  {
   "property": "C54",
   "status": "proved",
   "theorems": [
    "C54_to_string",
    "C54_equal_same_text",
    "C54_text_tells",
    "C54_ambiguous_refuted"
   ],
   "note": ""
  },
  {
   "property": "C55",
   "status": "proved",
   "theorems": [
    "C55_getters",
    "C55_setters",
    "C55_set_get",
    "C55_new_object"
   ],
   "note": ""
  },
  {
   "property": "C56",
   "status": "proved",
   "theorems": [
    "C56_encode_unfolds",
    "C56_copies_agree",
    "C56_unshared_exact"
   ],
   "note": ""
  },
  {
   "property": "C57",
   "status": "proved",
   "theorems": [
    "C57_encode_frame"
   ],
   "note": ""
  },
  {
   "property": "C58",
   "status": "proved",
   "theorems": [
    "C58_decode_unshared",
    "C58_decode_fresh"
   ],
   "note": ""
  },
  {
   "property": "C59",
   "status": "proved",
   "theorems": [
    "C59_decode_unfolds_refuted"
   ],
   "note": ""
  },
  {
   "property": "C60",
   "status": "proved",
   "theorems": [
    "C60_tree_or_cycle",
    "C60_cycle_never_returns",
    "C60_frames_needed",
    "C60_equals_returns_refuted"
   ],
   "note": ""
  },
  {
   "property": "C61",
   "status": "proved",
   "theorems": [
    "C61_hash_and_text_unfold",
    "C61_equals_unfolds",
    "C61_equals_itself"
   ],
   "note": ""
  },
  {
   "property": "C62",
   "status": "proved",
   "theorems": [
    "C62_decode_frame",
    "C62_decode_spares_others"
   ],
   "note": ""
  },
  {
   "property": "C63",
   "status": "proved",
   "theorems": [
    "C63_decode_keeps_types",
    "C63_decode_ignores_the_old_object",
    "C63_decode_exceptions",
    "C63_four_frames_decode_any_object",
    "C63_encode_keeps_types"
   ],
   "note": ""
  },
  {
   "property": "C64",
   "status": "proved",
   "theorems": [
    "C64_decode_untangles",
    "C64_no_cycle_is_left",
    "C64_failed_decode_untangles_refuted"
   ],
   "note": ""
  },
  {
   "property": "C65",
   "status": "proved",
   "theorems": [
    "C65_private_names",
    "C65_services_are_registered",
    "C65_never_null_again",
    "C65_queries_agree_refuted",
    "C65_true_means_mine_refuted"
   ],
   "note": ""
  },
  {
   "property": "C66",
   "status": "proved",
   "theorems": [
    "C66_private_types",
    "C66_private_classes",
    "C66_known_types_create",
    "C66_created_classes_known_refuted",
    "C66_registrations_serialise_refuted"
   ],
   "note": ""
  },
  {
   "property": "C67",
   "status": "proved",
   "theorems": [
    "C67_encode_together",
    "C67_encoders_end",
    "C67_alone",
    "C67_any_buffers_refuted"
   ],
   "note": ""
  },
  {
   "property": "C68",
   "status": "proved",
   "theorems": [
    "C68_set_changes_its_own_bytes",
    "C68_field_offset",
    "C68_corruption_is_local",
    "C68_corrupted_tag_refuted"
   ],
   "note": ""
  },
  {
   "property": "C69",
   "status": "proved",
   "theorems": [
    "C69_what_is_set_arrives"
   ],
   "note": ""
  },
  {
   "property": "C70",
   "status": "proved",
   "theorems": [
    "C70_library_messages_encode",
    "C70_library_messages_decode",
    "C70_every_body",
    "C70_user_body",
    "C70_user_body_decoded",
    "C70_user_round_trip"
   ],
   "note": ""
  },
  {
   "property": "C71",
   "status": "proved",
   "theorems": [
    "C71_services_are_called_by",
    "C71_any_service",
    "C71_service_leaving_the_buffer_alone",
    "C71_encode_only_appends_refuted"
   ],
   "note": ""
  },
  {
   "property": "C72",
   "status": "proved",
   "theorems": [
    "C72_text_reads_as_tree",
    "C72_program_is_the_files",
    "C72_model_classes_are_in_the_files",
    "C72_names_are_distinct"
   ],
   "note": ""
  },
  {
   "property": "C73",
   "status": "proved",
   "theorems": [
    "C73_classes_initialise"
   ],
   "note": ""
  },
  {
   "property": "C74",
   "status": "proved",
   "theorems": [
    "C74_calls"
   ],
   "note": ""
  },
  {
   "property": "C75",
   "status": "proved",
   "theorems": [
    "C75_services",
    "C75_verify"
   ],
   "note": ""
  },
  {
   "property": "C76",
   "status": "proved",
   "theorems": [
    "C76_new",
    "C76_positions",
    "C76_round_trip"
   ],
   "note": ""
  },
  {
   "property": "C77",
   "status": "proved",
   "theorems": [
    "C77_encode",
    "C77_any_graph"
   ],
   "note": ""
  },
  {
   "property": "C78",
   "status": "proved",
   "theorems": [
    "C78_decode"
   ],
   "note": ""
  },
  {
   "property": "C79",
   "status": "proved",
   "theorems": [
    "C79_round_trip"
   ],
   "note": ""
  },
  {
   "property": "C80",
   "status": "proved",
   "theorems": [
    "C80_hash_code",
    "C80_to_string",
    "C80_equals",
    "C80_equals_null",
    "C80_copy_equals",
    "C80_getters",
    "C80_setters"
   ],
   "note": ""
  },
  {
   "property": "C81",
   "status": "proved",
   "theorems": [
    "C81_clients_do_not_go_wrong"
   ],
   "note": ""
  },
  {
   "property": "C82",
   "status": "proved",
   "theorems": [
    "C82_copies_in_programs"
   ],
   "note": ""
  },
  {
   "property": "C83",
   "status": "proved",
   "theorems": [
    "C83_tokens_determine_the_tree",
    "C83_parsing",
    "C83_text_has_one_tree"
   ],
   "note": ""
  },
  {
   "property": "C84",
   "status": "proved",
   "theorems": [
    "C84_as_alone",
    "C84_workers_end",
    "C84_alike",
    "C84_same_message_refuted"
   ],
   "note": ""
  },
  {
   "property": "C85",
   "status": "proved",
   "theorems": [
    "C85_streams"
   ],
   "note": ""
  },
  {
   "property": "C86",
   "status": "proved",
   "theorems": [
    "C86_answers",
    "C86_integrity",
    "C86_exchanged_bytes_refuted"
   ],
   "note": ""
  },
  {
   "property": "C87",
   "status": "proved",
   "theorems": [
    "C87_one_outcome",
    "C87_found",
    "C87_larger_stack",
    "C87_smaller_stack"
   ],
   "note": ""
  },
  {
   "property": "C88",
   "status": "proved",
   "theorems": [
    "C88_extends",
    "C88_foreign",
    "C88_method",
    "C88_static",
    "C88_new",
    "C88_locals",
    "C88_others",
    "C88_start",
    "C88_view",
    "C88_encode"
   ],
   "note": ""
  },
  {
   "property": "C89",
   "status": "proved",
   "theorems": [
    "C89_decode",
    "C89_encode"
   ],
   "note": ""
  },
  {
   "property": "C90",
   "status": "proved",
   "theorems": [
    "C90_running",
    "C90_any_graph",
    "C90_user_body",
    "C90_start"
   ],
   "note": ""
  },
  {
   "property": "C91",
   "status": "proved",
   "theorems": [
    "C91_register",
    "C91_register_sse",
    "C91_sse_type",
    "C91_supplied",
    "C91_any_graph",
    "C91_user_body_decoded",
    "C91_round_trip"
   ],
   "note": ""
  },
  {
   "property": "C92",
   "status": "proved",
   "theorems": [
    "C92_pieces",
    "C92_spare_capacity_refuted"
   ],
   "note": ""
  },
  {
   "property": "C93",
   "status": "proved",
   "theorems": [
    "C93_start",
    "C93_touch",
    "C93_call",
    "C93_static",
    "C93_new",
    "C93_session",
    "C93_any_order",
    "C93_first_message"
   ],
   "note": ""
  },
  {
   "property": "C94",
   "status": "proved",
   "theorems": [
    "C94_torn",
    "C94_frame",
    "C94_ends",
    "C94_setters_stay",
    "C94_snapshot_refuted",
    "C94_null_refuted"
   ],
   "note": ""
  },
  {
   "property": "C95",
   "status": "proved",
   "theorems": [
    "C95_either",
    "C95_order",
    "C95_last",
    "C95_grow",
    "C95_parts_refuted"
   ],
   "note": ""
  },
  {
   "property": "C96",
   "status": "proved",
   "theorems": [
    "C96_gateway"
   ],
   "note": ""
  },
  {
   "property": "C97",
   "status": "proved",
   "theorems": [
    "C97_injective",
    "C97_size",
    "C97_same_bytes_equal"
   ],
   "note": ""
  },
  {
   "property": "C98",
   "status": "proved",
   "theorems": [
    "C98_one_registry",
    "C98_ends",
    "C98_unconcerned",
    "C98_start_or_end_refuted",
    "C98_frame_in_frame_refuted"
   ],
   "note": ""
  },
  {
   "property": "C99",
   "status": "proved",
   "theorems": [
    "C99_one_state_each",
    "C99_ends",
    "C99_others_unchanged",
    "C99_one_moment_refuted",
    "C99_layered_needed_refuted"
   ],
   "note": ""
  },
  {
   "property": "C100",
   "status": "proved",
   "theorems": [
    "C100_encode",
    "C100_decode",
    "C100_hash_and_text",
    "C100_equals_sound",
    "C100_equals_class",
    "C100_equals_exact",
    "C100_decoded",
    "C100_round_trip_refuted"
   ],
   "note": ""
  },
  {
   "property": "C101",
   "status": "proved",
   "theorems": [
    "C101_by_content",
    "C101_encode_keeps",
    "C101_decoded_finds",
    "C101_encoded_frame_refuted",
    "C101_void_refuted"
   ],
   "note": ""
  },
  {
   "property": "C102",
   "status": "proved",
   "theorems": [
    "C102_as_alone",
    "C102_encode",
    "C102_decode",
    "C102_sender",
    "C102_receiver",
    "C102_ends",
    "C102_all_calls_end",
    "C102_in_and_out"
   ],
   "note": ""
  }
 ]
}
