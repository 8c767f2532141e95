{
 "claims": [
  {
   "property": "C01",
   "status": "proved",
   "theorems": [
    "C01_escape_unescape_identity",
    "C01_escape_error_iff",
    "C01_escape_error_kind",
    "C01_escape_injective",
    "C01_escape_table"
   ],
   "note": "Escaping is lossless"
  },
  {
   "property": "C02",
   "status": "proved",
   "theorems": [
    "C02_escaped_shape",
    "C02_stream_splits_uniquely"
   ],
   "note": "Escaped telegrams are self-delimiting"
  },
  {
   "property": "C03",
   "status": "proved",
   "theorems": [
    "C03_unescape_reads",
    "C03_unescape_error_iff",
    "C03_unescape_total_on_cut_telegrams",
    "C03_unescape_never_grows"
   ],
   "note": "Unescaping is total on received telegrams"
  },
  {
   "property": "C04",
   "status": "proved",
   "theorems": [
    "C04_lrc_is_xor",
    "C04_checksum_is_sum_mod_256",
    "C04_drc_is_xor_of_rotations",
    "C04_codes_are_bytes"
   ],
   "note": "Redundancy codes compute the documented functions"
  },
  {
   "property": "C05",
   "status": "proved",
   "theorems": [
    "C05_crc_is_modbus_swapped",
    "C05_crc_fits_two_bytes"
   ],
   "note": "CRC is CRC-16/MODBUS with the bytes swapped"
  },
  {
   "property": "C06",
   "status": "proved",
   "theorems": [
    "C06_crc_detects_16_bit_bursts",
    "C06_crc_detects_two_adjacent_bytes",
    "C06_window_is_tight"
   ],
   "note": "CRC detects bursts"
  },
  {
   "property": "C07",
   "status": "proved",
   "theorems": [
    "C07_response_single_byte_corruption_rejected",
    "C07_request_single_byte_corruption_rejected"
   ],
   "note": "Every single-byte corruption of a telegram is rejected"
  },
  {
   "property": "C08",
   "status": "proved",
   "theorems": [
    "C08_adjacent_exchange_rejected",
    "C08_adjacent_exchange_rejected_request",
    "C08_complement_exchange_undetected",
    "C08_two_bit_flips_rejected",
    "C08_two_bit_flips_undetected"
   ],
   "note": "Multi-byte corruption: what the redundancy codes catch"
  },
  {
   "property": "C09",
   "status": "proved",
   "theorems": [
    "C09_response_roundtrip",
    "C09_to_bytes_injective"
   ],
   "note": "Response telegrams round-trip"
  },
  {
   "property": "C10",
   "status": "proved",
   "theorems": [
    "C10_request_roundtrip_refuted",
    "C10_request_roundtrip_swapped",
    "C10_request_roundtrip_iff_palindrome"
   ],
   "note": "Request telegrams round-trip"
  },
  {
   "property": "C11",
   "status": "proved",
   "theorems": [
    "C11_response_layout",
    "C11_request_layout",
    "C11_service_numbers",
    "C11_service_lookup",
    "C11_service_numbers_distinct"
   ],
   "note": "Telegram layout and range errors"
  },
  {
   "property": "C12",
   "status": "proved",
   "theorems": [
    "C12_accepted_is_canonical",
    "C12_runt_accepted_refuted"
   ],
   "note": "Accepted telegrams are canonical"
  },
  {
   "property": "C13",
   "status": "proved",
   "theorems": [
    "C13_response_errors",
    "C13_request_errors",
    "C13_factory_errors",
    "C13_factory_plain_iff_0x86",
    "C13_factory_encrypted_iff_0x87"
   ],
   "note": "Telegram parsers raise only ValueError"
  },
  {
   "property": "C14",
   "status": "proved",
   "theorems": [
    "C14_bcd_roundtrip",
    "C14_to_bcd_digits",
    "C14_to_bcd_negative",
    "C14_from_bcd_value",
    "C14_from_bcd_error",
    "C14_decimal_digits_unique"
   ],
   "note": "BCD conversion"
  },
  {
   "property": "C15",
   "status": "proved",
   "theorems": [
    "C15_datetime_roundtrip",
    "C15_datetime_layout"
   ],
   "note": "Device timestamps round-trip"
  },
  {
   "property": "C16",
   "status": "proved",
   "theorems": [
    "C16_before_2000_rejected",
    "C16_always_six_bytes_refuted"
   ],
   "note": "Timestamps outside the century"
  },
  {
   "property": "C17",
   "status": "proved",
   "theorems": [
    "C17_decoding_accepts_exactly",
    "C17_decoding_error",
    "C17_decoding_canonical"
   ],
   "note": "Timestamp decoding"
  },
  {
   "property": "C18",
   "status": "proved",
   "theorems": [
    "C18_padded_password",
    "C18_all_paddings",
    "C18_password_field_length",
    "C18_always_ten_bytes_refuted"
   ],
   "note": "Password padding"
  },
  {
   "property": "C19",
   "status": "proved",
   "theorems": [
    "C19_read_values_layout",
    "C19_read_time_layout",
    "C19_write_time_layout",
    "C19_read_parameters_layout",
    "C19_read_archive_by_time_layout",
    "C19_read_archive_layout",
    "C19_services",
    "C19_errors",
    "C19_unique"
   ],
   "note": "Request PDU layout"
  },
  {
   "property": "C20",
   "status": "proved",
   "theorems": [
    "C20_cryout_distinguishable_refuted"
   ],
   "note": "The cryout argument"
  },
  {
   "property": "C21",
   "status": "proved",
   "theorems": [
    "C21_archive_response_exact_below_2_24",
    "C21_record_id_refuted",
    "C21_unknown_archive_rejected",
    "C21_truncated_response_rejected_refuted",
    "C21_empty_response_rejected"
   ],
   "note": "Archive responses report the record id"
  },
  {
   "property": "C22",
   "status": "proved",
   "theorems": [
    "C22_values_split",
    "C22_values_short_rejected",
    "C22_values_bad_time_rejected",
    "C22_time_split",
    "C22_time_short_rejected",
    "C22_time_truncated_rejected_refuted",
    "C22_parameters_split",
    "C22_parameters_short_rejected"
   ],
   "note": "Value and time responses are split without loss"
  },
  {
   "property": "C23",
   "status": "proved",
   "theorems": [
    "C23_readable_registration_accepted",
    "C23_accepted_is_readable",
    "C23_other_rejected",
    "C23_time_unique"
   ],
   "note": "Call-to-dispatch registration decoding"
  },
  {
   "property": "C24",
   "status": "proved",
   "theorems": [
    "C24_ids_exact_iff_no_leading_zero",
    "C24_ids_exact_refuted"
   ],
   "note": "SIM and modem ids keep their digits"
  },
  {
   "property": "C25",
   "status": "proved",
   "theorems": [
    "C25_decrypt_encrypt",
    "C25_other_key_sizes_encrypt",
    "C25_other_key_sizes_decrypt",
    "C25_too_long"
   ],
   "note": "Encryption round-trips"
  },
  {
   "property": "C26",
   "status": "proved",
   "theorems": [
    "C26_payload_format",
    "C26_payload_content",
    "C26_crc_method"
   ],
   "note": "Encrypted payload format"
  },
  {
   "property": "C27",
   "status": "proved",
   "theorems": [
    "C27_accepted_iff_sealed",
    "C27_other_key_id_rejected",
    "C27_changed_length_rejected",
    "C27_ragged_ciphertext_rejected",
    "C27_errors"
   ],
   "note": "Tampered encrypted payloads are rejected"
  },
  {
   "property": "C28",
   "status": "proved",
   "theorems": [
    "C28_key_and_id_always_encrypts",
    "C28_no_key_or_no_id_always_plain",
    "C28_key_means_encryption_refuted"
   ],
   "note": "Encryption is used exactly when configured"
  },
  {
   "property": "C29",
   "status": "proved",
   "theorems": [
    "C29_one_outstanding_request",
    "C29_refused_send_changes_nothing",
    "C29_any_event_refuted"
   ],
   "note": "One outstanding request"
  },
  {
   "property": "C30",
   "status": "proved",
   "theorems": [
    "C30_delivery_independent_of_chunks",
    "C30_escaped_telegrams_read_back"
   ],
   "note": "Delivery does not depend on how bytes arrive"
  },
  {
   "property": "C31",
   "status": "proved",
   "theorems": [
    "C31_sent_bytes_decode"
   ],
   "note": "Sent bytes decode to the request"
  },
  {
   "property": "C32",
   "status": "proved",
   "theorems": [
    "C32_device_error_iff_flag",
    "C32_flag_raises"
   ],
   "note": "Device errors become the documented exception"
  },
  {
   "property": "C33",
   "status": "proved",
   "theorems": [
    "C33_recovery_after_device_error_refuted"
   ],
   "note": "Recovery after a device error"
  },
  {
   "property": "C34",
   "status": "proved",
   "theorems": [
    "C34_only_valid_telegrams_delivered",
    "C34_runts_rejected_refuted",
    "C34_resynchronisation_refuted",
    "C34_invalid_telegram_blocks_refuted"
   ],
   "note": "Corrupt telegrams are never delivered; recovery from line noise"
  },
  {
   "property": "C35",
   "status": "proved",
   "theorems": [
    "C35_delivery_depends_on_first_telegram",
    "C35_rest_kept_refuted"
   ],
   "note": "Bytes after a delivered telegram"
  },
  {
   "property": "C36",
   "status": "proved",
   "theorems": [
    "C36_receive_data"
   ],
   "note": "Stray end characters"
  },
  {
   "property": "C37",
   "status": "proved",
   "theorems": [
    "C37_failed_send_leaves_no_trace_refuted",
    "C37_refusal_leaves_no_trace"
   ],
   "note": "A send that raises leaves no trace"
  },
  {
   "property": "C38",
   "status": "proved",
   "theorems": [
    "C38_construction_iff_in_range",
    "C38_construction_error",
    "C38_send_succeeds"
   ],
   "note": "Connection construction validates its ranges"
  },
  {
   "property": "C39",
   "status": "proved",
   "theorems": [
    "C39_exceptions",
    "C39_unchanged_unless_delivered"
   ],
   "note": "next_event exceptions"
  },
  {
   "property": "C40",
   "status": "proved",
   "theorems": [
    "C40_conversation"
   ],
   "note": "Client operations against a conforming device"
  },
  {
   "property": "C41",
   "status": "proved",
   "theorems": [
    "C41_parameters_paged"
   ],
   "note": "Parameter paging"
  },
  {
   "property": "C42",
   "status": "proved",
   "theorems": [
    "C42_parameters_terminate",
    "C42_termination_refuted"
   ],
   "note": "Parameter paging terminates"
  },
  {
   "property": "C43",
   "status": "proved",
   "theorems": [
    "C43_parse_block",
    "C43_first_error",
    "C43_terminates",
    "C43_no_data"
   ],
   "note": "Parameter block parsing"
  },
  {
   "property": "C44",
   "status": "proved",
   "theorems": [
    "C44_short_length_raises",
    "C44_unknown_type_raises",
    "C44_type_codes",
    "C44_type_lookup",
    "C44_cut_header_raises",
    "C44_overlong_accepted",
    "C44_accepted_blocks"
   ],
   "note": "Malformed parameter blocks are rejected"
  },
  {
   "property": "C45",
   "status": "proved",
   "theorems": [
    "C45_fields",
    "C45_attribute"
   ],
   "note": "Parameter fields are read at their offsets"
  },
  {
   "property": "C46",
   "status": "proved",
   "theorems": [
    "C46_accepted_lengths",
    "C46_other_lengths",
    "C46_every_length",
    "C46_shorter_raises"
   ],
   "note": "Parameter object lengths"
  },
  {
   "property": "C47",
   "status": "proved",
   "theorems": [
    "C47_readable",
    "C47_registered_class",
    "C47_unreadable",
    "C47_unreadable_block"
   ],
   "note": "Every listed parameter type can be parsed"
  },
  {
   "property": "C48",
   "status": "proved",
   "theorems": [
    "C48_control_bits"
   ],
   "note": "Control bits"
  },
  {
   "property": "C49",
   "status": "proved",
   "theorems": [
    "C49_pretty_text_with_nul",
    "C49_pretty_text_without_nul",
    "C49_trimmed_unique",
    "C49_no_nul_and_not_longer",
    "C49_clean_text_unchanged"
   ],
   "note": "Text fields"
  },
  {
   "property": "C50",
   "status": "proved",
   "theorems": [
    "C50_dotted_decimal",
    "C50_other_lengths_rejected",
    "C50_injective"
   ],
   "note": "IP addresses"
  },
  {
   "property": "C51",
   "status": "proved",
   "theorems": [
    "C51_round_trip",
    "C51_parsed_round_trip",
    "C51_parsed_is_instance",
    "C51_dict_round_trip",
    "C51_lossy_refuted",
    "C51_no_object_refuted",
    "C51_nonfinite_refuted"
   ],
   "note": "Schema round-trip"
  },
  {
   "property": "C52",
   "status": "proved",
   "theorems": [
    "C52_registration_agrees",
    "C52_nullable_iff_optional",
    "C52_nested",
    "C52_difference_refuted"
   ],
   "note": "Schema registration agrees with the parser"
  },
  {
   "property": "C53",
   "status": "proved",
   "theorems": [
    "C53_recv_until",
    "C53_recv",
    "C53_recv_telegrams"
   ],
   "note": "Receiving reads one telegram"
  },
  {
   "property": "C54",
   "status": "proved",
   "theorems": [
    "C54_recv_ends_refuted",
    "C54_timeout_before_first_byte_refuted",
    "C54_error_ends_recv"
   ],
   "note": "Receiving terminates when the peer is gone"
  },
  {
   "property": "C55",
   "status": "proved",
   "theorems": [
    "C55_lifecycle"
   ],
   "note": "Transport lifecycle"
  },
  {
   "property": "C56",
   "status": "proved",
   "theorems": [
    "C56_time_left_in_range",
    "C56_none_never_expires",
    "C56_zero_always_expired",
    "C56_expires_at_target",
    "C56_jump_starts_anew"
   ],
   "note": "Timeout arithmetic"
  },
  {
   "property": "C57",
   "status": "proved",
   "theorems": [
    "C57_secrets_hidden",
    "C57_hidden_inside_repr",
    "C57_client",
    "C57_new_client",
    "C57_request",
    "C57_containers_refuted",
    "C57_user_connection_refuted"
   ],
   "note": "Secrets are censored in representations"
  },
  {
   "property": "C58",
   "status": "proved",
   "theorems": [
    "C58_single",
    "C58_double",
    "C58_unique",
    "C58_round_finite"
   ],
   "note": "Float fields are decoded exactly"
  },
  {
   "property": "C59",
   "status": "proved",
   "theorems": [
    "C59_announced_length",
    "C59_overlong_rejected_refuted"
   ],
   "note": "Decrypted data has the announced length"
  },
  {
   "property": "C60",
   "status": "proved",
   "theorems": [
    "C60_equal_prefixes_visible_refuted",
    "C60_unpadded_data_repeats_refuted"
   ],
   "note": "Ciphertexts do not reveal equal data"
  },
  {
   "property": "C61",
   "status": "proved",
   "theorems": [
    "C61_encryption_enforced_on_responses_refuted"
   ],
   "note": "Encryption is enforced on responses"
  },
  {
   "property": "C62",
   "status": "proved",
   "theorems": [
    "C62_combined_flags_raise_refuted",
    "C62_combined_flags_read_as_archive_refuted"
   ],
   "note": "Combined error flags raise"
  },
  {
   "property": "C63",
   "status": "proved",
   "theorems": [
    "C63_recovery_after_exception_refuted"
   ],
   "note": "Recovery after an exception"
  },
  {
   "property": "C64",
   "status": "proved",
   "theorems": [
    "C64_invalid_answer_raises_refuted",
    "C64_changed_byte_is_invalid"
   ],
   "note": "An invalid answer is reported"
  },
  {
   "property": "C65",
   "status": "proved",
   "theorems": [
    "C65_every_telegram_is_a_request",
    "C65_encrypted_iff_key_and_id",
    "C65_password_in_clear_otherwise"
   ],
   "note": "Everything a client sends"
  },
  {
   "property": "C66",
   "status": "proved",
   "theorems": [
    "C66_answers_match_requests_refuted",
    "C66_archive_checked_refuted"
   ],
   "note": "Answers are matched to requests"
  },
  {
   "property": "C67",
   "status": "proved",
   "theorems": [
    "C67_restart_finite",
    "C67_restart_infinite_refuted",
    "C67_restart_zero_refuted"
   ],
   "note": "Restarting a timeout"
  },
  {
   "property": "C68",
   "status": "proved",
   "theorems": [
    "C68_disconnect_closes_refuted",
    "C68_closes_after_shutdown",
    "C68_serial_closes"
   ],
   "note": "Disconnecting closes the socket"
  },
  {
   "property": "C69",
   "status": "proved",
   "theorems": [
    "C69_conversation",
    "C69_whole_connection",
    "C69_full_stack"
   ],
   "note": "Client over a socket"
  },
  {
   "property": "C70",
   "status": "proved",
   "theorems": [
    "C70_dump_is_json",
    "C70_nan_refuted"
   ],
   "note": "Dumped parameters are strict JSON"
  },
  {
   "property": "C71",
   "status": "proved",
   "theorems": [
    "C71_validation_error_only",
    "C71_accepted_data",
    "C71_no_bool_for_number",
    "C71_loaded_object",
    "C71_difference_refuted"
   ],
   "note": "Loading data of any shape gives the registered object or ValidationError"
  },
  {
   "property": "C72",
   "status": "proved",
   "theorems": [
    "C72_configuration_kept"
   ],
   "note": "A saved configuration is restored"
  },
  {
   "property": "C73",
   "status": "proved",
   "theorems": [
    "C73_changed_line_byte"
   ],
   "note": "A byte changed on the line never yields another telegram"
  },
  {
   "property": "C74",
   "status": "proved",
   "theorems": [
    "C74_lost_line_byte"
   ],
   "note": "A byte lost on the line never yields another telegram"
  },
  {
   "property": "C75",
   "status": "proved",
   "theorems": [
    "C75_added_line_byte",
    "C75_next_event_on_damage"
   ],
   "note": "A byte added on the line never yields another telegram"
  },
  {
   "property": "C76",
   "status": "proved",
   "theorems": [
    "C76_exceptions_explained",
    "C76_error_flag_raised",
    "C76_only_elgas_errors_refuted",
    "C76_encrypted_without_key_refuted",
    "C76_what_to_catch"
   ],
   "note": "What client calls raise"
  },
  {
   "property": "C77",
   "status": "proved",
   "theorems": [
    "C77_uses_transport_only",
    "C77_waits_for_recv_only",
    "C77_writes_requests_only"
   ],
   "note": "Client and transport together"
  },
  {
   "property": "C78",
   "status": "proved",
   "theorems": [
    "C78_exceptions",
    "C78_connect_later_refuted",
    "C78_reconnect_refuted"
   ],
   "note": "Exceptions and recovery over a socket"
  },
  {
   "property": "C79",
   "status": "proved",
   "theorems": [
    "C79_requests_only",
    "C79_info_level",
    "C79_no_key_refuted"
   ],
   "note": "The password in the log"
  },
  {
   "property": "C80",
   "status": "proved",
   "theorems": [
    "C80_key_send",
    "C80_key_next_event",
    "C80_answers_hidden_refuted"
   ],
   "note": "The key in the log"
  },
  {
   "property": "C81",
   "status": "proved",
   "theorems": [
    "C81_conversation",
    "C81_every_telegram",
    "C81_client_key_used_refuted",
    "C81_password_checked_refuted"
   ],
   "note": "A client on a connection of its user"
  },
  {
   "property": "C82",
   "status": "proved",
   "theorems": [
    "C82_parsed_type",
    "C82_loaded_type",
    "C82_loaded_dict_refuted",
    "C82_block_types",
    "C82_saved_by_type",
    "C82_device_to_configuration",
    "C82_archived_value",
    "C82_lengths",
    "C82_class_lengths",
    "C82_no_object",
    "C82_type_of_class",
    "C82_value_length_refuted"
   ],
   "note": "Parameter objects say their type and value length"
  },
  {
   "property": "C83",
   "status": "proved",
   "theorems": [
    "C83_schedule",
    "C83_isolation",
    "C83_shared_connection_refuted",
    "C83_late_answer_refuted",
    "C83_address_checked_refuted"
   ],
   "note": "Several clients"
  },
  {
   "property": "C84",
   "status": "proved",
   "theorems": [
    "C84_uninterrupted",
    "C84_isolation",
    "C84_own_exchanges",
    "C84_one_at_a_time",
    "C84_answers",
    "C84_served_to_the_end",
    "C84_interrupted_send_refuted",
    "C84_interrupted_next_event_refuted",
    "C84_shared_transport_refuted",
    "C84_parameters_overlapped_refuted"
   ],
   "note": "Overlapping calls (threads)"
  },
  {
   "property": "C85",
   "status": "proved",
   "theorems": [
    "C85_float_survives",
    "C85_python_is_lawful",
    "C85_reading_numbers",
    "C85_int_survives",
    "C85_round_trip",
    "C85_configuration_kept",
    "C85_validation_error_only"
   ],
   "note": "Numbers survive as text"
  },
  {
   "property": "C86",
   "status": "proved",
   "theorems": [
    "C86_data_survives",
    "C86_object_survives",
    "C86_configuration_survives",
    "C86_parsed_texts",
    "C86_any_text",
    "C86_surrogates_refuted"
   ],
   "note": "A configuration survives as JSON text"
  },
  {
   "property": "C87",
   "status": "proved",
   "theorems": [
    "C87_loaded_objects",
    "C87_read_data",
    "C87_loaded_texts",
    "C87_restored_configurations"
   ],
   "note": "Accepted input has a normal form"
  },
  {
   "property": "C88",
   "status": "proved",
   "theorems": [
    "C88_odd_flips",
    "C88_three_flips",
    "C88_length_is_tight",
    "C88_four_flips_undetected"
   ],
   "note": "Which changed bits the CRC finds"
  },
  {
   "property": "C89",
   "status": "proved",
   "theorems": [
    "C89_recv_in_time",
    "C89_recv_duration",
    "C89_recv_within_timeout_refuted",
    "C89_failure_ends_call",
    "C89_call_ends_refuted",
    "C89_call_duration_refuted"
   ],
   "note": "How long receiving takes"
  },
  {
   "property": "C90",
   "status": "proved",
   "theorems": [
    "C90_timing_indifferent",
    "C90_chance_indifferent"
   ],
   "note": "Results depend only on the bytes that arrive"
  },
  {
   "property": "C91",
   "status": "proved",
   "theorems": [
    "C91_every_session",
    "C91_one_outcome",
    "C91_one_verdict"
   ],
   "note": "Every session on every line"
  },
  {
   "property": "C92",
   "status": "proved",
   "theorems": [
    "C92_every_life",
    "C92_one_life"
   ],
   "note": "The whole life of a client"
  },
  {
   "property": "C93",
   "status": "proved",
   "theorems": [
    "C93_decoded_iff",
    "C93_classes",
    "C93_rejected_iff",
    "C93_one_meaning"
   ],
   "note": "The data of every response means exactly one thing"
  },
  {
   "property": "C94",
   "status": "proved",
   "theorems": [
    "C94_every_block",
    "C94_read_iff",
    "C94_one_reading",
    "C94_length_from_the_end_refuted"
   ],
   "note": "Every byte string given to the parameter parser"
  },
  {
   "property": "C95",
   "status": "proved",
   "theorems": [
    "C95_accepted_iff",
    "C95_refused_iff",
    "C95_one_result",
    "C95_whole_as_float",
    "C95_small_as_float"
   ],
   "note": "Which data a schema accepts"
  },
  {
   "property": "C96",
   "status": "proved",
   "theorems": [
    "C96_written",
    "C96_writes_is_dumped"
   ],
   "note": "What is dumped"
  },
  {
   "property": "C97",
   "status": "proved",
   "theorems": [
    "C97_encrypts",
    "C97_decrypts",
    "C97_refused"
   ],
   "note": "Encryption is AES-CBC as standardised"
  },
  {
   "property": "C98",
   "status": "proved",
   "theorems": [
    "C98_int",
    "C98_float",
    "C98_refused",
    "C98_one_number",
    "C98_one_float",
    "C98_int_as_float"
   ],
   "note": "Which texts are numbers, and which numbers they are"
  },
  {
   "property": "C99",
   "status": "proved",
   "theorems": [
    "C99_session",
    "C99_call",
    "C99_buffer",
    "C99_frame_sent",
    "C99_plain_frame",
    "C99_encrypted_frame"
   ],
   "note": "The log tells what happened"
  },
  {
   "property": "C100",
   "status": "proved",
   "theorems": [
    "C100_read",
    "C100_refused",
    "C100_one_value",
    "C100_written",
    "C100_schema"
   ],
   "note": "Which texts are JSON"
  },
  {
   "property": "C101",
   "status": "proved",
   "theorems": [
    "C101_text",
    "C101_others",
    "C101_json",
    "C101_one_text"
   ],
   "note": "How a float is written"
  },
  {
   "property": "C102",
   "status": "proved",
   "theorems": [
    "C102_device_to_text",
    "C102_memory_read"
   ],
   "note": "From the memory of a device to a text and back"
  },
  {
   "property": "C103",
   "status": "proved",
   "theorems": [
    "C103_device_served",
    "C103_heard_once",
    "C103_set_and_read",
    "C103_memory_read"
   ],
   "note": "A device with a state"
  },
  {
   "property": "C104",
   "status": "proved",
   "theorems": [
    "C104_echo_skipped_refuted",
    "C104_own_telegrams",
    "C104_fresh_answers_refuted"
   ],
   "note": "Echoes and recorded answers"
  },
  {
   "property": "C105",
   "status": "proved",
   "theorems": [
    "C105_closed_loop",
    "C105_every_call_returns",
    "C105_set_and_read",
    "C105_memory_read"
   ],
   "note": "The closed loop"
  }
 ]
}