{
 "claims": [
  {
   "property": "C01",
   "status": "proved",
   "theorems": [
    "C01_parse_exact",
    "C01_parse_never_panics",
    "C01_parse_string_roundtrip",
    "C01_string_exact",
    "C01_print_stable",
    "C01_dash_case_insensitive",
    "C01_uuid16"
   ],
   "note": ""
  },
  {
   "property": "C02",
   "status": "proved",
   "theorems": [
    "C02_contains_iff",
    "C02_equal_iff",
    "C02_reverse",
    "C02_swapbuf"
   ],
   "note": ""
  },
  {
   "property": "C03",
   "status": "proved",
   "theorems": [
    "C03_append_contract",
    "C03_raw_contract",
    "C03_never_longer_than_31"
   ],
   "note": ""
  },
  {
   "property": "C04",
   "status": "partial",
   "theorems": [
    "C04_panic_exactly",
    "C04_no_panic_refuted",
    "C04_no_panic_partial"
   ],
   "note": "False of the code. C04_panic_exactly characterises the inputs that panic; C04_no_panic_partial proves every other input safe; missing: the inputs of C04_no_panic_refuted."
  },
  {
   "property": "C05",
   "status": "proved",
   "theorems": [
    "C05_parse_records",
    "C05_build_then_decode",
    "C05_build_exact",
    "C05_every_input"
   ],
   "note": ""
  },
  {
   "property": "C06",
   "status": "proved",
   "theorems": [
    "C06_malformed_tail",
    "C06_raw_packet"
   ],
   "note": ""
  },
  {
   "property": "C07",
   "status": "proved",
   "theorems": [
    "C07_layout",
    "C07_accessors_never_panic",
    "C07_other_events",
    "C07_completed_packets",
    "C07_address_text",
    "C07_connectable",
    "C07_tx_power"
   ],
   "note": ""
  },
  {
   "property": "C08",
   "status": "proved",
   "theorems": [
    "C08_scan_refines",
    "C08_same_address",
    "C08_newest",
    "C08_malformed_ignored"
   ],
   "note": ""
  },
  {
   "property": "C09",
   "status": "proved",
   "theorems": [
    "C09_packets_delivered",
    "C09_decodes_like_byte_decoder",
    "C09_chunking_irrelevant",
    "C09_only_whole_packets"
   ],
   "note": ""
  },
  {
   "property": "C10",
   "status": "proved",
   "theorems": [
    "C10_layout",
    "C10_lookup",
    "C10_lookup_iff",
    "C10_range",
    "C10_service",
    "C10_characteristic"
   ],
   "note": ""
  },
  {
   "property": "C11",
   "status": "proved",
   "theorems": [
    "C11_standard_services",
    "C11_layout_kept",
    "C11_published",
    "C11_remove_all",
    "C11_set_services_fresh"
   ],
   "note": ""
  },
  {
   "property": "C12",
   "status": "proved",
   "theorems": [
    "C12_response_fits",
    "C12_prepare_echo"
   ],
   "note": ""
  },
  {
   "property": "C13",
   "status": "partial",
   "theorems": [
    "C13_crashes_exactly_on",
    "C13_no_crash_partial",
    "C13_api_tables",
    "C13_long_static_read_refuted",
    "C13_short_prepare_refuted",
    "C13_execute_nothing_queued_refuted",
    "C13_short_cccd_write_refuted",
    "C13_group_read_refuted"
   ],
   "note": "False of the code. C13_crashes_exactly_on is an equivalence: the listed PDUs crash in every reachable state, all others do not; the refuted theorems show each crash on a table built through the API."
  },
  {
   "property": "C14",
   "status": "proved",
   "theorems": [
    "C14_one_answer",
    "C14_commands_silent"
   ],
   "note": ""
  },
  {
   "property": "C15",
   "status": "proved",
   "theorems": [
    "C15_find_information",
    "C15_bad_range"
   ],
   "note": ""
  },
  {
   "property": "C16",
   "status": "proved",
   "theorems": [
    "C16_read_by_type",
    "C16_value_static",
    "C16_value_handler",
    "C16_bad_range"
   ],
   "note": ""
  },
  {
   "property": "C17",
   "status": "proved",
   "theorems": [
    "C17_from_a_service",
    "C17_none",
    "C17_bad_range"
   ],
   "note": ""
  },
  {
   "property": "C18",
   "status": "proved",
   "theorems": [
    "C18_find_by_type_value"
   ],
   "note": ""
  },
  {
   "property": "C19",
   "status": "proved",
   "theorems": [
    "C19_read",
    "C19_read_blob_handler"
   ],
   "note": ""
  },
  {
   "property": "C20",
   "status": "proved",
   "theorems": [
    "C20_write_request",
    "C20_write_command"
   ],
   "note": ""
  },
  {
   "property": "C21",
   "status": "proved",
   "theorems": [
    "C21_queued_write"
   ],
   "note": ""
  },
  {
   "property": "C22",
   "status": "proved",
   "theorems": [
    "C22_running_iff_enabled",
    "C22_read",
    "C22_initially_zero",
    "C22_write",
    "C22_others_leave_it",
    "C22_closed_at_end",
    "C22_own_handler"
   ],
   "note": ""
  },
  {
   "property": "C23",
   "status": "proved",
   "theorems": [
    "C23_exchange",
    "C23_history"
   ],
   "note": ""
  },
  {
   "property": "C24",
   "status": "proved",
   "theorems": [
    "C24_prefix",
    "C24_buffer_sizes",
    "C24_one_outstanding"
   ],
   "note": ""
  },
  {
   "property": "C25",
   "status": "proved",
   "theorems": [
    "C25_result",
    "C25_wire",
    "C25_write_command"
   ],
   "note": ""
  },
  {
   "property": "C26",
   "status": "partial",
   "theorems": [
    "C26_crashes_exactly_when",
    "C26_no_crash_partial",
    "C26_zero_length_refuted",
    "C26_execute_refuted",
    "C26_small_mtu_refuted",
    "C26_peer_mtu_refuted"
   ],
   "note": "False of the code. C26_crashes_exactly_when is an equivalence; C26_no_crash_partial gives the simple sufficient condition; the refuted theorems show the crashes."
  },
  {
   "property": "C27",
   "status": "proved",
   "theorems": [
    "C27_one_request",
    "C27_own_opcode",
    "C27_each_response_once",
    "C27_fresh"
   ],
   "note": ""
  },
  {
   "property": "C28",
   "status": "proved",
   "theorems": [
    "C28_confirmed_once",
    "C28_in_order",
    "C28_dropped_only_when_full"
   ],
   "note": ""
  },
  {
   "property": "C29",
   "status": "proved",
   "theorems": [
    "C29_services",
    "C29_services_filtered",
    "C29_services_filtered_distinct",
    "C29_characteristics",
    "C29_descriptors",
    "C29_profile",
    "C29_cached"
   ],
   "note": ""
  },
  {
   "property": "C30",
   "status": "proved",
   "theorems": [
    "C30_long_read"
   ],
   "note": ""
  },
  {
   "property": "C31",
   "status": "proved",
   "theorems": [
    "C31_in_sync",
    "C31_subscribe",
    "C31_clear",
    "C31_dispatch"
   ],
   "note": ""
  },
  {
   "property": "C32",
   "status": "proved",
   "theorems": [
    "C32_write",
    "C32_write_pdu",
    "C32_recombine",
    "C32_incomplete",
    "C32_too_big",
    "C32_round_trip",
    "C32_read",
    "C32_read_any",
    "C32_dispatch"
   ],
   "note": ""
  },
  {
   "property": "C33",
   "status": "proved",
   "theorems": [
    "C33_conserved",
    "C33_disconnected_returns_all",
    "C33_send_needs_buffer",
    "C33_never_overcommits_live",
    "C33_one_writer"
   ],
   "note": ""
  },
  {
   "property": "C34",
   "status": "proved",
   "theorems": [
    "C34_request",
    "C34_unique",
    "C34_channels",
    "C34_exhausted",
    "C34_remote_taken"
   ],
   "note": ""
  },
  {
   "property": "C35",
   "status": "proved",
   "theorems": [
    "C35_credits",
    "C35_frame_size",
    "C35_grant",
    "C35_returned"
   ],
   "note": ""
  },
  {
   "property": "C36",
   "status": "partial",
   "theorems": [
    "C36_send_partial",
    "C36_single_partial",
    "C36_receive_partial",
    "C36_take",
    "C36_subscriber_told",
    "C36_unknown_channel",
    "C36_not_open",
    "C36_close_once",
    "C36_take_empty",
    "C36_segmented_refuted",
    "C36_receive_two_refuted",
    "C36_mtu_refuted",
    "C36_length_refuted",
    "C36_empty_refuted",
    "C36_interleaved_refuted",
    "C36_short_refuted"
   ],
   "note": "False of the code except for SDUs that fit in one frame: sending segments correctly only in the sense of C36_send_partial (every segment carries an SDU length, C36_segmented_refuted), the receiver never reassembles (C36_receive_two_refuted). Proved: frames written, one-frame SDUs end to end."
  },
  {
   "property": "C37",
   "status": "proved",
   "theorems": [
    "C37_roundtrip",
    "C37_pdus",
    "C37_ids"
   ],
   "note": ""
  },
  {
   "property": "C38",
   "status": "proved",
   "theorems": [
    "C38_command_packets",
    "C38_spec_commands_distinct",
    "C38_packet_decodes",
    "C38_return_parameters",
    "C38_failure_status_reported",
    "C38_short_returns_rejected",
    "C38_vendor_packets"
   ],
   "note": ""
  },
  {
   "property": "C39",
   "status": "proved",
   "theorems": [
    "C39_one_outstanding_per_opcode",
    "C39_event_meaning",
    "C39_other_events",
    "C39_result_is_own_event",
    "C39_event_to_one_call",
    "C39_completion_to_its_sender",
    "C39_commands_within_grants",
    "C39_single_credit",
    "C39_result_when_closed",
    "C39_call_after_error",
    "C39_truncated",
    "C39_no_call_stuck",
    "C39_event_reaches_its_call",
    "C39_allowance_used",
    "C39_calls_take_few_steps"
   ],
   "note": ""
  },
  {
   "property": "C40",
   "status": "proved",
   "theorems": [
    "C40_payload_exact",
    "C40_commands_sent",
    "C40_commands_fail"
   ],
   "note": ""
  },
  {
   "property": "C41",
   "status": "proved",
   "theorems": [
    "C41_scan_params",
    "C41_conn_params_sound",
    "C41_conn_params_no_latency",
    "C41_conn_params_exact",
    "C41_defaults_accepted",
    "C41_default_values",
    "C41_init_checks_both"
   ],
   "note": ""
  },
  {
   "property": "C42",
   "status": "proved",
   "theorems": [
    "C42_method_of_response",
    "C42_reserved_io_is_just_works",
    "C42_choice_total"
   ],
   "note": ""
  },
  {
   "property": "C43",
   "status": "proved",
   "theorems": [
    "C43_f4",
    "C43_f5",
    "C43_f6",
    "C43_g2",
    "C43_c1",
    "C43_s1",
    "C43_check_sent_only_if_confirmed",
    "C43_passkey_rounds_were_proved",
    "C43_bond_only_if_checked",
    "C43_legacy_stk_only_if_confirmed",
    "C43_plain_pairing_completes",
    "C43_passkey_pairing_completes",
    "C43_legacy_pairing_completes"
   ],
   "note": ""
  },
  {
   "property": "C44",
   "status": "partial",
   "theorems": [
    "C44_bond_stored_only_on_partial",
    "C44_pair_success_only_on_partial",
    "C44_key_of_peer_stored_refuted",
    "C44_pair_succeeds_without_pairing_refuted"
   ],
   "note": "False of the code. Proved: exactly which messages can cause a bond to be stored and Pair to succeed; missing (and refuted): that Master Identification is only accepted inside a pairing."
  },
  {
   "property": "C45",
   "status": "partial",
   "theorems": [
    "C45_only_these_crash_partial",
    "C45_calls_do_not_crash",
    "C45_no_wedge_while_pairing_partial",
    "C45_wedges_exactly_when",
    "C45_pairing_failed_wedges_refuted",
    "C45_crashes_refuted",
    "C45_crash_after_pairing_refuted"
   ],
   "note": "False of the code. Proved: the complete list of messages that can crash, no other call crashes, wedging is characterised exactly; the refuted theorems show the crashes and the wedge."
  },
  {
   "property": "C46",
   "status": "proved",
   "theorems": [
    "C46_store_is_a_map",
    "C46_no_crash",
    "C46_find_returns_last_saved",
    "C46_deleted_is_gone",
    "C46_concurrent"
   ],
   "note": ""
  },
  {
   "property": "C47",
   "status": "partial",
   "theorems": [
    "C47_crash_outcomes_partial",
    "C47_lookups_are_safe",
    "C47_crash_loses_all_bonds_refuted",
    "C47_crash_makes_store_unusable_refuted"
   ],
   "note": "False of the code (the file is truncated before it is written). Proved: the complete set of outcomes of a crash; lookups never damage the file."
  },
  {
   "property": "C48",
   "status": "proved",
   "theorems": [
    "C48_cache_is_a_map",
    "C48_no_crash",
    "C48_concurrent",
    "C48_load_returns_last_stored",
    "C48_cleared_is_gone",
    "C48_unencodable_profile"
   ],
   "note": ""
  },
  {
   "property": "C49",
   "status": "proved",
   "theorems": [
    "C49_configuration",
    "C49_conflicts_panic",
    "C49_last_setting_wins",
    "C49_unpublished",
    "C49_unique_characteristics",
    "C49_descriptor",
    "C49_descriptor_settings"
   ],
   "note": ""
  },
  {
   "property": "C50",
   "status": "proved",
   "theorems": [
    "C50_addr_bytes",
    "C50_addr_text_lower",
    "C50_addr_equal_iff_same_letters"
   ],
   "note": ""
  },
  {
   "property": "C51",
   "status": "proved",
   "theorems": [
    "C51_find_service",
    "C51_find_characteristic",
    "C51_find_descriptor"
   ],
   "note": ""
  },
  {
   "property": "C52",
   "status": "proved",
   "theorems": [
    "C52_packet",
    "C52_param_update",
    "C52_too_long",
    "C52_disconnect",
    "C52_unknown",
    "C52_delivered"
   ],
   "note": ""
  },
  {
   "property": "C53",
   "status": "proved",
   "theorems": [
    "C53_crash_outcomes",
    "C53_clear_repairs"
   ],
   "note": ""
  },
  {
   "property": "C54",
   "status": "proved",
   "theorems": [
    "C54_cached_profile_is_used",
    "C54_discovered_profile_is_cached",
    "C54_failed_discovery"
   ],
   "note": ""
  },
  {
   "property": "C55",
   "status": "proved",
   "theorems": [
    "C55_data_in_order",
    "C55_only_own_handle",
    "C55_packet_accepted",
    "C55_latest_connection"
   ],
   "note": ""
  },
  {
   "property": "C56",
   "status": "proved",
   "theorems": [
    "C56_one_connection_per_event",
    "C56_event_decoded",
    "C56_remote_address",
    "C56_handed_out_once"
   ],
   "note": ""
  },
  {
   "property": "C57",
   "status": "proved",
   "theorems": [
    "C57_crashes_exactly_on",
    "C57_wellformed_survived"
   ],
   "note": ""
  },
  {
   "property": "C58",
   "status": "partial",
   "theorems": [
    "C58_short_event_refuted",
    "C58_failed_encryption_refuted",
    "C58_abandoned_dial_refuted"
   ],
   "note": "False of the code; which packets crash is characterised exactly by C57_crashes_exactly_on."
  },
  {
   "property": "C59",
   "status": "proved",
   "theorems": [
    "C59_live_until_removed",
    "C59_never_back",
    "C59_causes_of_removal",
    "C59_disconnection_event",
    "C59_disconnected_iff_gone",
    "C59_after_close",
    "C59_after_the_loop"
   ],
   "note": ""
  },
  {
   "property": "C60",
   "status": "partial",
   "theorems": [
    "C60_disconnected_after_hci_close_refuted"
   ],
   "note": "False of the code for peripheral-role connections; C59_disconnected_iff_gone proves it for all other cases."
  },
  {
   "property": "C61",
   "status": "partial",
   "theorems": [
    "C61_close_hits_another_refuted",
    "C61_close_hits_successor_refuted"
   ],
   "note": "False of the code when the controller reuses a handle while Close is in progress; C59_causes_of_removal gives the complete list of causes."
  },
  {
   "property": "C62",
   "status": "partial",
   "theorems": [
    "C62_peer_jams_event_loop_refuted",
    "C62_accept_blocks_everything_refuted"
   ],
   "note": "False of the code: two ways to block the event loop are proved permanent."
  },
  {
   "property": "C63",
   "status": "partial",
   "theorems": [
    "C63_dialled_address_partial",
    "C63_late_connection_refuted"
   ],
   "note": "Proved under the stated conditions (C63_dialled_address_partial); without the grace-period condition it is false (C63_late_connection_refuted)."
  },
  {
   "property": "C64",
   "status": "partial",
   "theorems": [
    "C64_service_data_atomic_refuted"
   ],
   "note": "The code does not have this property: the theorems prove concrete reachable counterexamples in the model. What the code does guarantee in this area is the property C03."
  },
  {
   "property": "C65",
   "status": "partial",
   "theorems": [
    "C65_service_data32_refuted"
   ],
   "note": "The code does not have this property: the theorems prove concrete reachable counterexamples in the model. What the code does guarantee in this area is the property C05."
  },
  {
   "property": "C66",
   "status": "partial",
   "theorems": [
    "C66_sr_data_refuted",
    "C66_tx_power_consistent_refuted"
   ],
   "note": "The code does not have this property: the theorems prove concrete reachable counterexamples in the model. What the code does guarantee in this area is the property C07."
  },
  {
   "property": "C67",
   "status": "partial",
   "theorems": [
    "C67_address_type_refuted"
   ],
   "note": "The code does not have this property: the theorems prove concrete reachable counterexamples in the model. What the code does guarantee in this area is the property C08."
  },
  {
   "property": "C68",
   "status": "partial",
   "theorems": [
    "C68_stalled_packet_refuted"
   ],
   "note": "The code does not have this property: the theorems prove concrete reachable counterexamples in the model. What the code does guarantee in this area is the property C09."
  },
  {
   "property": "C69",
   "status": "partial",
   "theorems": [
    "C69_overflow_wraps_refuted"
   ],
   "note": "The code does not have this property: the theorems prove concrete reachable counterexamples in the model. What the code does guarantee in this area is the property C10."
  },
  {
   "property": "C70",
   "status": "partial",
   "theorems": [
    "C70_rebuild_grows_refuted",
    "C70_duplicate_cccd_refuted",
    "C70_duplicate_descriptor_refuted"
   ],
   "note": "The code does not have this property: the theorems prove concrete reachable counterexamples in the model. What the code does guarantee in this area is the property C11."
  },
  {
   "property": "C71",
   "status": "partial",
   "theorems": [
    "C71_custom_handler_ignored_refuted",
    "C71_remove_all_loses_handler_refuted"
   ],
   "note": "The code does not have this property: the theorems prove concrete reachable counterexamples in the model. What the code does guarantee in this area is the property C11."
  },
  {
   "property": "C72",
   "status": "partial",
   "theorems": [
    "C72_above_own_limit_refuted",
    "C72_prepare_over_mtu_refuted"
   ],
   "note": "The code does not have this property: the theorems prove concrete reachable counterexamples in the model. What the code does guarantee in this area is the property C12."
  },
  {
   "property": "C73",
   "status": "partial",
   "theorems": [
    "C73_signed_write_answered_refuted"
   ],
   "note": "The code does not have this property: the theorems prove concrete reachable counterexamples in the model. What the code does guarantee in this area is the property C14."
  },
  {
   "property": "C74",
   "status": "partial",
   "theorems": [
    "C74_group_type_ignored_refuted",
    "C74_not_a_service_refuted",
    "C74_inside_a_service_refuted"
   ],
   "note": "The code does not have this property: the theorems prove concrete reachable counterexamples in the model. What the code does guarantee in this area is the property C17."
  },
  {
   "property": "C75",
   "status": "partial",
   "theorems": [
    "C75_dynamic_value_refuted",
    "C75_end_zero_refuted"
   ],
   "note": "The code does not have this property: the theorems prove concrete reachable counterexamples in the model. What the code does guarantee in this area is the property C18."
  },
  {
   "property": "C76",
   "status": "partial",
   "theorems": [
    "C76_blob_offset_ignored_refuted",
    "C76_not_truncated_refuted"
   ],
   "note": "The code does not have this property: the theorems prove concrete reachable counterexamples in the model. What the code does guarantee in this area is the property C19."
  },
  {
   "property": "C77",
   "status": "partial",
   "theorems": [
    "C77_empty_command_refuted"
   ],
   "note": "The code does not have this property: the theorems prove concrete reachable counterexamples in the model. What the code does guarantee in this area is the property C20."
  },
  {
   "property": "C78",
   "status": "partial",
   "theorems": [
    "C78_offset_ignored_refuted",
    "C78_two_attributes_refuted"
   ],
   "note": "The code does not have this property: the theorems prove concrete reachable counterexamples in the model. What the code does guarantee in this area is the property C21."
  },
  {
   "property": "C79",
   "status": "partial",
   "theorems": [
    "C79_leak_refuted"
   ],
   "note": "The code does not have this property: the theorems prove concrete reachable counterexamples in the model. What the code does guarantee in this area is the property C22."
  },
  {
   "property": "C80",
   "status": "partial",
   "theorems": [
    "C80_not_min_refuted"
   ],
   "note": "The code does not have this property: the theorems prove concrete reachable counterexamples in the model. What the code does guarantee in this area is the property C23."
  },
  {
   "property": "C81",
   "status": "partial",
   "theorems": [
    "C81_confirmation_lost_refuted"
   ],
   "note": "The code does not have this property: the theorems prove concrete reachable counterexamples in the model. What the code does guarantee in this area is the property C24."
  },
  {
   "property": "C82",
   "status": "partial",
   "theorems": [
    "C82_prepare_value_refuted",
    "C82_prepare_leaks_refuted",
    "C82_signed_value_refuted"
   ],
   "note": "The code does not have this property: the theorems prove concrete reachable counterexamples in the model. What the code does guarantee in this area is the property C25."
  },
  {
   "property": "C83",
   "status": "partial",
   "theorems": [
    "C83_write_length_refuted",
    "C83_format_refuted"
   ],
   "note": "The code does not have this property: the theorems prove concrete reachable counterexamples in the model. What the code does guarantee in this area is the property C25."
  },
  {
   "property": "C84",
   "status": "partial",
   "theorems": [
    "C84_unsolicited_refuted",
    "C84_late_response_refuted"
   ],
   "note": "The code does not have this property: the theorems prove concrete reachable counterexamples in the model. What the code does guarantee in this area is the property C27."
  },
  {
   "property": "C85",
   "status": "partial",
   "theorems": [
    "C85_unsolicited_response_blocks_refuted"
   ],
   "note": "The code does not have this property: the theorems prove concrete reachable counterexamples in the model. What the code does guarantee in this area is the property C28."
  },
  {
   "property": "C86",
   "status": "partial",
   "theorems": [
    "C86_rediscovery_refuted",
    "C86_after_failure_refuted"
   ],
   "note": "The code does not have this property: the theorems prove concrete reachable counterexamples in the model. What the code does guarantee in this area is the property C29."
  },
  {
   "property": "C87",
   "status": "partial",
   "theorems": [
    "C87_filter_refuted",
    "C87_last_handle_refuted"
   ],
   "note": "The code does not have this property: the theorems prove concrete reachable counterexamples in the model. What the code does guarantee in this area is the property C29."
  },
  {
   "property": "C88",
   "status": "partial",
   "theorems": [
    "C88_no_termination_refuted",
    "C88_short_entry_refuted"
   ],
   "note": "The code does not have this property: the theorems prove concrete reachable counterexamples in the model. What the code does guarantee in this area is the property C29."
  },
  {
   "property": "C89",
   "status": "partial",
   "theorems": [
    "C89_smaller_announced_refuted"
   ],
   "note": "The code does not have this property: the theorems prove concrete reachable counterexamples in the model. What the code does guarantee in this area is the property C30."
  },
  {
   "property": "C90",
   "status": "partial",
   "theorems": [
    "C90_failed_write_refuted",
    "C90_resubscribe_refuted",
    "C90_indication_refuted",
    "C90_short_refuted"
   ],
   "note": "The code does not have this property: the theorems prove concrete reachable counterexamples in the model. What the code does guarantee in this area is the property C31."
  },
  {
   "property": "C91",
   "status": "partial",
   "theorems": [
    "C91_short_first_fragment_refuted",
    "C91_zero_buffer_refuted",
    "C91_overlong_frame_refuted"
   ],
   "note": "The code does not have this property: the theorems prove concrete reachable counterexamples in the model. What the code does guarantee in this area is the property C32."
  },
  {
   "property": "C92",
   "status": "partial",
   "theorems": [
    "C92_disconnect_deadlock_refuted",
    "C92_close_overcommits_refuted"
   ],
   "note": "The code does not have this property: the theorems prove concrete reachable counterexamples in the model. What the code does guarantee in this area is the property C33."
  },
  {
   "property": "C93",
   "status": "partial",
   "theorems": [
    "C93_reopened_refuted"
   ],
   "note": "The code does not have this property: the theorems prove concrete reachable counterexamples in the model. What the code does guarantee in this area is the property C35."
  },
  {
   "property": "C94",
   "status": "partial",
   "theorems": [
    "C94_reject_refuted"
   ],
   "note": "The code does not have this property: the theorems prove concrete reachable counterexamples in the model. What the code does guarantee in this area is the property C37."
  },
  {
   "property": "C95",
   "status": "partial",
   "theorems": [
    "C95_write_default_link_policy_opcode_refuted",
    "C95_write_authenticated_payload_timeout_opcode_refuted",
    "C95_host_number_of_completed_packets_refuted",
    "C95_set_advertising_data_reply_refuted",
    "C95_missing_return_parameters_refuted"
   ],
   "note": "The code does not have this property: the theorems prove concrete reachable counterexamples in the model. What the code does guarantee in this area is the property C38."
  },
  {
   "property": "C96",
   "status": "partial",
   "theorems": [
    "C96_long_vendor_commands_refuted",
    "C96_oversized_vendor_payload_refuted",
    "C96_unencodable_vendor_payload_refuted"
   ],
   "note": "The code does not have this property: the theorems prove concrete reachable counterexamples in the model. What the code does guarantee in this area is the property C38."
  },
  {
   "property": "C97",
   "status": "partial",
   "theorems": [
    "C97_flow_control_refuted",
    "C97_late_completion_misdelivered_refuted",
    "C97_timeout_wedges_event_loop_refuted",
    "C97_close_reports_success_refuted",
    "C97_vendor_command_complete_ignored_refuted"
   ],
   "note": "The code does not have this property: the theorems prove concrete reachable counterexamples in the model. What the code does guarantee in this area is the property C39."
  },
  {
   "property": "C98",
   "status": "partial",
   "theorems": [
    "C98_complete_tag_refuted",
    "C98_error_reported_refuted"
   ],
   "note": "The code does not have this property: the theorems prove concrete reachable counterexamples in the model. What the code does guarantee in this area is the property C40."
  },
  {
   "property": "C99",
   "status": "partial",
   "theorems": [
    "C99_strict_bound_refuted",
    "C99_complete_refuted"
   ],
   "note": "The code does not have this property: the theorems prove concrete reachable counterexamples in the model. What the code does guarantee in this area is the property C41."
  },
  {
   "property": "C100",
   "status": "partial",
   "theorems": [
    "C100_legacy_one_sided_oob_refuted",
    "C100_sc_without_offer_refuted"
   ],
   "note": "The code does not have this property: the theorems prove concrete reachable counterexamples in the model. What the code does guarantee in this area is the property C42."
  },
  {
   "property": "C101",
   "status": "partial",
   "theorems": [
    "C101_passkey_unneeded_refuted",
    "C101_requested_passkey_is_zero_refuted",
    "C101_numeric_comparison_not_asked_refuted",
    "C101_oob_unneeded_refuted"
   ],
   "note": "The code does not have this property: the theorems prove concrete reachable counterexamples in the model. What the code does guarantee in this area is the property C43."
  },
  {
   "property": "C102",
   "status": "partial",
   "theorems": [
    "C102_concurrent_find_misses_bond_refuted",
    "C102_exists_disagrees_refuted",
    "C102_short_entry_crashes_refuted",
    "C102_concurrent_finds_destroy_bonds_refuted"
   ],
   "note": "The code does not have this property: the theorems prove concrete reachable counterexamples in the model. What the code does guarantee in this area is the property C46."
  },
  {
   "property": "C103",
   "status": "partial",
   "theorems": [
    "C103_null_file_crashes_refuted"
   ],
   "note": "The code does not have this property: the theorems prove concrete reachable counterexamples in the model. What the code does guarantee in this area is the property C48."
  },
  {
   "property": "C104",
   "status": "partial",
   "theorems": [
    "C104_crash_refuted",
    "C104_connection_request_refuted",
    "C104_open_overtaken_refuted",
    "C104_mistaken_refuted"
   ],
   "note": "The code does not have this property: the theorems prove concrete reachable counterexamples in the model. What the code does guarantee in this area is the property C52."
  },
  {
   "property": "C105",
   "status": "partial",
   "theorems": [
    "C105_crash_breaks_the_cache_refuted"
   ],
   "note": "The code does not have this property: the theorems prove concrete reachable counterexamples in the model. What the code does guarantee in this area is the property C53."
  },
  {
   "property": "C106",
   "status": "partial",
   "theorems": [
    "C106_no_cache_crashes_refuted"
   ],
   "note": "The code does not have this property: the theorems prove concrete reachable counterexamples in the model. What the code does guarantee in this area is the property C54."
  },
  {
   "property": "C107",
   "status": "proved",
   "theorems": [
    "C107_profile",
    "C107_same_outline",
    "C107_handles",
    "C107_every_characteristic"
   ],
   "note": ""
  },
  {
   "property": "C108",
   "status": "proved",
   "theorems": [
    "C108_read",
    "C108_read_static",
    "C108_write",
    "C108_write_command",
    "C108_not_permitted"
   ],
   "note": ""
  },
  {
   "property": "C109",
   "status": "proved",
   "theorems": [
    "C109_subscribe",
    "C109_unsubscribe",
    "C109_clear",
    "C109_running_iff_registered",
    "C109_notifiers",
    "C109_delivered"
   ],
   "note": ""
  },
  {
   "property": "C110",
   "status": "proved",
   "theorems": [
    "C110_advertises",
    "C110_payload_determined",
    "C110_while_advertising",
    "C110_success",
    "C110_only_requested",
    "C110_silent_at_first",
    "C110_stop",
    "C110_stop_works",
    "C110_continues"
   ],
   "note": ""
  },
  {
   "property": "C111",
   "status": "proved",
   "theorems": [
    "C111_set_up",
    "C111_any_controller",
    "C111_option_error",
    "C111_default_parameters"
   ],
   "note": ""
  },
  {
   "property": "C112",
   "status": "proved",
   "theorems": [
    "C112_scan",
    "C112_stop_scanning",
    "C112_dial"
   ],
   "note": ""
  },
  {
   "property": "C113",
   "status": "partial",
   "theorems": [
    "C113_init_errors_refuted",
    "C113_masks_refuted",
    "C113_options_refuted"
   ],
   "note": "The code does not have this property: the theorems prove concrete reachable counterexamples in the model. What the code does guarantee in this area is the property C111."
  },
  {
   "property": "C114",
   "status": "partial",
   "theorems": [
    "C114_success_means_advertising_refuted"
   ],
   "note": "The code does not have this property: the theorems prove concrete reachable counterexamples in the model. What the code does guarantee in this area is the property C110."
  },
  {
   "property": "C115",
   "status": "partial",
   "theorems": [
    "C115_resumes_refuted",
    "C115_nothing_sent_refuted"
   ],
   "note": "The code does not have this property: the theorems prove concrete reachable counterexamples in the model. What the code does guarantee in this area is the property C110."
  },
  {
   "property": "C116",
   "status": "proved",
   "theorems": [
    "C116_dials_a_match",
    "C116_dials_once",
    "C116_connects",
    "C116_fails_only"
   ],
   "note": ""
  },
  {
   "property": "C117",
   "status": "proved",
   "theorems": [
    "C117_calls",
    "C117_reports_numbered",
    "C117_all_handled",
    "C117_result",
    "C117_returns",
    "C117_find"
   ],
   "note": ""
  },
  {
   "property": "C118",
   "status": "partial",
   "theorems": [
    "C118_cancel_refuted",
    "C118_deadline_refuted"
   ],
   "note": "The code does not have this property: the theorems prove concrete reachable counterexamples in the model. What the code does guarantee in this area is the property C116."
  },
  {
   "property": "C119",
   "status": "partial",
   "theorems": [
    "C119_sync_refuted",
    "C119_sync_blocked_refuted",
    "C119_leak_refuted"
   ],
   "note": "The code does not have this property: the theorems prove concrete reachable counterexamples in the model. What the code does guarantee in this area is the property C116."
  },
  {
   "property": "C120",
   "status": "partial",
   "theorems": [
    "C120_late_call_refuted",
    "C120_find_lost_refuted"
   ],
   "note": "The code does not have this property: the theorems prove concrete reachable counterexamples in the model. What the code does guarantee in this area is the property C117."
  },
  {
   "property": "C121",
   "status": "proved",
   "theorems": [
    "C121_in_order",
    "C121_framed",
    "C121_whole_packets",
    "C121_raw_packets",
    "C121_all_handled",
    "C121_stops",
    "C121_error_handler",
    "C121_no_call_after_close"
   ],
   "note": ""
  },
  {
   "property": "C122",
   "status": "partial",
   "theorems": [
    "C122_nil_error_refuted",
    "C122_never_told_refuted"
   ],
   "note": "The code does not have this property: the theorems prove concrete reachable counterexamples in the model. What the code does guarantee in this area is the property C121."
  },
  {
   "property": "C123",
   "status": "partial",
   "theorems": [
    "C123_long_packet_refuted"
   ],
   "note": "The code does not have this property: the theorems prove concrete reachable counterexamples in the model. What the code does guarantee in this area is the property C121."
  },
  {
   "property": "C124",
   "status": "partial",
   "theorems": [
    "C124_leak_refuted"
   ],
   "note": "The code does not have this property: the theorems prove concrete reachable counterexamples in the model. What the code does guarantee in this area is the property C121."
  },
  {
   "property": "C125",
   "status": "proved",
   "theorems": [
    "C125_event",
    "C125_no_event",
    "C125_only_these_values",
    "C125_in_order",
    "C125_start_when_encrypted",
    "C125_start_listens",
    "C125_results",
    "C125_calls_return"
   ],
   "note": ""
  },
  {
   "property": "C126",
   "status": "proved",
   "theorems": [
    "C126_stored_for_the_peer",
    "C126_deleted_for_the_peer",
    "C126_key_of_start",
    "C126_key_of_message",
    "C126_only_these_commands",
    "C126_event_does_not_crash",
    "C126_start_does_not_crash"
   ],
   "note": ""
  },
  {
   "property": "C127",
   "status": "partial",
   "theorems": [
    "C127_failed_event_crashes_refuted",
    "C127_calls_crash_refuted"
   ],
   "note": "The code does not have this property: the theorems prove concrete reachable counterexamples in the model. What the code does guarantee in this area is the property C126."
  },
  {
   "property": "C128",
   "status": "partial",
   "theorems": [
    "C128_key_refresh_ignored_refuted",
    "C128_reserved_subevent_refuted"
   ],
   "note": "The code does not have this property: the theorems prove concrete reachable counterexamples in the model. What the code does guarantee in this area is the property C125."
  },
  {
   "property": "C129",
   "status": "partial",
   "theorems": [
    "C129_report_lost_refuted",
    "C129_other_call_forgets_refuted"
   ],
   "note": "The code does not have this property: the theorems prove concrete reachable counterexamples in the model. What the code does guarantee in this area is the property C125."
  },
  {
   "property": "C130",
   "status": "partial",
   "theorems": [
    "C130_failed_but_on_refuted"
   ],
   "note": "The code does not have this property: the theorems prove concrete reachable counterexamples in the model. What the code does guarantee in this area is the property C125."
  },
  {
   "property": "C131",
   "status": "proved",
   "theorems": [
    "C131_in_order",
    "C131_as_sequential",
    "C131_one_at_a_time",
    "C131_data_stable",
    "C131_read_ahead"
   ],
   "note": ""
  },
  {
   "property": "C132",
   "status": "proved",
   "theorems": [
    "C132_comes_to_rest",
    "C132_all_answered",
    "C132_calls_return",
    "C132_served_during_indication"
   ],
   "note": ""
  },
  {
   "property": "C133",
   "status": "proved",
   "theorems": [
    "C133_ends",
    "C133_once",
    "C133_notifiers_closed",
    "C133_crash_only_in_request"
   ],
   "note": ""
  },
  {
   "property": "C134",
   "status": "proved",
   "theorems": [
    "C134_call",
    "C134_no_other_write",
    "C134_one_outstanding"
   ],
   "note": ""
  },
  {
   "property": "C135",
   "status": "partial",
   "theorems": [
    "C135_deadlock_refuted",
    "C135_early_confirmation_refuted",
    "C135_without_mtu_exchange_partial"
   ],
   "note": "The code does not have this property: the theorems prove concrete reachable counterexamples in the model. What the code does guarantee in this area is the property C132."
  },
  {
   "property": "C136",
   "status": "partial",
   "theorems": [
    "C136_empty_pdu_refuted",
    "C136_long_pdu_refuted",
    "C136_ends_only_partial"
   ],
   "note": "The code does not have this property: the theorems prove concrete reachable counterexamples in the model. What the code does guarantee in this area is the property C133."
  },
  {
   "property": "C137",
   "status": "partial",
   "theorems": [
    "C137_buffer_reused_refuted",
    "C137_until_answered_partial"
   ],
   "note": "The code does not have this property: the theorems prove concrete reachable counterexamples in the model. What the code does guarantee in this area is the property C131."
  },
  {
   "property": "C138",
   "status": "partial",
   "theorems": [
    "C138_long_before_response_refuted",
    "C138_within_an_mtu_partial"
   ],
   "note": "The code does not have this property: the theorems prove concrete reachable counterexamples in the model. What the code does guarantee in this area is the property C131."
  },
  {
   "property": "C139",
   "status": "partial",
   "theorems": [
    "C139_after_switch_off_refuted",
    "C139_not_before_asked_partial"
   ],
   "note": "The code does not have this property: the theorems prove concrete reachable counterexamples in the model. What the code does guarantee in this area is the property C134."
  },
  {
   "property": "C140",
   "status": "proved",
   "theorems": [
    "C140_connection_on_its_own",
    "C140_in_order",
    "C140_current_services",
    "C140_table_fixed"
   ],
   "note": ""
  },
  {
   "property": "C141",
   "status": "partial",
   "theorems": [
    "C141_notification_misdirected_refuted",
    "C141_configuration_lost_refuted",
    "C141_enabling_ignored_refuted",
    "C141_other_notifier_stopped_refuted",
    "C141_other_services_partial"
   ],
   "note": "The code does not have this property: the theorems prove concrete reachable counterexamples in the model. What the code does guarantee in this area is the property C140."
  },
  {
   "property": "C142",
   "status": "proved",
   "theorems": [
    "C142_in_order",
    "C142_as_sequential",
    "C142_one_at_a_time",
    "C142_thrown_only_when_ten_wait",
    "C142_calls",
    "C142_crash_only_in_request"
   ],
   "note": ""
  },
  {
   "property": "C143",
   "status": "proved",
   "theorems": [
    "C143_exclusive",
    "C143_client_unchanged",
    "C143_can_finish"
   ],
   "note": ""
  },
  {
   "property": "C144",
   "status": "partial",
   "theorems": [
    "C144_never_started_refuted",
    "C144_overflow_refuted",
    "C144_not_thrown_partial"
   ],
   "note": "The code does not have this property: the theorems prove concrete reachable counterexamples in the model. What the code does guarantee in this area is the property C142."
  },
  {
   "property": "C145",
   "status": "partial",
   "theorems": [
    "C145_answer_waits_refuted"
   ],
   "note": "The code does not have this property: the theorems prove concrete reachable counterexamples in the model. What the code does guarantee in this area is the property C143."
  },
  {
   "property": "C146",
   "status": "partial",
   "theorems": [
    "C146_never_confirmed_refuted",
    "C146_confirmation_answered_refuted",
    "C146_others_partial"
   ],
   "note": "The code does not have this property: the theorems prove concrete reachable counterexamples in the model. What the code does guarantee in this area is the property C142."
  },
  {
   "property": "C147",
   "status": "partial",
   "theorems": [
    "C147_left_open_refuted",
    "C147_example_refuted"
   ],
   "note": "The code does not have this property: the theorems prove concrete reachable counterexamples in the model. What the code does guarantee in this area is the property C142."
  },
  {
   "property": "C148",
   "status": "proved",
   "theorems": [
    "C148_handler_alone",
    "C148_call_alone"
   ],
   "note": ""
  },
  {
   "property": "C149",
   "status": "proved",
   "theorems": [
    "C149_in_order",
    "C149_lost_only_when_sixteen_wait",
    "C149_as_sequential",
    "C149_right_handler",
    "C149_unsubscribed",
    "C149_both_unsubscribed",
    "C149_numbers",
    "C149_numbers_from_zero"
   ],
   "note": ""
  },
  {
   "property": "C150",
   "status": "proved",
   "theorems": [
    "C150_no_deadlock",
    "C150_no_endless_work",
    "C150_lock_free"
   ],
   "note": ""
  },
  {
   "property": "C151",
   "status": "partial",
   "theorems": [
    "C151_handler_uses_client_refuted"
   ],
   "note": "The code does not have this property: the theorems prove concrete reachable counterexamples in the model. What the code does guarantee in this area is the property C150."
  },
  {
   "property": "C152",
   "status": "partial",
   "theorems": [
    "C152_close_waits_refuted"
   ],
   "note": "The code does not have this property: the theorems prove concrete reachable counterexamples in the model. What the code does guarantee in this area is the property C148."
  },
  {
   "property": "C153",
   "status": "partial",
   "theorems": [
    "C153_lost_during_call_refuted",
    "C153_lost_during_handler_refuted"
   ],
   "note": "The code does not have this property: the theorems prove concrete reachable counterexamples in the model. What the code does guarantee in this area is the property C149."
  },
  {
   "property": "C154",
   "status": "proved",
   "theorems": [
    "C154_answer_returned",
    "C154_returns",
    "C154_silence_ends"
   ],
   "note": ""
  },
  {
   "property": "C155",
   "status": "partial",
   "theorems": [
    "C155_bounded_refuted"
   ],
   "note": "The code does not have this property: the theorems prove concrete reachable counterexamples in the model. What the code does guarantee in this area is the property C154."
  },
  {
   "property": "C156",
   "status": "proved",
   "theorems": [
    "C156_configuration",
    "C156_accepted",
    "C156_later",
    "C156_setters",
    "C156_defaults"
   ],
   "note": ""
  },
  {
   "property": "C157",
   "status": "proved",
   "theorems": [
    "C157_device",
    "C157_failure",
    "C157_works"
   ],
   "note": ""
  },
  {
   "property": "C158",
   "status": "proved",
   "theorems": [
    "C158_exclusive",
    "C158_taken_when_free",
    "C158_reopen"
   ],
   "note": ""
  },
  {
   "property": "C159",
   "status": "proved",
   "theorems": [
    "C159_silent",
    "C159_ends",
    "C159_end_of_data"
   ],
   "note": ""
  },
  {
   "property": "C160",
   "status": "partial",
   "theorems": [
    "C160_security_refuted",
    "C160_roles_refuted"
   ],
   "note": "The code does not have this property: the theorems prove concrete reachable counterexamples in the model. What the code does guarantee in this area is the property C156."
  },
  {
   "property": "C161",
   "status": "partial",
   "theorems": [
    "C161_leak_refuted"
   ],
   "note": "The code does not have this property: the theorems prove concrete reachable counterexamples in the model. What the code does guarantee in this area is the property C157."
  },
  {
   "property": "C162",
   "status": "partial",
   "theorems": [
    "C162_retry_refuted",
    "C162_available_after_a_second_refuted"
   ],
   "note": "The code does not have this property: the theorems prove concrete reachable counterexamples in the model. What the code does guarantee in this area is the property C157."
  },
  {
   "property": "C163",
   "status": "partial",
   "theorems": [
    "C163_first_available_refuted"
   ],
   "note": "The code does not have this property: the theorems prove concrete reachable counterexamples in the model. What the code does guarantee in this area is the property C158."
  },
  {
   "property": "C164",
   "status": "partial",
   "theorems": [
    "C164_stop_then_open_refuted"
   ],
   "note": "The code does not have this property: the theorems prove concrete reachable counterexamples in the model. What the code does guarantee in this area is the property C158."
  },
  {
   "property": "C165",
   "status": "proved",
   "theorems": [
    "C165_end_to_end",
    "C165_all_packets",
    "C165_delivery"
   ],
   "note": ""
  },
  {
   "property": "C166",
   "status": "proved",
   "theorems": [
    "C166_process_survives",
    "C166_handler_runs",
    "C166_own_context",
    "C166_only_then",
    "C166_at_most",
    "C166_restored",
    "C166_without_handler",
    "C166_goroutines_end",
    "C166_no_device",
    "C166_before_set_device"
   ],
   "note": ""
  },
  {
   "property": "C167",
   "status": "partial",
   "theorems": [
    "C167_goroutines_left_refuted",
    "C167_handler_after_return_refuted"
   ],
   "note": "The code does not have this property: the theorems prove concrete reachable counterexamples in the model. What the code does guarantee in this area is the property C166."
  },
  {
   "property": "C168",
   "status": "partial",
   "theorems": [
    "C168_find_calls_twice_refuted"
   ],
   "note": "The code does not have this property: the theorems prove concrete reachable counterexamples in the model. What the code does guarantee in this area is the property C166."
  },
  {
   "property": "C169",
   "status": "partial",
   "theorems": [
    "C169_between_scan_and_dial_refuted"
   ],
   "note": "The code does not have this property: the theorems prove concrete reachable counterexamples in the model. What the code does guarantee in this area is the property C166."
  },
  {
   "property": "C170",
   "status": "proved",
   "theorems": [
    "C170_others_untouched",
    "C170_released",
    "C170_open_until_close",
    "C170_read",
    "C170_write",
    "C170_own_file",
    "C170_after_close",
    "C170_exclusive",
    "C170_progress",
    "C170_reads_when_ready",
    "C170_bounded"
   ],
   "note": ""
  },
  {
   "property": "C171",
   "status": "partial",
   "theorems": [
    "C171_closed_write_refuted",
    "C171_closed_read_refuted",
    "C171_foreign_partial"
   ],
   "note": "The code does not have this property: the theorems prove concrete reachable counterexamples in the model. What the code does guarantee in this area is the property C170."
  },
  {
   "property": "C172",
   "status": "proved",
   "theorems": [
    "C172_sent",
    "C172_unknown_refused"
   ],
   "note": ""
  },
  {
   "property": "C173",
   "status": "proved",
   "theorems": [
    "C173_delivered"
   ],
   "note": ""
  },
  {
   "property": "C174",
   "status": "partial",
   "theorems": [
    "C174_map_as_accessors_refuted"
   ],
   "note": "The code does not have this property: the theorems prove concrete reachable counterexamples in the model. What the code does guarantee in this area is the property C173."
  },
  {
   "property": "C175",
   "status": "proved",
   "theorems": [
    "C175_packet",
    "C175_response",
    "C175_device_to_device",
    "C175_all_shown"
   ],
   "note": ""
  },
  {
   "property": "C176",
   "status": "proved",
   "theorems": [
    "C176_each_once",
    "C176_one_success",
    "C176_one_waits",
    "C176_later_calls",
    "C176_time_out"
   ],
   "note": ""
  },
  {
   "property": "C177",
   "status": "partial",
   "theorems": [
    "C177_try_again_refuted"
   ],
   "note": "The code does not have this property: the theorems prove concrete reachable counterexamples in the model. What the code does guarantee in this area is the property C176."
  },
  {
   "property": "C178",
   "status": "proved",
   "theorems": [
    "C178_find",
    "C178_other_targets"
   ],
   "note": ""
  },
  {
   "property": "C179",
   "status": "partial",
   "theorems": [
    "C179_never_nil_refuted",
    "C179_not_found_refuted",
    "C179_nil_target_refuted"
   ],
   "note": "The code does not have this property: the theorems prove concrete reachable counterexamples in the model. What the code does guarantee in this area is the property C178."
  },
  {
   "property": "C180",
   "status": "proved",
   "theorems": [
    "C180_remote_address",
    "C180_text_injective",
    "C180_local_address",
    "C180_read_rssi",
    "C180_connection_handle",
    "C180_event_on_the_wire"
   ],
   "note": ""
  },
  {
   "property": "C181",
   "status": "partial",
   "theorems": [
    "C181_handles_collide_refuted"
   ],
   "note": "The code does not have this property: the theorems prove concrete reachable counterexamples in the model. What the code does guarantee in this area is the property C180."
  },
  {
   "property": "C182",
   "status": "proved",
   "theorems": [
    "C182_att_names",
    "C182_att_ranges",
    "C182_att_distinct",
    "C182_hci_names",
    "C182_hci_distinct"
   ],
   "note": ""
  },
  {
   "property": "C183",
   "status": "partial",
   "theorems": [
    "C183_insufficient_resources_refuted",
    "C183_profile_errors_refuted"
   ],
   "note": "The code does not have this property: the theorems prove concrete reachable counterexamples in the model. What the code does guarantee in this area is the property C182."
  },
  {
   "property": "C184",
   "status": "proved",
   "theorems": [
    "C184_advertising",
    "C184_scanning",
    "C184_who_asks",
    "C184_stop_is_final",
    "C184_started",
    "C184_payload",
    "C184_no_deadlock",
    "C184_few_steps",
    "C184_failures_reported",
    "C184_too_long",
    "C184_fits"
   ],
   "note": ""
  },
  {
   "property": "C185",
   "status": "partial",
   "theorems": [
    "C185_mixed_payload_refuted",
    "C185_mixed_dial_refuted"
   ],
   "note": "The code does not have this property: the theorems prove concrete reachable counterexamples in the model. What the code does guarantee in this area is the property C184."
  },
  {
   "property": "C186",
   "status": "proved",
   "theorems": [
    "C186_no_crash",
    "C186_handed_over",
    "C186_changes",
    "C186_once",
    "C186_few_steps",
    "C186_undisturbed",
    "C186_scan_between"
   ],
   "note": ""
  },
  {
   "property": "C187",
   "status": "partial",
   "theorems": [
    "C187_scan_crash_refuted"
   ],
   "note": "The code does not have this property: the theorems prove concrete reachable counterexamples in the model. What the code does guarantee in this area is the property C186."
  },
  {
   "property": "C188",
   "status": "partial",
   "theorems": [
    "C188_changes_later_refuted"
   ],
   "note": "The code does not have this property: the theorems prove concrete reachable counterexamples in the model. What the code does guarantee in this area is the property C186."
  },
  {
   "property": "C189",
   "status": "proved",
   "theorems": [
    "C189_whole",
    "C189_order",
    "C189_peer",
    "C189_closed",
    "C189_no_crash",
    "C189_progress",
    "C189_few_steps",
    "C189_buffers"
   ],
   "note": ""
  },
  {
   "property": "C190",
   "status": "partial",
   "theorems": [
    "C190_whole_refuted",
    "C190_no_crash_refuted"
   ],
   "note": "The code does not have this property: the theorems prove concrete reachable counterexamples in the model. What the code does guarantee in this area is the property C189."
  },
  {
   "property": "C191",
   "status": "proved",
   "theorems": [
    "C191_never_blocks",
    "C191_no_deadlock",
    "C191_few_steps",
    "C191_answered",
    "C191_own_answer",
    "C191_identifiers",
    "C191_one_answer_each",
    "C191_channels"
   ],
   "note": ""
  },
  {
   "property": "C192",
   "status": "partial",
   "theorems": [
    "C192_mixed_refuted",
    "C192_rejected_refuted",
    "C192_identifier_zero_refuted"
   ],
   "note": "The code does not have this property: the theorems prove concrete reachable counterexamples in the model. What the code does guarantee in this area is the property C191."
  }
 ]
}