{
 "claims": [
  {
   "property": "C01",
   "status": "proved",
   "theorems": [
    "C01_header_round_trip",
    "C01_header_fields_in_range",
    "C01_header_fields_exact"
   ],
   "note": ""
  },
  {
   "property": "C02",
   "status": "proved",
   "theorems": [
    "C02_request_n_round_trip",
    "C02_cancel_round_trip",
    "C02_error_round_trip"
   ],
   "note": ""
  },
  {
   "property": "C03",
   "status": "proved",
   "theorems": [
    "C03_payload_round_trip"
   ],
   "note": ""
  },
  {
   "property": "C04",
   "status": "proved",
   "theorems": [
    "C04_request_round_trip",
    "C04_follows_refuted"
   ],
   "note": "The Follows flag is lost on the wire (C04_follows_refuted): finding."
  },
  {
   "property": "C05",
   "status": "proved",
   "theorems": [
    "C05_setup_round_trip",
    "C05_duration_exact_iff",
    "C05_default_durations_refuted"
   ],
   "note": "Durations of 4.295 s or more are corrupted (C05_default_durations_refuted): finding."
  },
  {
   "property": "C06",
   "status": "proved",
   "theorems": [
    "C06_setup_token_grows_data",
    "C06_setup_decoder_panics"
   ],
   "note": ""
  },
  {
   "property": "C07",
   "status": "proved",
   "theorems": [
    "C07_encode_writes_size_bytes"
   ],
   "note": ""
  },
  {
   "property": "C08",
   "status": "proved",
   "theorems": [
    "C08_payload_short_buffer",
    "C08_error_short_buffer"
   ],
   "note": ""
  },
  {
   "property": "C09",
   "status": "proved",
   "theorems": [
    "C09_payload_fragments"
   ],
   "note": ""
  },
  {
   "property": "C10",
   "status": "proved",
   "theorems": [
    "C10_request_fragments",
    "C10_metadata_duplicated_refuted"
   ],
   "note": "Metadata shorter than the first frame is sent twice (C10_metadata_duplicated_refuted): finding."
  },
  {
   "property": "C11",
   "status": "proved",
   "theorems": [
    "C11_payload_fragment_diverges",
    "C11_payload_fragment_below_header",
    "C11_payload_fragment_terminates"
   ],
   "note": ""
  },
  {
   "property": "C12",
   "status": "proved",
   "theorems": [
    "C12_payload_decode_exact",
    "C12_request_decode_exact",
    "C12_fixed_decode_exact"
   ],
   "note": ""
  },
  {
   "property": "C13",
   "status": "proved",
   "theorems": [
    "C13_u24_round_trip",
    "C13_u24_rejects_large",
    "C13_u24_bytes_round_trip"
   ],
   "note": ""
  },
  {
   "property": "C14",
   "status": "proved",
   "theorems": [
    "C14_any_chunking",
    "C14_bad_lengths"
   ],
   "note": ""
  },
  {
   "property": "C15",
   "status": "proved",
   "theorems": [
    "C15_eof_with_data_lost",
    "C15_whole_stream_lost"
   ],
   "note": ""
  },
  {
   "property": "C16",
   "status": "proved",
   "theorems": [
    "C16_frames_over_tcp",
    "C16_kind_by_type",
    "C16_unknown_type"
   ],
   "note": ""
  },
  {
   "property": "C17",
   "status": "proved",
   "theorems": [
    "C17_intact_when_returned",
    "C17_intact_without_shift",
    "C17_overwritten"
   ],
   "note": ""
  },
  {
   "property": "C18",
   "status": "proved",
   "theorems": [
    "C18_serialised_sends",
    "C18_overlapping_sends_corrupt"
   ],
   "note": ""
  },
  {
   "property": "C19",
   "status": "proved",
   "theorems": [
    "C19_nothing_before_setup",
    "C19_in_order_no_loss_no_duplication",
    "C19_bad_first_ends_session",
    "C19_complete_at_end",
    "C19_session_can_end"
   ],
   "note": ""
  },
  {
   "property": "C20",
   "status": "proved",
   "theorems": [
    "C20_host_receives_batches",
    "C20_host_cut_batch_panics",
    "C20_guest_frames_reach_host",
    "C20_out_of_range_ignored"
   ],
   "note": ""
  },
  {
   "property": "C21",
   "status": "proved",
   "theorems": [
    "C21_guest_receives_batches",
    "C21_guest_short_frame_panics"
   ],
   "note": ""
  },
  {
   "property": "C22",
   "status": "proved",
   "theorems": [
    "C22_fitting_frame_reaches_guest",
    "C22_oversized_payload_kills_guest"
   ],
   "note": ""
  },
  {
   "property": "C23",
   "status": "proved",
   "theorems": [
    "C23_client_ids_distinct_odd",
    "C23_client_ids_sequence",
    "C23_client_ids_wrap"
   ],
   "note": ""
  },
  {
   "property": "C24",
   "status": "proved",
   "theorems": [
    "C24_server_ids_distinct_even",
    "C24_server_ids_sequence",
    "C24_server_id_zero_refuted",
    "C24_client_server_disjoint"
   ],
   "note": ""
  },
  {
   "property": "C25",
   "status": "proved",
   "theorems": [
    "C25_buffer_fifo",
    "C25_put_accepted_iff_before_dispose"
   ],
   "note": ""
  },
  {
   "property": "C26",
   "status": "proved",
   "theorems": [
    "C26_reader_never_stranded",
    "C26_drain_after_dispose"
   ],
   "note": ""
  },
  {
   "property": "C27",
   "status": "proved",
   "theorems": [
    "C27_table_round_trip_general",
    "C27_table_round_trip",
    "C27_long_names_refuted"
   ],
   "note": ""
  },
  {
   "property": "C28",
   "status": "proved",
   "theorems": [
    "C28_wrong_magic_rejected",
    "C28_wrong_version_rejected",
    "C28_reserved_fields_skipped",
    "C28_large_reserved_refuted",
    "C28_truncated_table_panics",
    "C28_count_respected"
   ],
   "note": ""
  },
  {
   "property": "C29",
   "status": "proved",
   "theorems": [
    "C29_advertised_export_dispatches",
    "C29_every_export_advertised",
    "C29_unadvertised_ids_select_nothing"
   ],
   "note": ""
  },
  {
   "property": "C30",
   "status": "proved",
   "theorems": [
    "C30_reimport_same_index",
    "C30_different_names_different_indexes",
    "C30_imports_advertised",
    "C30_kinds_independent"
   ],
   "note": ""
  },
  {
   "property": "C31",
   "status": "proved",
   "theorems": [
    "C31_peer_operation_resolves",
    "C31_unknown_operation_aliases_first"
   ],
   "note": ""
  },
  {
   "property": "C32",
   "status": "proved",
   "theorems": [
    "C32_get_and_remove_follow_history",
    "C32_handle_until_removed",
    "C32_live_handles_distinct",
    "C32_zero_size_instances_refuted"
   ],
   "note": ""
  },
  {
   "property": "C33",
   "status": "proved",
   "theorems": [
    "C33_port_message_general",
    "C33_port_round_trip",
    "C33_flags_conflated_refuted",
    "C33_decode_short_input_panics"
   ],
   "note": ""
  },
  {
   "property": "C34",
   "status": "proved",
   "theorems": [
    "C34_table_is_a_map"
   ],
   "note": ""
  },
  {
   "property": "C35",
   "status": "proved",
   "theorems": [
    "C35_first_stream_never_removed",
    "C35_successor_becomes_permanent",
    "C35_size_goes_negative"
   ],
   "note": ""
  },
  {
   "property": "C36",
   "status": "proved",
   "theorems": [
    "C36_int_round_trip",
    "C36_every_form_is_read"
   ],
   "note": ""
  },
  {
   "property": "C37",
   "status": "proved",
   "theorems": [
    "C37_uint_round_trip",
    "C37_unsigned_reads_signed"
   ],
   "note": ""
  },
  {
   "property": "C38",
   "status": "proved",
   "theorems": [
    "C38_string_round_trip",
    "C38_bytes_round_trip",
    "C38_nil_is_not_empty"
   ],
   "note": ""
  },
  {
   "property": "C39",
   "status": "proved",
   "theorems": [
    "C39_bool_round_trip",
    "C39_nil_round_trip",
    "C39_float_round_trip"
   ],
   "note": ""
  },
  {
   "property": "C40",
   "status": "proved",
   "theorems": [
    "C40_time_round_trip",
    "C40_every_form_is_read"
   ],
   "note": ""
  },
  {
   "property": "C41",
   "status": "proved",
   "theorems": [
    "C41_sizer_exact"
   ],
   "note": ""
  },
  {
   "property": "C42",
   "status": "proved",
   "theorems": [
    "C42_surplus_is_zero_bytes",
    "C42_bytes_255",
    "C42_untyped_time"
   ],
   "note": ""
  },
  {
   "property": "C43",
   "status": "proved",
   "theorems": [
    "C43_any_round_trip",
    "C43_nil_refuted",
    "C43_keys_merge_refuted"
   ],
   "note": ""
  },
  {
   "property": "C44",
   "status": "proved",
   "theorems": [
    "C44_skip_exact",
    "C44_skip_written",
    "C44_extensions_refuted"
   ],
   "note": ""
  },
  {
   "property": "C45",
   "status": "proved",
   "theorems": [
    "C45_skip_diverges_refuted",
    "C45_wrapping_length_panics_refuted",
    "C45_calm_buffers"
   ],
   "note": ""
  },
  {
   "property": "C46",
   "status": "proved",
   "theorems": [
    "C46_sticky",
    "C46_in_bounds",
    "C46_program",
    "C46_type_errors_are_forgotten_refuted"
   ],
   "note": ""
  },
  {
   "property": "C47",
   "status": "proved",
   "theorems": [
    "C47_decode_any_fields",
    "C47_round_trip",
    "C47_nil_record"
   ],
   "note": ""
  },
  {
   "property": "C48",
   "status": "proved",
   "theorems": [
    "C48_slice_round_trip",
    "C48_map_round_trip"
   ],
   "note": ""
  },
  {
   "property": "C49",
   "status": "proved",
   "theorems": [
    "C49_at_most_one_outcome",
    "C49_first_call_decides",
    "C49_notifications_fire_once",
    "C49_get_returns_delivered",
    "C49_early_get_panics",
    "C49_notify_in_error_callback_refuted",
    "C49_resubscription_fires_again"
   ],
   "note": ""
  },
  {
   "property": "C50",
   "status": "proved",
   "theorems": [
    "C50_processor_delivers_decided"
   ],
   "note": ""
  },
  {
   "property": "C51",
   "status": "proved",
   "theorems": [
    "C51_effective_calls_delivered",
    "C51_event_grammar",
    "C51_finally_once"
   ],
   "note": ""
  },
  {
   "property": "C52",
   "status": "proved",
   "theorems": [
    "C52_nothing_delivered_after_cancel",
    "C52_every_cancel_counts",
    "C52_late_notification_reports_completion"
   ],
   "note": ""
  },
  {
   "property": "C53",
   "status": "proved",
   "theorems": [
    "C53_any_interleaving",
    "C53_two_subscriptions_refuted",
    "C53_prefix_within_demand",
    "C53_exactly_what_was_requested",
    "C53_subscriber_sees"
   ],
   "note": ""
  },
  {
   "property": "C54",
   "status": "proved",
   "theorems": [
    "C54_mapped_events",
    "C54_total_map",
    "C54_mapping_error_terminates_refuted"
   ],
   "note": ""
  },
  {
   "property": "C55",
   "status": "proved",
   "theorems": [
    "C55_map_delivers_mapped_outcome",
    "C55_map_get"
   ],
   "note": ""
  },
  {
   "property": "C56",
   "status": "proved",
   "theorems": [
    "C56_steps_in_order",
    "C56_no_step_lost"
   ],
   "note": ""
  },
  {
   "property": "C57",
   "status": "proved",
   "theorems": [
    "C57_step_repeats_forever",
    "C57_following_step_skipped",
    "C57_last_step_panics"
   ],
   "note": ""
  },
  {
   "property": "C58",
   "status": "proved",
   "theorems": [
    "C58_flux_to_mono",
    "C58_flux_to_void",
    "C58_mono_to_flux"
   ],
   "note": ""
  },
  {
   "property": "C59",
   "status": "proved",
   "theorems": [
    "C59_demand_on_the_wire",
    "C59_demand_modulo",
    "C59_input_on_the_wire"
   ],
   "note": ""
  },
  {
   "property": "C60",
   "status": "proved",
   "theorems": [
    "C60_one_request_per_subscription",
    "C60_only_answers_on_own_stream",
    "C60_first_answer_delivered",
    "C60_subscriber_sees_first_answer",
    "C60_closed_stream_refuted"
   ],
   "note": ""
  },
  {
   "property": "C61",
   "status": "proved",
   "theorems": [
    "C61_every_request_served_once",
    "C61_idle_all_answered",
    "C61_outcome_answered_once"
   ],
   "note": ""
  },
  {
   "property": "C62",
   "status": "proved",
   "theorems": [
    "C62_events_become_frames"
   ],
   "note": ""
  },
  {
   "property": "C63",
   "status": "proved",
   "theorems": [
    "C63_served_stream_touched",
    "C63_demand_on_a_mono_call",
    "C63_demand_without_input",
    "C63_demand_goroutine",
    "C63_error_flux_handler"
   ],
   "note": ""
  },
  {
   "property": "C64",
   "status": "proved",
   "theorems": [
    "C64_only_the_handlers_outcome",
    "C64_call_answered"
   ],
   "note": ""
  },
  {
   "property": "C65",
   "status": "proved",
   "theorems": [
    "C65_close_waits_for_requests",
    "C65_refused_request_blocks_close",
    "C65_close_race_refuted",
    "C65_cancelled_channel_refuted",
    "C65_request_during_close_refuted"
   ],
   "note": ""
  },
  {
   "property": "C66",
   "status": "proved",
   "theorems": [
    "C66_pending_imports",
    "C66_imports_linked",
    "C66_loading_succeeds",
    "C66_last_index_refuted",
    "C66_request_type_ignored_refuted"
   ],
   "note": ""
  },
  {
   "property": "C67",
   "status": "proved",
   "theorems": [
    "C67_lookup_reaches_latest",
    "C67_import_bound_when_linked",
    "C67_links_are_permanent",
    "C67_replaced_instance_refuted",
    "C67_short_metadata_refuted"
   ],
   "note": ""
  },
  {
   "property": "C68",
   "status": "proved",
   "theorems": [
    "C68_requested_sections",
    "C68_only_modules_accepted",
    "C68_empty_section_at_end_refuted"
   ],
   "note": ""
  },
  {
   "property": "C69",
   "status": "proved",
   "theorems": [
    "C69_round_trip",
    "C69_text_form",
    "C69_binary"
   ],
   "note": ""
  },
  {
   "property": "C70",
   "status": "proved",
   "theorems": [
    "C70_accepted_forms",
    "C70_braces_unchecked_refuted"
   ],
   "note": ""
  },
  {
   "property": "C71",
   "status": "proved",
   "theorems": [
    "C71_random_uuids",
    "C71_version_variant",
    "C71_generation_succeeds"
   ],
   "note": ""
  },
  {
   "property": "C72",
   "status": "proved",
   "theorems": [
    "C72_pairs_distinct",
    "C72_timestamps",
    "C72_too_many_stalls_refuted",
    "C72_set_sequence_refuted"
   ],
   "note": ""
  },
  {
   "property": "C73",
   "status": "proved",
   "theorems": [
    "C73_oversized_guest_payload_leaks_memory"
   ],
   "note": ""
  },
  {
   "property": "C74",
   "status": "proved",
   "theorems": [
    "C74_closing_in_order_keeps_all"
   ],
   "note": ""
  },
  {
   "property": "C75",
   "status": "proved",
   "theorems": [
    "C75_read_any_ends"
   ],
   "note": ""
  },
  {
   "property": "C76",
   "status": "proved",
   "theorems": [
    "C76_skip_truncated_refuted",
    "C76_record_truncated_refuted"
   ],
   "note": ""
  },
  {
   "property": "C77",
   "status": "proved",
   "theorems": [
    "C77_slice_response_repeats_refuted",
    "C77_negative_request_panics"
   ],
   "note": ""
  },
  {
   "property": "C80",
   "status": "proved",
   "theorems": [
    "C80_time_fields",
    "C80_unix_time"
   ],
   "note": ""
  },
  {
   "property": "C81",
   "status": "proved",
   "theorems": [
    "C81_any_interleaving",
    "C81_prefix_within_demand",
    "C81_exactly_what_was_requested",
    "C81_subscriber_sees"
   ],
   "note": ""
  },
  {
   "property": "C78",
   "status": "proved",
   "theorems": [
    "C78_every_whole_request_served_once",
    "C78_idle_all_answered",
    "C78_fragments_get_no_answer"
   ],
   "note": ""
  },
  {
   "property": "C79",
   "status": "proved",
   "theorems": [
    "C79_served_in_order",
    "C79_guest_is_a_handler",
    "C79_guest_histories"
   ],
   "note": ""
  },
  {
   "property": "C82",
   "status": "proved",
   "theorems": [
    "C82_only_the_initial_demand",
    "C82_slice_stops_at_the_initial_demand"
   ],
   "note": ""
  },
  {
   "property": "C83",
   "status": "proved",
   "theorems": [
    "C83_demand_is_passed_on",
    "C83_early_demand_lost_refuted",
    "C83_guest_in_order"
   ],
   "note": ""
  },
  {
   "property": "C84",
   "status": "proved",
   "theorems": [
    "C84_in_order",
    "C84_stops_finished_or_deadlocked",
    "C84_deadlock_is_final",
    "C84_few_under_way",
    "C84_long_call_deadlocks",
    "C84_silent_callbacks_finish",
    "C84_two_hundred_and_two_refuted"
   ],
   "note": ""
  },
  {
   "property": "C85",
   "status": "proved",
   "theorems": [
    "C85_scalars",
    "C85_int_is_cut_refuted",
    "C85_text",
    "C85_time_one_way_refuted",
    "C85_slice",
    "C85_map",
    "C85_interface"
   ],
   "note": ""
  },
  {
   "property": "C86",
   "status": "proved",
   "theorems": [
    "C86_flux_block_safe",
    "C86_flux_block_outcome",
    "C86_flux_block_cancel_crashes_refuted",
    "C86_flux_block_entry",
    "C86_mapped_block_outcome",
    "C86_bad_value_then_end_crashes_refuted",
    "C86_mapped_error_flux_hangs_refuted",
    "C86_mono_block_outcome",
    "C86_mapped_mono_block_outcome",
    "C86_mono_block_entry"
   ],
   "note": ""
  },
  {
   "property": "C87",
   "status": "proved",
   "theorems": [
    "C87_close_ends_everything",
    "C87_close_takes_effect",
    "C87_every_connection_once",
    "C87_refused_connections_leak_refuted",
    "C87_close_before_listen_refuted",
    "C87_ended_sessions_stay_refuted",
    "C87_waiting_goroutine_leaks_refuted"
   ],
   "note": ""
  },
  {
   "property": "C88",
   "status": "proved",
   "theorems": [
    "C88_pushes_go_to_latest_subscriber",
    "C88_subscriber_sees",
    "C88_early_results_lost_refuted",
    "C88_requests_need_an_announcement"
   ],
   "note": ""
  },
  {
   "property": "C89",
   "status": "proved",
   "theorems": [
    "C89_decode_any_fields",
    "C89_versions",
    "C89_nil_record",
    "C89_round_trip",
    "C89_covers_C47"
   ],
   "note": ""
  },
  {
   "property": "C90",
   "status": "proved",
   "theorems": [
    "C90_counts_are_right",
    "C90_first_message_decides",
    "C90_later_words_lost_refuted"
   ],
   "note": ""
  },
  {
   "property": "C91",
   "status": "proved",
   "theorems": [
    "C91_first_value_decides",
    "C91_no_value_no_end_refuted",
    "C91_pipeline"
   ],
   "note": ""
  },
  {
   "property": "C92",
   "status": "proved",
   "theorems": [
    "C92_optional_value",
    "C92_optional_record",
    "C92_conversions_that_hold",
    "C92_conversions_of_values",
    "C92_nil_conversion_panics_refuted",
    "C92_nil_input_panics_refuted"
   ],
   "note": ""
  },
  {
   "property": "C93",
   "status": "proved",
   "theorems": [
    "C93_only_service_outcomes",
    "C93_typed_call_returns",
    "C93_across_versions",
    "C93_undecodable_arguments",
    "C93_greeter",
    "C93_name_travels",
    "C93_uppercase_refused_refuted"
   ],
   "note": ""
  },
  {
   "property": "C94",
   "status": "proved",
   "theorems": [
    "C94_nothing_invented",
    "C94_in_order",
    "C94_handler_invoked_once",
    "C94_stream_end_to_end",
    "C94_input_cancelled_refuted"
   ],
   "note": ""
  },
  {
   "property": "C95",
   "status": "proved",
   "theorems": [
    "C95_nothing_invented",
    "C95_in_order",
    "C95_input_end_to_end",
    "C95_early_input_lost_refuted",
    "C95_cancel_completes_refuted"
   ],
   "note": ""
  },
  {
   "property": "C96",
   "status": "proved",
   "theorems": [
    "C96_service_invoked",
    "C96_typed_stream",
    "C96_counter",
    "C96_strings_survive"
   ],
   "note": ""
  },
  {
   "property": "C97",
   "status": "proved",
   "theorems": [
    "C97_service_invoked",
    "C97_typed_input"
   ],
   "note": ""
  },
  {
   "property": "C98",
   "status": "proved",
   "theorems": [
    "C98_one_request_per_subscription",
    "C98_only_answers_on_own_stream",
    "C98_first_answer_delivered",
    "C98_subscriber_sees_first_answer",
    "C98_demand_on_the_wire",
    "C98_input_on_the_wire",
    "C98_stream_delivered"
   ],
   "note": ""
  },
  {
   "property": "C99",
   "status": "proved",
   "theorems": [
    "C99_only_the_handlers_outcome",
    "C99_call_answered"
   ],
   "note": ""
  },
  {
   "property": "C100",
   "status": "proved",
   "theorems": [
    "C100_nothing_invented",
    "C100_in_order",
    "C100_handler_invoked_once",
    "C100_stream_end_to_end"
   ],
   "note": ""
  },
  {
   "property": "C101",
   "status": "proved",
   "theorems": [
    "C101_only_the_exporters_outcome",
    "C101_call_answered",
    "C101_call_through_mesh"
   ],
   "note": ""
  },
  {
   "property": "C102",
   "status": "proved",
   "theorems": [
    "C102_same_order_by_name",
    "C102_by_name_refuted"
   ],
   "note": ""
  },
  {
   "property": "C103",
   "status": "proved",
   "theorems": [
    "C103_typed_call",
    "C103_typed_call_returns",
    "C103_new_customer"
   ],
   "note": ""
  },
  {
   "property": "C104",
   "status": "proved",
   "theorems": [
    "C104_requests_sent",
    "C104_block_never_returns",
    "C104_awaited",
    "C104_typed_block",
    "C104_block_in_time",
    "C104_block_after",
    "C104_block_race_refuted"
   ],
   "note": ""
  },
  {
   "property": "C105",
   "status": "proved",
   "theorems": [
    "C105_exporter_invoked",
    "C105_stream_across",
    "C105_nobody_exports"
   ],
   "note": ""
  },
  {
   "property": "C106",
   "status": "proved",
   "theorems": [
    "C106_opened_once",
    "C106_later_subscribers_send_nothing",
    "C106_nothing_without_the_peer",
    "C106_read_again_refuted",
    "C106_awaited",
    "C106_block_unsubscribed_panics",
    "C106_block_race_refuted",
    "C106_block_on_fresh"
   ],
   "note": ""
  },
  {
   "property": "C107",
   "status": "proved",
   "theorems": [
    "C107_nothing_invented",
    "C107_in_order",
    "C107_guest_input_end_to_end",
    "C107_host_early_input_lost_refuted"
   ],
   "note": ""
  },
  {
   "property": "C108",
   "status": "proved",
   "theorems": [
    "C108_every_use_evaluates",
    "C108_told_once",
    "C108_same_answer",
    "C108_notified",
    "C108_signal_refuted",
    "C108_finally_refuted",
    "C108_readers_agree_refuted"
   ],
   "note": ""
  },
  {
   "property": "C109",
   "status": "proved",
   "theorems": [
    "C109_service_invoked",
    "C109_typed_stream",
    "C109_typed_input",
    "C109_counter"
   ],
   "note": ""
  },
  {
   "property": "C110",
   "status": "proved",
   "theorems": [
    "C110_input_across",
    "C110_early_input_lost_refuted"
   ],
   "note": ""
  },
  {
   "property": "C111",
   "status": "proved",
   "theorems": [
    "C111_typed_stream",
    "C111_typed_input"
   ],
   "note": ""
  }
 ]
}