{
 "claims": [
  {
   "property": "C01",
   "status": "proved",
   "theorems": [
    "C01_publish_reaches_exactly_the_prefixes",
    "C01_publish_returns"
   ],
   "note": ""
  },
  {
   "property": "C02",
   "status": "proved",
   "theorems": [
    "C02_shard_group_called_once"
   ],
   "note": ""
  },
  {
   "property": "C03",
   "status": "proved",
   "theorems": [
    "C03_routing_is_a_function_of_names_and_hash",
    "C03_routing_rule"
   ],
   "note": ""
  },
  {
   "property": "C04",
   "status": "proved",
   "theorems": [
    "C04_tree_holds_exactly_the_live_subscriptions",
    "C04_no_leak",
    "C04_no_panic_no_hang"
   ],
   "note": ""
  },
  {
   "property": "C05",
   "status": "proved",
   "theorems": [
    "C05_second_unsubscribe",
    "C05_idempotent_unsubscribe_refuted_panic",
    "C05_idempotent_unsubscribe_refuted_foreign"
   ],
   "note": "Exact characterisation of the second call, plus two refutations of 'unsubscribing twice is harmless'."
  },
  {
   "property": "C06",
   "status": "proved",
   "theorems": [
    "C06_one_call_per_visit",
    "C06_group_calls_per_visit"
   ],
   "note": ""
  },
  {
   "property": "C07",
   "status": "proved",
   "theorems": [
    "C07_combine_paths_concatenates_once"
   ],
   "note": ""
  },
  {
   "property": "C08",
   "status": "proved",
   "theorems": [
    "C08_selector_sees_everything_below",
    "C08_job_and_namespace_streams_are_disjoint"
   ],
   "note": ""
  },
  {
   "property": "C09",
   "status": "proved",
   "theorems": [
    "C09_hash_is_never_zero",
    "C09_short_components_do_not_collide",
    "C09_cli_jobs_are_isolated",
    "C09_bursts_are_detected",
    "C09_controller_jobs_are_isolated",
    "C09_uuid_isolation_refuted"
   ],
   "note": ""
  },
  {
   "property": "C10",
   "status": "proved",
   "theorems": [
    "C10_empty_job_id_receives_every_job",
    "C10_empty_component_drops_the_rest"
   ],
   "note": ""
  },
  {
   "property": "C11",
   "status": "proved",
   "theorems": [
    "C11_indexes_agree"
   ],
   "note": ""
  },
  {
   "property": "C12",
   "status": "proved",
   "theorems": [
    "C12_delete_removes_the_job_and_nothing_else"
   ],
   "note": ""
  },
  {
   "property": "C13",
   "status": "proved",
   "theorems": [
    "C13_rule_exists_iff_registered",
    "C13_no_rule_without_registration"
   ],
   "note": ""
  },
  {
   "property": "C14",
   "status": "proved",
   "theorems": [
    "C14_stop_drops_rules_and_keeps_registrations",
    "C14_reference_count_refuted"
   ],
   "note": ""
  },
  {
   "property": "C15",
   "status": "proved",
   "theorems": [
    "C15_event_goes_to_registered_jobs",
    "C15_job_subscriber_receives",
    "C15_path_subscriber_receives"
   ],
   "note": ""
  },
  {
   "property": "C16",
   "status": "proved",
   "theorems": [
    "C16_starts_accumulate",
    "C16_publications_count_registrations",
    "C16_exactly_once_refuted"
   ],
   "note": ""
  },
  {
   "property": "C17",
   "status": "proved",
   "theorems": [
    "C17_sampling_alone_or_with_unsampled",
    "C17_sampling_next_to_a_lower_rate",
    "C17_equal_rates_panic",
    "C17_documented_example_refuted"
   ],
   "note": ""
  },
  {
   "property": "C18",
   "status": "proved",
   "theorems": [
    "C18_lowest_is_first_minimum"
   ],
   "note": ""
  },
  {
   "property": "C19",
   "status": "proved",
   "theorems": [
    "C19_sampled_job_gets_unsampled_rule"
   ],
   "note": ""
  },
  {
   "property": "C20",
   "status": "proved",
   "theorems": [
    "C20_deleted_job_comes_back",
    "C20_idle_job_cannot_be_deleted"
   ],
   "note": ""
  },
  {
   "property": "C21",
   "status": "proved",
   "theorems": [
    "C21_monitored_hosts_exact",
    "C21_host_names_unambiguous",
    "C21_dotted_names_refuted"
   ],
   "note": ""
  },
  {
   "property": "C22",
   "status": "proved",
   "theorems": [
    "C22_adds_touch_their_own_rule",
    "C22_subjects_have_different_keys",
    "C22_namespaces_alias_outside_32_bits",
    "C22_minus_one_means_every_namespace"
   ],
   "note": ""
  },
  {
   "property": "C23",
   "status": "proved",
   "theorems": [
    "C23_remove_undoes_add",
    "C23_metrics_are_never_removed",
    "C23_remove_metrics_refuted"
   ],
   "note": "The syscall half holds; the metrics half is false of the code: RemoveMetrics never removes the rule AddMetrics installed (refutation plus the general theorem that no later call switches collection off)."
  },
  {
   "property": "C24",
   "status": "proved",
   "theorems": [
    "C24_filter_decision",
    "C24_filter_run_only_counts"
   ],
   "note": ""
  },
  {
   "property": "C25",
   "status": "proved",
   "theorems": [
    "C25_sampling_counts",
    "C25_unsampled_passes_all"
   ],
   "note": ""
  },
  {
   "property": "C26",
   "status": "proved",
   "theorems": [
    "C26_kernel_emits_what_jobs_asked_for",
    "C26_nothing_unwanted_is_emitted"
   ],
   "note": ""
  },
  {
   "property": "C27",
   "status": "proved",
   "theorems": [
    "C27_event_pairs_exit_with_its_entry",
    "C27_one_event_per_entry",
    "C27_passed_entry_is_reported",
    "C27_dropped_entry_is_silent",
    "C27_entry_is_taken_iff_it_passes",
    "C27_where_events_come_from",
    "C27_without_turns_refuted"
   ],
   "note": ""
  },
  {
   "property": "C28",
   "status": "proved",
   "theorems": [
    "C28_counts_are_exact",
    "C28_counts_add_up",
    "C28_every_exit_is_monitored",
    "C28_racing_exits_lose_a_count",
    "C28_success_counted_as_errno_refuted"
   ],
   "note": ""
  },
  {
   "property": "C29",
   "status": "proved",
   "theorems": [
    "C29_time_is_the_sum_of_durations",
    "C29_other_negative_results_add_the_uptime",
    "C29_timed_from_the_last_entry",
    "C29_overlapping_calls_add_up_refuted"
   ],
   "note": ""
  },
  {
   "property": "C30",
   "status": "proved",
   "theorems": [
    "C30_query_all_returns_every_entry_once",
    "C30_prune_deletes_the_namespace",
    "C30_prune_is_the_models_prune",
    "C30_zero_key_hides_what_precedes_it",
    "C30_zero_key_keeps_what_precedes_it",
    "C30_reported_entries_were_present",
    "C30_prune_deletes_only_its_own",
    "C30_once_under_updates_refuted",
    "C30_get_running_returns_every_rule_once"
   ],
   "note": ""
  },
  {
   "property": "C31",
   "status": "proved",
   "theorems": [
    "C31_kernel_bytes_decode_to_the_event",
    "C31_exactly_short_buffers_are_rejected",
    "C31_different_events_have_different_bytes",
    "C31_every_long_buffer_is_an_event"
   ],
   "note": ""
  },
  {
   "property": "C32",
   "status": "proved",
   "theorems": [
    "C32_comm_is_the_c_string"
   ],
   "note": ""
  },
  {
   "property": "C33",
   "status": "proved",
   "theorems": [
    "C33_error_exactly_for_short_or_foreign_input",
    "C33_known_syscalls_are_ingested",
    "C33_unknown_syscall_is_an_error_refuted",
    "C33_clients_know_every_decoded_syscall",
    "C33_one_decoder_per_syscall"
   ],
   "note": ""
  },
  {
   "property": "C34",
   "status": "proved",
   "theorems": [
    "C34_decoding_stays_inside",
    "C34_use_stays_inside",
    "C34_task_chosen_lengths",
    "C34_counted_buffers",
    "C34_mprotect_data",
    "C34_use_always_inside_refuted",
    "C34_socket_addresses_read_110_bytes"
   ],
   "note": ""
  },
  {
   "property": "C35",
   "status": "proved",
   "theorems": [
    "C35_members_show_the_arguments",
    "C35_every_member_is_right_refuted",
    "C35_what_wrong_members_show",
    "C35_short_strings_are_whole",
    "C35_long_strings_are_cut",
    "C35_strings_near_unreadable_memory_are_lost",
    "C35_readable_strings_are_shown_refuted",
    "C35_end_to_end",
    "C35_event_shows_the_call_that_was_made"
   ],
   "note": ""
  },
  {
   "property": "C36",
   "status": "proved",
   "theorems": [
    "C36_c_string_is_the_longest_nul_free_prefix",
    "C36_c_string_never_exceeds_its_bound",
    "C36_c_string_has_no_nul",
    "C36_nothing_after_the_nul_matters",
    "C36_without_a_nul_all_bytes_are_kept"
   ],
   "note": ""
  },
  {
   "property": "C37",
   "status": "proved",
   "theorems": [
    "C37_ipv4_address_and_port",
    "C37_ipv4_text_determines_address_and_port",
    "C37_ipv6_address_and_swapped_port",
    "C37_bytes_are_two_hex_digits",
    "C37_ipv6_port_is_right_only_for_equal_bytes",
    "C37_ipv6_text_determines_the_address",
    "C37_unix_path_up_to_the_nul",
    "C37_unspecified_shows_signed_bytes",
    "C37_other_families_show_their_number"
   ],
   "note": ""
  },
  {
   "property": "C38",
   "status": "proved",
   "theorems": [
    "C38_flag_sets_survive",
    "C38_open_flags_survive_without_dsync",
    "C38_dsync_comes_back_as_sync_refuted",
    "C38_mount_nouser_comes_back_negative_refuted",
    "C38_mount_nouser_numbers",
    "C38_unknown_bits_are_dropped",
    "C38_names_shown",
    "C38_known_bits"
   ],
   "note": ""
  },
  {
   "property": "C39",
   "status": "proved",
   "theorems": [
    "C39_decoding_accumulates",
    "C39_second_value_replaces_first_refuted",
    "C39_open_flags_are_replaced",
    "C39_mount_flags"
   ],
   "note": ""
  },
  {
   "property": "C40",
   "status": "proved",
   "theorems": [
    "C40_errno_round_trip",
    "C40_reverse_table_is_deterministic",
    "C40_unknown_name"
   ],
   "note": ""
  },
  {
   "property": "C41",
   "status": "proved",
   "theorems": [
    "C41_table_is_independent_of_walk_order",
    "C41_lookups_are_inverse",
    "C41_uint32_and_int_agree",
    "C41_prefix_is_optional",
    "C41_get_by_class",
    "C41_get_by_group",
    "C41_calls_are_the_groups_names"
   ],
   "note": ""
  },
  {
   "property": "C42",
   "status": "proved",
   "theorems": [
    "C42_chart_panics_iff",
    "C42_scrape_panics_iff",
    "C42_unknown_name_panics",
    "C42_known_names_never_panic",
    "C42_stop_panics_iff_unknown",
    "C42_missing_syscalls"
   ],
   "note": ""
  },
  {
   "property": "C43",
   "status": "proved",
   "theorems": [
    "C43_lookup_finds_the_last_start",
    "C43_lookup_fails_otherwise",
    "C43_lookups_inside_a_history",
    "C43_callbacks_are_the_valid_events",
    "C43_callbacks_may_write_refuted"
   ],
   "note": ""
  },
  {
   "property": "C44",
   "status": "proved",
   "theorems": [
    "C44_one_stop_hides_all",
    "C44_running_containers_are_found_refuted",
    "C44_other_namespaces_are_untouched"
   ],
   "note": ""
  },
  {
   "property": "C45",
   "status": "proved",
   "theorems": [
    "C45_new_containers_are_started",
    "C45_deletion_stops_what_is_remembered",
    "C45_nothing_else_is_reported",
    "C45_pods_are_not_mixed_up",
    "C45_dotted_namespaces_would_mix_refuted",
    "C45_no_panic",
    "C45_missed_deletions_panic_refuted"
   ],
   "note": ""
  },
  {
   "property": "C46",
   "status": "proved",
   "theorems": [
    "C46_notices_are_the_ones_due",
    "C46_other_operations_are_silent",
    "C46_notices_form_episodes",
    "C46_queue_holds_what_fires",
    "C46_messages_give_the_notices_due",
    "C46_reused_alerts_refuted",
    "C46_renamed_alerts_refuted"
   ],
   "note": ""
  },
  {
   "property": "C47",
   "status": "proved",
   "theorems": [
    "C47_no_panic",
    "C47_state_moves_forward",
    "C47_status_is_consistent",
    "C47_users_do_not_change_the_status",
    "C47_completion_waits_for_the_duration",
    "C47_almost_the_duration_elapses",
    "C47_the_duration_elapses_refuted",
    "C47_reconcile_sets_pending",
    "C47_reconcile_starts_the_job",
    "C47_reconcile_completes"
   ],
   "note": ""
  },
  {
   "property": "C48",
   "status": "proved",
   "theorems": [
    "C48_one_job_when_undisturbed",
    "C48_failed_updates_leave_jobs",
    "C48_missing_job_blocks_the_deletion",
    "C48_deleting_a_pending_trace_creates_a_job"
   ],
   "note": ""
  },
  {
   "property": "C49",
   "status": "proved",
   "theorems": [
    "C49_answers_are_right",
    "C49_an_id_is_deleted_once"
   ],
   "note": ""
  },
  {
   "property": "C50",
   "status": "proved",
   "theorems": [
    "C50_creates_in_turn_succeed_once",
    "C50_overlapping_creates_refuted",
    "C50_get_attaches_to_a_created_job",
    "C50_late_deletion_refuted"
   ],
   "note": ""
  },
  {
   "property": "C51",
   "status": "proved",
   "theorems": [
    "C51_float_is_the_nearest",
    "C51_links_and_nodes",
    "C51_value_is_the_traffic",
    "C51_each_metric_counts_once",
    "C51_rounding_is_bounded",
    "C51_metric_order_is_immaterial",
    "C51_metric_order_matters_refuted",
    "C51_small_counts_vanish",
    "C51_equal_names_count_twice_refuted",
    "C51_order_tokens",
    "C51_unknown_tokens_are_ignored",
    "C51_order_in_effect"
   ],
   "note": ""
  },
  {
   "property": "C52",
   "status": "proved",
   "theorems": [
    "C52_clouds_hold_all_renders",
    "C52_pages_show_all_renders",
    "C52_single_clouds_only_show",
    "C52_each_render_adds_again"
   ],
   "note": ""
  },
  {
   "property": "C53",
   "status": "proved",
   "theorems": [
    "C53_table_is_the_last_text_symbols",
    "C53_panics_iff_a_line_is_malformed",
    "C53_long_line_ends_the_table",
    "C53_every_function_is_in_the_table_refuted"
   ],
   "note": ""
  },
  {
   "property": "C54",
   "status": "proved",
   "theorems": [
    "C54_detection_sets_the_most_voted",
    "C54_clear_winner_is_what_the_probe_reads",
    "C54_ties_are_broken_by_map_order",
    "C54_detecting_nothing_is_success",
    "C54_success_means_detected_refuted",
    "C54_what_detection_writes",
    "C54_missing_function_is_an_error",
    "C54_missing_second_function_is_an_error",
    "C54_malformed_symbols_panic",
    "C54_without_the_lock_symbol",
    "C54_sign_of_the_displacement_is_ignored"
   ],
   "note": ""
  },
  {
   "property": "C55",
   "status": "proved",
   "theorems": [
    "C55_syscall_rules_need_a_syscall",
    "C55_metrics_rule_for_read_is_dead"
   ],
   "note": ""
  },
  {
   "property": "C56",
   "status": "proved",
   "theorems": [
    "C56_indexes_agree_under_every_schedule",
    "C56_registered_is_filtered_or_in_flight",
    "C56_registered_is_filtered_when_settled",
    "C56_rule_is_registered_without_overlap",
    "C56_sequential_start_is_a_schedule",
    "C56_only_unknown_calls_crash_callbacks",
    "C56_leaked_rule_refuted"
   ],
   "note": ""
  },
  {
   "property": "C57",
   "status": "proved",
   "theorems": [
    "C57_pid_is_the_thread_id",
    "C57_pid_is_the_process_refuted"
   ],
   "note": ""
  },
  {
   "property": "C58",
   "status": "proved",
   "theorems": [
    "C58_decoded_syscalls_have_results",
    "C58_failure_shows_its_errno",
    "C58_success_shows_its_result",
    "C58_success_is_never_an_error_refuted",
    "C58_getcwd_failure_is_shown_refuted",
    "C58_getcwd_null",
    "C58_every_result_is_shown_refuted",
    "C58_nothing_is_left_over",
    "C58_execve_has_no_result"
   ],
   "note": ""
  },
  {
   "property": "C59",
   "status": "proved",
   "theorems": [
    "C59_nothing_shown_is_left_over",
    "C59_no_member_is_left_over_refuted",
    "C59_faccessat_flags_are_left_over",
    "C59_raw_slots_are_left_over"
   ],
   "note": ""
  },
  {
   "property": "C60",
   "status": "proved",
   "theorems": [
    "C60_named_numbers_survive",
    "C60_resources_survive",
    "C60_named_options_survive",
    "C60_ipv6_options_survive_refuted",
    "C60_numeric_options_lose_their_level_refuted",
    "C60_socket_types",
    "C60_socket_types_any_order"
   ],
   "note": ""
  },
  {
   "property": "C61",
   "status": "proved",
   "theorems": [
    "C61_text_survives_iff_utf8",
    "C61_client_text_is_utf8",
    "C61_text_never_shrinks",
    "C61_names_stay_distinct_refuted"
   ],
   "note": ""
  },
  {
   "property": "C62",
   "status": "proved",
   "theorems": [
    "C62_short_addresses_survive",
    "C62_long_addresses_read_foreign_memory_refuted"
   ],
   "note": ""
  },
  {
   "property": "C63",
   "status": "proved",
   "theorems": [
    "C63_options_have_the_level_of_the_call",
    "C63_member_survives_iff",
    "C63_event_survives_iff"
   ],
   "note": ""
  },
  {
   "property": "C64",
   "status": "proved",
   "theorems": [
    "C64_deleted_containers_are_forgotten",
    "C64_deletion_leaks_the_others_refuted"
   ],
   "note": ""
  },
  {
   "property": "C65",
   "status": "proved",
   "theorems": [
    "C65_late_containers_are_never_resolved_refuted"
   ],
   "note": ""
  },
  {
   "property": "C66",
   "status": "proved",
   "theorems": [
    "C66_jobs_are_deleted_with_their_trace",
    "C66_completion_stops_the_job_refuted"
   ],
   "note": ""
  },
  {
   "property": "C67",
   "status": "proved",
   "theorems": [
    "C67_deleted_jobs_had_matched",
    "C67_unmatched_jobs_cannot_be_deleted",
    "C67_deleted_jobs_live_on"
   ],
   "note": ""
  },
  {
   "property": "C68",
   "status": "proved",
   "theorems": [
    "C68_samples_are_the_metrics",
    "C68_values_are_exact",
    "C68_scrape_refused_iff",
    "C68_named_errors_are_served"
   ],
   "note": ""
  },
  {
   "property": "C69",
   "status": "proved",
   "theorems": [
    "C69_flags_are_ignored_with_detection",
    "C69_flags_set_the_offsets",
    "C69_probe_reads_the_flags",
    "C69_no_flags_keep_the_compiled_offsets",
    "C69_negative_offset_wraps",
    "C69_bad_first_flag_sets_nothing",
    "C69_bad_second_flag_leaves_the_first_set",
    "C69_set_writes_one_known_offset",
    "C69_a_refused_offset_is_an_error",
    "C69_numbers_of_types_wrap"
   ],
   "note": ""
  },
  {
   "property": "C70",
   "status": "proved",
   "theorems": [
    "C70_every_name_arrives",
    "C70_ordinary_names_are_sent_unchanged",
    "C70_create_is_exact",
    "C70_create_never_another",
    "C70_create_success_is_true",
    "C70_delete_is_exact",
    "C70_delete_never_another",
    "C70_watch_is_exact",
    "C70_delete_success_is_true_refuted",
    "C70_jobs_can_be_deleted_refuted",
    "C70_read_trace_connects_refuted",
    "C70_read_trace_dials_a_bare_path",
    "C70_dialer_takes_websocket_addresses",
    "C70_last_slash"
   ],
   "note": ""
  },
  {
   "property": "C71",
   "status": "proved",
   "theorems": [
    "C71_endpoints_are_the_ones_given",
    "C71_requests_go_to_the_endpoint",
    "C71_bad_endpoints_are_reported_refuted",
    "C71_ipv6_hosts_refuted"
   ],
   "note": ""
  },
  {
   "property": "C72",
   "status": "proved",
   "theorems": [
    "C72_lists_are_the_servers",
    "C72_lists_hold_real_jobs",
    "C72_lists_are_complete_refuted"
   ],
   "note": ""
  },
  {
   "property": "C73",
   "status": "proved",
   "theorems": [
    "C73_flags_override_the_file",
    "C73_one_shot_bounds",
    "C73_one_endpoint_cleans_up",
    "C73_last_endpoint_cleans_up",
    "C73_one_shot_cleans_up_refuted",
    "C73_failed_create_leaves_nothing_refuted"
   ],
   "note": ""
  },
  {
   "property": "C74",
   "status": "proved",
   "theorems": [
    "C74_loaded_object",
    "C74_missing_file_falls_back_refuted"
   ],
   "note": ""
  },
  {
   "property": "C75",
   "status": "proved",
   "theorems": [
    "C75_run_needs_init",
    "C75_run_succeeds_ready",
    "C75_init_all_options",
    "C75_success_applies_options_refuted",
    "C75_options_once_refuted",
    "C75_attached_once",
    "C75_attached_once_refuted",
    "C75_close_detaches",
    "C75_only_init_loads"
   ],
   "note": ""
  },
  {
   "property": "C76",
   "status": "proved",
   "theorems": [
    "C76_callback_sees_all",
    "C76_polling_stops_refuted",
    "C76_reader_in_order",
    "C76_ends_only_when_cancelled",
    "C76_can_stop",
    "C76_cancel_stops_polling_refuted",
    "C76_failure_reported_refuted"
   ],
   "note": ""
  },
  {
   "property": "C77",
   "status": "proved",
   "theorems": [
    "C77_shows_the_last_count",
    "C77_shows_every_metric",
    "C77_counts_are_summed_refuted",
    "C77_graphs_add_up",
    "C77_never_negative_refuted",
    "C77_gone_containers_leave_refuted",
    "C77_rows_are_the_counters",
    "C77_host_rows_differ"
   ],
   "note": ""
  },
  {
   "property": "C78",
   "status": "proved",
   "theorems": [
    "C78_no_read_during_a_change",
    "C78_frozen_iff",
    "C78_keeps_running_refuted"
   ],
   "note": ""
  },
  {
   "property": "C79",
   "status": "proved",
   "theorems": [
    "C79_passes_iff",
    "C79_options_pass_iff",
    "C79_option_found_iff",
    "C79_options_are_found_refuted",
    "C79_mounts_only_if_asked",
    "C79_pass_means_tracing_refuted"
   ],
   "note": ""
  },
  {
   "property": "C80",
   "status": "proved",
   "theorems": [
    "C80_sections_never_overlap",
    "C80_deliveries_one_at_a_time",
    "C80_program_order",
    "C80_no_deadlock",
    "C80_fair_schedules_finish"
   ],
   "note": ""
  },
  {
   "property": "C81",
   "status": "proved",
   "theorems": [
    "C81_callback_into_the_hub_never_returns_refuted",
    "C81_callback_into_the_hub_stops_everyone_refuted",
    "C81_callback_that_publishes_can_jam_refuted",
    "C81_callbacks_may_publish_if_nobody_subscribes",
    "C81_slow_callback_holds_everyone_up"
   ],
   "note": ""
  },
  {
   "property": "C82",
   "status": "proved",
   "theorems": [
    "C82_a_prefix_of_the_stream",
    "C82_the_whole_stream",
    "C82_the_stream_asked_for",
    "C82_nothing_after_close"
   ],
   "note": ""
  },
  {
   "property": "C83",
   "status": "proved",
   "theorems": [
    "C83_silent_clients_are_dropped",
    "C83_departed_clients_are_noticed",
    "C83_job_watchers_are_unsubscribed",
    "C83_prompt_clients_stay"
   ],
   "note": ""
  },
  {
   "property": "C84",
   "status": "proved",
   "theorems": [
    "C84_callbacks_run_for_the_stream",
    "C84_leaving_ends_trace_watchers_refuted",
    "C84_callbacks_end_with_the_watcher_refuted"
   ],
   "note": ""
  },
  {
   "property": "C85",
   "status": "proved",
   "theorems": [
    "C85_no_crash_without_blocked_writes",
    "C85_writes_block_ten_seconds",
    "C85_blocked_write_at_ping_crashes",
    "C85_a_client_cannot_crash_the_server_refuted"
   ],
   "note": ""
  },
  {
   "property": "C86",
   "status": "proved",
   "theorems": [
    "C86_trace_arrives",
    "C86_lists_survive_the_command_line",
    "C86_line_ends_survive_refuted",
    "C86_unknown_flags_are_refused",
    "C86_labels_survive_the_command_line",
    "C86_no_endpoints_no_requests",
    "C86_values_stay_values_refuted",
    "C86_only_switches_take_no_value"
   ],
   "note": ""
  },
  {
   "property": "C87",
   "status": "proved",
   "theorems": [
    "C87_several_endpoints_refuted",
    "C87_several_nodes_refuted",
    "C87_ipv6_node_refuted",
    "C87_search_panics_iff",
    "C87_search_finds",
    "C87_one_node_works"
   ],
   "note": ""
  },
  {
   "property": "C88",
   "status": "proved",
   "theorems": [
    "C88_several_hosts_refuted",
    "C88_one_host_works"
   ],
   "note": ""
  },
  {
   "property": "C89",
   "status": "proved",
   "theorems": [
    "C89_every_trace_runs_refuted",
    "C89_agents_untraced_refuted",
    "C89_expressions_arrive_refuted"
   ],
   "note": ""
  },
  {
   "property": "C90",
   "status": "proved",
   "theorems": [
    "C90_addresses_are_hexadecimal",
    "C90_labels_and_values",
    "C90_in_order",
    "C90_in_order_refuted",
    "C90_every_parameter_but_these",
    "C90_clone_labels",
    "C90_execve_words",
    "C90_faccessat_flags_refuted",
    "C90_call_name",
    "C90_call_name_refuted",
    "C90_a_line_for_every_call"
   ],
   "note": ""
  },
  {
   "property": "C91",
   "status": "proved",
   "theorems": [
    "C91_colours_on_the_screen",
    "C91_form_of_the_output",
    "C91_columns_count_characters",
    "C91_one_call_one_line",
    "C91_one_call_one_line_refuted",
    "C91_other_formats_print_nothing"
   ],
   "note": ""
  },
  {
   "property": "C92",
   "status": "proved",
   "theorems": [
    "C92_latency_exact",
    "C92_latency_exact_refuted",
    "C92_latency_bound",
    "C92_latency_order"
   ],
   "note": ""
  },
  {
   "property": "C93",
   "status": "proved",
   "theorems": [
    "C93_strings_read_back",
    "C93_well_formed_strings_read_back",
    "C93_bytes_read_back",
    "C93_no_message_iff",
    "C93_every_event_has_a_message",
    "C93_ordinary_events_fit",
    "C93_events_of_small_containers_fit",
    "C93_mprotect_messages_never_fit",
    "C93_every_message_fits_refuted",
    "C93_every_event_has_a_message_refuted",
    "C93_short_slices_do_not_suffice"
   ],
   "note": ""
  },
  {
   "property": "C94",
   "status": "proved",
   "theorems": [
    "C94_events_are_shown_in_order",
    "C94_torn_down",
    "C94_a_healthy_stream_lasts",
    "C94_times_out_only_after_silence",
    "C94_silence_ends_the_stream",
    "C94_an_oversized_message_ends_the_stream",
    "C94_nothing_after_the_end",
    "C94_the_user_is_told",
    "C94_pings_leave",
    "C94_mprotect_ends_the_watch",
    "C94_traffic_keeps_the_stream_up_refuted",
    "C94_slow_output_only_delays_refuted"
   ],
   "note": ""
  },
  {
   "property": "C95",
   "status": "proved",
   "theorems": [
    "C95_endpoints_do_not_disturb_each_other",
    "C95_printed_comes_from_an_endpoint",
    "C95_runs_until_a_signal",
    "C95_ends_with_the_streams_refuted"
   ],
   "note": ""
  },
  {
   "property": "C96",
   "status": "proved",
   "theorems": [
    "C96_message_is_the_event",
    "C96_same_message_same_event"
   ],
   "note": ""
  },
  {
   "property": "C97",
   "status": "proved",
   "theorems": [
    "C97_starts_iff",
    "C97_sent_at_exit",
    "C97_sent_at_execve",
    "C97_no_metrics",
    "C97_output",
    "C97_only_listed_calls_are_printed",
    "C97_survives_iff",
    "C97_runs_until_stopped_refuted",
    "C97_json_ends_iff"
   ],
   "note": ""
  },
  {
   "property": "C98",
   "status": "proved",
   "theorems": [
    "C98_starts",
    "C98_event_iff",
    "C98_execve_iff",
    "C98_rules_fit",
    "C98_no_record_is_lost",
    "C98_read_once",
    "C98_lines",
    "C98_only_asked_calls_are_read",
    "C98_survives_iff",
    "C98_names_a_reported_container_refuted",
    "C98_one_line_per_call_refuted"
   ],
   "note": ""
  },
  {
   "property": "C99",
   "status": "proved",
   "theorems": [
    "C99_followed_iff",
    "C99_hub_settings_do_not_matter",
    "C99_other_fields_follow_nothing",
    "C99_bad_labels_follow_nothing",
    "C99_values_stay_values_refuted",
    "C99_expressions_count_refuted",
    "C99_expressions_do_not_matter",
    "C99_command_line",
    "C99_labels_on_the_command_line",
    "C99_one_argument_for_each_label_refuted",
    "C99_top_sees"
   ],
   "note": ""
  },
  {
   "property": "C100",
   "status": "proved",
   "theorems": [
    "C100_hub_does_not_know_them",
    "C100_lines_name_willing_pods",
    "C100_kernel_is_spared_refuted",
    "C100_their_calls_are_not_shown_refuted"
   ],
   "note": ""
  },
  {
   "property": "C101",
   "status": "proved",
   "theorems": [
    "C101_flags_shown",
    "C101_nothing_else",
    "C101_each_once",
    "C101_same_names_in_any_order",
    "C101_whole_value",
    "C101_no_name",
    "C101_every_flag_shown_refuted",
    "C101_flags_can_be_recovered_refuted",
    "C101_O_SYNC",
    "C101_MS_NOUSER"
   ],
   "note": ""
  },
  {
   "property": "C102",
   "status": "proved",
   "theorems": [
    "C102_named_numbers",
    "C102_numbers_can_be_recovered",
    "C102_socket_options",
    "C102_options_can_be_recovered",
    "C102_socket_type",
    "C102_modes",
    "C102_special_mode_bits_refuted",
    "C102_limits_and_timers",
    "C102_stat",
    "C102_nanosleep_refuted"
   ],
   "note": ""
  },
  {
   "property": "C103",
   "status": "proved",
   "theorems": [
    "C103_nearest_microsecond",
    "C103_longer_is_not_less",
    "C103_one_call_one_line"
   ],
   "note": ""
  },
  {
   "property": "C104",
   "status": "proved",
   "theorems": [
    "C104_line",
    "C104_from_the_call_to_the_line",
    "C104_line_without_containers",
    "C104_every_argument",
    "C104_flags",
    "C104_numbers"
   ],
   "note": ""
  },
  {
   "property": "C105",
   "status": "proved",
   "theorems": [
    "C105_rules_fit",
    "C105_starts",
    "C105_events_are_demanded",
    "C105_demanded_calls_are_sent",
    "C105_no_record_is_lost",
    "C105_read_once",
    "C105_clients_get_only_what_they_asked_for",
    "C105_clients_get_all_they_asked_for",
    "C105_when_it_ends",
    "C105_goes_on",
    "C105_gets_done",
    "C105_a_negative_count_ends_it",
    "C105_a_call_cannot_end_it_refuted",
    "C105_a_job_cannot_end_it_refuted"
   ],
   "note": ""
  },
  {
   "property": "C106",
   "status": "proved",
   "theorems": [
    "C106_a_sample_is_a_count",
    "C106_the_samples",
    "C106_ends",
    "C106_crashes_iff",
    "C106_refused_iff",
    "C106_a_call_cannot_crash_a_scrape_refuted",
    "C106_a_call_cannot_stop_the_scrapes_refuted",
    "C106_a_stop_spoils_no_scrape_refuted"
   ],
   "note": ""
  },
  {
   "property": "C107",
   "status": "proved",
   "theorems": [
    "C107_a_row_is_a_count",
    "C107_every_call_has_its_row",
    "C107_graphs_add_up",
    "C107_nothing_is_sent",
    "C107_goes_on",
    "C107_ticks_end",
    "C107_every_container_has_its_rows_refuted",
    "C107_rows_of_stopped_containers_go_refuted"
   ],
   "note": ""
  },
  {
   "property": "C108",
   "status": "proved",
   "theorems": [
    "C108_copy_is_equal",
    "C108_nothing_shared",
    "C108_parts_of_the_copy_are_apart",
    "C108_holder_of_the_copy_changes_nothing_else",
    "C108_others_do_not_change_the_copy",
    "C108_nil",
    "C108_objects",
    "C108_copy_into",
    "C108_copy_of_nil_into_panics"
   ],
   "note": ""
  },
  {
   "property": "C109",
   "status": "proved",
   "theorems": [
    "C109_create_prints_the_trace_line",
    "C109_every_event_is_printed",
    "C109_watch_line_can_be_read",
    "C109_watch_shows_every_argument",
    "C109_watch_shows_numbers_refuted",
    "C109_one_line_for_an_event_refuted"
   ],
   "note": ""
  },
  {
   "property": "C110",
   "status": "proved",
   "theorems": [
    "C110_client_reads_the_event",
    "C110_message_prints_the_trace_line",
    "C110_server_messages_do_no_harm",
    "C110_no_message_ends_the_client_refuted"
   ],
   "note": ""
  },
  {
   "property": "C111",
   "status": "proved",
   "theorems": [
    "C111_what_is_shown_happened",
    "C111_no_text_ends_the_client",
    "C111_nothing_is_lost"
   ],
   "note": ""
  },
  {
   "property": "C112",
   "status": "proved",
   "theorems": [
    "C112_line_holds_the_message",
    "C112_same_order_same_text",
    "C112_one_line",
    "C112_log_tells_addresses_apart_refuted"
   ],
   "note": ""
  },
  {
   "property": "C113",
   "status": "proved",
   "theorems": [
    "C113_prints_the_trace_line",
    "C113_whole_log_is_printed",
    "C113_other_lines_are_passed_over",
    "C113_every_log_is_printed_refuted"
   ],
   "note": ""
  },
  {
   "property": "C114",
   "status": "proved",
   "theorems": [
    "C114_endpoints_are_asked_in_turn",
    "C114_success_is_everywhere",
    "C114_created_everywhere",
    "C114_deleted_everywhere",
    "C114_unmatched_endpoint_stops_delete",
    "C114_deleted_endpoint_stops_delete",
    "C114_endpoint_listed_twice",
    "C114_delete_stops_the_job_refuted"
   ],
   "note": ""
  },
  {
   "property": "C115",
   "status": "proved",
   "theorems": [
    "C115_what_is_done_is_what_the_url_says",
    "C115_every_url_works",
    "C115_one_meaning",
    "C115_pages_open_their_stream",
    "C115_paths_have_components",
    "C115_where_redirects_lead",
    "C115_unclean_paths_are_redirected",
    "C115_redirects_end",
    "C115_not_found_is_not_there"
   ],
   "note": ""
  },
  {
   "property": "C116",
   "status": "proved",
   "theorems": [
    "C116_every_endpoint_in_turn",
    "C116_lists_are_true",
    "C116_failures_are_their_own",
    "C116_status_tells_refuted",
    "C116_one_moment_refuted",
    "C116_silent_endpoint_refuted"
   ],
   "note": ""
  },
  {
   "property": "C117",
   "status": "proved",
   "theorems": [
    "C117_ends_in_time",
    "C117_ends_when_interrupted",
    "C117_nothing_new",
    "C117_requests_get_their_time",
    "C117_nothing_left_nothing_waited",
    "C117_streams_are_finished_refuted",
    "C117_running_servers_listen_refuted"
   ],
   "note": ""
  },
  {
   "property": "C118",
   "status": "proved",
   "theorems": [
    "C118_named_traces_get_their_own",
    "C118_unnamed_traces_get_their_own_refuted",
    "C118_deleting_one_unnamed_trace_refuted"
   ],
   "note": ""
  },
  {
   "property": "C119",
   "status": "proved",
   "theorems": [
    "C119_filter_self_does_nothing",
    "C119_nothing_before_enable",
    "C119_examples_trace_refuted",
    "C119_enabled_programs_are_sent_what_they_named",
    "C119_own_calls_are_filtered_refuted"
   ],
   "note": ""
  },
  {
   "property": "C120",
   "status": "proved",
   "theorems": [
    "C120_asset_is_found_by_its_name",
    "C120_directories_list_what_is_below",
    "C120_nothing_else_is_touched",
    "C120_restored_is_embedded",
    "C120_restores_into_a_directory",
    "C120_restored_can_be_used_refuted",
    "C120_every_name_restores_refuted"
   ],
   "note": ""
  },
  {
   "property": "C121",
   "status": "proved",
   "theorems": [
    "C121_text_tells_rules_apart",
    "C121_report_lists_every_rule_once",
    "C121_lines_of_the_helpers",
    "C121_text_stays_refuted",
    "C121_text_says_the_options"
   ],
   "note": ""
  },
  {
   "property": "C122",
   "status": "proved",
   "theorems": [
    "C122_selectors_mean_what_is_documented"
   ],
   "note": ""
  }
 ]
}