{
 "claims": [
  {
   "property": "C01",
   "status": "proved",
   "theorems": [
    "C01_parse_route_attr_exact",
    "C01_parse_route_attr_einval"
   ],
   "note": ""
  },
  {
   "property": "C02",
   "status": "proved",
   "theorems": [
    "C02_make_archival_record_crash",
    "C02_make_archival_record_terminates",
    "C02_never_crashes_refuted"
   ],
   "note": ""
  },
  {
   "property": "C03",
   "status": "proved",
   "theorems": [
    "C03_record_contents",
    "C03_well_formed_accepted"
   ],
   "note": ""
  },
  {
   "property": "C04",
   "status": "proved",
   "theorems": [
    "C04_rejections"
   ],
   "note": ""
  },
  {
   "property": "C05",
   "status": "proved",
   "theorems": [
    "C05_exclusion_exact"
   ],
   "note": ""
  },
  {
   "property": "C06",
   "status": "proved",
   "theorems": [
    "C06_local_ipv4",
    "C06_local_ipv6",
    "C06_local_each",
    "C06_local_ipv6_all_refuted"
   ],
   "note": ""
  },
  {
   "property": "C07",
   "status": "proved",
   "theorems": [
    "C07_accepts_exactly",
    "C07_adds_exactly_that_port",
    "C07_low_port_excluded",
    "C07_high_ports_rejected",
    "C07_every_port_refuted"
   ],
   "note": ""
  },
  {
   "property": "C08",
   "status": "proved",
   "theorems": [
    "C08_ipv4_destination",
    "C08_ipv6_destination",
    "C08_mapped_destination",
    "C08_accepts_exactly",
    "C08_not_an_address",
    "C08_mapped_socket_refuted"
   ],
   "note": ""
  },
  {
   "property": "C09",
   "status": "proved",
   "theorems": [
    "C09_no_change_iff",
    "C09_verdict",
    "C09_first_record",
    "C09_header_irrelevant",
    "C09_only_significant_content"
   ],
   "note": ""
  },
  {
   "property": "C10",
   "status": "proved",
   "theorems": [
    "C10_reflexive",
    "C10_swap",
    "C10_transitive",
    "C10_reference"
   ],
   "note": ""
  },
  {
   "property": "C11",
   "status": "proved",
   "theorems": [
    "C11_panic_iff",
    "C11_error_iff",
    "C11_never_panics_refuted",
    "C11_outside_bytes_refuted"
   ],
   "note": ""
  },
  {
   "property": "C12",
   "status": "proved",
   "theorems": [
    "C12_get_stats",
    "C12_get_stats_otherwise",
    "C12_has_diag_info",
    "C12_has_diag_info_means_info_refuted"
   ],
   "note": ""
  },
  {
   "property": "C13",
   "status": "proved",
   "theorems": [
    "C13_socket_identity",
    "C13_distinct_cookies"
   ],
   "note": ""
  },
  {
   "property": "C14",
   "status": "proved",
   "theorems": [
    "C14_anonymize_ipv6",
    "C14_anonymize_ipv4",
    "C14_anonymize_other_family",
    "C14_anonymize_short"
   ],
   "note": ""
  },
  {
   "property": "C15",
   "status": "proved",
   "theorems": [
    "C15_replies",
    "C15_refused_record_changes_nothing"
   ],
   "note": ""
  },
  {
   "property": "C16",
   "status": "proved",
   "theorems": [
    "C16_conservation",
    "C16_cycle_count",
    "C16_conservation_refuted"
   ],
   "note": ""
  },
  {
   "property": "C17",
   "status": "proved",
   "theorems": [
    "C17_alternate",
    "C17_no_two_opens",
    "C17_cookie_zero_refuted",
    "C17_failed_creation_refuted"
   ],
   "note": ""
  },
  {
   "property": "C18",
   "status": "proved",
   "theorems": [
    "C18_block_events"
   ],
   "note": ""
  },
  {
   "property": "C19",
   "status": "proved",
   "theorems": [
    "C19_one_connection_per_file",
    "C19_while_running"
   ],
   "note": ""
  },
  {
   "property": "C20",
   "status": "proved",
   "theorems": [
    "C20_closed_once"
   ],
   "note": ""
  },
  {
   "property": "C21",
   "status": "proved",
   "theorems": [
    "C21_calendar",
    "C21_go_time",
    "C21_path",
    "C21_path_tells",
    "C21_consecutive",
    "C21_names",
    "C21_path_injective",
    "C21_no_collision",
    "C21_truncation_refuted"
   ],
   "note": ""
  },
  {
   "property": "C22",
   "status": "proved",
   "theorems": [
    "C22_ten_minutes",
    "C22_not_before",
    "C22_files_ten_minutes_apart_refuted"
   ],
   "note": ""
  },
  {
   "property": "C23",
   "status": "proved",
   "theorems": [
    "C23_nothing_missed",
    "C23_failed_creation_refuted"
   ],
   "note": ""
  },
  {
   "property": "C24",
   "status": "proved",
   "theorems": [
    "C24_saved_iff_new_or_changed",
    "C24_saved_by_verdict",
    "C24_nothing_else",
    "C24_twice_in_one_block_refuted"
   ],
   "note": ""
  },
  {
   "property": "C25",
   "status": "proved",
   "theorems": [
    "C25_totals",
    "C25_bytes_vanish_refuted",
    "C25_counted_twice_refuted"
   ],
   "note": ""
  },
  {
   "property": "C26",
   "status": "proved",
   "theorems": [
    "C26_reports",
    "C26_bounded",
    "C26_once_per_second",
    "C26_stuck"
   ],
   "note": ""
  },
  {
   "property": "C27",
   "status": "proved",
   "theorems": [
    "C27_counters",
    "C27_same_figure",
    "C27_cache_sizes",
    "C27_files"
   ],
   "note": ""
  },
  {
   "property": "C28",
   "status": "proved",
   "theorems": [
    "C28_same_decisions",
    "C28_prefix",
    "C28_final",
    "C28_schedules_agree"
   ],
   "note": ""
  },
  {
   "property": "C29",
   "status": "proved",
   "theorems": [
    "C29_only_anonymized",
    "C29_addresses"
   ],
   "note": ""
  },
  {
   "property": "C30",
   "status": "proved",
   "theorems": [
    "C30_terminates",
    "C30_no_deadlock",
    "C30_wait",
    "C30_completes"
   ],
   "note": ""
  },
  {
   "property": "C31",
   "status": "proved",
   "theorems": [
    "C31_no_trace",
    "C31_as_never_received"
   ],
   "note": ""
  },
  {
   "property": "C32",
   "status": "proved",
   "theorems": [
    "C32_fields",
    "C32_accepts",
    "C32_rejects"
   ],
   "note": ""
  },
  {
   "property": "C33",
   "status": "proved",
   "theorems": [
    "C33_observed",
    "C33_not_fully_parsed",
    "C33_subset",
    "C33_unbounded_refuted",
    "C33_class_id_refuted"
   ],
   "note": ""
  },
  {
   "property": "C34",
   "status": "proved",
   "theorems": [
    "C34_panic_iff",
    "C34_reachable"
   ],
   "note": ""
  },
  {
   "property": "C35",
   "status": "proved",
   "theorems": [
    "C35_success",
    "C35_error",
    "C35_panic"
   ],
   "note": ""
  },
  {
   "property": "C36",
   "status": "proved",
   "theorems": [
    "C36_reading",
    "C36_all_lines",
    "C36_first_error",
    "C36_silent_truncation",
    "C36_silent_read_error",
    "C36_no_loss_refuted"
   ],
   "note": ""
  },
  {
   "property": "C37",
   "status": "proved",
   "theorems": [
    "C37_messages",
    "C37_records",
    "C37_uncut",
    "C37_detects_truncation_refuted",
    "C37_short_header_refuted"
   ],
   "note": ""
  },
  {
   "property": "C38",
   "status": "proved",
   "theorems": [
    "C38_round_trip",
    "C38_fails",
    "C38_injective",
    "C38_again",
    "C38_cut",
    "C38_any_order",
    "C38_unknown_members",
    "C38_missing_members",
    "C38_any_uuid_refuted",
    "C38_empty_refuted",
    "C38_any_time_refuted"
   ],
   "note": ""
  },
  {
   "property": "C39",
   "status": "proved",
   "theorems": [
    "C39_files_read_back",
    "C39_next",
    "C39_unfinished",
    "C39_any_time_refuted",
    "C39_lines_fit",
    "C39_small_messages",
    "C39_large_message_refuted"
   ],
   "note": ""
  },
  {
   "property": "C40",
   "status": "proved",
   "theorems": [
    "C40_result",
    "C40_blocks",
    "C40_error_iff",
    "C40_not_opened",
    "C40_kernel_error_refuted"
   ],
   "note": ""
  },
  {
   "property": "C41",
   "status": "proved",
   "theorems": [
    "C41_sends",
    "C41_goes_on",
    "C41_returns",
    "C41_repetitions",
    "C41_negative",
    "C41_cancelled",
    "C41_log",
    "C41_failed_dump",
    "C41_no_nil"
   ],
   "note": ""
  },
  {
   "property": "C42",
   "status": "proved",
   "theorems": [
    "C42_bytes",
    "C42_request",
    "C42_injective",
    "C42_new",
    "C42_length"
   ],
   "note": ""
  },
  {
   "property": "C43",
   "status": "proved",
   "theorems": [
    "C43_attempts",
    "C43_removed",
    "C43_clients",
    "C43_received",
    "C43_segment",
    "C43_gap_refuted"
   ],
   "note": ""
  },
  {
   "property": "C44",
   "status": "proved",
   "theorems": [
    "C44_order",
    "C44_closed_once",
    "C44_stops",
    "C44_panic",
    "C44_lost_refuted",
    "C44_hangup_refuted",
    "C44_no_panic_refuted"
   ],
   "note": ""
  },
  {
   "property": "C45",
   "status": "proved",
   "theorems": [
    "C45_calls",
    "C45_total",
    "C45_no_connection",
    "C45_event",
    "C45_delivered",
    "C45_created",
    "C45_deleted",
    "C45_cut",
    "C45_with_server",
    "C45_after_failure",
    "C45_any_order",
    "C45_unknown_members",
    "C45_missing_members",
    "C45_cancel_refuted",
    "C45_filled_refuted"
   ],
   "note": ""
  },
  {
   "property": "C46",
   "status": "proved",
   "theorems": [
    "C46_known",
    "C46_constants",
    "C46_unknown",
    "C46_state_injective",
    "C46_events",
    "C46_event_injective"
   ],
   "note": ""
  },
  {
   "property": "C47",
   "status": "proved",
   "theorems": [
    "C47_close",
    "C47_prefix",
    "C47_after_close",
    "C47_close_returns",
    "C47_complete",
    "C47_ahead",
    "C47_write_errors",
    "C47_open",
    "C47_write_returns",
    "C47_data_refuted"
   ],
   "note": ""
  },
  {
   "property": "C48",
   "status": "proved",
   "theorems": [
    "C48_survives",
    "C48_no_marshaller_refuted",
    "C48_short_info_refuted"
   ],
   "note": ""
  },
  {
   "property": "C49",
   "status": "proved",
   "theorems": [
    "C49_address_text",
    "C49_parse_back",
    "C49_same_text",
    "C49_ipv6_refuted"
   ],
   "note": ""
  },
  {
   "property": "C50",
   "status": "proved",
   "theorems": [
    "C50_reads_prefix",
    "C50_ahead",
    "C50_eof_means_all",
    "C50_round_trip",
    "C50_all_is_read",
    "C50_early_close"
   ],
   "note": ""
  },
  {
   "property": "C51",
   "status": "proved",
   "theorems": [
    "C51_main_excludes",
    "C51_not_in_files"
   ],
   "note": ""
  },
  {
   "property": "C52",
   "status": "proved",
   "theorems": [
    "C52_snapshots",
    "C52_through_zstd",
    "C52_crash_iff",
    "C52_every_file_refuted"
   ],
   "note": ""
  },
  {
   "property": "C53",
   "status": "proved",
   "theorems": [
    "C53_accounted",
    "C53_never_waits",
    "C53_not_skipped",
    "C53_all_processed_refuted",
    "C53_cancelled_for_good",
    "C53_can_end",
    "C53_shutdown",
    "C53_keeps_up"
   ],
   "note": ""
  },
  {
   "property": "C54",
   "status": "proved",
   "theorems": [
    "C54_truthful",
    "C54_handler",
    "C54_alternate",
    "C54_no_two_opens",
    "C54_everything",
    "C54_exit_refuted",
    "C54_file_refuted"
   ],
   "note": ""
  },
  {
   "property": "C55",
   "status": "proved",
   "theorems": [
    "C55_blocks",
    "C55_buffer",
    "C55_files",
    "C55_no_crash",
    "C55_progress",
    "C55_terminates",
    "C55_completes",
    "C55_no_stall",
    "C55_next_block",
    "C55_cancel_refuted"
   ],
   "note": ""
  },
  {
   "property": "C56",
   "status": "proved",
   "theorems": [
    "C56_output",
    "C56_nothing_else",
    "C56_compressed",
    "C56_converted",
    "C56_saver_files",
    "C56_long_line_refuted",
    "C56_read_error_refuted"
   ],
   "note": ""
  },
  {
   "property": "C57",
   "status": "proved",
   "theorems": [
    "C57_cells",
    "C57_same_cells",
    "C57_sockid"
   ],
   "note": ""
  },
  {
   "property": "C58",
   "status": "proved",
   "theorems": [
    "C58_nobody_is_told",
    "C58_backlog",
    "C58_exit",
    "C58_collection_stops",
    "C58_collection_goes_on_refuted"
   ],
   "note": "C55 and C44 take writes to clients to return; C58 says what happens while one does not"
  },
  {
   "property": "C59",
   "status": "proved",
   "theorems": [
    "C59_unchanged",
    "C59_dump",
    "C59_not_opened",
    "C59_iterations",
    "C59_connections_refuted",
    "C59_decode",
    "C59_skipped_refuted",
    "C59_flow",
    "C59_close_refuted"
   ],
   "note": ""
  },
  {
   "property": "C60",
   "status": "proved",
   "theorems": [
    "C60_pace",
    "C60_no_bursts",
    "C60_block_times",
    "C60_returns",
    "C60_regular",
    "C60_goes_on",
    "C60_observed"
   ],
   "note": ""
  },
  {
   "property": "C61",
   "status": "proved",
   "theorems": [
    "C61_one_each",
    "C61_files",
    "C61_connections",
    "C61_closing",
    "C61_end",
    "C61_failed_creation_refuted",
    "C61_closing_refuted"
   ],
   "note": ""
  },
  {
   "property": "C62",
   "status": "proved",
   "theorems": [
    "C62_figures",
    "C62_increments",
    "C62_quiet",
    "C62_later",
    "C62_bounded",
    "C62_blocks",
    "C62_negative_refuted"
   ],
   "note": ""
  },
  {
   "property": "C63",
   "status": "proved",
   "theorems": [
    "C63_paths",
    "C63_started",
    "C63_refuses",
    "C63_untouched",
    "C63_restart",
    "C63_only_latest",
    "C63_reached",
    "C63_gone",
    "C63_file_refuted",
    "C63_older_refuted",
    "C63_newer_refuted",
    "C63_left_refuted"
   ],
   "note": ""
  },
  {
   "property": "C64",
   "status": "proved",
   "theorems": [
    "C64_grammar",
    "C64_record",
    "C64_event",
    "C64_not_json",
    "C64_no_record",
    "C64_no_event",
    "C64_literals",
    "C64_numbers",
    "C64_base64",
    "C64_times",
    "C64_rfc3339",
    "C64_strict_refuted",
    "C64_twice_refuted"
   ],
   "note": ""
  },
  {
   "property": "C65",
   "status": "proved",
   "theorems": [
    "C65_commute",
    "C65_writers",
    "C65_records",
    "C65_changes",
    "C65_saver_reads",
    "C65_open"
   ],
   "note": ""
  },
  {
   "property": "C66",
   "status": "proved",
   "theorems": [
    "C66_not_in_production",
    "C66_received",
    "C66_sent",
    "C66_nothing_to_set",
    "C66_get_stats",
    "C66_compare"
   ],
   "note": ""
  },
  {
   "property": "C67",
   "status": "proved",
   "theorems": [
    "C67_registers",
    "C67_labels",
    "C67_rates",
    "C67_total_bits",
    "C67_sum_refuted",
    "C67_cache_sizes",
    "C67_connection_counts"
   ],
   "note": ""
  },
  {
   "property": "C68",
   "status": "proved",
   "theorems": [
    "C68_same_decisions",
    "C68_prefix",
    "C68_terminates",
    "C68_final",
    "C68_wait",
    "C68_no_deadlock",
    "C68_completes",
    "C68_stuck",
    "C68_others_complete",
    "C68_hang_forever",
    "C68_hang_is_local_refuted"
   ],
   "note": ""
  },
  {
   "property": "C69",
   "status": "proved",
   "theorems": [
    "C69_no_race",
    "C69_iteration",
    "C69_lock",
    "C69_atomic",
    "C69_no_deadlock",
    "C69_stops",
    "C69_panic",
    "C69_wait",
    "C69_wait_returns",
    "C69_wait_for_all_refuted",
    "C69_counter_stays_refuted"
   ],
   "note": ""
  },
  {
   "property": "C70",
   "status": "proved",
   "theorems": [
    "C70_one_reading",
    "C70_goes_on",
    "C70_status",
    "C70_asked",
    "C70_numbers",
    "C70_rest_ignored",
    "C70_expressible",
    "C70_excludes",
    "C70_bad_variable_refuted",
    "C70_misspelt_refuted",
    "C70_every_word_refuted",
    "C70_client",
    "C70_client_status",
    "C70_same_rules_refuted"
   ],
   "note": ""
  },
  {
   "property": "C71",
   "status": "proved",
   "theorems": [
    "C71_netblock",
    "C71_saver",
    "C71_files",
    "C71_meanwhile",
    "C71_main",
    "C71_events_refuted",
    "C71_exclusion_refuted"
   ],
   "note": ""
  },
  {
   "property": "C72",
   "status": "proved",
   "theorems": [
    "C72_disk",
    "C72_final",
    "C72_untouched",
    "C72_distinct",
    "C72_reused",
    "C72_runs",
    "C72_next_run",
    "C72_lost_refuted",
    "C72_mixed_refuted",
    "C72_restart_refuted"
   ],
   "note": ""
  },
  {
   "property": "C73",
   "status": "proved",
   "theorems": [
    "C73_sound",
    "C73_complete",
    "C73_new_connection",
    "C73_meanwhile",
    "C73_runs",
    "C73_killed_refuted"
   ],
   "note": ""
  },
  {
   "property": "C74",
   "status": "proved",
   "theorems": [
    "C74_table",
    "C74_one_reading",
    "C74_written",
    "C74_lossless",
    "C74_kernel_cells",
    "C74_csvtool",
    "C74_saver_files",
    "C74_names",
    "C74_names_refuted"
   ],
   "note": ""
  },
  {
   "property": "C75",
   "status": "proved",
   "theorems": [
    "C75_record",
    "C75_event",
    "C75_harmless",
    "C75_base64",
    "C75_strings",
    "C75_read",
    "C75_read_event",
    "C75_one_record",
    "C75_one_line",
    "C75_files",
    "C75_disk",
    "C75_disk_new",
    "C75_socket"
   ],
   "note": ""
  },
  {
   "property": "C76",
   "status": "proved",
   "theorems": [
    "C76_sound",
    "C76_complete",
    "C76_new_connection"
   ],
   "note": ""
  },
  {
   "property": "C77",
   "status": "proved",
   "theorems": [
    "C77_order",
    "C77_numbers",
    "C77_recorded",
    "C77_lines",
    "C77_table",
    "C77_numbers_refuted"
   ],
   "note": ""
  },
  {
   "property": "C78",
   "status": "proved",
   "theorems": [
    "C78_catches_up",
    "C78_possible",
    "C78_received"
   ],
   "note": ""
  },
  {
   "property": "C79",
   "status": "proved",
   "theorems": [
    "C79_program_settles",
    "C79_program_files",
    "C79_disk",
    "C79_disk_refuted",
    "C79_comes_to_rest",
    "C79_files_current",
    "C79_as_if_shut_down",
    "C79_lines",
    "C79_backlog"
   ],
   "note": ""
  },
  {
   "property": "C80",
   "status": "proved",
   "theorems": [
    "C80_final",
    "C80_complete",
    "C80_loads"
   ],
   "note": ""
  }
 ]
}