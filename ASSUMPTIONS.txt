C01_write_is_wire_format: Closed under the global context
C01_roundtrip: Closed under the global context
C01_oversize_rejected: Closed under the global context
C02_message: Closed under the global context
C02_no_message: Closed under the global context
C02_accepts_exactly_frames: Closed under the global context
C02_total: Closed under the global context
C03_exact_raw: Closed under the global context
C03_exact_buffered: Closed under the global context
C03_whole_frames_raw: Closed under the global context
C03_whole_frames_buffered: Closed under the global context
C03_split_header_refuted: Closed under the global context
C03_split_body_refuted: Closed under the global context
C03_long_frame_refuted: Closed under the global context
C03_segmentation_independence_refuted: Closed under the global context
C04_json_roundtrip: Closed under the global context
C04_json_repair: Closed under the global context
C04_json_oversize: Closed under the global context
C05_json_safe: Closed under the global context
C05_json_single_member: Closed under the global context
C06_receive_message: Closed under the global context
C06_receive_null: Closed under the global context
C06_receive_raw: Closed under the global context
C06_receive_bad_frame: Closed under the global context
C06_message_unique: Closed under the global context
C06_null_is_no_message: Closed under the global context
C07_tlv_result: Closed under the global context
C07_json_result: Closed under the global context
C07_injective: Closed under the global context
C08_all_lines: Closed under the global context
C08_stops_at_first_failure: Closed under the global context
C08_panics_only_without_struct: Closed under the global context
C09_tlv_login: Closed under the global context
C09_json_login: Closed under the global context
C09_usable_messager: Closed under the global context
C09_never_panics: Closed under the global context
C09_messager: Closed under the global context
C10_login_by_kind: Closed under the global context
C10_ws_login: Closed under the global context
C10_ws_login_panics_refuted: Closed under the global context
C11_requested_tests: Closed under the global context
C11_other_bits: Closed under the global context
C12_conversation: Closed under the global context
C12_c2s_port: Closed under the global context
C12_s2c_port: Closed under the global context
C12_results_text: Closed under the global context
C13_saved_then_closed: Closed under the global context
C14_contained_and_balanced: Closed under the global context
C15_label_set: Closed under the global context
C15_label_cause: Closed under the global context
C15_panic: Closed under the global context
C16_on_disk: Closed under the global context
C16_stored: Closed under the global context
C16_client: Closed under the global context
C16_exact: Closed under the global context
C16_always_stored_refuted: Closed under the global context
C17_error_recorded: Closed under the global context
C17_always_returns_refuted: Closed under the global context
C17_rate_message: Closed under the global context
C17_record: Closed under the global context
C18_closed: Closed under the global context
C18_s2c_order: Closed under the global context
C18_every_connection_refuted: Closed under the global context
C18_plain: Closed under the global context
C19_servers_stopped: Closed under the global context
C19_always_stopped_refuted: Closed under the global context
C20_stored_metadata: Closed under the global context
C20_returns: Closed under the global context
C21_reads_and_finalize: Closed under the global context
C22_summary_iff_snapshot: Closed under the global context
C22_last_snapshot: Closed under the global context
C22_count_and_sum: Closed under the global context
C22_maximum: Closed under the global context
C22_minimum_positive: Closed under the global context
C22_minimum_after_zero: Closed under the global context
C22_minimum_refuted: Closed under the global context
C22_ordered: Closed under the global context
C23_result: Closed under the global context
C23_second_stop: Closed under the global context
C23_returns: Closed under the global context
C23_poller_ends: Closed under the global context
C23_late_reads: Closed under the global context
C23_last_measurement_refuted: Closed under the global context
C24_failure: Closed under the global context
C24_result: Closed under the global context
C24_final: Closed under the global context
C24_returns: Closed under the global context
C25_one_client: Closed under the global context
C25_stray_request_refuted: Closed under the global context
C25_two_clients_refuted: Closed under the global context
C25_late_upgrade_refuted: Closed under the global context
C26_result: Closed under the global context
C26_lost_only_on_expiry: Closed under the global context
C26_lost_refuted: Closed under the global context
C27_decision: Closed under the global context
C27_login: Closed under the global context
C27_streams: Closed under the global context
C27_progress: Closed under the global context
C27_complete: Closed under the global context
C28_teardown: Closed under the global context
C28_timeouts: Closed under the global context
C28_one_sided_refuted: Closed under the global context
C29_gauge: Closed under the global context
C29_bounds: Closed under the global context
C29_no_leak: Closed under the global context
C29_close: Closed under the global context
C30_read_info: Closed under the global context
C30_bbr: Closed under the global context
C30_bbr_failure: Closed under the global context
C30_tcp: Closed under the global context
C30_measurer: Closed under the global context
C30_uuid: Closed under the global context
C31_early_exit: Closed under the global context
C31_only_early_exit: Closed under the global context
C32_metadata: Closed under the global context
C33_parameters: Closed under the global context
C33_malformed_refuted: Closed under the global context
C34_requests: Closed under the global context
C34_one_result: Closed under the global context
C34_rejected: Closed under the global context
C35_sizes: Closed under the global context
C35_ordinal: Closed under the global context
C35_request: Closed under the global context
C36_delivered: Closed under the global context
C36_request: Closed under the global context
C37_early_exit: Closed under the global context
C37_only_then: Closed under the global context
C37_request: Closed under the global context
C38_dialogue: Closed under the global context
C38_close: Closed under the global context
C38_frames: Closed under the global context
C39_receiver: Closed under the global context
C40_unexpired: Closed under the global context
C40_at_most_one: Closed under the global context
C40_refuted: Closed under the global context
C41_stop_returned: Closed under the global context
C41_terminates: Closed under the global context
C41_stop: Closed under the global context
C41_no_deadlock: Closed under the global context
C41_early_stop_refuted: Closed under the global context
C42_counters: Closed under the global context
C42_rate: Closed under the global context
C42_zero_time_refuted: Closed under the global context
C43_label: Closed under the global context
C44_echo: Closed under the global context
C44_any: Closed under the global context
C45_names: Closed under the global context
C45_no_overwrite: Closed under the global context
C45_taken: Closed under the global context
C46_ndt7: Closed under the global context
C46_concurrent: Closed under the global context
C46_ndt5: Closed under the global context
C46_partial_document_refuted: Closed under the global context
C46_cut_ndt7: Closed under the global context
C46_cut_ndt5: Closed under the global context
C47_placement: Closed under the global context
C47_distinct: Closed under the global context
C47_saved: Closed under the global context
C47_replaced_refuted: Closed under the global context
C48_health: Closed under the global context
C48_gauge: Closed under the global context
C48_gauge_always_agrees_refuted: Closed under the global context
C48_two_needed: Closed under the global context
C48_two_enough: Closed under the global context
C48_two_always_enough_refuted: Closed under the global context
C49_labels: Closed under the global context
C50_redirected: Closed under the global context
C50_clean: Closed under the global context
C50_directory: Closed under the global context
C50_guarded: Closed under the global context
C50_only_measurements: Closed under the global context
C50_reached: Closed under the global context
C50_static: Closed under the global context
C50_services: Closed under the global context
C50_required: Closed under the global context
C51_configuration: Closed under the global context
C52_kinds_distinct: Closed under the global context
C52_names: Closed under the global context
C52_unknown_kind: Closed under the global context
C52_message_type_names_injective: Closed under the global context
C53_s2c_record: Closed under the global context
C53_client_rate: Closed under the global context
C53_lines: Closed under the global context
C53_record: Closed under the global context
C54_archived_record: Closed under the global context
C55_counters: Closed under the global context
C56_timing: Closed under the global context
C56_order: Closed under the global context
C57_samples: Closed under the global context
C57_contents: Closed under the global context
C58_accepts_never_counted_refuted: Closed under the global context
C59_uncompressed: Closed under the global context
C59_compressed: Closed under the global context
C59_silent_loss_refuted: Closed under the global context
C60_c2s: Closed under the global context
C60_s2c: Closed under the global context
C61_limit_refuted: Closed under the global context
C61_who: Closed under the global context
C62_abnormal: Closed under the global context
C62_clean_shutdown_refuted: Closed under the global context
C63_certificates: Closed under the global context
C63_half_pair_refuted: Closed under the global context
C64_after_return: Closed under the global context
C64_ends_on_time: Closed under the global context
C64_client_gone: Closed under the global context
C64_reason: Closed under the global context
C64_result: Closed under the global context
C64_keeps_draining: Closed under the global context
C64_cleaned_up: Closed under the global context
C65_ends: Closed under the global context
C65_limit_refuted: Closed under the global context
C66_count: Closed under the global context
C66_exact_on_error_refuted: Closed under the global context
C67_keeps_serving: Closed under the global context
C67_each_once: Closed under the global context
C67_stops: Closed under the global context
C68_ndt5: Closed under the global context
C68_ndt7: Closed under the global context
C68_message: Closed under the global context
C68_ndt5_fails: Closed under the global context
C68_ndt7_fails: Closed under the global context
C68_message_fails: Closed under the global context
C68_ndt5_encoder: Closed under the global context
C68_ndt5_back: Closed under the global context
C68_ndt7_back: Closed under the global context
C68_message_back: Closed under the global context
C69_accepted: Closed under the global context
C69_one: Closed under the global context
C69_receiver: Closed under the global context
C69_storable: Closed under the global context
C70_ends: Closed under the global context
C70_closed_ends: Closed under the global context
C70_not_early: Closed under the global context
C70_saved: Closed under the global context
C70_sender_unstuck: Closed under the global context
C70_receiver_ends: Closed under the global context
C70_sender_closes_refuted: Closed under the global context
C71_completes: Closed under the global context
C71_c2s: Closed under the global context
C71_s2c: Closed under the global context
C71_meta: Closed under the global context
C72_c2s: Closed under the global context
C72_s2c: Closed under the global context
C72_meta: Closed under the global context
C72_connection: Closed under the global context
C73_foreign: Closed under the global context
C73_control: Closed under the global context
C73_archived: Closed under the global context
C73_tests: Closed under the global context
C73_ndt7: Closed under the global context
C73_socket: Closed under the global context
C73_accept: Closed under the global context
C73_forwarded: Closed under the global context
C73_forwarded_refuted: Closed under the global context
C73_nil_address_refuted: Closed under the global context
C73_unsupported_refuted: Closed under the global context
C74_other: Closed under the global context
C74_read: Closed under the global context
C74_identifies: Closed under the global context
C74_canonical: Closed under the global context
C74_zone_refuted: Closed under the global context
C75_address: Closed under the global context
C75_health: Closed under the global context
C75_started: Closed under the global context
C75_all_or_nothing: Closed under the global context
C75_failure: Closed under the global context
C75_shutdown: Closed under the global context
C75_clean: Closed under the global context
C75_status: Closed under the global context
C75_window_refuted: Closed under the global context
C75_window: Closed under the global context
C75_certificate_refuted: Closed under the global context
C75_forward: Closed under the global context
C75_any_port_refuted: Closed under the global context
C76_ndt5: Closed under the global context
C76_ndt7: Closed under the global context
C76_receiver: Closed under the global context
C76_well_formed: Closed under the global context
C76_bounded_ndt5: Closed under the global context
C76_bounded_ndt7: Closed under the global context
C77_printed: Closed under the global context
C77_results: Closed under the global context
C77_decimal: Closed under the global context
C77_hexadecimal: Closed under the global context
C77_syntax: Closed under the global context
C77_client: Closed under the global context
C77_too_large: Closed under the global context
C77_underscores: Closed under the global context
C78_calendar: Closed under the global context
C78_ndt7_name: Closed under the global context
C78_sorted: Closed under the global context
C78_ndt5_day: Closed under the global context
C78_ndt5_utc_refuted: Closed under the global context
C78_documents: Closed under the global context
C78_unambiguous: Closed under the global context
C78_printable: Closed under the global context
C78_plain: Closed under the global context
C78_document_order_refuted: Closed under the global context
C79_reads: Closed under the global context
C79_writes: Closed under the global context
C79_reached: Closed under the global context
C80_ndt7: Closed under the global context
C80_ndt7_refused: Closed under the global context
C80_ndt5_control: Closed under the global context
C80_ndt5_test: Closed under the global context
C80_ndt5_refused: Closed under the global context
C80_offered: Closed under the global context
C80_blind: Closed under the global context
C80_key: Closed under the global context
C80_ndt7_list_refuted: Closed under the global context
C81_on_disk: Closed under the global context
C81_on_disk_compressed: Closed under the global context
C81_receiver_any: Closed under the global context
C81_told: Closed under the global context
C81_kept: Closed under the global context
C81_receiver: Closed under the global context
C82_running: Closed under the global context
C82_runs: Closed under the global context
C82_unambiguous: Closed under the global context
C82_help: Closed under the global context
C82_environment: Closed under the global context
C82_status: Closed under the global context
C82_ignored: Closed under the global context
C82_own: Closed under the global context
C82_switch: Closed under the global context
C82_text: Closed under the global context
C82_settings: Closed under the global context
C82_default: Closed under the global context
C82_obeyed_or_reported_refuted: Closed under the global context
C83_unset: Closed under the global context
C83_number: Closed under the global context
C83_distinct: Closed under the global context
C83_rates: Closed under the global context
C83_time_read: Closed under the global context
C83_rfc3339: Closed under the global context
C83_time_back: Closed under the global context
C83_codec: Closed under the global context
C83_rewritten_refuted: Closed under the global context
C84_ndt7: Closed under the global context
C84_ndt5_refuted: Closed under the global context
C84_ndt5_intended: Closed under the global context
C84_legal: Closed under the global context
C84_status_refuted: Closed under the global context
C84_client_refuted: Closed under the global context
C85_counts: Closed under the global context
C85_rest: Closed under the global context
C85_started_refuted: Closed under the global context
C86_exactly: Closed under the global context
C86_left_behind: Closed under the global context
C86_client_exit_refuted: Closed under the global context
