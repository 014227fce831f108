{
 "claims": [
  {
   "property": "C01",
   "status": "proved",
   "theorems": [
    "C01_write_is_wire_format",
    "C01_roundtrip",
    "C01_oversize_rejected"
   ],
   "note": "Round-trip for every payload of at most 65535 bytes, rejection above."
  },
  {
   "property": "C02",
   "status": "proved",
   "theorems": [
    "C02_message",
    "C02_no_message",
    "C02_accepts_exactly_frames",
    "C02_total"
   ],
   "note": "Exact acceptance condition and totality, for the frame reader and for the receive of the TLV messager."
  },
  {
   "property": "C03",
   "status": "proved",
   "theorems": [
    "C03_exact_raw",
    "C03_exact_buffered",
    "C03_whole_frames_raw",
    "C03_whole_frames_buffered",
    "C03_split_header_refuted",
    "C03_split_body_refuted",
    "C03_long_frame_refuted",
    "C03_segmentation_independence_refuted"
   ],
   "note": "C03_exact_raw and C03_exact_buffered characterise exactly the segmentations for which the messages read are the messages sent. That this holds for every segmentation is false of the code (single Read calls, counts ignored): refuted by a witness and by theorems giving the corrupted message for every split header, split payload and message longer than the buffer."
  },
  {
   "property": "C04",
   "status": "proved",
   "theorems": [
    "C04_json_roundtrip",
    "C04_json_repair",
    "C04_json_oversize"
   ],
   "note": "Round trip for every valid UTF-8 text, byte-wise repair for every other byte string, rejection when the JSON form does not fit. encoding/json is modelled (encoder and full parser)."
  },
  {
   "property": "C05",
   "status": "proved",
   "theorems": [
    "C05_json_safe",
    "C05_json_single_member"
   ],
   "note": "The wire body is the one-member object; no control character, no < > &, no raw U+2028/U+2029 inside the literal; the body denotes exactly one member."
  },
  {
   "property": "C06",
   "status": "proved",
   "theorems": [
    "C06_receive_message",
    "C06_receive_null",
    "C06_receive_raw",
    "C06_receive_bad_frame",
    "C06_message_unique",
    "C06_null_is_no_message"
   ],
   "note": "Complete case split against an independent JSON grammar; the parser of the model is proved sound and complete for that grammar."
  },
  {
   "property": "C07",
   "status": "proved",
   "theorems": [
    "C07_tlv_result",
    "C07_json_result",
    "C07_injective"
   ],
   "note": "Exact decoding and injectivity for all int64 values, both encodings."
  },
  {
   "property": "C08",
   "status": "proved",
   "theorems": [
    "C08_all_lines",
    "C08_stops_at_first_failure",
    "C08_panics_only_without_struct"
   ],
   "note": "For every reflected struct and every send oracle, in both directions (iff)."
  },
  {
   "property": "C09",
   "status": "proved",
   "theorems": [
    "C09_tlv_login",
    "C09_json_login",
    "C09_usable_messager",
    "C09_never_panics",
    "C09_messager"
   ],
   "note": "Exact acceptance sets (iff), and exactly which first messages leave a messager."
  },
  {
   "property": "C10",
   "status": "proved",
   "theorems": [
    "C10_login_by_kind",
    "C10_ws_login",
    "C10_ws_login_panics_refuted"
   ],
   "note": "The naive claim is false: C10_ws_login_panics_refuted gives exactly the logins that crash the handler. Containment of the panic is C14."
  },
  {
   "property": "C11",
   "status": "proved",
   "theorems": [
    "C11_requested_tests",
    "C11_other_bits"
   ],
   "note": "Exact for every integer (two's complement bits); other bits only change counters."
  },
  {
   "property": "C12",
   "status": "proved",
   "theorems": [
    "C12_conversation",
    "C12_c2s_port",
    "C12_s2c_port",
    "C12_results_text"
   ],
   "note": "Every run's messages follow the protocol grammar, up to the first failure; complete iff counted okay."
  },
  {
   "property": "C13",
   "status": "proved",
   "theorems": [
    "C13_saved_then_closed"
   ],
   "note": "One save, then one close, in every run including panics."
  },
  {
   "property": "C14",
   "status": "proved",
   "theorems": [
    "C14_contained_and_balanced"
   ],
   "note": "No panic escapes, gauge balanced, counters agree."
  },
  {
   "property": "C15",
   "status": "proved",
   "theorems": [
    "C15_label_set",
    "C15_label_cause",
    "C15_panic"
   ],
   "note": "Label set for every panic text; the cause is proved for every label in every run. C15_panic composes it with the models of the test servers and of the poller: what is left as a cause of a crash."
  },
  {
   "property": "C16",
   "status": "proved",
   "theorems": [
    "C16_on_disk",
    "C16_stored",
    "C16_client",
    "C16_exact",
    "C16_always_stored_refuted"
   ],
   "note": "Exact: a record is stored iff all its numbers are finite; the server's own rates always are (for positive durations), so it depends only on whether the client sent a spelling of NaN or infinity. The refuted theorem gives a run of a whole connection. C16_on_disk goes from the connection to the JSON value in the file."
  },
  {
   "property": "C17",
   "status": "proved",
   "theorems": [
    "C17_error_recorded",
    "C17_always_returns_refuted",
    "C17_rate_message",
    "C17_record"
   ],
   "note": "The claim that a record is always returned is false of the code (refuted by a run without socket statistics; exact condition proved). When and what rate is reported is characterised in both directions."
  },
  {
   "property": "C18",
   "status": "proved",
   "theorems": [
    "C18_closed",
    "C18_s2c_order",
    "C18_every_connection_refuted",
    "C18_plain"
   ],
   "note": "True for connections handed over without an error, with the S2C order; refuted for connections handed over together with an error, which by C18_plain (with the model of the test servers) cannot happen on the plain port."
  },
  {
   "property": "C19",
   "status": "proved",
   "theorems": [
    "C19_servers_stopped",
    "C19_always_stopped_refuted"
   ],
   "note": "The only path that leaves a server running is a failed announcement of its port; refutation by a run."
  },
  {
   "property": "C20",
   "status": "proved",
   "theorems": [
    "C20_stored_metadata",
    "C20_returns"
   ],
   "note": "Exact relation between received messages and stored pairs."
  },
  {
   "property": "C21",
   "status": "proved",
   "theorems": [
    "C21_reads_and_finalize"
   ],
   "note": "At most 20 reads; complete case split of the writes."
  },
  {
   "property": "C22",
   "status": "proved",
   "theorems": [
    "C22_summary_iff_snapshot",
    "C22_last_snapshot",
    "C22_count_and_sum",
    "C22_maximum",
    "C22_minimum_positive",
    "C22_minimum_after_zero",
    "C22_minimum_refuted",
    "C22_ordered"
   ],
   "note": "Exact maximum, count, sum; minimum exact iff no zero sample (refuted otherwise). The polling loop around summarize is C23."
  },
  {
   "property": "C23",
   "status": "proved",
   "theorems": [
    "C23_result",
    "C23_second_stop",
    "C23_returns",
    "C23_poller_ends",
    "C23_late_reads",
    "C23_last_measurement_refuted"
   ],
   "note": "Transition system of the polling goroutine and the user of the connection. The memoryless ticker may fire at any time. The comment that one last measurement is taken after cancellation is refuted."
  },
  {
   "property": "C24",
   "status": "proved",
   "theorems": [
    "C24_failure",
    "C24_result",
    "C24_final",
    "C24_returns"
   ],
   "note": "Transition system of ServeOnce, the serving goroutine, any number of request goroutines and closers. Shared fields are read and written in program order, one step each; net/http is modelled by what Serve may return."
  },
  {
   "property": "C25",
   "status": "proved",
   "theorems": [
    "C25_one_client",
    "C25_stray_request_refuted",
    "C25_two_clients_refuted",
    "C25_late_upgrade_refuted"
   ],
   "note": "The naive claim is refuted by three schedules; C25_one_client gives the conditions under which it holds."
  },
  {
   "property": "C26",
   "status": "proved",
   "theorems": [
    "C26_result",
    "C26_lost_only_on_expiry",
    "C26_lost_refuted"
   ],
   "note": "Transition system of ServeOnce and the accepting goroutine; the remaining loss of a connection is shown to happen (C26_lost_refuted) and only on expiry."
  },
  {
   "property": "C27",
   "status": "proved",
   "theorems": [
    "C27_decision",
    "C27_login",
    "C27_streams",
    "C27_progress",
    "C27_complete"
   ],
   "note": "For every segmentation the decision is that of the first three bytes and the reader still holds the whole stream; in every execution of the connection's transition system the streams are split between proxy and control channel as stated, and each direction ends early only on expiry, shutdown or a closed receiver."
  },
  {
   "property": "C28",
   "status": "proved",
   "theorems": [
    "C28_teardown",
    "C28_timeouts",
    "C28_one_sided_refuted"
   ],
   "note": "Teardown is proved inevitable for every schedule once the context is done or both peers have closed. The code comment's stronger claim (either peer's close suffices) is refuted by two reachable stuck states."
  },
  {
   "property": "C29",
   "status": "proved",
   "theorems": [
    "C29_gauge",
    "C29_bounds",
    "C29_no_leak",
    "C29_close"
   ],
   "note": "Transition system of any number of Accept and Close calls in progress at once."
  },
  {
   "property": "C30",
   "status": "proved",
   "theorems": [
    "C30_read_info",
    "C30_bbr",
    "C30_bbr_failure",
    "C30_tcp",
    "C30_measurer",
    "C30_uuid"
   ],
   "note": "The kernel's answers are arbitrary inputs. That the socket-cookie library returns a non-empty id is assumed of the library; the fallback is modelled to the last character."
  },
  {
   "property": "C31",
   "status": "proved",
   "theorems": [
    "C31_early_exit",
    "C31_only_early_exit"
   ],
   "note": "For every query string and every iteration order; the query string parser of net/url is modelled and specified."
  },
  {
   "property": "C32",
   "status": "proved",
   "theorems": [
    "C32_metadata"
   ],
   "note": "Exact set of pairs; the archived result is covered by C34_one_result."
  },
  {
   "property": "C33",
   "status": "proved",
   "theorems": [
    "C33_parameters",
    "C33_malformed_refuted"
   ],
   "note": "The claim is false of the code: C33_malformed_refuted; C33_parameters gives the parameters seen for every query string."
  },
  {
   "property": "C34",
   "status": "proved",
   "theorems": [
    "C34_requests",
    "C34_one_result",
    "C34_rejected"
   ],
   "note": "All runs enumerated, for arbitrary subtests including panicking ones; summaries for the subtests of the server."
  },
  {
   "property": "C35",
   "status": "proved",
   "theorems": [
    "C35_sizes",
    "C35_ordinal",
    "C35_request"
   ],
   "note": "Scaling rule, powers of two, monotone, determined by the ordinal; also at the level of requests."
  },
  {
   "property": "C36",
   "status": "proved",
   "theorems": [
    "C36_delivered",
    "C36_request"
   ],
   "note": "Both directions, every failure point, up to the result file. That nothing is added later is C40."
  },
  {
   "property": "C37",
   "status": "proved",
   "theorems": [
    "C37_early_exit",
    "C37_only_then",
    "C37_request"
   ],
   "note": "Both directions of the claim, and the limit of whole requests."
  },
  {
   "property": "C38",
   "status": "proved",
   "theorems": [
    "C38_dialogue",
    "C38_close",
    "C38_frames"
   ],
   "note": "All frame sequences enumerated by an independent grammar."
  },
  {
   "property": "C39",
   "status": "proved",
   "theorems": [
    "C39_receiver"
   ],
   "note": "For every decoder of measurements. Pong payloads are byte strings."
  },
  {
   "property": "C40",
   "status": "proved",
   "theorems": [
    "C40_unexpired",
    "C40_at_most_one",
    "C40_refuted"
   ],
   "note": "Two-goroutine transition system over the very programs of Ndt7Model.v. The naive claim is false (C40_refuted); it holds when the request's context is not done at the return (C40_unexpired), and otherwise at most one measurement is added (C40_at_most_one)."
  },
  {
   "property": "C41",
   "status": "proved",
   "theorems": [
    "C41_stop_returned",
    "C41_terminates",
    "C41_stop",
    "C41_no_deadlock",
    "C41_early_stop_refuted"
   ],
   "note": "Transition system of measurer, ticker and consumer. The memoryless ticker is a library and modelled from its documentation, with every choice it may make. Stop before m.ticker is set does not stop the ticker (C41_early_stop_refuted)."
  },
  {
   "property": "C42",
   "status": "proved",
   "theorems": [
    "C42_counters",
    "C42_rate",
    "C42_zero_time_refuted"
   ],
   "note": "Counters of whole requests; the rate is proved accurate to 2^-51 over binary64 without real-number axioms. With an elapsed time of zero the claim is false (C42_zero_time_refuted)."
  },
  {
   "property": "C43",
   "status": "proved",
   "theorems": [
    "C43_label"
   ],
   "note": "Every TCP address and every port."
  },
  {
   "property": "C44",
   "status": "proved",
   "theorems": [
    "C44_echo",
    "C44_any"
   ],
   "note": "Exact set of payloads that denote a number."
  },
  {
   "property": "C45",
   "status": "proved",
   "theorems": [
    "C45_names",
    "C45_no_overwrite",
    "C45_taken"
   ],
   "note": "Names are injective; a save never changes an existing file at any crash point; a taken name ends the process with nothing changed."
  },
  {
   "property": "C46",
   "status": "proved",
   "theorems": [
    "C46_ndt7",
    "C46_concurrent",
    "C46_ndt5",
    "C46_partial_document_refuted",
    "C46_cut_ndt7",
    "C46_cut_ndt5"
   ],
   "note": "Every crash point and partial write; also among concurrent saves to other files. The refuted theorem shows that partial documents do occur; C46_cut_ndt7 and C46_cut_ndt5 show that, uncompressed, they are never JSON. Compressed ndt7 files are cut off as gzip streams, and gzip is not modelled."
  },
  {
   "property": "C47",
   "status": "proved",
   "theorems": [
    "C47_placement",
    "C47_distinct",
    "C47_saved",
    "C47_replaced_refuted"
   ],
   "note": "Placement for every data directory and time; UUIDs without a slash. The refuted theorem shows that a second record with the same UUID and day replaces the first."
  },
  {
   "property": "C48",
   "status": "proved",
   "theorems": [
    "C48_health",
    "C48_gauge",
    "C48_gauge_always_agrees_refuted",
    "C48_two_needed",
    "C48_two_enough",
    "C48_two_always_enough_refuted"
   ],
   "note": "Proved for every timing of signals: health is 200 before any SIGTERM, 500 inevitably after one and for ever; two are needed to shut down, and a second one after the gauge is up suffices. Refuted: that gauge and endpoint agree at every instant, and that any two SIGTERMs suffice."
  },
  {
   "property": "C49",
   "status": "proved",
   "theorems": [
    "C49_labels"
   ],
   "note": "For every map of labels and every iteration order."
  },
  {
   "property": "C50",
   "status": "proved",
   "theorems": [
    "C50_redirected",
    "C50_clean",
    "C50_directory",
    "C50_guarded",
    "C50_only_measurements",
    "C50_reached",
    "C50_static",
    "C50_services",
    "C50_required"
   ],
   "note": "For every flag combination, port and way of writing the path, including percent-encodings and CONNECT. The access library's chain is modelled from its documentation: it consults URL.Path. C50_redirected, C50_clean and C50_directory say which paths are redirected and what cleaning makes of them."
  },
  {
   "property": "C51",
   "status": "proved",
   "theorems": [
    "C51_configuration"
   ],
   "note": "For every flag string and every HTTP server started."
  },
  {
   "property": "C52",
   "status": "proved",
   "theorems": [
    "C52_kinds_distinct",
    "C52_names",
    "C52_unknown_kind",
    "C52_message_type_names_injective"
   ],
   "note": "All 256 message types; all connection-kind strings; C52_names pins the names in records and metrics."
  },
  {
   "property": "C53",
   "status": "proved",
   "theorems": [
    "C53_s2c_record",
    "C53_client_rate",
    "C53_lines",
    "C53_record"
   ],
   "note": ""
  },
  {
   "property": "C54",
   "status": "proved",
   "theorems": [
    "C54_archived_record"
   ],
   "note": ""
  },
  {
   "property": "C55",
   "status": "proved",
   "theorems": [
    "C55_counters"
   ],
   "note": ""
  },
  {
   "property": "C56",
   "status": "proved",
   "theorems": [
    "C56_timing",
    "C56_order"
   ],
   "note": "Both senders, every run."
  },
  {
   "property": "C57",
   "status": "proved",
   "theorems": [
    "C57_samples",
    "C57_contents"
   ],
   "note": "Same transition system; the clock does not go back (Go's monotonic clock)."
  },
  {
   "property": "C58",
   "status": "proved",
   "theorems": [
    "C58_accepts_never_counted_refuted"
   ],
   "note": "Refuted: WithLabelValues without Inc."
  },
  {
   "property": "C59",
   "status": "proved",
   "theorems": [
    "C59_uncompressed",
    "C59_compressed",
    "C59_silent_loss_refuted"
   ],
   "note": "Proved without compression, refuted with it; the exact guarantee with compression is C59_compressed."
  },
  {
   "property": "C60",
   "status": "proved",
   "theorems": [
    "C60_c2s",
    "C60_s2c"
   ],
   "note": "Durations must be positive and below 2^63 ns; the byte counts are 64-bit counters."
  },
  {
   "property": "C61",
   "status": "proved",
   "theorems": [
    "C61_limit_refuted",
    "C61_who"
   ],
   "note": "Refuted as stated, by a silent client; C61_who characterises the connections that outlive their context."
  },
  {
   "property": "C62",
   "status": "proved",
   "theorems": [
    "C62_abnormal",
    "C62_clean_shutdown_refuted"
   ],
   "note": "Refuted by a third SIGTERM during shutdown; C62_abnormal shows it is the only such case."
  },
  {
   "property": "C63",
   "status": "proved",
   "theorems": [
    "C63_certificates",
    "C63_half_pair_refuted"
   ],
   "note": "Refuted for the half-given pair of files; C63_certificates shows it is the only such case."
  },
  {
   "property": "C64",
   "status": "proved",
   "theorems": [
    "C64_after_return",
    "C64_ends_on_time",
    "C64_client_gone",
    "C64_reason",
    "C64_result",
    "C64_keeps_draining",
    "C64_cleaned_up"
   ],
   "note": "Transition system of the upload wait, the draining goroutine, the poller of C23 and the delayed close, with any client."
  },
  {
   "property": "C65",
   "status": "proved",
   "theorems": [
    "C65_ends",
    "C65_limit_refuted"
   ],
   "note": "Refuted by a client that stalls; C65_ends shows that it is the only case. Network deadlines are not set anywhere on this path."
  },
  {
   "property": "C66",
   "status": "proved",
   "theorems": [
    "C66_count",
    "C66_exact_on_error_refuted"
   ],
   "note": "Exact without an error; the refuted theorem and C66_count give what is missing with one."
  },
  {
   "property": "C67",
   "status": "proved",
   "theorems": [
    "C67_keeps_serving",
    "C67_each_once",
    "C67_stops"
   ],
   "note": "The rate limiter behind tx.Accept is an arbitrary source of refusals. The handler itself is C27, C28 and C61."
  },
  {
   "property": "C68",
   "status": "proved",
   "theorems": [
    "C68_ndt5",
    "C68_ndt7",
    "C68_message",
    "C68_ndt5_fails",
    "C68_ndt7_fails",
    "C68_message_fails",
    "C68_ndt5_encoder",
    "C68_ndt5_back",
    "C68_ndt7_back",
    "C68_message_back"
   ],
   "note": "The texts of numbers and times are parameters (codec_ok in CodecSpec.v); reading back is stated for the values that survive (fits_fields)."
  },
  {
   "property": "C69",
   "status": "proved",
   "theorems": [
    "C69_accepted",
    "C69_one",
    "C69_receiver",
    "C69_storable"
   ],
   "note": "Times are read by a parameter. C69_storable assumes that a time that can be read can be written."
  },
  {
   "property": "C70",
   "status": "proved",
   "theorems": [
    "C70_ends",
    "C70_closed_ends",
    "C70_not_early",
    "C70_saved",
    "C70_sender_unstuck",
    "C70_receiver_ends",
    "C70_sender_closes_refuted"
   ],
   "note": "LifeModel composes the handler, closer, receiver, sender and measurer goroutines. Ends under every schedule once the context is done; comment in Do refuted."
  },
  {
   "property": "C71",
   "status": "proved",
   "theorems": [
    "C71_completes",
    "C71_c2s",
    "C71_s2c",
    "C71_meta"
   ],
   "note": "The three success theorems are equivalences; C71_meta assumes that a reached time limit stays reached."
  },
  {
   "property": "C72",
   "status": "proved",
   "theorems": [
    "C72_c2s",
    "C72_s2c",
    "C72_meta",
    "C72_connection"
   ],
   "note": "Which step failed is read from the trace (OutcomeSpec): the failing write by its position, the failing read or server by its answer."
  },
  {
   "property": "C73",
   "status": "proved",
   "theorems": [
    "C73_foreign",
    "C73_control",
    "C73_archived",
    "C73_tests",
    "C73_ndt7",
    "C73_socket",
    "C73_accept",
    "C73_forwarded",
    "C73_forwarded_refuted",
    "C73_nil_address_refuted",
    "C73_unsupported_refuted"
   ],
   "note": "Exact outcome for every service, address pair and kernel answer (C73_control, C73_tests, C73_ndt7, C73_socket); C73_archived joins it with the run of a whole connection. C73_forwarded and C73_forwarded_refuted: forwarded websocket clients are archived with the server's own socket. C73_nil_address_refuted and C73_unsupported_refuted: two comments that are false. C73_foreign: ends whose address is not one of TCP are recorded as port 1 of ::1."
  },
  {
   "property": "C74",
   "status": "proved",
   "theorems": [
    "C74_other",
    "C74_read",
    "C74_identifies",
    "C74_canonical",
    "C74_zone_refuted"
   ],
   "note": "The reader of addresses (IdentitySpec) is written independently of the printer. C74_zone_refuted: the zone is dropped. C74_other: other addresses are recorded as texts that are not read as an address."
  },
  {
   "property": "C75",
   "status": "proved",
   "theorems": [
    "C75_address",
    "C75_health",
    "C75_started",
    "C75_all_or_nothing",
    "C75_failure",
    "C75_shutdown",
    "C75_clean",
    "C75_status",
    "C75_window_refuted",
    "C75_window",
    "C75_certificate_refuted",
    "C75_forward",
    "C75_any_port_refuted"
   ],
   "note": "C75_window_refuted, C75_certificate_refuted and C75_any_port_refuted: what is not guaranteed, each next to the exact statement of what is."
  },
  {
   "property": "C76",
   "status": "proved",
   "theorems": [
    "C76_ndt5",
    "C76_ndt7",
    "C76_receiver",
    "C76_well_formed",
    "C76_bounded_ndt5",
    "C76_bounded_ndt7"
   ],
   "note": "Tables of series in MetricsSpec.v. The monitoring flag is assumed to be true or false, which is all fmt.Sprintf(\"%t\") gives; the counter of BBR, whose second label is an error text of the kernel, and the counters of the test servers (C58) are outside these tables."
  },
  {
   "property": "C77",
   "status": "proved",
   "theorems": [
    "C77_printed",
    "C77_results",
    "C77_decimal",
    "C77_hexadecimal",
    "C77_syntax",
    "C77_client",
    "C77_too_large",
    "C77_underscores"
   ],
   "note": "ParseFloat and %.4f are modelled from the documentation and source of Go's library, which is not part of the repository; exponents beyond 9999, magnitudes between 2^999 and 2^1024 and below 2^-999 are outside the value theorems. Texts with underscores are numbers exactly when C77_underscores says so, and numbers of 2^1024 or more are refused."
  },
  {
   "property": "C78",
   "status": "proved",
   "theorems": [
    "C78_calendar",
    "C78_ndt7_name",
    "C78_sorted",
    "C78_ndt5_day",
    "C78_ndt5_utc_refuted",
    "C78_documents",
    "C78_unambiguous",
    "C78_printable",
    "C78_plain",
    "C78_document_order_refuted"
   ],
   "note": "The zone is a number of whole minutes east of UTC, as in every zone of today; that time.Now reads the right clock is assumed."
  },
  {
   "property": "C79",
   "status": "proved",
   "theorems": [
    "C79_reads",
    "C79_writes",
    "C79_reached"
   ],
   "note": "Counts calls of ReadMessage and of the connection's write; how long each may take is not part of it (C65)."
  },
  {
   "property": "C80",
   "status": "proved",
   "theorems": [
    "C80_ndt7",
    "C80_ndt7_refused",
    "C80_ndt5_control",
    "C80_ndt5_test",
    "C80_ndt5_refused",
    "C80_offered",
    "C80_blind",
    "C80_key",
    "C80_ndt7_list_refuted"
   ],
   "note": "Upgrade of gorilla/websocket is modelled from its source as remembered, without status codes; the hash of the key and the state of the connection are arbitrary."
  },
  {
   "property": "C81",
   "status": "proved",
   "theorems": [
    "C81_on_disk",
    "C81_on_disk_compressed",
    "C81_receiver_any",
    "C81_told",
    "C81_kept",
    "C81_receiver"
   ],
   "note": "C81_told is about whole requests, and C81_on_disk goes on to the file; C81_on_disk_compressed does so for compressed files, for whatever undoes the compressor, when no write falls short. C81_kept assumes that the client's measurements came in some texts; C81_receiver shows that they did, for a subtest that Do left before the context of the request was done, and C81_receiver_any that in any case those of the moment of the return are those of the client's first messages. times_return (a time that was read is written as a text that is read as the same time) is an assumption about the codec."
  },
  {
   "property": "C82",
   "status": "proved",
   "theorems": [
    "C82_running",
    "C82_runs",
    "C82_unambiguous",
    "C82_help",
    "C82_environment",
    "C82_status",
    "C82_ignored",
    "C82_own",
    "C82_switch",
    "C82_text",
    "C82_settings",
    "C82_default",
    "C82_obeyed_or_reported_refuted"
   ],
   "note": "Says for every set of flags; C82_own shows that those of ndt-server.go meet the conditions and C82_settings says what main reads. Packages flag and flagx are modelled from knowledge of them, and Set of library types is a parameter. C82_obeyed_or_reported_refuted is the claim that fails."
  },
  {
   "property": "C83",
   "status": "proved",
   "theorems": [
    "C83_unset",
    "C83_number",
    "C83_distinct",
    "C83_rates",
    "C83_time_read",
    "C83_rfc3339",
    "C83_time_back",
    "C83_codec",
    "C83_rewritten_refuted"
   ],
   "note": "numbers and times of encoding/json as in ExactModel; zones with seconds are excluded; that no shorter number text would do is not proved C83_unset: a time never set is the first instant of the year 1."
  },
  {
   "property": "C84",
   "status": "proved",
   "theorems": [
    "C84_ndt7",
    "C84_ndt5_refuted",
    "C84_ndt5_intended",
    "C84_legal",
    "C84_status_refuted",
    "C84_client_refuted"
   ],
   "note": "C84_ndt7 and C84_ndt5_intended say exactly which archived results load into the schema of their struct; C84_legal that BigQuery accepts both. Refuted: the schema published for ndt5 is that of ndt7 (C84_ndt5_refuted, main.go:36), the exit status hides failed writes (C84_status_refuted), a client's StartTime of the year 0 is archived but does not load (C84_client_refuted). The text of the schema file is not modelled."
  },
  {
   "property": "C85",
   "status": "proved",
   "theorems": [
    "C85_counts",
    "C85_rest",
    "C85_started_refuted"
   ],
   "note": "C85_started_refuted: the help text of the start counter. Each server runs as in C24-C26; what a test does between ListenX and ServeOnce is arbitrary."
  },
  {
   "property": "C86",
   "status": "proved",
   "theorems": [
    "C86_exactly",
    "C86_left_behind",
    "C86_client_exit_refuted"
   ],
   "note": "C86_client_exit_refuted has the message and a whole request in which the process ends. In C86_exactly the times of the client are given as pairs of instant and zone (time_text, C83); that json.Unmarshal keeps the zone of the text in the time.Time is in the model (ZoneModel.marshal_result), not proved. From package time as remembered."
  }
 ]
}