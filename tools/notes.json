{
"C01": {
"note": "Round-trip for every payload of at most 65535 bytes, rejection above."
},
"C02": {
"note": "Exact acceptance condition and totality, for the frame reader and for the receive of the TLV messager."
},
"C03": {
"note": "C03_exact_raw and C03_exact_buffered characterise exactly the segmentations for which the messages read are the messages sent. That this holds for every segmentation is false of the code (single Read calls, counts ignored): refuted by a witness and by theorems giving the corrupted message for every split header, split payload and message longer than the buffer."
},
"C52": {
"note": "All 256 message types; all connection-kind strings; C52_names pins the names in records and metrics."
},
"C04": {
"note": "Round trip for every valid UTF-8 text, byte-wise repair for every other byte string, rejection when the JSON form does not fit. encoding/json is modelled (encoder and full parser)."
},
"C05": {
"note": "The wire body is the one-member object; no control character, no < > &, no raw U+2028/U+2029 inside the literal; the body denotes exactly one member."
},
"C06": {
"note": "Complete case split against an independent JSON grammar; the parser of the model is proved sound and complete for that grammar."
},
"C07": {
"note": "Exact decoding and injectivity for all int64 values, both encodings."
},
"C08": {
"note": "For every reflected struct and every send oracle, in both directions (iff)."
},
"C09": {
"note": "Exact acceptance sets (iff), and exactly which first messages leave a messager."
},
"C10": {
"note": "The naive claim is false: C10_ws_login_panics_refuted gives exactly the logins that crash the handler. Containment of the panic is C14."
},
"C11": {
"note": "Exact for every integer (two's complement bits); other bits only change counters."
},
"C12": {
"note": "Every run's messages follow the protocol grammar, up to the first failure; complete iff counted okay."
},
"C13": {
"note": "One save, then one close, in every run including panics."
},
"C14": {
"note": "No panic escapes, gauge balanced, counters agree."
},
"C15": {
"note": "Label set for every panic text; the cause is proved for every label in every run. C15_panic composes it with the models of the test servers and of the poller: what is left as a cause of a crash."
},
"C17": {
"note": "The claim that a record is always returned is false of the code (refuted by a run without socket statistics; exact condition proved). When and what rate is reported is characterised in both directions."
},
"C18": {
"note": "True for connections handed over without an error, with the S2C order; refuted for connections handed over together with an error, which by C18_plain (with the model of the test servers) cannot happen on the plain port."
},
"C19": {
"note": "The only path that leaves a server running is a failed announcement of its port; refutation by a run."
},
"C20": {
"note": "Exact relation between received messages and stored pairs."
},
"C21": {
"note": "At most 20 reads; complete case split of the writes."
},
"C22": {
"note": "Exact maximum, count, sum; minimum exact iff no zero sample (refuted otherwise). The polling loop around summarize is C23."
},
"C53": {
"note": ""
},
"C54": {
"note": ""
},
"C55": {
"note": ""
},
"C31": {
"note": "For every query string and every iteration order; the query string parser of net/url is modelled and specified."
},
"C32": {
"note": "Exact set of pairs; the archived result is covered by C34_one_result."
},
"C33": {
"note": "The claim is false of the code: C33_malformed_refuted; C33_parameters gives the parameters seen for every query string."
},
"C34": {
"note": "All runs enumerated, for arbitrary subtests including panicking ones; summaries for the subtests of the server."
},
"C35": {
"note": "Scaling rule, powers of two, monotone, determined by the ordinal; also at the level of requests."
},
"C36": {
"note": "Both directions, every failure point, up to the result file. That nothing is added later is C40."
},
"C37": {
"note": "Both directions of the claim, and the limit of whole requests."
},
"C38": {
"note": "All frame sequences enumerated by an independent grammar."
},
"C39": {
"note": "For every decoder of measurements. Pong payloads are byte strings."
},
"C42": {
"note": "Counters of whole requests; the rate is proved accurate to 2^-51 over binary64 without real-number axioms. With an elapsed time of zero the claim is false (C42_zero_time_refuted)."
},
"C43": {
"note": "Every TCP address and every port."
},
"C44": {
"note": "Exact set of payloads that denote a number."
},
"C56": {
"note": "Both senders, every run."
},
"C40": {
"note": "Two-goroutine transition system over the very programs of Ndt7Model.v. The naive claim is false (C40_refuted); it holds when the request's context is not done at the return (C40_unexpired), and otherwise at most one measurement is added (C40_at_most_one)."
},
"C41": {
"note": "Transition system of measurer, ticker and consumer. The memoryless ticker is a library and modelled from its documentation, with every choice it may make. Stop before m.ticker is set does not stop the ticker (C41_early_stop_refuted)."
},
"C57": {
"note": "Same transition system; the clock does not go back (Go's monotonic clock)."
},
"C24": {
"note": "Transition system of ServeOnce, the serving goroutine, any number of request goroutines and closers. Shared fields are read and written in program order, one step each; net/http is modelled by what Serve may return."
},
"C25": {
"note": "The naive claim is refuted by three schedules; C25_one_client gives the conditions under which it holds."
},
"C26": {
"note": "Transition system of ServeOnce and the accepting goroutine; the remaining loss of a connection is shown to happen (C26_lost_refuted) and only on expiry."
},
"C58": {
"note": "Refuted: WithLabelValues without Inc."
},
"C23": {
"note": "Transition system of the polling goroutine and the user of the connection. The memoryless ticker may fire at any time. The comment that one last measurement is taken after cancellation is refuted."
},
"C29": {
"note": "Transition system of any number of Accept and Close calls in progress at once."
},
"C30": {
"note": "The kernel's answers are arbitrary inputs. That the socket-cookie library returns a non-empty id is assumed of the library; the fallback is modelled to the last character."
},
"C45": {
"note": "Names are injective; a save never changes an existing file at any crash point; a taken name ends the process with nothing changed."
},
"C46": {
"note": "Every crash point and partial write; also among concurrent saves to other files. The refuted theorem shows that partial documents do occur; C46_cut_ndt7 and C46_cut_ndt5 show that, uncompressed, they are never JSON. Compressed ndt7 files are cut off as gzip streams, and gzip is not modelled."
},
"C47": {
"note": "Placement for every data directory and time; UUIDs without a slash. The refuted theorem shows that a second record with the same UUID and day replaces the first."
},
"C59": {
"note": "Proved without compression, refuted with it; the exact guarantee with compression is C59_compressed."
},
"C16": {
"note": "Exact: a record is stored iff all its numbers are finite; the server's own rates always are (for positive durations), so it depends only on whether the client sent a spelling of NaN or infinity. The refuted theorem gives a run of a whole connection. C16_on_disk goes from the connection to the JSON value in the file."
},
"C60": {
"note": "Durations must be positive and below 2^63 ns; the byte counts are 64-bit counters."
},
"C27": {
"note": "For every segmentation the decision is that of the first three bytes and the reader still holds the whole stream; in every execution of the connection's transition system the streams are split between proxy and control channel as stated, and each direction ends early only on expiry, shutdown or a closed receiver."
},
"C28": {
"note": "Teardown is proved inevitable for every schedule once the context is done or both peers have closed. The code comment's stronger claim (either peer's close suffices) is refuted by two reachable stuck states."
},
"C61": {
"note": "Refuted as stated, by a silent client; C61_who characterises the connections that outlive their context."
},
"C48": {
"note": "Proved for every timing of signals: health is 200 before any SIGTERM, 500 inevitably after one and for ever; two are needed to shut down, and a second one after the gauge is up suffices. Refuted: that gauge and endpoint agree at every instant, and that any two SIGTERMs suffice."
},
"C49": {
"note": "For every map of labels and every iteration order."
},
"C50": {
"note": "For every flag combination, port and way of writing the path, including percent-encodings and CONNECT. The access library's chain is modelled from its documentation: it consults URL.Path. C50_redirected, C50_clean and C50_directory say which paths are redirected and what cleaning makes of them."
},
"C51": {
"note": "For every flag string and every HTTP server started."
},
"C62": {
"note": "Refuted by a third SIGTERM during shutdown; C62_abnormal shows it is the only such case."
},
"C63": {
"note": "Refuted for the half-given pair of files; C63_certificates shows it is the only such case."
},
"C64": {
"note": "Transition system of the upload wait, the draining goroutine, the poller of C23 and the delayed close, with any client."
},
"C65": {
"note": "Refuted by a client that stalls; C65_ends shows that it is the only case. Network deadlines are not set anywhere on this path."
},
"C66": {
"note": "Exact without an error; the refuted theorem and C66_count give what is missing with one."
},
"C67": {
"note": "The rate limiter behind tx.Accept is an arbitrary source of refusals. The handler itself is C27, C28 and C61."
},
"C68": {
"note": "The texts of numbers and times are parameters (codec_ok in CodecSpec.v); reading back is stated for the values that survive (fits_fields)."
},
"C69": {
"note": "Times are read by a parameter. C69_storable assumes that a time that can be read can be written."
},
"C70": {
"note": "LifeModel composes the handler, closer, receiver, sender and measurer goroutines. Ends under every schedule once the context is done; comment in Do refuted."
},
"C71": {
"note": "The three success theorems are equivalences; C71_meta assumes that a reached time limit stays reached."
},
"C72": {
"note": "Which step failed is read from the trace (OutcomeSpec): the failing write by its position, the failing read or server by its answer."
},
"C73": {
"note": "Exact outcome for every service, address pair and kernel answer (C73_control, C73_tests, C73_ndt7, C73_socket); C73_archived joins it with the run of a whole connection. C73_forwarded and C73_forwarded_refuted: forwarded websocket clients are archived with the server's own socket. C73_nil_address_refuted and C73_unsupported_refuted: two comments that are false. C73_foreign: ends whose address is not one of TCP are recorded as port 1 of ::1."
},
"C74": {
"note": "The reader of addresses (IdentitySpec) is written independently of the printer. C74_zone_refuted: the zone is dropped. C74_other: other addresses are recorded as texts that are not read as an address."
},
"C75": {
"note": "C75_window_refuted, C75_certificate_refuted and C75_any_port_refuted: what is not guaranteed, each next to the exact statement of what is."
},
"C76": {
"note": "Tables of series in MetricsSpec.v. The monitoring flag is assumed to be true or false, which is all fmt.Sprintf(\"%t\") gives; the counter of BBR, whose second label is an error text of the kernel, and the counters of the test servers (C58) are outside these tables."
},
"C77": {
"note": "ParseFloat and %.4f are modelled from the documentation and source of Go's library, which is not part of the repository; exponents beyond 9999, magnitudes between 2^999 and 2^1024 and below 2^-999 are outside the value theorems. Texts with underscores are numbers exactly when C77_underscores says so, and numbers of 2^1024 or more are refused."
},
"C78": {
"note": "The zone is a number of whole minutes east of UTC, as in every zone of today; that time.Now reads the right clock is assumed."
},
"C79": {
"note": "Counts calls of ReadMessage and of the connection's write; how long each may take is not part of it (C65)."
},
"C80": {
"note": "Upgrade of gorilla/websocket is modelled from its source as remembered, without status codes; the hash of the key and the state of the connection are arbitrary."
},
"C81": {
"note": "C81_told is about whole requests, and C81_on_disk goes on to the file; C81_on_disk_compressed does so for compressed files, for whatever undoes the compressor, when no write falls short. C81_kept assumes that the client's measurements came in some texts; C81_receiver shows that they did, for a subtest that Do left before the context of the request was done, and C81_receiver_any that in any case those of the moment of the return are those of the client's first messages. times_return (a time that was read is written as a text that is read as the same time) is an assumption about the codec."
},
"C82": {
"note": "Says for every set of flags; C82_own shows that those of ndt-server.go meet the conditions and C82_settings says what main reads. Packages flag and flagx are modelled from knowledge of them, and Set of library types is a parameter. C82_obeyed_or_reported_refuted is the claim that fails."
},
"C83": {
"note": "numbers and times of encoding/json as in ExactModel; zones with seconds are excluded; that no shorter number text would do is not proved C83_unset: a time never set is the first instant of the year 1."
},
"C84": {
"note": "C84_ndt7 and C84_ndt5_intended say exactly which archived results load into the schema of their struct; C84_legal that BigQuery accepts both. Refuted: the schema published for ndt5 is that of ndt7 (C84_ndt5_refuted, main.go:36), the exit status hides failed writes (C84_status_refuted), a client's StartTime of the year 0 is archived but does not load (C84_client_refuted). The text of the schema file is not modelled."
},
"C85": {
"note": "C85_started_refuted: the help text of the start counter. Each server runs as in C24-C26; what a test does between ListenX and ServeOnce is arbitrary."
},
"C86": {
"note": "C86_client_exit_refuted has the message and a whole request in which the process ends. In C86_exactly the times of the client are given as pairs of instant and zone (time_text, C83); that json.Unmarshal keeps the zone of the text in the time.Time is in the model (ZoneModel.marshal_result), not proved. From package time as remembered."
}
}