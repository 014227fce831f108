#!/usr/bin/env python3
# Generates properties.jsonl. Kept as a script so that ids stay dense and fields uniform.
import json
P = []
def p(id, title, statement, quantifier, why, anchors):
    P.append(dict(id=id, title=title, statement=statement, quantifier=quantifier,
                  why_tests_cant=why, anchors=anchors))

# ---------------------------------------------------------------- ndt5 wire format
p("C01", "NDT5 frame round-trip and size limit",
  "A message written with WriteTLVMessage and read back with ReadTLVMessage over a connection that preserves message boundaries yields exactly the type and the payload that were written when the payload is at most 65535 bytes and the type is one of the expected ones; a longer payload is never read back as something else: the read fails with an error.",
  "every message type byte, every payload byte string of any length, every list of expected types",
  "the failing length (65536 and its multiples) and every payload in between form an unbounded domain; tests use a couple of short literals",
  ["ndt5/protocol/protocol.go:ReadTLVMessage", "ndt5/protocol/protocol.go:WriteTLVMessage"])
p("C02", "NDT5 frame reader accepts exactly the well-formed frames",
  "ReadTLVMessage returns a payload iff the connection delivered at least three bytes, the first byte is one of the expected types and the 16-bit big-endian length equals the number of remaining bytes; the payload is then exactly those bytes. In every other case it returns no payload and an error.",
  "every byte string a connection can deliver, every list of expected types",
  "the input space is all byte strings; header/length disagreements at every offset cannot be enumerated",
  ["ndt5/protocol/protocol.go:ReadTLVMessage"])
p("C03", "NDT5 over plain TCP: exactly which TCP segmentations messages survive",
  "On a plain TCP connection the server reads exactly the messages the client sent if and only if no TCP segment boundary lies inside a message's three header bytes or inside its payload (on the control connection: for segments that fit its 4096-byte buffer). The unconditional claim, that messages are read correctly whatever the segmentation, is false of the code: the reader does not loop on short reads, and corrupted messages are silently accepted.",
  "every sequence of messages, every way of cutting their concatenation into TCP segments",
  "segmentation is chosen by the network; a loopback test almost always sees one segment per write",
  ["ndt5/protocol/protocol.go:netConnection.ReadMessage", "ndt5/plain/plain.go:sniffThenHandle"])
p("C04", "NDT5 JSON message round-trip",
  "Any text sent through the JSON messager is received by the JSON messager as the same text if it is valid UTF-8 and its JSON form fits in 65535 bytes; invalid UTF-8 is replaced byte-wise by U+FFFD and nothing else changes.",
  "every message type, every byte string",
  "escaping, multi-byte characters, surrogates and the size limit interact over an infinite domain",
  ["ndt5/protocol/protocol.go:SendJSONMessage", "ndt5/protocol/protocol.go:ReceiveJSONMessage", "ndt5/protocol/messager.go:jsonMessager"])
p("C05", "NDT5 JSON messages are HTML- and line-safe single frames",
  "Whatever text is sent, the JSON body on the wire contains no control character, no '<', '>' or '&', and no unescaped quote inside the string, so no payload can terminate the JSON string or inject a field.",
  "every byte string sent",
  "injection is about all adversarial payloads",
  ["ndt5/protocol/protocol.go:JSONMessage.String", "ndt5/protocol/messager.go:s2cResult.String"])
p("C06", "NDT5 JSON receive is total: value, raw text plus error, or error",
  "ReceiveMessage of the JSON messager on a well-formed frame of the expected type returns: the msg field and no error when the body is a JSON object whose msg/tests are strings (or absent/null); the raw body and an error when the body is not such an object; and no message with an error when the body is the JSON literal null. It never crashes.",
  "every frame body",
  "all byte strings, including every malformed JSON text",
  ["ndt5/protocol/protocol.go:ReceiveJSONMessage", "ndt5/protocol/messager.go:jsonMessager.ReceiveMessage"])
p("C07", "NDT5 s2c result message carries the three numbers exactly",
  "The s2c results sent to a client (TLV: three decimals separated by blanks; JSON: three decimal strings) determine the three int64 values uniquely and decode back to them.",
  "all triples of int64 values, both encodings",
  "2^192 inputs",
  ["ndt5/protocol/messager.go:SendS2CResults"])
p("C08", "NDT5 metric lines: one line per scalar field, in order, until the first failure",
  "SendMetrics emits exactly one line 'prefix+dotted.path: value' per integer, string or printable-struct field in declaration order (depth first), nothing for any other kind of field, stops at the first send error and reports it, and reports success only if all lines were sent.",
  "every nested structure of any depth and width, every point at which sending starts to fail",
  "structures are unboundedly nested and failure can hit any line",
  ["ndt5/protocol/messager.go:SendMetrics"])
# ---------------------------------------------------------------- ndt5 login
p("C09", "Plain login: exactly the well-formed logins are accepted and fix the encoding",
  "On a plain connection login succeeds iff the first message is a 1-byte MsgLogin (tests = that byte, encoding TLV) or a MsgExtendedLogin whose body is a JSON object with a decimal 'tests' string (encoding JSON); after a successful login the connection always has a usable messager; a failed login never runs a test.",
  "every byte string received as first message",
  "all byte strings and JSON bodies",
  ["ndt5/plain/plain.go:plainServer.LoginCeremony", "ndt5/protocol/messager.go:Encoding.Messager"])
p("C10", "WS/WSS login never crashes the handler",
  "LoginCeremony of the WS handler returns a test set or an error for every first message. (False of the code: a MsgExtendedLogin whose body is the JSON literal null dereferences a nil pointer; the theorem shows this is the only such body shape, and that the panic is contained by the control-channel handler.)",
  "every byte string received as first message",
  "one value out of all JSON bodies triggers it",
  ["ndt5/handler/wshandler.go:httpHandler.LoginCeremony", "ndt5/protocol/protocol.go:ReceiveJSONMessage"])
p("C11", "Requested test set determines exactly which tests run and what is advertised",
  "For every integer the client requests, nothing is run or sent if bit 16 is clear; otherwise C2S, S2C and META run, in that order, exactly when bits 2, 4 and 32 are set, and the test list sent to the client is exactly the list of those tests; no other bit (negative numbers included) has any influence on the conversation.",
  "every 64-bit integer test set, every client behaviour",
  "2^64 requests times all client behaviours",
  ["ndt5/ndt5.go:handleControlChannel"])
# ---------------------------------------------------------------- ndt5 control channel
p("C12", "Control-channel conversation follows the NDT5 protocol grammar",
  "Whatever the client and network do, the sequence of messages the server sends on the control channel is a prefix of SrvQueue, MsgLogin(version), MsgLogin(tests), then for each advertised test TestPrepare, TestStart, TestMsg*, TestFinalize, then MsgResults, MsgLogout; if the conversation completes, it is the whole word; after a failed send nothing more is sent.",
  "every client behaviour, every failure point",
  "failures can occur at every send/receive/accept; the tree of histories is unbounded",
  ["ndt5/ndt5.go:handleControlChannel", "ndt5/c2s/c2s.go:ManageTest", "ndt5/s2c/s2c.go:ManageTest", "ndt5/meta/meta.go:ManageTest"])
p("C13", "Every control connection is archived exactly once and then closed",
  "Every run of HandleControlChannel, whatever fails and even if a test panics, saves the record exactly once, and only afterwards closes the control connection, exactly once.",
  "every client behaviour, every failure or panic point",
  "all failure points, including panics",
  ["ndt5/ndt5.go:HandleControlChannel", "ndt5/ndt5.go:handleControlChannel", "ndt5/ndt5.go:SaveData"])
p("C14", "Control-channel panics never escape and the accounting is balanced",
  "HandleControlChannel never panics; it returns the active-test gauge to its previous value, increments the completed-control counter exactly once, labelled 'panic' iff the handler panicked, and increments the panic counter exactly in that case.",
  "every client behaviour, every failure or panic point",
  "all failure points",
  ["ndt5/ndt5.go:HandleControlChannel", "metrics/metrics.go", "ndt5/metrics/metrics.go"])
p("C15", "Panic labels name the phase that failed and stay in a fixed set",
  "The label under which a failed control channel is counted is always one of eleven fixed words, whatever text the panic carries; an error in a phase is counted under the name of that phase.",
  "every panic text, every failure point",
  "panic texts embed arbitrary error strings and UUIDs; metric cardinality depends on all of them",
  ["ndt5/ndt5.go:panicMsgToErrType", "ndt5/ndt5.go:handleControlChannel"])
p("C16", "The archived NDT5 record is actually written",
  "Every NDT5 record handed to the archiver ends up as a JSON document in its file. (False of the code: a record holding a non-finite number is not encodable and leaves an empty file; a client can cause it by reporting the rate 'NaN' or 'Inf'. The theorem gives the exact condition.)",
  "every record, every client-reported rate string",
  "the offending strings are a sparse subset of all strings",
  ["ndt5/ndt5.go:SaveData", "ndt5/s2c/s2c.go:ManageTest", "ndt5/protocol/protocol.go:UUIDToFile"])
p("C17", "C2S test: record, error and result message agree",
  "The C2S test always returns a record; its Error field is set iff an error is returned; a rate is reported to the client only if the upload was measured, and only if the transfer failed neither with zero bytes nor before 9 seconds. (False of the code when no socket statistics could be collected: it crashes instead of returning an error.)",
  "every client and socket behaviour",
  "depends on failures of the socket statistics and on timing",
  ["ndt5/c2s/c2s.go:ManageTest", "ndt5/c2s/c2s.go:drainForeverButMeasureFor"])
p("C18", "Test connections are closed",
  "Every test connection handed to the C2S or S2C test is closed exactly once, for S2C before any result is sent. (False of the code when the single-use server returns both a connection and an error: the connection is then leaked.)",
  "every client and network behaviour",
  "the leak needs a failed upgrade followed by a good one on the same port",
  ["ndt5/s2c/s2c.go:ManageTest", "ndt5/c2s/c2s.go:ManageTest", "ndt5/singleserving/server.go:ServeOnce"])
p("C19", "Every single-use server that is started is also stopped",
  "Each single-use measurement server started for a test is stopped when the test ends. (False of the code: if announcing the port to the client fails, the listening socket stays open; the theorem shows that this is the only such path.)",
  "every client and network behaviour",
  "needs the control connection to fail between two statements",
  ["ndt5/c2s/c2s.go:ManageTest", "ndt5/s2c/s2c.go:ManageTest", "ndt5/singleserving/server.go"])
p("C20", "META: bounded, truncated, faithful client metadata",
  "The META test stores at most 20 pairs; each name is at most 63 bytes and each value at most 255; the stored list is exactly the list obtained from the received messages, in order, by splitting at the first colon, trimming white space and truncating, skipping messages without a colon; on any error nothing is stored.",
  "every sequence of client messages of any length and content, every failure or timeout point",
  "messages are arbitrary byte strings and the number of messages is up to the client",
  ["ndt5/meta/meta.go:ManageTest"])
p("C21", "META: never reads more than 20 messages and finalises exactly on success",
  "The META test receives at most 20 messages, stops at the first empty message or error, and sends TestFinalize iff neither a receive error nor a context error happened.",
  "every sequence of client messages, every failure or timeout point",
  "clients may send without bound",
  ["ndt5/meta/meta.go:ManageTest"])
# ---------------------------------------------------------------- web100
p("C22", "web100 summary statistics",
  "The summary has the last snapshot's TCP info, MSS and segment count, the exact number of samples, the exact maximum RTT, and, provided every RTT is positive and the total fits in 32 bits, the exact minimum and sum (in whole milliseconds). A zero RTT sample can make the reported minimum larger than other samples.",
  "every sequence of snapshots of any length with 32-bit fields",
  "quantifies over all sample sequences, including overflow",
  ["ndt5/web100/web100_linux.go:summarize"])
p("C23", "Stopping a measurement never blocks for ever and returns data iff some was collected",
  "StopMeasuring returns: an error at once if measuring never started; otherwise the summary iff at least one socket read succeeded before cancellation; no schedule deadlocks the poller or the caller and a second stop returns an error instead of blocking.",
  "every schedule of ticks, socket reads, cancellations and stops",
  "race between ticker, cancellation and channel close",
  ["ndt5/protocol/protocol.go:measurer", "ndt5/web100/web100_linux.go:MeasureViaPolling"])
# ---------------------------------------------------------------- single serving
p("C24", "WS single-use server: result sanity under every schedule",
  "ServeOnce of the WS/WSS single-use server never returns (no connection, no error), returns only connections obtained by a successful upgrade on this server, and when it has returned the listener is closed and the stop was counted exactly once.",
  "every schedule of client requests, upgrade failures, context expiry and shutdown",
  "data race between the HTTP server goroutines and the waiter",
  ["ndt5/singleserving/server.go:wsServer"])
p("C25", "WS single-use server serves one connection and leaks none",
  "At most one client is served and every upgraded connection is either returned to the test or closed. (False of the code: a stray failed request makes a later good one come back with an error; two quick clients leak one connection; a late upgrade after expiry leaks; it holds with a single request, no expiry and no failure of the HTTP server.)",
  "every schedule",
  "needs specific interleavings",
  ["ndt5/singleserving/server.go:wsServer.ServeHTTP", "ndt5/singleserving/server.go:wsServer.ServeOnce"])
p("C26", "Plain single-use server result sanity",
  "ServeOnce of the plain single-use server never returns (no connection, no error); it returns a connection only if one was accepted; when it has returned the listener is closed; an accepted connection is lost only if the context expired before the accept was observed.",
  "every schedule of accept, expiry and wake-up",
  "race between Accept and context expiry",
  ["ndt5/singleserving/server.go:plainServer"])
# ---------------------------------------------------------------- plain server
p("C27", "Protocol sniffing loses no byte",
  "For every client byte stream and segmentation the plain port forwards to the WS server iff the first three bytes are 'GET', and then the forwarded stream is exactly the client's stream; otherwise the control channel sees exactly the client's stream, preceded on the output by the kickoff message. A well-formed login is never mistaken for HTTP.",
  "every byte stream, every segmentation",
  "all streams and segmentations",
  ["ndt5/plain/plain.go:sniffThenHandle"])
p("C28", "Forwarded connections are torn down",
  "Once the context of a forwarded connection is done, both sockets get closed and all helper goroutines end. (The comment's claim that a close by either side also tears down the other is false: after the client closes its sending side nothing ends the other copy until the backend closes or the two-minute context expires.)",
  "every schedule of the two copy loops, closes and expiry",
  "interleavings",
  ["ndt5/plain/plain.go:sniffThenHandle"])
# ---------------------------------------------------------------- netx
p("C29", "Open-connection gauge is exact",
  "After any history of accepts (successful or not), closes and repeated closes the gauge equals the number of accepted connections not yet closed; it never goes negative, and failed accepts leak no descriptor.",
  "every operation history",
  "unbounded histories with double closes",
  ["netx/net.go:Listener.Accept", "netx/net.go:Conn.Close"])
p("C30", "Socket statistics: BBR failure is tolerated, TCP failure yields zeros",
  "ReadInfo succeeds iff TCP_INFO could be read; without BBR the BBR part is all zero; on error both parts are all zero; the reported BBR bandwidth is the exact 64-bit value from the two kernel words and never negative, values that do not fit being rejected; GetUUID never fails and never returns the empty string.",
  "every outcome of the two system calls, every pair of 32-bit words",
  "2^64 bandwidth values",
  ["netx/net.go:Conn.ReadInfo", "netx/net.go:Conn.GetUUID", "bbr/bbr_linux.go:getMaxBandwidthAndMinRTT", "tcpinfox/tcpinfox_linux.go:getTCPInfo"])
# ---------------------------------------------------------------- ndt7 request handling
p("C31", "early_exit validation",
  "A request is rejected for its early_exit parameter iff the parameter is present with a first value other than 250; an accepted request ends early iff the parameter is present, at 250,000,000 bytes; no other parameter and no iteration order of the parameters matters.",
  "every query parameter map, every iteration order",
  "map iteration order is random; parameter maps are unbounded",
  ["ndt7/handler/handler.go:validateEarlyExit", "ndt7/spec/spec.go"])
p("C32", "Client metadata is exactly the non-server_ query parameters",
  "The archived client metadata contains one pair for each query parameter whose name does not start with 'server_', with its first value, and nothing else, whatever the iteration order.",
  "every query parameter map, every iteration order",
  "map iteration order is random; parameter maps are unbounded",
  ["ndt7/handler/handler.go:appendClientMetadata"])
p("C33", "Unparseable or oversized query strings are rejected",
  "The specification says the upgrade MUST fail if the query string is not parseable and that it is at most 4096 bytes. (False of the code: malformed pairs are silently dropped and there is no length limit; the theorem gives the exact set of parameters seen for every query string.)",
  "every query string",
  "all byte strings",
  ["ndt7/handler/handler.go:runMeasurement", "spec/ndt7-protocol.md"])
p("C34", "ndt7 request handling: rejected requests have no effect, accepted ones leave exactly one result",
  "A request with a bad early_exit value or a wrong subprotocol gets a 400 and has no other effect; a request that reaches the measurement creates exactly one result of the right kind, paired with exactly one flow-created and one later flow-deleted event for the same UUID, even if the measurement fails or panics, unless the result file cannot be written, in which case the process ends.",
  "every request, every behaviour of client, measurement and file system",
  "all failure and panic points",
  ["ndt7/handler/handler.go:runMeasurement", "ndt7/handler/handler.go:setupConn", "ndt7/handler/handler.go:writeResult"])
# ---------------------------------------------------------------- ndt7 transfer
p("C35", "ndt7 download message sizes",
  "Every binary message the download sends has a power-of-two size between 2^13 and 2^20; sizes never decrease; the size doubles exactly when it is at most 1/16 of what was sent so far and below 2^20; the size of every message is determined by its ordinal alone.",
  "every number of messages, every interleaving with measurements",
  "unbounded transfer lengths",
  ["ndt7/download/sender/sender.go:Start", "ndt7/spec/spec.go"])
p("C36", "Archived server measurements are exactly those delivered to the client",
  "In both directions the archived server measurements are, in order, exactly the measurement messages successfully written to the client.",
  "every schedule of measurements, every write failure point",
  "failure points and interleavings",
  ["ndt7/download/sender/sender.go:Start", "ndt7/upload/sender/sender.go:Start"])
p("C37", "ndt7 download early exit",
  "With early exit the sender stops right after delivering the first measurement whose acknowledged bytes reach the limit, having delivered no earlier such measurement, and nothing but the close frame follows; without it the sender never stops for that reason.",
  "every sequence of measurements, every schedule",
  "unbounded schedules",
  ["ndt7/download/sender/sender.go:Start"])
p("C38", "ndt7 sender: closing handshake",
  "A sender that ends normally has sent exactly one close frame, as its last frame; a sender that ends with an error has sent none; every measurement message is followed by exactly one ping before any other message or by termination; in an upload the server sends no binary message.",
  "every schedule, every write failure point",
  "unbounded schedules",
  ["ndt7/download/sender/sender.go:Start", "ndt7/upload/sender/sender.go:Start", "ndt7/closer/closer.go:StartClosing", "ndt7/ping/ping.go:SendTicks"])
p("C39", "ndt7 receiver stores exactly the valid leading measurements",
  "The archived client measurements are exactly the decoded text messages received before the first event that ends the receiver: a read error, an undecodable text message, the context, or - in a download only - a binary message. Binary messages in an upload are ignored.",
  "every sequence of client messages, both directions",
  "unbounded message sequences",
  ["ndt7/receiver/receiver.go:start"])
p("C40", "Archival data is not modified after the subtest returns",
  "When the ndt7 subtest function returns, no goroutine modifies the archival data any more. (False of the code: waiting on the receiver's context also ends when the parent context is done, while the receiver may still append; it holds if the parent context is not done.)",
  "every schedule of sender, receiver and context expiry",
  "a race that needs expiry between decode and append",
  ["ndt7/download/download.go:Do", "ndt7/upload/upload.go:Do", "ndt7/receiver/receiver.go:StartDownloadReceiverAsync"])
p("C41", "Measurer shutdown: no deadlock, no leaked goroutine",
  "Under every schedule of ticks, consumer reads, stop and context expiry the measurer goroutine can always make progress to termination once stopped or expired, and when Stop returns the measurer has closed its channel and will send nothing more.",
  "every schedule",
  "interleavings of three goroutines",
  ["ndt7/measurer/measurer.go"])
p("C42", "Rates, result labels and histogram",
  "The rate of a subtest is computed from the last archived measurement only, and is zero iff there is none with TCP info or its byte counter is zero; the result label is okay/error by the error and with/without-rate by the rate; the rate histogram is updated iff the rate is positive.",
  "every measurement list, every error",
  "all measurement lists and float corner cases (0/0, x/0)",
  ["ndt7/handler/handler.go:upRate", "ndt7/handler/handler.go:downRate", "metrics/metrics.go:GetResultLabel"])
p("C43", "Connection label depends on the last digits of the port only",
  "The protocol label of an ndt7 connection is wss iff the local port's decimal form ends in 443, ws iff it ends in 80, and unknown otherwise, for every address.",
  "every local address and every port number",
  "65536 ports times all addresses",
  ["ndt7/metrics/metrics.go:ConnLabel"])
p("C44", "Ping payload round-trip",
  "A pong that echoes a ping's payload yields the exact elapsed time between the two clock readings; a pong with any other payload either yields a number or ends the receiver, and never anything else.",
  "all int64 clock values, all payloads",
  "2^64 values and all byte strings",
  ["ndt7/ping/ping.go"])
# ---------------------------------------------------------------- results on disk
p("C45", "ndt7 result file names are unique per test and never overwrite",
  "Two results get the same file name only if kind, timestamp, UUID and compression agree; creating a result never changes an existing file, whatever is already on disk; if the name is taken the creation fails.",
  "all kinds, timestamps, UUIDs and file-system states",
  "all file-system states",
  ["ndt7/results/file.go:newFile"])
p("C46", "Crash safety of result files",
  "If the server crashes at any point while saving a result, every other file is unchanged and the file being written holds a prefix of the encoded result. (It may be empty or partial: there is no atomic rename.) An incomplete document that is not compressed is not JSON, so no reader takes it for a complete one.",
  "every crash point, every file-system state, every partial write",
  "crash points",
  ["ndt7/results/file.go", "ndt7/handler/handler.go:writeResult", "ndt5/ndt5.go:SaveData"])
p("C47", "NDT5 result file placement",
  "An NDT5 record with a UUID is written to <datadir>/<yyyy/mm/dd>/<uuid>.json and, when the UUID could not be determined, to a fresh file that did not exist before; records with different UUIDs or days never share a file.",
  "all dates, UUIDs and file-system states",
  "all file-system states",
  ["ndt5/ndt5.go:SaveData", "ndt5/protocol/protocol.go:UUIDToFile"])
# ---------------------------------------------------------------- main
p("C48", "Lame duck and shutdown state machine",
  "The health endpoint answers 200 until the first SIGTERM has been processed and 500 ever after; the server never shuts down before two SIGTERMs were sent; the exported gauge always agrees with the health endpoint. (Two SIGTERMs are not always enough: if the second arrives before the first is consumed it is lost.)",
  "every schedule of signals and goroutine steps",
  "signal timing",
  ["ndt-server.go:catchSigterm", "ndt-server.go:setLameDuck", "ndt-server.go:handleHealth"])
p("C49", "Deployment labels",
  "The server metadata is exactly the set of -label pairs, and the version gets the suffix -canary exactly once iff deployment=canary is among them, whatever the iteration order.",
  "every label map, every iteration order",
  "map iteration order is random",
  ["ndt-server.go:parseDeploymentLabels"])
p("C50", "Access control wiring",
  "Every ndt7 measurement URL on every ndt7 port and the ndt5 URL on the WSS port are behind the access controller; static content and the health endpoint never need a token; the ndt5 WS port and the plain ndt5 port are never behind the token controller.",
  "every flag combination, every listener and path",
  "flag combinations times paths",
  ["ndt-server.go:main"])
p("C51", "TLS configuration",
  "The minimum TLS version is 1.3 or 1.2 exactly when the flag says so and the library default for any other flag value; HTTP/2 is always disabled; the ACME protocol is offered iff autocert is enabled.",
  "every flag string",
  "all strings",
  ["ndt-server.go:httpServer"])
p("C52", "Message type and encoding names are unambiguous",
  "Distinct message type bytes have distinct printable names; distinct connection kinds have distinct metric labels, and every unknown kind is labelled unknown.",
  "all 256 message types, all connection-type strings",
  "labels of all strings",
  ["ndt5/protocol/protocol.go:MessageType.String", "ndt5/ndt/server.go:ConnectionType.Label"])
# ---------------------------------------------------------------- added as the model grew
p("C53", "S2C test: record, error and result message agree",
  "The S2C test never crashes; the error it returns is the error in the record; without socket statistics there is no result message, no rate and an error; with them the record holds exactly the statistics of the test connection and the rate computed from the acknowledged bytes and the recorded times, and the result message carries that rate (in whole kbit/s) and that byte count; the client-reported rate is recorded exactly when it is a number.",
  "every behaviour of the client, the network, the clock and the socket statistics",
  "all interleavings of failures and all values",
  ["ndt5/s2c/s2c.go:ManageTest"])
p("C54", "The archived NDT5 record is faithful",
  "The record archived for a control connection holds that connection's UUID, addresses, protocol and server metadata, the times at which it began and ended, and for each test exactly the record that test returned: nothing for tests that were not requested, and nothing missing unless the connection failed.",
  "every behaviour of the client and the network, every failure point",
  "every failure point",
  ["ndt5/ndt5.go:handleControlChannel", "ndt5/ndt5.go:SaveData"])
p("C55", "Test counters and rates match the archive",
  "For every NDT5 control connection, the test-result counter is incremented exactly once per test in the archived record, labelled by direction, by success or error as recorded, and by whether a rate was recorded; the rate histogram receives exactly the non-zero recorded rates; the requested tests and the requested suite are counted exactly when the request is served.",
  "every behaviour of the client and the network, every failure point, every requested integer",
  "every failure point",
  ["ndt5/ndt5.go:handleControlChannel", "ndt5/metrics/metrics.go", "metrics/metrics.go:GetResultLabel"])
p("C56", "ndt7 sender: deadlines and archived times",
  "An ndt7 sender starts the measurer before anything else and stops it exactly once, last, whenever it returns; its one write deadline is 15 seconds after its first clock reading; every ping carries a clock reading and is sent under that deadline; a close frame gets one second; the archived start and end times are set exactly if the deadline could be set, and with a clock that does not go back the start is not after the end.",
  "every schedule of measurements, every write failure point, every clock",
  "every failure point and every clock",
  ["ndt7/download/sender/sender.go:Start", "ndt7/upload/sender/sender.go:Start", "ndt7/ping/ping.go:SendTicks", "ndt7/closer/closer.go:StartClosing"])
p("C57", "ndt7 measurements are well formed and in order",
  "All measurements of one subtest carry the addresses and UUID of the connection and one start time; each has BBR and TCP information with the same elapsed time, in whole microseconds since the start, or neither; TCP information is there iff the kernel could be asked, and BBR failures leave zeros; elapsed times never decrease.",
  "every schedule of ticks, reads and stops, every outcome of the socket queries",
  "interleavings of three goroutines and every clock",
  ["ndt7/measurer/measurer.go:measure", "ndt7/measurer/measurer.go:loop", "netx/net.go:Conn.ReadInfo"])
p("C58", "Connections accepted by test servers are counted",
  "The counter of connections received by single-use test servers goes up with every connection handed out. (False of the code: the counter is looked up but never incremented.)",
  "every schedule",
  "all histories; a unit test that checks this counter does not exist",
  ["ndt5/singleserving/server.go:wsServer.ServeOnce", "ndt5/singleserving/server.go:plainServer.ServeOnce"])
p("C59", "A failure to save an ndt7 result is never silent",
  "Unless saving an ndt7 result ends the process, the result file holds the complete result. (True without compression. False with it: an error while the compressor is closed is only logged, and what was not written before is lost. The theorem says exactly what is guaranteed.)",
  "every file-system state, every failing or partial write, every compressor",
  "every failure point",
  ["ndt7/handler/handler.go:writeResult", "ndt7/results/file.go:File.Close", "ndt7/results/file.go:File.WriteResult"])
p("C60", "NDT5 rates are accurate",
  "The rate archived for an NDT5 test is 8 times the bytes counted by the kernel over the recorded duration, with a relative error of at most 2^-50, in spite of the chain of floating-point operations; the whole number of kbit/s sent to the client is the same rate rounded down, up to that error.",
  "every 64-bit byte count, every positive duration",
  "rounding errors for all pairs of a 64-bit count and a 64-bit duration",
  ["ndt5/c2s/c2s.go:ManageTest", "ndt5/s2c/s2c.go:ManageTest"])
p("C61", "No client of the plain port waits longer than two minutes",
  "A connection to the plain NDT5 port is closed when its two-minute context ends. (False: a client that sends fewer than three bytes is never timed out, and neither does the control channel look at the context; these are the only cases.)",
  "every client behaviour, every schedule",
  "absence of an event over unbounded time",
  ["ndt5/plain/plain.go:sniffThenHandle", "ndt5/plain/plain.go:NewServer"])
p("C62", "A second SIGTERM shuts the server down cleanly, whatever follows",
  "The process ends only by its own orderly exit, except for a SIGTERM that comes before the handler is installed. (False: a third SIGTERM during shutdown is sent by the runtime to a channel that was closed while still registered, and crashes the process; this is the only other case.)",
  "every timing of signals, every schedule",
  "signal timing during a short window",
  ["ndt-server.go:catchSigterm", "ndt-server.go:main"])
p("C63", "Every TLS service has a usable certificate source",
  "A TLS service is started only with two named files or with the automatic certificate callback. (False in one configuration: with autocert enabled and exactly one of -cert and -key given, the service is started with a pair of files one of which has an empty name, which ends the process.)",
  "every flag combination",
  "all flag combinations",
  ["ndt-server.go:main", "ndt7/listener/listener.go:ListenAndServeTLSAsync"])
p("C64", "NDT5 upload: the data phase ends on time and leaves nothing behind",
  "Whatever the client sends or does not send, the upload phase ends once its ten seconds (or the connection's context) are over, or as soon as the test connection fails, and for no other reason; it returns the summary of the socket statistics read meanwhile. Whatever the client sends is read until the test connection is closed, which happens only after the test has returned; after that, the connection is closed and every goroutine of the upload ends.",
  "every client behaviour, every failure of the socket statistics, every schedule of the goroutines of an upload",
  "three goroutines, a channel, two contexts and a delayed close interleave freely; a stalled or never-ending client cannot be enumerated",
  ["ndt5/c2s/c2s.go:drainForeverButMeasureFor", "ndt5/c2s/c2s.go:ManageTest", "ndt5/protocol/protocol.go:measurer"])
p("C65", "NDT5 download: the data phase ends when its ten seconds are over",
  "The download phase ends when its ten seconds are over, and nothing takes more than the 45 seconds of the control connection. (False: a client that stops reading but keeps the connection open blocks the server's write for as long as it likes, since no deadline is set and no context is looked at; this is the only case.)",
  "every client behaviour, every moment",
  "a test cannot wait for ever, and clients that stall do so at any byte",
  ["ndt5/s2c/s2c.go:ManageTest", "ndt5/protocol/protocol.go:FillUntil", "ndt5/ndt5.go:handleControlChannel"])
p("C66", "NDT5 download: the byte count of FillUntil",
  "FillUntil returns the number of payload bytes it passed to the connection. (True without an error. With one, the part of the last buffer that was passed on is missing; the count is then a whole number of buffers, short by less than one.)",
  "every buffer size, every point and kind of failure, every speed of the client",
  "the point of failure inside a write is chosen by the network",
  ["ndt5/protocol/protocol.go:netConnection.FillUntil", "ndt5/protocol/protocol.go:wsConnection.FillUntil"])
p("C67", "The plain port keeps serving until it is told to stop, and then stops",
  "Until its context ends, the server of the plain port gives every connection that is made its own handler, each exactly once and in order, whatever accept errors and panics happened before; when the context ends, the accept loop ends and the socket is closed, and at most one more connection is accepted.",
  "every sequence of connections, refusals, accept errors, panics and the stop, every schedule",
  "the stop races with accepts, and failures may happen in any number and order",
  ["ndt5/plain/plain.go:ListenAndServe"])
p("C68", "Archived documents say exactly what was measured",
  "The text stored for an NDT5 connection or an ndt7 test, and every measurement sent to an ndt7 client, is one well-formed JSON value with exactly the documented members in the documented order, each with the recorded value (strings repaired to UTF-8, empty optional members left out); there is such a text unless a rate is not a finite number or a time has no text; and reading it back gives the record again.",
  "every record and every measurement, whatever strings, numbers and metadata it holds",
  "strings come from clients and may hold any bytes, and every combination of present and absent parts changes the text",
  ["data/result.go:NDT5Result", "data/result.go:NDT7Result", "ndt7/model/archivaldata.go", "ndt5/control/data.go", "ndt5/c2s/c2s.go:ArchivalData", "ndt5/s2c/s2c.go:ArchivalData", "ndt5/ndt5.go:SaveData", "ndt7/results/file.go:WriteResult"])
p("C69", "Exactly the JSON measurements of a client are accepted and stored as sent",
  "A text message of an ndt7 client is accepted exactly if it is JSON null or a JSON object whose members with the names of the measurement's fields (in any case) are null or of the right type and range, at every level; unknown members are ignored, of repeated members the later one counts and objects are merged; what is stored is that measurement and nothing else; and no accepted measurement can keep the result of the test from being stored.",
  "every text message of any length, every sequence of messages",
  "the space of client texts is unbounded, and the cases of names, repetition, nesting and ranges multiply",
  ["ndt7/receiver/receiver.go:start", "ndt7/model/archivaldata.go:Measurement"])
p("C70", "An ndt7 request ends on time and leaves nothing behind",
  "Once MaxRuntime has passed, or the request has returned for any reason, its connection is closed and its goroutines (handler, closer, receiver, measurer, ticker) all end, whatever the client does; the connection is not closed before that; a request that began its subtest has written exactly one result when it returns; no write or read blocks past its deadline.",
  "every client behaviour, every moment at which MaxRuntime passes and every interleaving of the goroutines of a request",
  "a test can try a few clients and timings; a client that stalls at another place, or an unlucky schedule of five goroutines, is out of its reach",
  ["ndt7/handler/handler.go:runMeasurement", "ndt7/download/download.go:Do", "ndt7/upload/upload.go:Do", "ndt7/download/sender/sender.go:Start", "ndt7/upload/sender/sender.go:Start", "ndt7/receiver/receiver.go:start", "ndt7/measurer/measurer.go:Stop"])
p("C71", "A conforming NDT5 client gets a complete test",
  "When a client asks for valid tests, the network does not fail, the upload lasts and the client's messages are ones the protocol allows, the connection is counted as successful without any panic or error, and the one archived record holds exactly the requested tests, none with an error. Each kind of test reports success exactly if all its steps succeeded (an upload may break after nine seconds).",
  "every requested set of tests, every conforming client and every answer of the network and the clock",
  "the requests, message encodings and contents, sizes of the statistics and clock readings multiply beyond enumeration",
  ["ndt5/ndt5.go:handleControlChannel", "ndt5/c2s/c2s.go:ManageTest", "ndt5/s2c/s2c.go:ManageTest", "ndt5/meta/meta.go:ManageTest"])
p("C72", "The NDT5 error counter names the step that failed",
  "A test that fails counts exactly one error, labelled with the connection type, the test and the step whose failure is the error returned; a test that succeeds or panics counts none. A connection counts at most one error and at most one panic, and the two name the same test.",
  "every point at which a test can fail and every error, every connection",
  "failures at any of an unbounded number of messages of a test, in any combination of tests",
  ["ndt5/metrics/metrics.go:ClientTestErrors", "ndt5/c2s/c2s.go:ManageTest", "ndt5/s2c/s2c.go:ManageTest", "ndt5/meta/meta.go:ManageTest", "ndt5/ndt5.go:handleControlChannel"])
p("C73", "Recorded addresses, UUIDs and statistics belong to the socket of the test",
  "For every listener, encrypted or not, the UUID, client address and server address in the archived record, those sent to the event socket, the statistics that are read and the socket on which BBR is enabled are those of the accepted TCP connection; a connection whose addresses are not TCP addresses or that has no UUID is never recorded with other values: the handler panics or the process ends. A websocket client that was forwarded from the plain port is recorded with the address of the server's own forwarding socket.",
  "every service, every accepted connection with any addresses and every answer of the kernel",
  "the wrappers around a connection differ per service, and a mixed-up connection gives plausible values",
  ["netx/net.go:Accept", "netx/net.go:ToTCPAddr", "netx/net.go:ToConnInfo", "netx/net.go:GetUUID", "ndt5/protocol/protocol.go:ServerIPAndPort", "ndt5/protocol/protocol.go:ClientIPAndPort", "ndt5/protocol/protocol.go:UUID", "ndt7/handler/handler.go:setupResult", "ndt7/handler/handler.go:getData", "ndt7/measurer/measurer.go:getSocketAndPossiblyEnableBBR", "ndt5/plain/plain.go:sniffThenHandle"])
p("C74", "Recorded IP addresses are unambiguous and canonical",
  "The recorded text of an IPv4 or IPv6 address, read as an address, is that address; two addresses have the same text exactly if they are the same (an IPv4 address and its IPv6-mapped form count as one); IPv6 addresses are written in lower case without leading zeros with the first longest run of two or more zero words left out. The zone of a link-local address is not recorded.",
  "every address of 4 or 16 bytes",
  "there are 2^128 addresses, and grouping records by address depends on the text being injective",
  ["netx/net.go:ToTCPAddr", "ndt5/protocol/protocol.go:ClientIPAndPort", "ndt7/handler/handler.go:setupResult"])
p("C75", "The process starts as a whole, is healthy only when it is up, and ends cleanly",
  "When the health endpoint can be reached, every configured service accepts connections, and no start-up error can end the process any more; without a signal the process either comes up with all configured services or ends with status 1 because of a step or a server that failed; a server that stops serving ends the process; after the shutdown signal the process always ends, with status 0 if it was up, having closed every server. The plain port is open before the websocket port it forwards to, and certificates are read only after the start-up has gone on.",
  "every configuration, every outcome of every start-up step, every failure of a server at any time, every moment of the signal and every schedule",
  "the window between two listens, a server failing while another starts, or a signal in the middle of the start-up cannot be produced at will",
  ["ndt-server.go:main", "ndt7/listener/listener.go:ListenAndServeAsync", "ndt7/listener/listener.go:ListenAndServeTLSAsync", "ndt5/plain/plain.go:ListenAndServe"])
p("C76", "Clients cannot create time series or make a metric panic",
  "Whatever a client sends, every metric that an NDT5 control connection or an ndt7 request updates has label values from fixed lists, with the number of labels the metric is declared with, in printable ASCII. However many clients are served, NDT5 control connections produce at most 268 different time series and ndt7 requests at most 114.",
  "every behaviour of every client, every failure, and every number of connections",
  "a label that copies client text shows up as growing memory of the monitoring system only in production, and a wrong number of labels panics only on the path that has it",
  ["ndt5/metrics/metrics.go", "metrics/metrics.go:GetResultLabel", "ndt7/metrics/metrics.go:ConnLabel", "ndt5/ndt5.go:HandleControlChannel", "ndt5/ndt5.go:panicMsgToErrType", "ndt5/c2s/c2s.go:ManageTest", "ndt5/s2c/s2c.go:ManageTest", "ndt5/meta/meta.go:ManageTest", "ndt7/handler/handler.go:runMeasurement", "ndt7/receiver/receiver.go:start", "ndt7/download/sender/sender.go:Start", "ndt7/upload/sender/sender.go:Start"])
p("C77", "Numbers survive their trip through text",
  "The rates in the results message are a thousand times the recorded rates, rounded to the nearest multiple of 1/10000 (ties to even) after one floating-point rounding, and always written with an integer part without superfluous zeros, a point and four digits. A decimal or hexadecimal number sent by a client (zero, or from 2^-999 to 2^999 in magnitude and with an exponent below 10000) is read with a single correct rounding, so without any error if it has at most 53 significant bits, and recorded divided by 1000 with a relative error of at most 2^-51; a text without underscores that is neither such a number nor a spelling of infinity or NaN is not read as a number.",
  "every rate and every text a client can send",
  "the texts and the floating-point numbers cannot be enumerated, and a wrong rounding shows up only at particular values",
  ["ndt5/ndt5.go:handleControlChannel", "ndt5/s2c/s2c.go:ManageTest"])
p("C78", "Times in names and documents are those of the clock",
  "The directory and the name of an ndt7 result show the Gregorian date and the time of day, in UTC, of the instant it was created, to the nanosecond, and results of one kind in one data directory sort by name in the order of time. The directory of an NDT5 record is the date of its start in the zone of the process, which differs from the date in UTC for some instants in every other zone. A time in a document is an RFC 3339 text that stands for exactly that instant and no other; every time before the year 10000 can be printed; these texts do not sort in the order of time.",
  "every instant from the year 1 to the year 9999, every zone, data directory and UUID",
  "leap years, centuries, year ends and zone changes are met only on their days; tests use the day they run on",
  ["ndt7/results/file.go:newFile", "ndt5/ndt5.go:SaveData", "ndt7/handler/handler.go:setupResult", "data/result.go:NDT7Result", "data/result.go:NDT5Result"])
p("C79", "A control connection is a conversation of bounded length",
  "Whatever a client does, the server reads at most 22 messages from an NDT5 control connection and writes at most 28 and one for each statistic of the download; a client that asks for every test can have as many.",
  "every behaviour of the client, of the network and of the test servers",
  "a client that never stops talking, or a loop whose bound is off by one, is not among the clients of a test",
  ["ndt5/ndt5.go:handleControlChannel", "ndt5/meta/meta.go:ManageTest", "ndt5/s2c/s2c.go:ManageTest", "ndt5/c2s/c2s.go:ManageTest", "ndt5/protocol/messager.go:SendMetrics"])

p("C80", "Which requests become websockets, and how they are answered",
  "An ndt7 request is answered by switching to a websocket exactly if it is an opening request as RFC 6455 defines it and its first subprotocol line is exactly the name of ndt7; an NDT5 request, whatever subprotocols it offers, exactly if it is an opening request. The answer has the headers of the RFC, never names a subprotocol the client did not offer, and depends on the method and five headers only (not on the origin).",
  "every method and every list of header lines, with any spelling of names, any values and repetitions",
  "header lines can be combined, repeated, cased and spaced in more ways than test clients send",
  ["ndt5/ws/ws.go:Upgrader", "ndt7/handler/handler.go:setupConn", "ndt5/handler/wshandler.go:ServeHTTP", "ndt5/singleserving/server.go:ServeHTTP"])

p("C81", "The archive of an ndt7 test says what the client was told and what it said",
  "The archived document of a test stands for one JSON value. Its server measurements are exactly those that were delivered to the client, in that order, and each is the JSON value the client found in the message. Its client measurements are those the client sent, in order, up to the first message that is not a measurement: each, read by the rules for messages, gives what the message gave, however the message was spelt.",
  "every request, every behaviour of the network, every text the client sends and every measurement",
  "the two copies are made by different code at different times from unbounded data, and a client can spell a measurement in infinitely many ways",
  ["ndt7/download/sender/sender.go:Start", "ndt7/upload/sender/sender.go:Start", "ndt7/receiver/receiver.go:start", "ndt7/handler/handler.go:runMeasurement", "ndt7/results/file.go:WriteResult", "ndt7/model/archivaldata.go:Measurement"])

p("C82", "The settings of the server are those of the command line and the environment",
  "A server that runs was started with a command line that can be read in exactly one way. Each flag has the value that the texts given for it on the command line make of its default, one after the other, or, when there are none, the value that its variable in the environment makes, or its default. The process ends with status 0 exactly when help is asked for, with status 1 exactly when only the environment is at fault, and otherwise with status 2 or not at all. What follows the first word that is not an option has no effect. Every flag of ndt-server has a variable of its own.",
  "every command line, every environment, every set of flags with sound names and every way in which flags read their texts",
  "command lines and environments are unbounded texts in which options, values and separators can be combined at will",
  ["ndt-server.go:main", "ndt-server.go:init"])

p("C83", "Numbers and times in documents are exact",
  "A finite number in a document is written as a JSON number that is read back as the same float64, so the rates in the archived document of an NDT5 connection are those of its record to the last bit and different rates have different texts. A time in a document is read back as the same nanosecond, whatever the zone of the server. The texts of a client that are read as times are those of RFC 3339 and some more, and each stands for one instant. A time read from a client can be written again in its zone exactly when the zone is less than a day from UTC.",
  "every float64, every instant of the years 1 to 9999, every zone of whole minutes, every text and every history of a connection",
  "there are 2^64 numbers and unboundedly many texts, and the shortest decimal of a number is found by rounding that goes wrong for rare values only",
  ["ndt5/ndt5.go:SaveData", "ndt7/results/file.go:WriteResult", "ndt5/c2s/c2s.go:ArchivalData", "ndt5/s2c/s2c.go:ArchivalData", "ndt7/receiver/receiver.go:start", "data/result.go:NDT5Result", "data/result.go:NDT7Result"])

p("C84", "Archived documents load into the published schemas",
  "When the program that publishes the BigQuery schemas has written the schema of ndt7, every archived ndt7 document loads into a table with it exactly when the times in it are of the years 1 to 9999. BigQuery accepts the schema. The same holds of the schema of the NDT5 struct; but the program writes the schema of ndt7 into both files, so no archived NDT5 document loads into a table with the schema published for ndt5, and it exits with status 0 also when no file was written. A client can make the result of its own ndt7 test one that does not load.",
  "every archived ndt7 result and NDT5 record, every file system outcome of the two writes and every path",
  "the documents have unboundedly many shapes, and the unit test of the program only checks that it writes files",
  ["cmd/generate-schemas/main.go:main", "data/result.go:NDT5Result", "data/result.go:NDT7Result", "ndt7/model/archivaldata.go:ArchivalData", "ndt7/model/archivaldata.go:Measurement", "ndt5/c2s/c2s.go:ArchivalData", "ndt5/s2c/s2c.go:ArchivalData", "ndt5/control/data.go:ArchivalData"])

p("C85", "The counters of test servers tell how many are open",
  "For each protocol, the counter of test servers started minus the counter of those stopped is the number of servers that have not begun to close plus the number of calls that could not have a port. When no test waits for a client it is the number of listening sockets left behind plus those calls. (The help text, the number of times a server was started, is false: calls that fail are counted and never make up for it.)",
  "every history of test servers of the process, every protocol, schedule and client",
  "needs the counters after every interleaving of any number of tests, and the system to refuse a port",
  ["ndt5/singleserving/server.go:ListenWS", "ndt5/singleserving/server.go:ListenWSS", "ndt5/singleserving/server.go:ListenPlain", "ndt5/singleserving/server.go:Close", "ndt5/metrics/metrics.go:MeasurementServerStart", "ndt5/metrics/metrics.go:MeasurementServerStop"])

p("C86", "A client's measurements do not end the process",
  "When the file operations work and the clock is between the years 1 and 9999, saving the result of an ndt7 test ends the process exactly if the client sent a measurement with a StartTime in a zone a day or more from UTC. (A time of the server after the year 9999 would do the same. So the claim that no client can end the process is false: a text message with the StartTime 2020-01-01T00:00:00+24:00 is accepted, cannot be written again, and the process exits with every other test in it.) When that happens at most an empty file of that name is new, and every other file is as it was.",
  "every result, every list of times a client may send, every zone of the process, every directory and every outcome of the file operations",
  "the messages are unbounded in number and form, and a test in which the process exits cannot report it",
  ["ndt7/handler/handler.go:writeResult", "ndt7/results/file.go:WriteResult", "ndt7/results/file.go:NewFile", "ndt7/receiver/receiver.go:start", "ndt7/model/archivaldata.go:Measurement"])

EXTRA = []
if __name__ == "__main__":
    with open("/verif/properties.jsonl", "w") as f:
        for q in P + EXTRA:
            f.write(json.dumps(q, ensure_ascii=False) + "\n")
    print(len(P))
