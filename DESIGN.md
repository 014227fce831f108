# Formal model of m-lab/ndt-server in Rocq (Coq 8.16.1)

## 1. Method

The Go code in /repo is modelled function by function in Gallina. Every model
definition cites the file and lines it models and says where it simplifies.

* Bytes are `Z` in [0,256); Go strings and `[]byte` are `list Z`. Fixed-width
  arithmetic is written with explicit `mod 2^32`, `mod 2^64`.
* Errors are values. Panics are an explicit outcome (`Panic msg`). `nil` is an
  explicit case (`option`).
* Sequential code that talks to the outside world is a state/trace monad: every
  interaction appends an event to a trace, and every answer of the outside world
  (network, clock, file system, single-use server) comes from an oracle that is a
  function of the whole history so far. A theorem that quantifies over the oracle
  therefore quantifies over every, even adaptive, client and every failure point.
* Concurrent code (single-use servers, the forwarding proxy, measurer/poller
  goroutines, the ndt7 subtest functions, signal handling) is a labelled
  transition system with one step per atomic action; theorems quantify over all
  reachable states or all schedules.
* External Go libraries are modelled when their behaviour matters to a property
  (encoding/json for strings and objects, bufio.Reader, strconv.Atoi, UTF-8,
  strings.TrimSpace/SplitN, url.ParseQuery, float64 arithmetic through the
  standard library's SpecFloat), and are oracles otherwise.

When the property a user would expect is false of the code, the model keeps the
code's behaviour; the false claim is refuted by a theorem `..._refuted`
(with a concrete witness) and the exact condition under which it holds is proved.
Those are the findings in section 4.

File layout in rocq/theories, per area X:
`XModel.v` (model of the code), `XSpec.v` (small independent vocabulary for
statements, when needed), `XProofs.v` (lemmas), `XProps.v` (only the property
theorems, closed by `exact`, each followed by `Print Assumptions`, and the
examples showing that the hypotheses are met).

## 2. Plan per property

| id | model | proof |
|----|-------|-------|
| C01,C02 | TLV: `read_tlv`, `write_tlv`, `tlv_receive` on byte lists | algebra on the 16-bit length |
| C03 | Stream: TCP segments, bufio.Reader, netConnection.ReadMessage | induction over messages; refutation by witness and by a universal corruption theorem |
| C04-C06 | GoUTF8, GoJSON (encoder and full parser), Messager | induction over the string, parser inversion |
| C07 | Messager: decimal printing | decimal round-trip |
| C08 | SendMetrics on a tree of reflect values | structural induction, failing sender as oracle |
| C09,C10 | Login: both login ceremonies on raw bytes | case analysis, uses C02/C06 |
| C11-C15,C17-C19 | Control: monadic model of handleControlChannel, c2s, s2c, meta | trace-language lemmas compositional over bind/defer/recover |
| C16 | SaveData with float64 values; strconv.ParseFloat specials | case analysis; exact condition |
| C20,C21 | Meta on raw received messages | induction over the 20 rounds, trace lemmas |
| C22 | Web100.summarize on 32-bit records | induction over samples |
| C23 | Poller LTS | invariants, progress |
| C24-C26 | SingleServing LTS (WS and plain) | invariants; refutations by explicit runs |
| C27,C28 | Plain: Peek over bufio, proxy LTS | stream algebra; invariants |
| C29,C30 | Netx operation histories, Bbr arithmetic | induction over histories; arithmetic |
| C31-C33 | Ndt7 query handling with url.ParseQuery model | permutation reasoning |
| C34 | Ndt7 runMeasurement monadic model | trace lemmas with defers |
| C35-C38 | Ndt7 senders as state machines over select outcomes | invariants over unbounded runs |
| C39 | Ndt7 receiver as fold over client events | induction |
| C40 | Do LTS | invariant under no-expiry; refutation run |
| C41 | Measurer LTS | invariants, progress, variant |
| C42 | Rates over SpecFloat | case analysis on float operations |
| C43,C44 | Ndt7 label and ping | arithmetic, decimal round-trip |
| C45-C47 | Results: file names and file-system model with crash points | injectivity of concatenations; induction over write steps |
| C48 | Lame-duck LTS | invariants; refutation run |
| C49-C51 | Main: labels, wiring, TLS config | permutation reasoning, case analysis |
| C52 | names | finite case analysis lifted to all bytes/strings |
| C53-C55 | Control: what the record, the error, the messages and the counters of a run say | trace lemmas, case analysis of every way out of each test |
| C56 | Ndt7 senders: clock readings and deadlines as events | trace lemmas |
| C57 | Measurer LTS with a clock that does not go back | invariants |
| C58 | SingleServing LTS | the counter never moves: refutation |
| C59 | Archive: gzip writer over the file model | induction over write steps; refutation |
| C60 | Rates over SpecFloat | exact error bounds in Q, no real-number axioms |
| C61 | Sniff LTS | characterisation of the states that outlive the context; refutation |
| C62 | Main: signal LTS | invariants; refutation run |
| C63 | Main: certificate sources | case analysis; refutation |
| C64 | Transfer: upload LTS (wait, draining goroutine, poller, delayed close) | invariants, ranks |
| C65,C66 | Transfer: FillUntil LTS | invariants, ranks; refutation runs |
| C67 | Accept: accept loop LTS | invariants, ranks |
| C68,C69 | Codec: json.Marshal and json.Unmarshal of the structs of data, ndt7/model, ndt5/control, c2s and s2c, driven by schemas | induction over schemas and values; parser inversion |
| C70 | Life: LTS of all goroutines of an ndt7 request, with the measurer's LTS as a component | invariant, rank over all goroutines; refutation run |
| C71 | Control: whole connections and the three tests; Outcome: which events count as success | inspection of every run of the tests, composed over the conversation |
| C72 | Control: the error and panic counters; Outcome: which step failed with which error | inspection of every run of the tests, composed over the conversation |
| C73 | Identity: accepted connections, their wrappers, and what each service asks of them | case analysis over services and addresses, joined with C54's archived record |
| C74 | Identity: net.IP.String, against a separate reader of addresses | the reader inverts the writer (induction over digits and words); invariant of the search for the longest run |
| C75 | Start: LTS of main's start-up steps, the goroutines of the HTTP servers, the plain port and the context | invariants, rank; runs for the refutations |
| C76 | Control and Ndt7: the events of the collectors; Metrics: the table of series | a predicate on the events of programs that is closed under their constructors, loops by induction; counting of the combinations |
| C77 | GoFloat: %.4f and ParseFloat on IEEE numbers | text by induction on digits, grammar by the longest run of digits; rounding of quotients and products of integers of any size, in rationals; underscores (UnderscoreSpec) by comparing the reading of the text with that of the text without them |
| C78 | TimeModel: dates, clock times, RFC 3339 and the names made of them | the calendar as the day after the day before (TimeSpec), equal to the computed date by induction over days with the 400-year period; digits compare as numbers do |
| C79 | ControlModel: the control connection's reads and writes | a bound carried through every program construct; a run that reaches it, built the same way |
| C80 | HandshakeModel: the header checks of Upgrade and the two uses of it | lists of tokens and of protocols by induction on the text, against the grammar of the RFC as inductive relations |
| C81 | no new model: Ndt7Model, DoModel and CodecModel together | a document determines its value (every shape of CodecSpec is functional), so the two copies of a measurement agree; what was read from JSON is text and in range, so it survives being written and read again |
| C82 | FlagModel: flag.Parse, flagx.ArgsFromEnv and the flags of ndt-server.go; Set of a flag is a parameter | by induction on the words, against the grammar of command lines as an inductive relation that is shown to be unambiguous; the own flags by computation |
| C83 | ExactModel: the text of a float64 in JSON, Time.UnmarshalJSON, the fields of LinuxTCPInfo; TimeModel | a decimal with enough digits is within half a unit of the number and the search can only stop at a text that is read as it; quotients are canonical floats; reading of times against a grammar over the calendar of TimeSpec |
| C84 | SchemaModel: bigquery.InferSchema, bqx.RemoveRequired and the main function of cmd/generate-schemas, over the struct types of CodecModel | induction over struct types: the JSON tree of a value fits the column of its type, and only if its times are timestamps; the published tables are checked by computation |
| C85 | Count: LTS of all calls for test servers in the process, over the two systems of C24-C26, with the start and stop counters | invariant by counting; a run for the refutation |
| C86 | Zone: writeResult when json.Marshal fails, and when it does: every time in the zone it carries (C78, C83) | what the file operations are when all work, by induction over the writes; the texts of C83; a run for the refutation |

Nothing in the list is judged impossible to express. Wall-clock durations are
modelled only as orderings and as oracle-supplied durations (there is no real-time
scheduler model), so "within N seconds" is expressed as "once the context is done".

## 3. Trusted base

* Coq 8.16.1's kernel. vcheck also runs coqchk over every module. `vm_compute` is used
  only for small closed terms.
* `Print Assumptions` answers "Closed under the global context" for every theorem of the
  manifest. The list is ASSUMPTIONS.txt (regenerate with tools/assumptions.py). No axiom of
  the standard library is used. coqchk lists the constants of `Coq.ssr.ssrunder.Under_rel`:
  they belong to a sealed module of the ssreflect library that ships with Coq, which
  is loaded by a dependency and used by no theorem here.
* That the model is the program. Every definition cites what it models, and nothing checks
  the citation mechanically. What is assumed about things outside /repo:
  * Go's language semantics as described in section 1. Fields shared between goroutines
    without a lock are read and written one at a time, in program order, in some
    interleaving (sequential consistency). The Go memory model promises less for racy
    fields.
  * net/http: Serve returns only on an error or on Close; one goroutine per connection;
    ServeMux routing on cleaned paths; panics of handlers are recovered.
  * gorilla/websocket: what Upgrade checks, one frame per WriteMessage, the payload of
    ReadMessage is the payload of the frame.
  * m-lab/access: a chain of handlers that decide on URL.Path. m-lab/go memoryless: the
    ticker may fire at any time and stops after Stop. m-lab/uuid returns any string.
  * encoding/json, strconv, strings, time, net/url, unicode/utf8, bufio, path: re-implemented in
    Gallina from their source as remembered, for the functions the code calls.
  * In CodecModel the texts of numbers (strconv.AppendFloat) and of times (RFC 3339) and the
    list of the integer fields of tcp.LinuxTCPInfo are parameters (TimeModel has the texts of
    times; C78_plain is the assumption made here). The theorems assume of
    them only `codec_ok`: the text of a finite number is a JSON number, that of a time has no
    character to escape, and field names are letters and differ without regard to case.
    C83_codec proves this of the codec of ExactModel. There AppendFloat is modelled by its
    documentation (the fewest digits that are read back), not by its algorithm; that no
    shorter text would do is not proved. Times sent by a client are written in the zone of the
    process there, not in that of the client's text (C83_rewritten_refuted is about the
    latter). A time with JSON escapes in its text is refused by the program but read by the
    model. The names of the fields of LinuxTCPInfo are as remembered.
  * BigQuery: what InferSchema and RemoveRequired make of a struct and which JSON rows load into
    a table (SchemaSpec) are written from knowledge of these; unknown members are refused, as is
    its default.
  * The kernel: TCP delivers the bytes in order, in arbitrary segments; TCP_INFO, BBR data
    and the clock are arbitrary inputs (the clock does not go back where stated).

### What is modelled

| code | model |
|------|-------|
| ndt5/protocol/protocol.go: TLV frames, ReadMessage, message names | WireModel |
| ndt5/protocol/messager.go, SendJSONMessage, ReceiveJSONMessage, SendMetrics | MessagerModel, GoJSON |
| ndt5/plain LoginCeremony, ndt5/handler LoginCeremony, ndt5/meta | MessagerModel, ControlModel |
| ndt5/ndt5.go, ndt5/c2s, ndt5/s2c, metrics labels | ControlModel |
| ndt5/web100, StartMeasuring, StopMeasuring | Web100Model, PollerModel |
| ndt5/singleserving | ServingModel, CountModel |
| ndt5/plain sniffThenHandle and forwarding, ListenAndServe | SniffModel, AcceptModel |
| data phase of the NDT5 tests: drainForeverButMeasureFor, FillUntil, ReadBytes | TransferModel |
| netx, bbr, tcpinfox | NetxModel |
| ndt7/handler, download, upload, senders, receiver, ping, closer, listener's label | Ndt7Model, QueryModel, DoModel |
| the identity of connections: netx Accept, LocalAddr, RemoteAddr, ToTCPAddr, ToConnInfo, GetUUID, the NDT5 connections' UUID and addresses, setupResult, getData, enabling BBR; net.IP.String | IdentityModel |
| ndt7/measurer | MeasurerModel |
| the goroutines of an ndt7 request together: handler, closer, receiver, sender, measurer | LifeModel |
| ndt7/results, SaveData, UUIDToFile | ArchiveModel; where json.Marshal fails, ZoneModel |
| ndt5/ws, setupConn: the websocket handshake | HandshakeModel |
| package time: the date, the clock time and the text of an instant | TimeModel |
| strconv.AppendFloat as encoding/json uses it, Time.UnmarshalJSON, the fields of tcp.LinuxTCPInfo | ExactModel |
| data/result.go, ndt7/model, ndt5/control/data.go, the ArchivalData of c2s and s2c: their JSON | CodecModel |
| cmd/generate-schemas/main.go | SchemaModel |
| ndt-server.go: start and end of main; ndt7/listener | StartModel |
| ndt-server.go: flags, defaults and environment; package flag and flagx.ArgsFromEnv, written from knowledge of these libraries | FlagModel |
| ndt-server.go: signals, lame duck, labels, TLS, access wiring | MainModel |

### What is not modelled

logging, the text of log messages, the text of the schema files, the non-Linux stubs,
ndt7test (test helper), the values of flags of library types, the definitions of Prometheus collectors (only when
they are changed and with which labels), HTTP header contents other than those of the websocket
handshake, the hash in the answer to it, wall-clock durations as such, memory exhaustion, and the contents of fields
that come from libraries and are only passed on.

## 4. Findings

Where the claim a user would expect, or a comment in the code, is false of the code. Each is
a theorem `..._refuted` next to theorems that say exactly when the claim holds.

| property | finding |
|----------|---------|
| C03 | ReadMessage does one Read for the header and one for the payload and ignores the counts. A message cut by a segment boundary is accepted with zeros in place of the missing bytes, and the stream is out of step from then on. On the control connection this also happens to every message with more than 4093 bytes of payload. |
| C10 | A websocket login of the wrong shape panics (the panic is contained, C14). |
| C16 | A client that reports its rate as NaN or Inf makes the archive file empty: the JSON encoder refuses the record after the file was created. |
| C17 | When the socket statistics are missing C2S dereferences nil and returns no record. |
| C18 | A connection that ServeOnce returns together with an error is never closed. |
| C19 | When TestPrepare cannot be sent the single-use server is left listening. |
| C22 | The minimum RTT is wrong after a zero sample: zero doubles as "none yet". |
| C23 | The comment that one last measurement is taken after cancellation is false. |
| C25 | Three schedules in which a test server's connection is lost or handed out twice: stray request, two clients, late upgrade. |
| C26 | A connection accepted when the context expires may be lost without being closed. |
| C28 | The comment that either peer's close tears a forwarded connection down is false: both, or the context, are needed. |
| C33 | Malformed and oversized queries are accepted, with what could be parsed. |
| C40 | A measurement can be appended to the result after the subtest has returned, when the context expires. |
| C41 | Stop before the ticker is stored does not stop the ticker. |
| C42 | An elapsed time of zero gives an infinite or NaN rate. |
| C43 | The comment about port 4433 does not match the code. |
| C46 | A crash leaves partial documents. They can be told from complete ones: an uncompressed document that was cut off is not JSON (C46_cut_ndt7, C46_cut_ndt5; at most the final line feed of an NDT5 record may be missing). |
| C47 | A second NDT5 record with the same UUID and day replaces the first. |
| C48 | Two SIGTERMs that are merged by the kernel or the channel count as one; gauge and health endpoint disagree for an instant. |
| C58 | The counter of accepted test connections is looked up but never incremented. |
| C59 | An error while closing the gzip writer is only logged. |
| C61 | A client that sends fewer than three bytes to the plain port is never timed out; nor is the control channel. |
| C62 | A third SIGTERM during shutdown panics: the channel was closed but is still registered. |
| C63 | With autocert and only one of -cert and -key the process starts a TLS server with an empty file name and dies. |
| C65 | A client that stops reading during the download blocks the server for ever: FillUntil writes without a deadline, and neither the 30-second nor the 45-second context reaches it. |
| C66 | FillUntil on a plain connection does not count the part of a buffer that a failing write passed on (the count is not used today). |
| C70 | The comment in Do that the sender closes the connection after its timeout is false: it sends a close frame, and a silent client keeps the request until MaxRuntime has passed. |
| C73 | A websocket client that connects to the plain port is archived with the address and UUID of the server's own forwarding socket, not with its own. |
| C73 | ToTCPAddr is documented to return nil when there is no TCP address, and setupResult has a fallback for nil. For a connection of a netx listener it panics instead, so the fallback cannot be reached. ToConnInfo is documented to panic for other connections and returns nil. |
| C74 | The zone of a link-local IPv6 address is dropped, so two clients on different links can have the same recorded address. |
| C75 | The plain port accepts clients before the websocket port it forwards to is open, so a websocket client that comes at that moment is dropped. |
| C75 | The comment that an HTTPS server is available when ListenAndServeTLSAsync returns is false: the certificate is read afterwards. /health may answer 200 in a process that then ends because its certificate is unreadable. |
| C75 | With -ndt5_ws_addr ending in :0 the plain port forwards to port 0, not to the port that was chosen. |
| C76 | The help text of ndt5_client_requested_suites_total promises an integer from 0 to 255; the label is the joined names of the tests, one of 32. |
| C76 | The direction label of ndt7_client_receiver_errors_total is "0" or "1", that of the sender's counter "download" or "upload", so the two cannot be joined on it. |
| C78 | NDT5 records are filed under the day of the process's zone, ndt7 results under the day in UTC. The times inside documents do not sort as text. |
| C80 | An ndt7 client that offers the protocol along with another one, or in a second header line, is refused. NDT5 takes every websocket client, from any page and with any or no subprotocol. |
| C82 | An option may be neither obeyed nor reported: in `-compress-results false -ndt7.token.required` the word false ends the options, so results stay compressed and tokens are not required. |
| C83 | A client measurement with a StartTime in the zone +24:00 is read but cannot be written: time.Parse admits 24 hours, MarshalJSON does not. The client can so keep the result of its ndt7 test from being archived, and end the process (C86). What C69_storable assumes of the codec is not so for such times. (Package time of Go 1.20 and later, as remembered.) |
| C84 | cmd/generate-schemas/main.go:36 makes the schema of ndt5 from data.NDT7Result, so the file for ndt5 describes ndt7 results: it has no Control, C2S or S2C, and no NDT5 document loads into a table with it. |
| C84 | cmd/generate-schemas/main.go:33 and :42 drop the errors of WriteFile: the exit status is 0 although nothing was written. |
| C84 | A client measurement with a StartTime of the year 0 is accepted and archived; BigQuery has no such TIMESTAMP, so the result of that test does not load. |
| C85 | ndt5_measurementserver_start_total counts calls that could not have a port, contrary to its help text, so its difference to the stop counter stays too large for good. |
| C86 | A client can end the whole process, and every test in it, with one ndt7 text message: `{"ConnectionInfo":{"StartTime":"2020-01-01T00:00:00+24:00"}}` is stored, json.Marshal then fails in results/file.go:95, and rtx.Must in handler.go:209-211 exits. (Package time of Go 1.20 and later, as remembered.) |

By design, and worth knowing: requiring tokens for NDT5 does not cover the plain and
websocket port (C50).
