(** Vocabulary for stating the properties of NDT5 control connections.  Uses the
    events and the message encoders of the model, none of its control logic. *)
From Coq Require Import String ZArith List Bool.
From Verif Require Import Base TextSpec WireModel WireSpec MessagerModel MessagerSpec GoFloat Web100Model Effect ControlModel.
Import ListNotations.
Open Scope Z_scope.

(** ** Projections of a run *)

(** The messages exchanged on the control connection. *)
Definition is_io (e : event) : bool :=
  match e with EvWrite _ _ | EvRead _ => true | _ => false end.
Definition io (tr : list event) : list event := filter is_io tr.

(** Updates of metrics. *)
Definition is_metric (e : event) : bool :=
  match e with EvGauge _ _ _ | EvCount _ _ | EvObserve _ _ _ => true | _ => false end.
Definition without_metrics (tr : list event) : list event :=
  filter (fun e => negb (is_metric e)) tr.

(** The increments of a counter, with their labels. *)
Definition counted (name : bytes) (tr : list event) : list (list bytes) :=
  flat_map (fun e => match e with
                     | EvCount n l => if beqb n name then [l] else []
                     | _ => []
                     end) tr.
(** The net change of a gauge. *)
Definition gauge_change (name : bytes) (tr : list event) : Z :=
  fold_right Z.add 0
    (flat_map (fun e => match e with
                        | EvGauge n _ d => if beqb n name then [d] else []
                        | _ => []
                        end) tr).

(** ** Conversations *)

(** One step of a conversation: the server sends a frame, or waits for a message. *)
Inductive item := Say (frame : bytes) | Hear.

(** A message of some kind, in the encoding of the connection. *)
Definition message (m : encoding) (kind : Z) (body : bytes) : bytes :=
  match m with TLV => tlv_send kind body | _ => json_send kind body end.
Definition say (m : encoding) (kind : Z) (body : bytes) : item := Say (message m kind body).
(** The S2C result message. *)
Definition say_result (m : encoding) (kbps unsent total : Z) : item :=
  Say (match m with TLV => tlv_send_s2c kbps unsent total | _ => json_send_s2c kbps unsent total end).

(** [follows tr w complete]: the messages [tr] are what the conversation [w]
    prescribes, up to some point: the end of [w] if [complete]; otherwise the server
    stopped somewhere, and only its very last message may have failed. *)
Inductive follows : list event -> list item -> bool -> Prop :=
| fol_end : follows [] [] true
| fol_stop w : follows [] w false
| fol_fail f e w : follows [EvWrite f (Some e)] (Say f :: w) false
| fol_say f tr w b : follows tr w b -> follows (EvWrite f None :: tr) (Say f :: w) b
| fol_hear x tr w b : follows tr w b -> follows (EvRead x :: tr) (Hear :: w) b.

(** The C2S test: port, start, measured rate, end. *)
Definition c2s_word (m : encoding) (w : list item) : Prop :=
  exists port kbps, w =
    [ say m TestPrepare (itoa port); say m TestStart []; say m TestMsg (itoa kbps);
      say m TestFinalize [] ].

(** The S2C test: port, start, result, the client's rate, metric lines, end. *)
Definition s2c_word (m : encoding) (w : list item) : Prop :=
  exists port kbps total lines, w =
    [ say m TestPrepare (itoa port); say m TestStart []; say_result m kbps 0 total; Hear ] ++
    map (say m TestMsg) lines ++ [ say m TestFinalize [] ].

(** The META test: at most twenty messages from the client. *)
Definition meta_word (m : encoding) (w : list item) : Prop :=
  exists n, (n <= 20)%nat /\ w =
    [ say m TestPrepare []; say m TestStart [] ] ++ repeat Hear n ++ [ say m TestFinalize [] ].

(** The tests announced to the client. *)
Definition announced (c2s s2c meta : bool) : string :=
  match c2s, s2c, meta with
  | false, false, false => ""
  | true, false, false => "2"
  | false, true, false => "4"
  | true, true, false => "2 4"
  | false, false, true => "32"
  | true, false, true => "2 32"
  | false, true, true => "4 32"
  | true, true, true => "2 4 32"
  end.

(** A test that may be left out. *)
Definition when (b : bool) (L : list item -> Prop) (w : list item) : Prop :=
  if b then L w else w = [].

(** The whole conversation after the login. *)
Definition conversation (m : encoding) (c2s s2c meta : bool) (w : list item) : Prop :=
  exists wc ws wm results,
    when c2s (c2s_word m) wc /\ when s2c (s2c_word m) ws /\ when meta (meta_word m) wm /\
    w = [ say m SrvQueue (str "0"); say m MsgLogin (str "v5.0-NDTinGO");
          say m MsgLogin (str (announced c2s s2c meta)) ] ++
        wc ++ ws ++ wm ++ [ say m MsgResults results; say m MsgLogout [] ].

(** Bits of the requested test set. *)
Definition wants_c2s (tests : Z) : bool := Z.testbit tests 1.
Definition wants_s2c (tests : Z) : bool := Z.testbit tests 2.
Definition wants_status (tests : Z) : bool := Z.testbit tests 4.
Definition wants_meta (tests : Z) : bool := Z.testbit tests 5.

(** ** Test connections and single-use servers *)

(** Connections handed over by a single-use server without an error, in order. *)
Definition served (tr : list event) : list tconn :=
  flat_map (fun e => match e with EvServe _ (Some c, None) => [c] | _ => [] end) tr.
(** Connections closed, at once or by the delayed closer, in order. *)
Definition closed (tr : list event) : list tconn :=
  flat_map (fun e => match e with
                     | EvTestClose c => [c]
                     | EvTestCloseLater (Some c) => [c]
                     | _ => []
                     end) tr.
(** Connections handed over together with an error. *)
Definition served_with_error (tr : list event) : list tconn :=
  flat_map (fun e => match e with EvServe _ (Some c, Some _) => [c] | _ => [] end) tr.

(** Single-use servers started, and those waited for (waiting stops them). *)
Definition started (tr : list event) : list bytes :=
  flat_map (fun e => match e with EvListen d (inl _) => [d] | _ => [] end) tr.
Definition waited (tr : list event) : list bytes :=
  flat_map (fun e => match e with EvServe d _ => [d] | _ => [] end) tr.

(** The directions for which a single-use server was asked for, in order. *)
Definition listened (tr : list event) : list bytes :=
  flat_map (fun e => match e with EvListen d _ => [d] | _ => [] end) tr.

(** The measurements obtained from test connections. *)
Definition measured (tr : list event) : list (tconn * web100) :=
  flat_map (fun e => match e with EvStopMeasuring c (Some w) => [(c, w)] | _ => [] end) tr.

(** Records archived. *)
Definition saved (tr : list event) : list record :=
  flat_map (fun e => match e with EvSave r => [r] | _ => [] end) tr.
Definition is_close (e : event) : bool := match e with EvClose => true | _ => false end.

(** ** Causes of failure *)

(** The messages sent, with their outcome. *)
Definition writes (tr : list event) : list (bytes * option err) :=
  flat_map (fun e => match e with EvWrite f x => [(f, x)] | _ => [] end) tr.

(** The last message sent is [f], and it failed; [n] messages were sent before. *)
Definition failed_write (tr : list event) (n : nat) (f : bytes) : Prop :=
  exists l e, writes tr = l ++ [(f, Some e)] /\ List.length l = n.

(** A test of the given name was counted as ended with an error. *)
Definition test_failed (dir : string) (tr : list event) : Prop :=
  exists lbl res, In [lbl; str dir; res] (counted (str "ClientTestResults") tr) /\
    (res = str "error-with-rate" \/ res = str "error-without-rate").

(** What each label of the panic counter means, on a connection of kind [k]. *)
Definition cause (k : server_kind) (m : encoding) (label : bytes) (tr : list event) : Prop :=
  (label = str "Login" /\ exists x, io tr = [EvRead x] /\ fst (login_of k x) = LoginErr) \/
  (label = str "SrvQueue" /\ exists f, failed_write tr 0 f /\ Say f = say m SrvQueue (str "0")) \/
  (label = str "MsgLoginVersion" /\
     exists f, failed_write tr 1 f /\ Say f = say m MsgLogin (str "v5.0-NDTinGO")) \/
  (label = str "MsgLoginTests" /\
     exists f tests, failed_write tr 2 f /\ Say f = say m MsgLogin tests) \/
  (label = str "C2S" /\ test_failed "c2s" tr) \/
  (label = str "S2C" /\ test_failed "s2c" tr) \/
  (label = str "META" /\
     exists lbl what, In [lbl; str "meta"; what] (counted (str "ClientTestErrors") tr)) \/
  (label = str "MsgResults" /\
     exists n f text, failed_write tr n f /\ Say f = say m MsgResults text) \/
  (label = str "MsgLogout" /\ exists n f, failed_write tr n f /\ Say f = say m MsgLogout []) \/
  (label = str "panic" /\
     ((exists x, io tr = [EvRead x] /\ fst (login_of k x) = LoginPanic) \/
      (exists c, In (EvStopMeasuring c None) tr) \/
      (exists d, In (EvServe d (None, None)) tr))).

(** ** META *)

(** The characters with the Unicode property White_Space. *)
Definition white_space : list Z :=
  [ 9; 10; 11; 12; 13; 32; 133; 160; 5760;
    8192; 8193; 8194; 8195; 8196; 8197; 8198; 8199; 8200; 8201; 8202;
    8232; 8233; 8239; 8287; 12288 ].
(** [s] is [t] between white space, and [t] neither starts nor ends with white space. *)
Definition trimmed (s t : bytes) : Prop :=
  (exists cs ds, incl cs white_space /\ incl ds white_space /\
     s = flat_map utf8_char cs ++ t ++ flat_map utf8_char ds) /\
  (forall c r, In c white_space -> t <> utf8_char c ++ r) /\
  (forall c r, In c white_space -> t <> r ++ utf8_char c).

(** The pair stored for a message: split at the first colon (58), both parts trimmed
    and cut to 63 and 255 bytes. *)
Definition stored_pair (msg : bytes) (p : bytes * bytes) : Prop :=
  exists a b name value, msg = a ++ 58 :: b /\ ~ In 58 a /\ trimmed a name /\ trimmed b value /\
    p = (firstn 63 name, firstn 255 value).
(** The pairs stored for a sequence of messages: messages without a colon are skipped. *)
Inductive stored_pairs : list bytes -> list (bytes * bytes) -> Prop :=
| sp_nil : stored_pairs [] []
| sp_skip msg l ps : ~ In 58 msg -> stored_pairs l ps -> stored_pairs (msg :: l) ps
| sp_pair msg p l ps : stored_pair msg p -> stored_pairs l ps -> stored_pairs (msg :: l) (p :: ps).

(** What was read from the control connection. *)
Definition reads (tr : list event) : list (option bytes) :=
  flat_map (fun e => match e with EvRead x => [x] | _ => [] end) tr.
(** A received message of type TestMsg: [inl] its text, or [inr] an error. *)
Definition heard (m : encoding) (x : option bytes) : bytes + recv_error :=
  match (match m with TLV => tlv_receive x TestMsg | _ => json_receive x TestMsg end) with
  | (_, Some e) => inr e
  | (Some t, None) => inl t
  | (None, None) => inl []
  end.
(** The contexts' answers; a context that is done stays done. *)
Definition deadline_checks (tr : list event) : list bool :=
  flat_map (fun e => match e with EvCtxDone b => [b] | _ => [] end) tr.
Definition stays_done (l : list bool) : Prop :=
  forall a b, l = a ++ true :: b -> ~ In false b.

(** ** The archived record *)

(** [t] is a contiguous part of [tr]. *)
Definition within (t tr : list event) : Prop := exists a b, tr = a ++ t ++ b.

(** The C2S part of a record: what a C2S test within the connection left, or nothing if
    the test was not asked for or the connection failed. *)
Definition c2s_part_of (g : config) (m : encoding) (asked : bool) (tr : list event) (failed : bool)
  (o : option c2s_data) : Prop :=
  match o with
  | Some d => asked = true /\ exists t e, within t tr /\ run (c2s_manage g m c2s_empty) t (d, Ok e)
  | None => asked = false \/ failed = true
  end.
(** The same for the S2C test and the META test. *)
Definition s2c_part_of (g : config) (m : encoding) (asked : bool) (tr : list event) (failed : bool)
  (o : option s2c_data) : Prop :=
  match o with
  | Some d => asked = true /\ exists t e, within t tr /\ run (s2c_manage g m s2c_empty) t (d, Ok e)
  | None => asked = false \/ failed = true
  end.
Definition meta_part_of (g : config) (m : encoding) (asked : bool) (tr : list event) (failed : bool)
  (l : list (bytes * bytes)) : Prop :=
  (l = [] /\ (asked = false \/ failed = true)) \/
  (asked = true /\ exists t, within t tr /\ run (meta_manage g m tt) t (tt, Ok (l, None))).

(** ** Ports, rates and results *)

(** The ports of the single-use servers that were started. *)
Definition ports (tr : list event) : list Z :=
  flat_map (fun e => match e with EvListen _ (inl p) => [p] | _ => [] end) tr.
(** The observations of a histogram: labels and value. *)
Definition observed (name : bytes) (tr : list event) : list (list bytes * f64) :=
  flat_map (fun e => match e with
                     | EvObserve n l v => if beqb n name then [(l, v)] else []
                     | _ => []
                     end) tr.
(** The rates in a record; a test without a record has rate zero. *)
Definition c2s_rate (r : record) : f64 := match r_c2s r with Some d => u_mean d | None => f_zero end.
Definition s2c_rate (r : record) : f64 := match r_s2c r with Some d => d_mean d | None => f_zero end.
(** The text of the results message: both rates in kbit/s. *)
Definition results_text (r : record) : bytes :=
  let kbps x := format_f4 (fmul (if f_is_zero x then f_zero else x) (f_of_int 1000)) in
  str "You uploaded at " ++ kbps (c2s_rate r) ++ str " and downloaded at " ++ kbps (s2c_rate r).
(** How a test is counted. *)
Definition result_words (failed : bool) (rate : f64) : bytes :=
  match failed, f_is_zero rate with
  | false, false => str "okay-with-rate"
  | false, true => str "okay-without-rate"
  | true, false => str "error-with-rate"
  | true, true => str "error-without-rate"
  end.
Definition has_error (e : option err) : bool := match e with Some _ => true | None => false end.
Definition test_counts (lbl : bytes) (r : record) : list (list bytes) :=
  match r_c2s r with
  | Some d => [[lbl; str "c2s"; result_words (has_error (u_error d)) (u_mean d)]]
  | None => []
  end ++
  match r_s2c r with
  | Some d => [[lbl; str "s2c"; result_words (has_error (d_error d)) (d_mean d)]]
  | None => []
  end.
Definition rate_values (lbl mon : bytes) (r : record) : list (list bytes * f64) :=
  match r_c2s r with
  | Some d => if f_is_zero (u_mean d) then [] else [([lbl; str "c2s"; mon], u_mean d)]
  | None => []
  end ++
  match r_s2c r with
  | Some d => if f_is_zero (d_mean d) then [] else [([lbl; str "s2c"; mon], d_mean d)]
  | None => []
  end.
(** The record as it was before an error was noted in it. *)
Definition s2c_without_error (d : s2c_data) : s2c_data :=
  S2CData (d_uuid d) (d_server_ip d) (d_server_port d) (d_client_ip d) (d_client_port d)
    (d_start d) (d_end d) (d_mean d) (d_min_rtt d) (d_max_rtt d) (d_sum_rtt d) (d_count_rtt d)
    (d_client_mbps d) (d_tcp_info d) None.
(** The statistics that are sent to the client, by name: the RTTs, segments and MSS that
    were measured, the web100 names nothing is measured for, and the kernel's record. *)
Definition statistics (w : web100) : list (bytes * bytes) :=
  [ (str "MaxRTT", itoa (w_max_rtt w)); (str "MinRTT", itoa (w_min_rtt w));
    (str "SumRTT", itoa (w_sum_rtt w)); (str "CurRTO", str "0");
    (str "SndLimTimeCwnd", str "0"); (str "SndLimTimeRwin", str "0");
    (str "SndLimTimeSender", str "0"); (str "DataBytesOut", str "0");
    (str "DupAcksIn", str "0"); (str "PktsOut", itoa (w_pkts_out w));
    (str "PktsRetrans", str "0"); (str "Timeouts", str "0");
    (str "CountRTT", itoa (w_count_rtt w)); (str "CongestionSignals", str "0");
    (str "AckPktsIn", str "0"); (str "MaxCwnd", str "0"); (str "MaxRwinRcvd", str "0");
    (str "CurMSS", itoa (w_cur_mss w)); (str "Sndbuf", str "0");
    (str "RcvWinScale", str "0"); (str "SndWinScale", str "0") ] ++
  map (fun f => (str "TCPInfo." ++ fst f, snd f)) (leaves (ti_fields (w_tcp_info w))).
(** The fields of the record of an S2C test that are sent to the client, by name. *)
Definition s2c_fields (g : config) (d : s2c_data) : list (bytes * bytes) :=
  [ (str "UUID", d_uuid d);
    (str "ServerIP", d_server_ip d); (str "ServerPort", itoa (d_server_port d));
    (str "ClientIP", d_client_ip d); (str "ClientPort", itoa (d_client_port d));
    (str "StartTime", c_time_text g (d_start d)); (str "EndTime", c_time_text g (d_end d));
    (str "MinRTT", c_dur_text g (d_min_rtt d)); (str "MaxRTT", c_dur_text g (d_max_rtt d));
    (str "SumRTT", c_dur_text g (d_sum_rtt d)); (str "CountRTT", itoa (d_count_rtt d));
    (str "Error", match d_error d with Some e => c_err_text g e | None => [] end) ].
(** What the S2C test sends after the result message. *)
Definition s2c_tail (g : config) (m : encoding) (w : web100) (d : s2c_data) : list bytes :=
  map (message m TestMsg)
    (map (metric_line []) (statistics w) ++
     map (metric_line (str "NDTResult.S2C.")) (s2c_fields g (s2c_without_error d))) ++
  [message m TestFinalize []].
(** The names of the tests in a request, besides status. *)
Definition asked_tests (tests : Z) : list bytes :=
  (if Z.testbit tests 0 then [str "mid"] else []) ++ (if Z.testbit tests 1 then [str "c2s"] else []) ++
  (if Z.testbit tests 2 then [str "s2c"] else []) ++ (if Z.testbit tests 3 then [str "sfw"] else []) ++
  (if Z.testbit tests 5 then [str "meta"] else []).
(** The request that is served. *)
Definition request (g : config) (inbuff : option bytes) : option Z :=
  match login_of (c_kind g) inbuff with
  | (LoginOk tests, _) => if wants_status tests then Some tests else None
  | _ => None
  end.
(** ** Names and logins *)

(** The names of the three kinds of server: in records and in metrics. *)
Definition names (k : server_kind) : bytes * bytes :=
  match k with
  | KPlain => (str "PLAIN", str "ndt5+plain")
  | KWs => (str "WS", str "ndt5+ws")
  | KWss => (str "WSS", str "ndt5+wss")
  end.
(** The first message logs the client in for the tests [n], and the connection goes on in
    the encoding [m]: an extended login with a JSON message anywhere, a login with a single
    byte only over plain TCP. *)
Definition logs_in (k : server_kind) (first : option bytes) (n : Z) (m : encoding) : Prop :=
  (m = JSON /\ exists body msg tests, first = Some (wire_frame (MsgExtendedLogin, body)) /\ fits body /\
     ndt_message body msg tests /\ numeral tests n) \/
  (m = TLV /\ k = KPlain /\ first = Some (wire_frame (MsgLogin, [n]))).
