(** Model of an NDT5 control connection: ndt5/ndt5.go, ndt5/c2s/c2s.go,
    ndt5/s2c/s2c.go, ndt5/meta/meta.go, ndt5/ndt/server.go (labels) and
    metrics.GetResultLabel. *)
From Coq Require Import String ZArith List Bool.
From Verif Require Import Base WireModel MessagerModel GoFloat GoStrings Web100Model Effect.
Import ListNotations.
Open Scope Z_scope.
Open Scope eff_scope.

(** ** Names *)

(** ConnectionType.Label, ndt/server.go:20-31; WS, WSS and Plain are defined in
    lines 34-38. *)
Definition conn_label (c : bytes) : bytes :=
  if beqb c (str "WSS") then str "ndt5+wss"
  else if beqb c (str "WS") then str "ndt5+ws"
  else if beqb c (str "PLAIN") then str "ndt5+plain"
  else str "ndt5+unknown".

(** The implementations of ndt.Server: the two of ndt5/handler/wshandler.go and
    plainServer of ndt5/plain/plain.go, and their ConnectionType(). *)
Inductive server_kind := KWs | KWss | KPlain.
Definition conn_type (k : server_kind) : bytes :=
  match k with KWs => str "WS" | KWss => str "WSS" | KPlain => str "PLAIN" end.

(** Encoding.String, messager.go:24-34. *)
Definition encoding_string (e : encoding) : bytes :=
  match e with Unknown => str "Unknown" | JSON => str "JSON" | TLV => str "TLV" end.

(** panicMsgToErrType, ndt5.go:67-88. *)
Definition okay_words : list bytes :=
  [ str "Login"; str "ParseInt"; str "SrvQueue"; str "MsgLoginVersion"; str "MsgLoginTests";
    str "C2S"; str "S2C"; str "MsgResults"; str "MsgLogout"; str "META" ].
Definition panic_msg_to_err_type (msg : bytes) : bytes :=
  let word := fst (split2 32 msg) in
  if existsb (beqb word) okay_words then word else str "panic".

(** metrics.GetResultLabel, metrics/metrics.go:34-44. *)
Definition result_label (failed : bool) (rate : f64) : bytes :=
  (if failed then str "error" else str "okay") ++
  (if f_is_zero rate then str "-without-rate" else str "-with-rate").

(** ** Values *)

(** Errors.  Their texts matter only as the tail of a panic message. *)
Inductive err :=
| ErrIo (text : bytes)         (* from the network or the single-use server *)
| ErrRecv (e : recv_error)     (* from ReceiveMessage *)
| ErrNilConn                   (* s2c.go:80 *)
| ErrNoStats                   (* protocol.go:165 *)
| ErrContext.                  (* localCtx.Err() *)

(** A test connection (protocol.MeasuredConnection): identity, UUID and addresses. *)
Record tconn := TConn {
  tc_id : Z; tc_uuid : bytes;
  tc_server_ip : bytes; tc_server_port : Z; tc_client_ip : bytes; tc_client_port : Z
}.

(** c2s.ArchivalData, c2s.go:18-37.  Times are nanoseconds, [None] is the zero time. *)
Record c2s_data := C2SData {
  u_server_ip : bytes; u_server_port : Z; u_client_ip : bytes; u_client_port : Z;
  u_uuid : bytes; u_start : option Z; u_end : option Z;
  u_mean : f64; u_error : option err
}.
Definition c2s_empty : c2s_data := C2SData [] 0 [] 0 [] None None f_zero None.

(** s2c.ArchivalData, s2c.go:19-46. *)
Record s2c_data := S2CData {
  d_uuid : bytes;
  d_server_ip : bytes; d_server_port : Z; d_client_ip : bytes; d_client_port : Z;
  d_start : option Z; d_end : option Z; d_mean : f64;
  d_min_rtt : Z; d_max_rtt : Z; d_sum_rtt : Z; d_count_rtt : Z;   (* durations in ns *)
  d_client_mbps : f64;
  d_tcp_info : option tcp_info; d_error : option err
}.
Definition s2c_empty : s2c_data :=
  S2CData [] [] 0 [] 0 None None f_zero 0 0 0 0 f_zero None None.

(** data.NDT5Result with control.ArchivalData inlined, data/result.go:14-45 and
    ndt5/control/data.go:8-16, without the constant version strings. *)
Record record := Record_ {
  r_uuid : bytes; r_protocol : bytes; r_server_meta : list (bytes * bytes);
  r_server_ip : bytes; r_server_port : Z; r_client_ip : bytes; r_client_port : Z;
  r_start : Z; r_end : option Z;
  r_message_protocol : bytes;
  r_c2s : option c2s_data; r_s2c : option s2c_data;
  r_client_meta : list (bytes * bytes)
}.

(** What is fixed when HandleControlChannel is called: the kind of server and its
    metadata, the connection's UUID and addresses, the monitoring flag; and the
    printing functions of errors, times and durations. *)
Record config := Config {
  c_kind : server_kind;
  c_meta : list (bytes * bytes);
  c_uuid : bytes;
  c_server_ip : bytes; c_server_port : Z; c_client_ip : bytes; c_client_port : Z;
  c_is_mon : bytes;
  c_err_text : err -> bytes;
  c_time_text : option Z -> bytes;
  c_dur_text : Z -> bytes
}.

(** ** Events *)

(** What the two ways out of the select of drainForeverButMeasureFor are. *)
Inductive drain_end := DrainTimeout | DrainError (e : err).

Inductive event :=
| EvWrite (frame : bytes) (e : option err)   (* control conn.WriteMessage *)
| EvRead (inbuff : option bytes)             (* control conn.ReadMessage; None: error *)
| EvClose                                    (* control conn.Close *)
| EvNow (t : Z)                              (* time.Now *)
| EvCtxDone (b : bool)                       (* localCtx.Err() != nil *)
| EvListen (dir : bytes) (port : Z + err)    (* s.SingleServingServer *)
| EvServe (dir : bytes) (r : option tconn * option err)  (* srv.ServeOnce *)
| EvStartMeasuring (c : tconn)
| EvFill (c : tconn)                         (* testConn.FillUntil *)
| EvDrain (c : tconn) (d : drain_end)        (* how the upload wait ended *)
| EvStopMeasuring (c : tconn) (w : option web100)
| EvTestClose (c : tconn)                    (* warnonerror.Close(testConn) *)
| EvTestCloseLater (c : option tconn)        (* the goroutine that closes it in 3 s *)
| EvSave (r : record)                        (* SaveData *)
| EvGauge (name : bytes) (labels : list bytes) (delta : Z)
| EvCount (name : bytes) (labels : list bytes)
| EvObserve (name : bytes) (labels : list bytes) (v : f64).

(** Go functions of this file: panics carry their text. *)
Notation Go := (M event bytes).

(** The text of the runtime's nil-dereference panic. *)
Definition nil_deref : bytes :=
  str "runtime error: invalid memory address or nil pointer dereference".

(** rtx.PanicOnError: the formatted prefix, then the error. *)
Definition panic_on_error {S} (g : config) (e : option err) (prefix : bytes) : Go S unit :=
  match e with
  | None => ret tt
  | Some x => panic (prefix ++ str " (uuid: " ++ c_uuid g ++ str ")" ++ c_err_text g x)
  end.

(** Messager.SendMessage and SendS2CResults over the control connection.  The
    encoding [m] is that of the Messager in use; a nil Messager is caught at its first
    use, in [converse], so that here [m] is JSON or TLV. *)
Definition write {S} (frame : bytes) : Go S (option err) := op (fun e => EvWrite frame e).
Definition frame_of (m : encoding) (kind : Z) (contents : bytes) : bytes :=
  match m with TLV => tlv_send kind contents | _ => json_send kind contents end.
Definition frame_of_s2c (m : encoding) (kbps unsent total : Z) : bytes :=
  match m with TLV => tlv_send_s2c kbps unsent total | _ => json_send_s2c kbps unsent total end.
Definition send {S} (m : encoding) (kind : Z) (contents : bytes) : Go S (option err) :=
  write (frame_of m kind contents).
Definition send_s2c {S} (m : encoding) (kbps unsent total : Z) : Go S (option err) :=
  write (frame_of_s2c m kbps unsent total).

(** Messager.ReceiveMessage: message (None: nil) and error. *)
Definition receive_of (m : encoding) (inbuff : option bytes) (kind : Z)
  : option bytes * option recv_error :=
  match m with TLV => tlv_receive inbuff kind | _ => json_receive inbuff kind end.
Definition receive {S} (m : encoding) (kind : Z) : Go S (option bytes * option err) :=
  inbuff <- op EvRead ;;
  ret (fst (receive_of m inbuff kind), option_map ErrRecv (snd (receive_of m inbuff kind))).

(** The sends of SendMetrics, in order, up to the first failure.  The lines are those
    that [send_metrics] attempts when no send fails. *)
Fixpoint send_lines {S} (m : encoding) (lines : list bytes) : Go S (option err) :=
  match lines with
  | [] => ret None
  | l :: r =>
      e <- send m TestMsg l ;;
      match e with
      | None => send_lines m r
      | Some x => ret (Some x)
      end
  end.
Definition metric_lines (fs : list (bytes * fval)) (prefix : bytes) : list bytes :=
  fst (send_metrics (fun _ _ => true) (MPtr (Some (MStruct fs))) prefix).

Definition label (g : config) : bytes := conn_label (conn_type (c_kind g)).

Definition test_error {S} (g : config) (dir what : bytes) : Go S unit :=
  tell (EvCount (str "ClientTestErrors") [label g; dir; what]).

Definition now {S} : Go S Z := op EvNow.

(** ** C2S *)

(** Setters for the record behind a pointer. *)
Definition u_set_conn (c : tconn) (d : c2s_data) : c2s_data :=
  C2SData (tc_server_ip c) (tc_server_port c) (tc_client_ip c) (tc_client_port c)
          (tc_uuid c) (u_start d) (u_end d) (u_mean d) (u_error d).
Definition u_set_start (t : Z) (d : c2s_data) : c2s_data :=
  C2SData (u_server_ip d) (u_server_port d) (u_client_ip d) (u_client_port d)
          (u_uuid d) (Some t) (u_end d) (u_mean d) (u_error d).
Definition u_set_end (t : Z) (d : c2s_data) : c2s_data :=
  C2SData (u_server_ip d) (u_server_port d) (u_client_ip d) (u_client_port d)
          (u_uuid d) (u_start d) (Some t) (u_mean d) (u_error d).
Definition u_set_mean (x : f64) (d : c2s_data) : c2s_data :=
  C2SData (u_server_ip d) (u_server_port d) (u_client_ip d) (u_client_port d)
          (u_uuid d) (u_start d) (u_end d) x (u_error d).
Definition u_set_error (e : err) (d : c2s_data) : c2s_data :=
  C2SData (u_server_ip d) (u_server_port d) (u_client_ip d) (u_client_port d)
          (u_uuid d) (u_start d) (u_end d) (u_mean d) (Some e).

(** drainForeverButMeasureFor, c2s.go:142-176.  The draining goroutine only matters
    through the error it may deliver. *)
Definition drain {S} (c : tconn) : Go S (option web100 * option err) :=
  tell (EvStartMeasuring c) ;;;
  d <- op (EvDrain c) ;;
  w <- op (EvStopMeasuring c) ;;
  match d with
  | DrainTimeout => ret (w, match w with None => Some ErrNoStats | Some _ => None end)
  | DrainError e => ret (w, Some e)
  end.

(** The rate in kbit/s, c2s.go:117: 8 * bytes / 1000 / seconds. *)
Definition c2s_kbps (received dur : Z) : f64 :=
  fdiv (fdiv (fmul (f_of_int 8) (f_of_int received)) (f_of_int 1000)) (dur_seconds dur).

(** The part of c2s.ManageTest after the transfer, c2s.go:117-135. *)
Definition c2s_report (g : config) (m : encoding) (w : web100) (dur : Z)
  : Go c2s_data (option err) :=
  let kbps := c2s_kbps (ti_bytes_received (w_tcp_info w)) dur in
  modify (u_set_mean (fdiv kbps (f_of_int 1000))) ;;;
  e <- send m TestMsg (itoa (f_to_int64 kbps)) ;;
  match e with
  | Some x => test_error g (str "c2s") (str "TestMsg") ;;; ret (Some x)
  | None =>
      e <- send m TestFinalize [] ;;
      match e with
      | Some x => test_error g (str "c2s") (str "TestFinalize") ;;; ret (Some x)
      | None => ret None
      end
  end.

(** c2s.go:85-135, with the test connection. *)
Definition c2s_transfer (g : config) (m : encoding) (c : tconn) : Go c2s_data (option err) :=
  modify (u_set_conn c) ;;;
  e <- send m TestStart [] ;;
  match e with
  | Some x => test_error g (str "c2s") (str "TestStart") ;;; ret (Some x)
  | None =>
      t0 <- now ;;
      modify (u_set_start t0) ;;;
      r <- drain c ;;
      t1 <- now ;;
      modify (u_set_end t1) ;;;
      let dur := t1 - t0 in
      match r with
      | (None, None) | (None, Some _) => panic nil_deref     (* web100Metrics.TCPInfo *)
      | (Some w, Some x) =>
          if ti_bytes_received (w_tcp_info w) =? 0 then
            test_error g (str "c2s") (str "Drain") ;;; ret (Some x)
          else if fltb (dur_seconds dur) (f_of_int 9) then
            test_error g (str "c2s") (str "EarlyExit") ;;; ret (Some x)
          else c2s_report g m w dur
      | (Some w, None) => c2s_report g m w dur
      end
  end.

(** c2s.ManageTest, c2s.go:40-136.  The deferred functions: the error is copied into
    the record (43-47); once there is a test connection, a goroutine that closes it
    later is started (75-83). *)
Definition c2s_manage (g : config) (m : encoding) : Go c2s_data (option err) :=
  defer (fun r => match r with
                  | Ok (Some e) => modify (u_set_error e) ;;; ret r
                  | _ => ret r
                  end)
    (l <- op (EvListen (str "c2s")) ;;
     match l with
     | inr e => test_error g (str "c2s") (str "StartSingleServingServer") ;;; ret (Some e)
     | inl port =>
         e <- send m TestPrepare (itoa port) ;;
         match e with
         | Some x => test_error g (str "c2s") (str "TestPrepare") ;;; ret (Some x)
         | None =>
             s <- op (EvServe (str "c2s")) ;;
             match s with
             | (_, Some x) => test_error g (str "c2s") (str "ServeOnce") ;;; ret (Some x)
             | (Some c, None) =>
                 finally (tell (EvTestCloseLater (Some c))) (c2s_transfer g m c)
             | (None, None) =>
                 finally (tell (EvTestCloseLater None)) (panic nil_deref)
             end
         end
     end).

(** ** S2C *)

Definition d_set_conn (c : tconn) (d : s2c_data) : s2c_data :=
  S2CData (tc_uuid c) (tc_server_ip c) (tc_server_port c) (tc_client_ip c) (tc_client_port c)
    (d_start d) (d_end d) (d_mean d) (d_min_rtt d) (d_max_rtt d) (d_sum_rtt d) (d_count_rtt d)
    (d_client_mbps d) (d_tcp_info d) (d_error d).
Definition d_set_start (t : Z) (d : s2c_data) : s2c_data :=
  S2CData (d_uuid d) (d_server_ip d) (d_server_port d) (d_client_ip d) (d_client_port d)
    (Some t) (d_end d) (d_mean d) (d_min_rtt d) (d_max_rtt d) (d_sum_rtt d) (d_count_rtt d)
    (d_client_mbps d) (d_tcp_info d) (d_error d).
Definition d_set_end (t : Z) (d : s2c_data) : s2c_data :=
  S2CData (d_uuid d) (d_server_ip d) (d_server_port d) (d_client_ip d) (d_client_port d)
    (d_start d) (Some t) (d_mean d) (d_min_rtt d) (d_max_rtt d) (d_sum_rtt d) (d_count_rtt d)
    (d_client_mbps d) (d_tcp_info d) (d_error d).
(** s2c.go:127-132: milliseconds become durations in nanoseconds. *)
Definition d_set_stats (w : web100) (mean : f64) (d : s2c_data) : s2c_data :=
  S2CData (d_uuid d) (d_server_ip d) (d_server_port d) (d_client_ip d) (d_client_port d)
    (d_start d) (d_end d) mean
    (w_min_rtt w * 1000000) (w_max_rtt w * 1000000) (w_sum_rtt w * 1000000) (w_count_rtt w)
    (d_client_mbps d) (Some (w_tcp_info w)) (d_error d).
Definition d_set_client (x : f64) (d : s2c_data) : s2c_data :=
  S2CData (d_uuid d) (d_server_ip d) (d_server_port d) (d_client_ip d) (d_client_port d)
    (d_start d) (d_end d) (d_mean d) (d_min_rtt d) (d_max_rtt d) (d_sum_rtt d) (d_count_rtt d)
    x (d_tcp_info d) (d_error d).
Definition d_set_error (e : err) (d : s2c_data) : s2c_data :=
  S2CData (d_uuid d) (d_server_ip d) (d_server_port d) (d_client_ip d) (d_client_port d)
    (d_start d) (d_end d) (d_mean d) (d_min_rtt d) (d_max_rtt d) (d_sum_rtt d) (d_count_rtt d)
    (d_client_mbps d) (d_tcp_info d) (Some e).

(** What reflection sees of an s2c.ArchivalData, s2c.go:19-46: floats and the pointer
    are kinds SendMetrics skips, durations print through their String method, times
    are structs with a String method. *)
Definition d_view (g : config) (d : s2c_data) : list (bytes * fval) :=
  [ (str "UUID", FStr (d_uuid d));
    (str "ServerIP", FStr (d_server_ip d)); (str "ServerPort", FInt (d_server_port d));
    (str "ClientIP", FStr (d_client_ip d)); (str "ClientPort", FInt (d_client_port d));
    (str "StartTime", FStringer (c_time_text g (d_start d)));
    (str "EndTime", FStringer (c_time_text g (d_end d)));
    (str "MeanThroughputMbps", FOther);
    (str "MinRTT", FNamedInt (c_dur_text g (d_min_rtt d)));
    (str "MaxRTT", FNamedInt (c_dur_text g (d_max_rtt d)));
    (str "SumRTT", FNamedInt (c_dur_text g (d_sum_rtt d)));
    (str "CountRTT", FInt (d_count_rtt d));
    (str "ClientReportedMbps", FOther);
    (str "TCPInfo", FOther);
    (str "Error", FStr (match d_error d with Some e => c_err_text g e | None => [] end)) ].

(** s2c.go:125-126: 8 * bytes / seconds / 1000. *)
Definition s2c_kbps (acked dur : Z) : f64 :=
  fdiv (fdiv (fmul (f_of_int 8) (f_of_int acked)) (dur_seconds dur)) (f_of_int 1000).

(** s2c.go:158-178: the metric lines and TestFinalize. *)
Definition s2c_finish (g : config) (m : encoding) (w : web100) : Go s2c_data (option err) :=
  e <- send_lines m (metric_lines (w_view w) []) ;;
  match e with
  | Some x => test_error g (str "s2c") (str "SendMetricsLegacy") ;;; ret (Some x)
  | None =>
      d <- get ;;
      e <- send_lines m (metric_lines (d_view g d) (str "NDTResult.S2C.")) ;;
      match e with
      | Some x => test_error g (str "s2c") (str "SendMetricsArchival") ;;; ret (Some x)
      | None =>
          e <- send m TestFinalize [] ;;
          match e with
          | Some x => test_error g (str "s2c") (str "TestFinalize") ;;; ret (Some x)
          | None => ret None
          end
      end
  end.

(** s2c.go:121-178: results, client rate, metric lines. *)
Definition s2c_report (g : config) (m : encoding) (w : web100) (dur : Z)
  : Go s2c_data (option err) :=
  let acked := ti_bytes_acked (w_tcp_info w) in
  let kbps := s2c_kbps acked dur in
  modify (d_set_stats w (fdiv kbps (f_of_int 1000))) ;;;
  e <- send_s2c m (f_to_int64 kbps) 0 acked ;;
  match e with
  | Some x => test_error g (str "s2c") (str "TestMsgSend") ;;; ret (Some x)
  | None =>
      r <- receive m TestMsg ;;
      match r with
      | (None, Some x) => test_error g (str "s2c") (str "TestMsgRcv") ;;; ret (Some x)
      | (p, _) =>
          let text := match p with Some t => t | None => [] end in
          match parse_float text with
          | Some x => modify (d_set_client (fdiv x (f_of_int 1000)))
          | None => ret tt
          end ;;;
          s2c_finish g m w
      end
  end.

(** s2c.go:84-178, with the test connection. *)
Definition s2c_transfer (g : config) (m : encoding) (c : tconn) : Go s2c_data (option err) :=
  modify (d_set_conn c) ;;;
  e <- send m TestStart [] ;;
  match e with
  | Some x =>
      tell (EvTestClose c) ;;; test_error g (str "s2c") (str "TestStart") ;;; ret (Some x)
  | None =>
      tell (EvStartMeasuring c) ;;;
      t0 <- now ;;
      modify (d_set_start t0) ;;;
      tell (EvFill c) ;;;
      t1 <- now ;;
      modify (d_set_end t1) ;;;
      w <- op (EvStopMeasuring c) ;;
      match w with
      | None =>
          tell (EvTestClose c) ;;;
          test_error g (str "s2c") (str "web100Metrics") ;;; ret (Some ErrNoStats)
      | Some w =>
          tell (EvTestClose c) ;;;
          s2c_report g m w (t1 - t0)
      end
  end.

(** s2c.go:61-178: the body of s2c.ManageTest. *)
Definition s2c_body (g : config) (m : encoding) : Go s2c_data (option err) :=
  l <- op (EvListen (str "s2c")) ;;
  match l with
  | inr e => test_error g (str "s2c") (str "StartSingleServingServer") ;;; ret (Some e)
  | inl port =>
      e <- send m TestPrepare (itoa port) ;;
      match e with
      | Some x => test_error g (str "s2c") (str "TestPrepare") ;;; ret (Some x)
      | None =>
          s <- op (EvServe (str "s2c")) ;;
          match s with
          | (Some c, None) => s2c_transfer g m c
          | (_, Some x) => test_error g (str "s2c") (str "ServeOnce") ;;; ret (Some x)
          | (None, None) => test_error g (str "s2c") (str "ServeOnce") ;;; ret (Some ErrNilConn)
          end
      end
  end.

(** s2c.ManageTest, s2c.go:49-179, with the deferred copy of the error (53-57). *)
Definition s2c_manage (g : config) (m : encoding) : Go s2c_data (option err) :=
  defer (fun r => match r with
                  | Ok (Some e) => modify (d_set_error e) ;;; ret r
                  | _ => ret r
                  end)
    (s2c_body g m).

(** ** META *)

Definition max_client_messages : Z := 20.

(** meta.go:51-63: the pair in a message, if it has a colon. *)
Definition meta_pair (message : bytes) : option (bytes * bytes) :=
  match split2 58 message with
  | (_, None) => None
  | (a, Some b) =>
      let name := trim_space a in
      let value := trim_space b in
      Some (if 63 <? len name then take 63 name else name,
            if 255 <? len value then take 255 value else value)
  end.

(** The loop of meta.ManageTest, meta.go:44-64; [fuel] is maxClientMessages minus
    count.  Result: number of messages, pairs, last error. *)
Fixpoint meta_loop {S} (fuel : nat) (m : encoding) (count : Z) (results : list (bytes * bytes))
  : Go S (Z * list (bytes * bytes) * option err) :=
  match fuel with
  | O => ret (count, results, None)
  | S f =>
      done <- op EvCtxDone ;;
      if done : bool then ret (count, results, None)
      else
        r <- receive m TestMsg ;;
        match r with
        | (_, Some e) => ret (count, results, Some e)
        | (None, None) | (Some [], None) => ret (count, results, None)
        | (Some message, None) =>
            meta_loop f m (count + 1)
              (match meta_pair message with Some p => results ++ [p] | None => results end)
        end
  end.

(** meta.ManageTest, meta.go:22-84. *)
Definition meta_manage (g : config) (m : encoding)
  : Go unit (list (bytes * bytes) * option err) :=
  e <- send m TestPrepare [] ;;
  match e with
  | Some x => test_error g (str "meta") (str "TestPrepare") ;;; ret ([], Some x)
  | None =>
      e <- send m TestStart [] ;;
      match e with
      | Some x => test_error g (str "meta") (str "TestStart") ;;; ret ([], Some x)
      | None =>
          l <- meta_loop (Z.to_nat max_client_messages) m 0 [] ;;
          let '(count, results, e) := l in
          done <- op EvCtxDone ;;
          if done : bool then
            test_error g (str "meta") (str "context") ;;; ret ([], Some ErrContext)
          else
            match e with
            | Some x => test_error g (str "meta") (str "ReceiveMessage") ;;; ret ([], Some x)
            | None =>
                tell (EvObserve (str "SubmittedMetaValues") [] (f_of_int count)) ;;;
                e <- send m TestFinalize [] ;;
                match e with
                | Some x => test_error g (str "meta") (str "TestFinalize") ;;; ret ([], Some x)
                | None => ret (results, None)
                end
            end
      end
  end.

(** ** The control channel *)

Definition set_protocol (p : bytes) (r : record) : record :=
  Record_ (r_uuid r) (r_protocol r) (r_server_meta r) (r_server_ip r) (r_server_port r)
    (r_client_ip r) (r_client_port r) (r_start r) (r_end r) p (r_c2s r) (r_s2c r) (r_client_meta r).
Definition set_c2s (d : c2s_data) (r : record) : record :=
  Record_ (r_uuid r) (r_protocol r) (r_server_meta r) (r_server_ip r) (r_server_port r)
    (r_client_ip r) (r_client_port r) (r_start r) (r_end r) (r_message_protocol r)
    (Some d) (r_s2c r) (r_client_meta r).
Definition set_s2c (d : s2c_data) (r : record) : record :=
  Record_ (r_uuid r) (r_protocol r) (r_server_meta r) (r_server_ip r) (r_server_port r)
    (r_client_ip r) (r_client_port r) (r_start r) (r_end r) (r_message_protocol r)
    (r_c2s r) (Some d) (r_client_meta r).
Definition set_meta (l : list (bytes * bytes)) (r : record) : record :=
  Record_ (r_uuid r) (r_protocol r) (r_server_meta r) (r_server_ip r) (r_server_port r)
    (r_client_ip r) (r_client_port r) (r_start r) (r_end r) (r_message_protocol r)
    (r_c2s r) (r_s2c r) l.
Definition set_end (t : Z) (r : record) : record :=
  Record_ (r_uuid r) (r_protocol r) (r_server_meta r) (r_server_ip r) (r_server_port r)
    (r_client_ip r) (r_client_port r) (r_start r) (Some t) (r_message_protocol r)
    (r_c2s r) (r_s2c r) (r_client_meta r).

(** s.LoginCeremony: one message is read, then wshandler.go:45-52 or
    plain.go:173-200 decide; the encoding of the connection afterwards (always JSON
    for WS and WSS, protocol.go:238-240). *)
Definition login_of (k : server_kind) (inbuff : option bytes) : login_result * encoding :=
  match k with
  | KPlain => login_plain inbuff
  | _ => (login_ws inbuff, JSON)
  end.

(** A bit of the requested test set; Go's & on int. *)
Definition wants (tests bit : Z) : bool := negb (Z.land tests bit =? 0).

Definition count_if {S} (g : config) (b : bool) (name : bytes) : Go S unit :=
  if b then tell (EvCount (str "ClientRequestedTests") [label g; name]) else ret tt.

(** The C2S block, ndt5.go:206-215.  Result: the rate for the final message. *)
Definition run_c2s (g : config) (m : encoding) : Go record f64 :=
  r <- call c2s_empty (c2s_manage g m) ;;
  let '(d, e) := r in
  modify (set_c2s d) ;;;
  (if f_is_zero (u_mean d) then ret tt
   else tell (EvObserve (str "TestRate") [label g; str "c2s"; c_is_mon g] (u_mean d))) ;;;
  tell (EvCount (str "ClientTestResults")
          [label g; str "c2s"; result_label (is_some e) (u_mean d)]) ;;;
  panic_on_error g e (str "C2S - Could not run c2s test") ;;;
  ret (if f_is_zero (u_mean d) then f_zero else u_mean d).

(** The S2C block, ndt5.go:216-225. *)
Definition run_s2c (g : config) (m : encoding) : Go record f64 :=
  r <- call s2c_empty (s2c_manage g m) ;;
  let '(d, e) := r in
  modify (set_s2c d) ;;;
  (if f_is_zero (d_mean d) then ret tt
   else tell (EvObserve (str "TestRate") [label g; str "s2c"; c_is_mon g] (d_mean d))) ;;;
  tell (EvCount (str "ClientTestResults")
          [label g; str "s2c"; result_label (is_some e) (d_mean d)]) ;;;
  panic_on_error g e (str "S2C - Could not run s2c test") ;;;
  ret (if f_is_zero (d_mean d) then f_zero else d_mean d).

(** The META block, ndt5.go:226-229. *)
Definition run_meta (g : config) (m : encoding) : Go record unit :=
  r <- call tt (meta_manage g m) ;;
  let '(_, (l, e)) := r in
  modify (set_meta l) ;;;
  panic_on_error g e (str "META - Could not run meta test").

(** The text of MsgResults, ndt5.go:230. *)
Definition speed_msg (c2s s2c : f64) : bytes :=
  str "You uploaded at " ++ format_f4 (fmul c2s (f_of_int 1000)) ++
  str " and downloaded at " ++ format_f4 (fmul s2c (f_of_int 1000)).

(** The list of tests sent to the client, ndt5.go:159-189, 202. *)
Definition test_list (c2s s2c meta : bool) : bytes :=
  join (str " ") ((if c2s then [itoa 2] else []) ++ (if s2c then [itoa 4] else []) ++
                  (if meta then [itoa 32] else [])).

(** ndt5.go:193-238: everything after the request has been understood; it depends on
    the three tests to run only. *)
Definition converse (g : config) (m : encoding) (c2s s2c meta : bool) : Go record unit :=
  (match m with Unknown => panic nil_deref | _ => ret tt end) ;;;     (* m.Encoding() *)
  modify (set_protocol (encoding_string m)) ;;;
  e <- send m SrvQueue (str "0") ;;
  panic_on_error g e (str "SrvQueue - Could not send SrvQueue") ;;;
  e <- send m MsgLogin (str "v5.0-NDTinGO") ;;
  panic_on_error g e (str "MsgLoginVersion - Could not send MsgLogin with version") ;;;
  e <- send m MsgLogin (test_list c2s s2c meta) ;;
  panic_on_error g e (str "MsgLoginTests - Could not send MsgLogin with the tests") ;;;
  c2s_rate <- (if c2s then run_c2s g m else ret f_zero) ;;
  s2c_rate <- (if s2c then run_s2c g m else ret f_zero) ;;
  (if meta then run_meta g m else ret tt) ;;;
  e <- send m MsgResults (speed_msg c2s_rate s2c_rate) ;;
  panic_on_error g e (str "MsgResults - Could not send test results message") ;;;
  e <- send m MsgLogout [] ;;
  panic_on_error g e (str "MsgLogout - Could not send MsgLogout").

(** ndt5.go:154-238 for the test set the client asked for. *)
Definition serve_tests (g : config) (m : encoding) (tests : Z) : Go record unit :=
  if Z.land tests 16 =? 0 then test_error g (str "control") (str "TestStatus")
  else
    let mid := wants tests 1 in let c2s := wants tests 2 in let s2c := wants tests 4 in
    let sfw := wants tests 8 in let meta := wants tests 32 in
    count_if g mid (str "mid") ;;;
    count_if g c2s (str "c2s") ;;;
    count_if g s2c (str "s2c") ;;;
    count_if g sfw (str "sfw") ;;;
    count_if g meta (str "meta") ;;;
    tell (EvCount (str "ClientRequestedTestSuites")
            [label g;
             join (str "-")
               ([str "status"] ++ (if mid then [str "mid"] else []) ++
                (if c2s then [str "c2s"] else []) ++ (if s2c then [str "s2c"] else []) ++
                (if sfw then [str "sfw"] else []) ++ (if meta then [str "meta"] else []))]) ;;;
    converse g m c2s s2c meta.

(** ndt5.go:148-238. *)
Definition control_body (g : config) : Go record unit :=
  inbuff <- op EvRead ;;
  match login_of (c_kind g) inbuff with
  | (LoginPanic, _) => panic nil_deref
  | (LoginErr, _) =>
      test_error g (str "control") (str "LoginCeremony") ;;;
      panic_on_error g (Some (ErrIo [])) (str "Login - error reading JSON message")
  | (LoginOk tests, m) => serve_tests g m tests
  end.

(** handleControlChannel, ndt5.go:118-239.  The context's 45 second limit and its
    cancellation act on the tests only through the events of the tests. *)
Definition handle_inner (g : config) : Go unit unit := fun s =>
  finally (tell EvClose)
    (t <- now ;;
     let r0 := Record_ (c_uuid g) (conn_type (c_kind g)) (c_meta g)
                 (c_server_ip g) (c_server_port g) (c_client_ip g) (c_client_port g)
                 t None [] None None [] in
     _ <- call r0
       (finally (t1 <- now ;;
                 modify (set_end t1) ;;;
                 r <- get ;;
                 tell (EvSave r))
          (control_body g)) ;;
     ret tt) s.

(** HandleControlChannel, ndt5.go:95-116.  The duration that is observed is not
    modelled (the value is f_zero). *)
Definition handle_control_channel (g : config) : Go unit unit :=
  tell (EvGauge (str "ActiveTests") [label g] 1) ;;;
  finally (tell (EvGauge (str "ActiveTests") [label g] (-1)))
    (finally (tell (EvObserve (str "ControlChannelDuration") [label g] f_zero))
       (defer (fun r => match r with
                        | Panic msg =>
                            tell (EvCount (str "ControlPanicCount")
                                    [label g; panic_msg_to_err_type msg]) ;;;
                            tell (EvCount (str "ControlCount") [label g; str "panic"]) ;;;
                            ret (Ok tt)
                        | Ok _ =>
                            tell (EvCount (str "ControlCount") [label g; str "okay"]) ;;;
                            ret r
                        end)
          (handle_inner g))).
