(** Model of the ndt7 protocol: ndt7/handler/handler.go, ndt7/download, ndt7/upload,
    ndt7/receiver, ndt7/ping, ndt7/closer and ndt7/metrics. *)
From Coq Require Import String ZArith List Bool.
From Verif Require Import Base GoJSON GoFloat GoStrings Web100Model ControlModel QueryModel Effect.
Import ListNotations.
Open Scope Z_scope.
Open Scope eff_scope.

(** ** Values *)

(** ndt7/spec/spec.go:81-87. *)
Inductive kind7 := Download | Upload.
Definition kind_name (k : kind7) : bytes :=
  match k with Download => str "download" | Upload => str "upload" end.

(** inetdiag.BBRInfo. *)
Record bbr_info := BBRInfo { b_bw : Z; b_min_rtt : Z; b_pacing_gain : Z; b_cwnd_gain : Z }.

(** model.Measurement, ndt7/model/archivaldata.go:23-61; pointers are options.
    Elapsed times are microseconds. *)
Record conn_info := ConnInfo { ci_client : bytes; ci_server : bytes; ci_uuid : bytes; ci_start : Z }.
Record measurement := Measurement {
  m_app : option (Z * Z);               (* NumBytes, ElapsedTime *)
  m_conn : option conn_info;
  m_bbr : option (bbr_info * Z);        (* with ElapsedTime *)
  m_tcp : option (tcp_info * Z)         (* with ElapsedTime *)
}.

(** model.ArchivalData, archivaldata.go:12-20.  [None] is the zero time. *)
Record archival := Archival {
  a_uuid : bytes; a_start : option Z; a_end : option Z;
  a_server : list measurement; a_client : list measurement;
  a_client_meta : list (bytes * bytes); a_server_meta : list (bytes * bytes)
}.
Definition set_start t a := Archival (a_uuid a) (Some t) (a_end a) (a_server a) (a_client a) (a_client_meta a) (a_server_meta a).
Definition set_end t a := Archival (a_uuid a) (a_start a) (Some t) (a_server a) (a_client a) (a_client_meta a) (a_server_meta a).
Definition add_server m a := Archival (a_uuid a) (a_start a) (a_end a) (a_server a ++ [m]) (a_client a) (a_client_meta a) (a_server_meta a).
Definition add_clients ms a := Archival (a_uuid a) (a_start a) (a_end a) (a_server a) (a_client a ++ ms) (a_client_meta a) (a_server_meta a).
Definition add_client_meta ms a := Archival (a_uuid a) (a_start a) (a_end a) (a_server a) (a_client a) (a_client_meta a ++ ms) (a_server_meta a).
Definition set_server_meta ms a := Archival (a_uuid a) (a_start a) (a_end a) (a_server a) (a_client a) (a_client_meta a) ms.

(** A net.Addr: a TCP address (IP and zone as printed, port), or another one, of which
    only the text is known. *)
Inductive addr := TcpAddr (ip zone : bytes) (port : Z) | OtherAddr (text : bytes).
(** Addr.String: net.JoinHostPort of the printed IP, with its zone, and the port. *)
Definition addr_text (a : addr) : bytes :=
  match a with
  | TcpAddr ip zone port =>
      let host := match zone with [] => ip | _ => ip ++ str "%" ++ zone end in
      (if mem 58 host then str "[" ++ host ++ str "]" else host) ++ str ":" ++ itoa port
  | OtherAddr t => t
  end.

(** A WebSocket connection: its two addresses. *)
Record wsconn := WsConn { w_local : addr; w_remote : addr }.

(** data.NDT7Result, data/result.go:48-70, without the constant version strings. *)
Record result7 := Result7 {
  n_client_ip : bytes; n_client_port : Z; n_server_ip : bytes; n_server_port : Z;
  n_start : Z; n_end : Z;
  n_download : option archival; n_upload : option archival
}.

(** inetdiag.SockID. *)
Record sock_id := SockID { id_src : bytes; id_dst : bytes; id_sport : Z; id_dport : Z; id_cookie : Z }.

Definition error := bytes.

(** ** Events *)

(** What the select of the download sender finds on the measurer's channel: it is
    closed, it holds a measurement, or (download only) neither. *)
Inductive taken := Closed | Got (m : measurement) | NotReady.

(** What NextReader and then ReadAll meet.  Frames that gorilla/websocket answers on
    its own (ping) are left out; a close frame is a read error. *)
Inductive frame_in := InText | InBinary | InPong (payload : bytes) | InError.
Inductive body_in := BodyText (data : bytes) | BodyPong (payload : bytes) | BodyError.

Inductive event7 :=
| EBadRequest                                 (* Connection: Close and status 400 *)
| EUpgrade (c : option wsconn)                (* upgrader.Upgrade *)
| EUuid (u : option bytes)                    (* ConnInfo.GetUUID *)
| ECancel                                     (* the cancel of runMeasurement *)
| ENow (t : Z)                                (* time.Now, nanoseconds *)
| EFlowCreated (t : Z) (uuid : bytes) (id : sock_id)
| EFlowDeleted (t : Z) (uuid : bytes)
| ENewFile (uuid : bytes) (k : kind7) (e : option error)
| EWriteResult (r : result7) (e : option error)
| ECloseFile (e : option error)
| EExit                                       (* rtx.Must ends the process *)
| ECount (name : bytes) (labels : list bytes)
| EObserve (name : bytes) (labels : list bytes) (v : f64)
(* sender *)
| EMeasurerStart | EMeasurerStop
| EPrepare (size : Z) (e : option error)      (* makePreparedMessage *)
| EWriteDeadline (t : Z) (e : option error)
| ETake (x : taken)
| ESendMeasurement (m : measurement) (e : option error)   (* conn.WriteJSON *)
| ESendPing (payload : bytes) (deadline : Z) (e : option error)
| ESendBulk (size : Z) (e : option error)     (* conn.WritePreparedMessage *)
| ESendClose (code : Z) (reason : bytes) (deadline : Z) (e : option error)
| EReceived (ms : list measurement)           (* what the receiver has stored when Do returns *)
(* receiver *)
| EReadLimit (n : Z)
| EReadDeadline (t : Z) (e : option error)
| ECtxErr (b : bool)                          (* receiverctx.Err() != nil *)
| EFrame (f : frame_in)
| EBody (b : body_in)
| EStore (m : measurement).                   (* append to data.ClientMeasurements *)

(** Why a function does not return: a panic; the process has ended; or the loop is
    still running after the number of iterations under consideration. *)
Inductive stop := Panicked (text : bytes) | Exited | Running.

Notation Go7 := (M event7 stop).

(** defer: the deferred function runs on return and on panic, but not if the process
    has ended or the body is still running. *)
Definition go_defer {S A} (cleanup : Go7 S unit) (body : Go7 S A) : Go7 S A :=
  defer (fun r => match r with
                  | Panic Exited | Panic Running => ret r
                  | _ => cleanup ;;; ret r
                  end) body.

Definition now7 {S} : Go7 S Z := op ENow.

(** spec.MaxRuntime, spec.go:75, in nanoseconds. *)
Definition max_runtime : Z := 15 * 10 ^ 9.

(** ** ndt7/metrics/metrics.go *)

(** ConnLabel, metrics.go:44-54. *)
Definition conn_label7 (c : wsconn) : bytes :=
  if has_suffix (str "443") (addr_text (w_local c)) then str "ndt7+wss"
  else if has_suffix (str "80") (addr_text (w_local c)) then str "ndt7+ws"
  else str "ndt7+unknown".

(** The counters of metrics.go:13-41 and their labels. *)
Definition count_conn {S} (k : kind7) (status : bytes) : Go7 S unit :=
  tell (ECount (str "ndt7_client_connections_total") [kind_name k; status]).
Definition count_result {S} (proto : bytes) (k : kind7) (label : bytes) : Go7 S unit :=
  tell (ECount (str "ndt7_client_test_results_total") [proto; kind_name k; label]).
Definition count_send {S} (proto : bytes) (k : kind7) (what : bytes) : Go7 S unit :=
  tell (ECount (str "ndt7_client_sender_errors_total") [proto; kind_name k; what]).
(** The receiver prints its own kind, an integer: receiver.go:21-24. *)
Definition count_recv {S} (proto : bytes) (k : kind7) (what : bytes) : Go7 S unit :=
  tell (ECount (str "ndt7_client_receiver_errors_total")
         [proto; match k with Download => str "0" | Upload => str "1" end; what]).

(** ** ndt7/ping/ping.go and ndt7/closer/closer.go *)

(** SendTicks, ping.go:12-21; json.Marshal of an int64 is its decimal form and cannot
    fail. *)
Definition send_ticks {S} (deadline : Z) : Go7 S (option error) :=
  ticks <- now7 ;;
  op (ESendPing (itoa ticks) deadline).

(** json.Unmarshal into an int64 that is 0: a JSON number that is a 64-bit decimal
    integer, or null, which leaves it unchanged. *)
Definition json_int64 (s : bytes) : option Z :=
  match json_parse s with
  | Some (JNum w) => atoi w
  | Some JNull => Some 0
  | _ => None
  end.
(** ParseTicks, ping.go:23-32, with the clock reading [t]; [None] is an error. *)
Definition parse_ticks (s : bytes) (t : Z) : option Z :=
  option_map (fun prev => wrap64 (t - prev)) (json_int64 s).

(** StartClosing, closer.go:12-22: an error is only logged. *)
Definition start_closing {S} : Go7 S unit :=
  t <- now7 ;;
  op (ESendClose 1000 (str "Done sending") (t + 10 ^ 9)) ;;;
  ret tt.

(** ** ndt7/download/sender/sender.go *)

(** The loop of Start, sender.go:75-138, for at most [fuel] iterations.  [msg] is the size
    of preparedMessage, [size] and [total] are bulkMessageSize and totalSent. *)
Fixpoint download_loop (fuel : nat) (proto : bytes) (p : params) (deadline msg size total : Z)
  : Go7 archival (option error) :=
  match fuel with
  | O => panic Running
  | S n =>
      x <- op ETake ;;
      match x with
      | Closed =>
          start_closing ;;;
          count_send proto Download (str "measurer-closed") ;;;
          ret None
      | Got m =>
          e <- op (ESendMeasurement m) ;;
          match e with
          | Some e => count_send proto Download (str "write-json") ;;; ret (Some e)
          | None =>
              modify (add_server m) ;;;
              e <- send_ticks deadline ;;
              match e with
              | Some e => count_send proto Download (str "ping-send-ticks") ;;; ret (Some e)
              | None =>
                  if p_early p && match m_tcp m with
                                  | Some (t, _) => p_max_bytes p <=? ti_bytes_acked t
                                  | None => false
                                  end
                  then
                    start_closing ;;;
                    count_send proto Download (str "measurer-closed-early") ;;;
                    ret None
                  else download_loop n proto p deadline msg size total
              end
          end
      | NotReady =>
          e <- op (ESendBulk msg) ;;
          match e with
          | Some e => count_send proto Download (str "write-prepared-message") ;;; ret (Some e)
          | None =>
              let total := wrap64 (total + size) in
              if 2 ^ 20 <=? size then download_loop n proto p deadline msg size total
              else if Z.quot total 16 <? size then download_loop n proto p deadline msg size total
              else
                let size := wrap64 (size * 2) in
                e <- op (EPrepare size) ;;
                match e with
                | Some e => count_send proto Download (str "make-prepared-message") ;;; ret (Some e)
                | None => download_loop n proto p deadline size size total
                end
          end
      end
  end.

(** Start, sender.go:41-139. *)
Definition download_sender (fuel : nat) (proto : bytes) (p : params) : Go7 archival (option error) :=
  tell EMeasurerStart ;;;
  go_defer (tell EMeasurerStop)
    (e <- op (EPrepare (2 ^ 13)) ;;
     match e with
     | Some e => count_send proto Download (str "make-prepared-message") ;;; ret (Some e)
     | None =>
         t <- now7 ;;
         let deadline := t + max_runtime in
         e <- op (EWriteDeadline deadline) ;;
         match e with
         | Some e => count_send proto Download (str "set-write-deadline") ;;; ret (Some e)
         | None =>
             t <- now7 ;;
             modify (set_start t) ;;;
             go_defer (t <- now7 ;; modify (set_end t))
               (download_loop fuel proto p deadline (2 ^ 13) (2 ^ 13) 0)
         end
     end).

(** ** ndt7/upload/sender/sender.go *)

(** The loop of Start, sender.go:49-71.  A receive from the channel is never without
    result, so [NotReady] is no possible answer here. *)
Definition take_blocking {S} : Go7 S (option measurement) :=
  op (fun x => ETake (match x with Some m => Got m | None => Closed end)).

Fixpoint upload_loop (fuel : nat) (proto : bytes) (deadline : Z) : Go7 archival (option error) :=
  match fuel with
  | O => panic Running
  | S n =>
      x <- take_blocking ;;
      match x with
      | None =>
          start_closing ;;;
          count_send proto Upload (str "measurer-closed") ;;;
          ret None
      | Some m =>
          e <- op (ESendMeasurement m) ;;
          match e with
          | Some e => count_send proto Upload (str "write-json") ;;; ret (Some e)
          | None =>
              modify (add_server m) ;;;
              e <- send_ticks deadline ;;
              match e with
              | Some e => count_send proto Upload (str "ping-send-ticks") ;;; ret (Some e)
              | None => upload_loop n proto deadline
              end
          end
      end
  end.

(** Start, sender.go:24-72. *)
Definition upload_sender (fuel : nat) (proto : bytes) : Go7 archival (option error) :=
  tell EMeasurerStart ;;;
  go_defer (tell EMeasurerStop)
    (t <- now7 ;;
     let deadline := t + max_runtime in
     e <- op (EWriteDeadline deadline) ;;
     match e with
     | Some e => count_send proto Upload (str "set-write-deadline") ;;; ret (Some e)
     | None =>
         t <- now7 ;;
         modify (set_start t) ;;;
         go_defer (t <- now7 ;; modify (set_end t)) (upload_loop fuel proto deadline)
     end).

(** ** ndt7/receiver/receiver.go *)

Section Receiver.
  (** json.Unmarshal into a model.Measurement; any function will do. *)
  Variable decode : bytes -> option measurement.

  (** The pong handler, receiver.go:46-57: true if it returns an error.  The clock is
      read only if the payload is a number. *)
  Definition pong_handler {S} (proto : bytes) (k : kind7) (payload : bytes) : Go7 S bool :=
    match json_int64 payload with
    | Some _ => now7 ;;; ret false
    | None => count_recv proto k (str "ping-parse-ticks") ;;; ret true
    end.

  (** The loop of start, receiver.go:58-93, for at most [fuel] incoming frames.  [at_]
      is where the goroutine is: at the head of the loop, in NextReader or in
      ReadAll. *)
  Inductive position := AtHead | InNextReader | InReadAll.

  Fixpoint receive_loop (fuel : nat) (proto : bytes) (k : kind7) (at_ : position) : Go7 unit unit :=
    match fuel with
    | O => panic Running
    | S n =>
        match at_ with
        | AtHead =>
            done <- op ECtxErr ;;
            if done : bool then count_recv proto k (str "receiver-context-expired")
            else receive_loop n proto k InNextReader
        | InNextReader =>
            f <- op EFrame ;;
            match f with
            | InError => count_recv proto k (str "read-message-type")
            | InPong payload =>
                bad <- pong_handler proto k payload ;;
                if bad : bool then count_recv proto k (str "read-message-type")
                else receive_loop n proto k InNextReader
            | InBinary =>
                match k with
                | Download => count_recv proto k (str "wrong-message-type")
                | Upload => receive_loop n proto k AtHead
                end
            | InText => receive_loop n proto k InReadAll
            end
        | InReadAll =>
            b <- op EBody ;;
            match b with
            | BodyError => count_recv proto k (str "read-message")
            | BodyPong payload =>
                bad <- pong_handler proto k payload ;;
                if bad : bool then count_recv proto k (str "read-message")
                else receive_loop n proto k InReadAll
            | BodyText data =>
                match decode data with
                | None => count_recv proto k (str "unmarshal-client-message")
                | Some m => tell (EStore m) ;;; receive_loop n proto k AtHead
                end
            end
        end
    end.

  (** start, receiver.go:27-95. *)
  Definition receiver (fuel : nat) (proto : bytes) (k : kind7) : Go7 unit unit :=
    tell (EReadLimit (2 ^ 24)) ;;;
    t <- now7 ;;
    e <- op (EReadDeadline (t + max_runtime)) ;;
    match e with
    | Some _ => count_recv proto k (str "set-read-deadline")
    | None => receive_loop fuel proto k AtHead
    end.
End Receiver.

(** ** ndt7/download/download.go and ndt7/upload/upload.go *)

(** Do, lines 17-32 of both: the sender, then the wait for the receiver.  What the
    receiver, which runs at the same time, has stored by then is an input here; see
    DoModel.v for the two goroutines together. *)
Definition await_receiver : Go7 archival unit :=
  ms <- op EReceived ;; modify (add_clients ms).
Definition download_do (fuel : nat) (proto : bytes) (p : params) : Go7 archival (option error) :=
  e <- download_sender fuel proto p ;; await_receiver ;;; ret e.
Definition upload_do (fuel : nat) (proto : bytes) : Go7 archival (option error) :=
  e <- upload_sender fuel proto ;; await_receiver ;;; ret e.

(** ** ndt7/handler/handler.go *)

(** Handler, handler.go:34-52, without the places of its files and sockets. *)
Record handler := Handler { h_meta : list (bytes * bytes) }.

(** A request: raw query, Sec-WebSocket-Protocol header, and the monitoring flag of
    its access token as printed. *)
Record request7 := Request7 { q_raw : bytes; q_subprotocol : bytes; q_is_mon : bytes }.

Definition last_tcp (ms : list measurement) : option (tcp_info * Z) :=
  match rev ms with m :: _ => m_tcp m | [] => None end.
(** upRate and downRate, handler.go:227-245. *)
Definition rate_of (bytes_of : tcp_info -> Z) (ms : list measurement) : f64 :=
  match last_tcp ms with
  | Some (t, elapsed) => fdiv (fmul (f_of_int 8) (f_of_int (bytes_of t))) (f_of_int elapsed)
  | None => f_zero
  end.
Definition up_rate : list measurement -> f64 := rate_of ti_bytes_received.
Definition down_rate : list measurement -> f64 := rate_of ti_bytes_acked.

(** setupConn, handler.go:149-172.  If Upgrade fails it has itself answered the
    request. *)
Definition setup_conn {S} (q : request7) : Go7 S (option wsconn) :=
  if negb (beqb (q_subprotocol q) (str "net.measurementlab.ndt.v7"))
  then tell EBadRequest ;;; ret None
  else op EUpgrade.

(** setupResult, handler.go:175-202: the addresses and the socket identity. *)
Definition tcp_addr (a : addr) : bytes * Z :=
  match a with TcpAddr ip _ port => (ip, port) | OtherAddr _ => (str "::1", 1) end.
Definition sock_id_of (c : wsconn) : sock_id :=
  let '(cip, cport) := tcp_addr (w_remote c) in
  let '(sip, sport) := tcp_addr (w_local c) in
  SockID sip cip (sport mod 2 ^ 16) (cport mod 2 ^ 16) (-1).
Definition result_of (c : wsconn) (k : kind7) (start end_ : Z) (data : archival) : result7 :=
  let '(cip, cport) := tcp_addr (w_remote c) in
  let '(sip, sport) := tcp_addr (w_local c) in
  Result7 cip cport sip sport start end_
    (match k with Download => Some data | Upload => None end)
    (match k with Download => None | Upload => Some data end).

(** rtx.Must. *)
Definition must {S} (e : option error) : Go7 S unit :=
  match e with None => ret tt | Some _ => tell EExit ;;; panic Exited end.

(** writeResult, handler.go:204-212. *)
Definition write_result {S} (uuid : bytes) (k : kind7) (r : result7) : Go7 S unit :=
  e <- op (ENewFile uuid k) ;;
  must e ;;;
  e <- op (EWriteResult r) ;;
  must e ;;;
  op ECloseFile ;;;
  ret tt.

Section Handler.
  (** The subtest functions (download.Do and upload.Do), any programs; see [run_request]. *)
  Variable do_download : bytes -> params -> Go7 archival (option error).
  Variable do_upload : bytes -> Go7 archival (option error).

  (** runMeasurement from getData's success on, handler.go:104-144.  [meta] is the
      request's parameters in the order of iteration. *)
  Definition measure (h : handler) (q : request7) (k : kind7) (c : wsconn) (p : params)
      (uuid : bytes) (meta : values) : Go7 archival unit :=
    count_conn k (str "result") ;;;
    match client_metadata meta with
    | None => panic (Panicked (str "index out of range"))
    | Some ms =>
        modify (add_client_meta ms) ;;;
        modify (set_server_meta (h_meta h)) ;;;
        start <- now7 ;;
        tell (EFlowCreated start uuid (sock_id_of c)) ;;;
        go_defer
          (end_ <- now7 ;;
           data <- get ;;
           write_result uuid k (result_of c k start end_ data) ;;;
           tell (EFlowDeleted end_ uuid))
          (err <- match k with
                  | Download => do_download (conn_label7 c) p
                  | Upload => do_upload (conn_label7 c)
                  end ;;
           data <- get ;;
           let rate := match k with
                       | Download => down_rate (a_server data)
                       | Upload => up_rate (a_server data)
                       end in
           count_result (conn_label7 c) k (result_label (is_some err) rate) ;;;
           if fltb f_zero rate
           then tell (EObserve (str "ndt_test_rate_mbps")
                       [conn_label7 c; kind_name k; q_is_mon q] rate)
           else ret tt)
    end.

  (** runMeasurement, handler.go:74-145.  [v1] and [v2] are the request's parameters
      in the orders of the two iterations over them. *)
  Definition run_measurement (h : handler) (q : request7) (k : kind7) (v1 v2 : values) : Go7 unit unit :=
    match validate_early_exit v1 with
    | IndexPanic => panic (Panicked (str "index out of range"))
    | Reject => tell EBadRequest
    | Accept p =>
        oc <- setup_conn q ;;
        match oc with
        | None => count_conn k (str "websocket-error")
        | Some c =>
            go_defer (tell ECancel)
              (u <- op EUuid ;;
               match u with
               | None => count_conn k (str "uuid-error")
               | Some uuid =>
                   call (Archival uuid None None [] [] [] []) (measure h q k c p uuid v2) ;;;
                   ret tt
               end)
        end
    end.
End Handler.

(** The handler with the real subtests, each observed for at most [fuel] iterations. *)
Definition run_request (fuel : nat) : handler -> request7 -> kind7 -> values -> values -> Go7 unit unit :=
  run_measurement (download_do fuel) (upload_do fuel).
