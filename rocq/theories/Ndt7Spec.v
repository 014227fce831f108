(** Vocabulary of the ndt7 properties: what can be seen of a run, without reference to
    the functions of the model. *)
From Coq Require Import String ZArith List Bool.
From Verif Require Import Base JsonSpec GoFloat Web100Model ControlModel QueryModel QuerySpec Effect Ndt7Model.
Import ListNotations.
Open Scope Z_scope.

(** ** What a sender writes *)

Inductive frame :=
| FMeasurement (m : measurement)   (* text: a measurement *)
| FPing (payload : bytes)
| FBulk (size : Z)                 (* binary *)
| FClose (code : Z) (reason : bytes).

(** The frames handed to the connection, in order, and whether the write succeeded. *)
Definition frame_of_event (e : event7) : list (frame * bool) :=
  match e with
  | ESendMeasurement m r => [(FMeasurement m, negb (is_some r))]
  | ESendPing p _ r => [(FPing p, negb (is_some r))]
  | ESendBulk n r => [(FBulk n, negb (is_some r))]
  | ESendClose c s _ r => [(FClose c s, negb (is_some r))]
  | _ => []
  end.
Definition frames (tr : list event7) : list (frame * bool) := flat_map frame_of_event tr.

Definition is_close (f : frame * bool) : bool := match fst f with FClose _ _ => true | _ => false end.
Definition is_bulk (f : frame * bool) : bool := match fst f with FBulk _ => true | _ => false end.

(** The sizes of the binary messages, in order. *)
Definition bulk_sizes (tr : list event7) : list Z :=
  flat_map (fun f => match fst f with FBulk n => [n] | _ => [] end) (frames tr).

(** The measurements that were delivered, in order. *)
Definition delivered (tr : list event7) : list measurement :=
  flat_map (fun f => match f with (FMeasurement m, true) => [m] | _ => [] end) (frames tr).

(** The kernel reports that at least [limit] bytes were acknowledged. *)
Definition acked (limit : Z) (m : measurement) : Prop :=
  exists t elapsed, m_tcp m = Some (t, elapsed) /\ limit <= ti_bytes_acked t.

(** Everything a sender may write: measurements, each followed by a ping; binary messages
    between them in a download; and a close frame at the end, either because the
    measurements are over or right after a measurement that reaches the limit, if there
    is one.  The outcome is [Finished] (no error) or [Failed], each with a word that says
    why, or [Unfinished] (the sender is still at work). *)
Inductive outcome := Finished (why : bytes) | Failed (why : bytes) | Unfinished.
Definition closing : frame := FClose 1000 (str "Done sending").
Inductive dialogue (k : kind7) (limit : option Z) : list (frame * bool) -> outcome -> Prop :=
| dl_at_work : dialogue k limit [] Unfinished
| dl_no_deadline : dialogue k limit [] (Failed (str "set-write-deadline"))
| dl_no_buffer : k = Download -> dialogue k limit [] (Failed (str "make-prepared-message"))
| dl_close ok : dialogue k limit [(closing, ok)] (Finished (str "measurer-closed"))
| dl_bulk n fs o : k = Download -> dialogue k limit fs o -> dialogue k limit ((FBulk n, true) :: fs) o
| dl_bulk_fails n : k = Download ->
    dialogue k limit [(FBulk n, false)] (Failed (str "write-prepared-message"))
| dl_measurement m p fs o :
    (forall l, limit = Some l -> ~ acked l m) -> dialogue k limit fs o ->
    dialogue k limit ((FMeasurement m, true) :: (FPing p, true) :: fs) o
| dl_early m p l ok :
    limit = Some l -> acked l m ->
    dialogue k limit [(FMeasurement m, true); (FPing p, true); (closing, ok)]
      (Finished (str "measurer-closed-early"))
| dl_measurement_fails m : dialogue k limit [(FMeasurement m, false)] (Failed (str "write-json"))
| dl_ping_fails m p :
    dialogue k limit [(FMeasurement m, true); (FPing p, false)] (Failed (str "ping-send-ticks")).

(** What the caller sees of an outcome. *)
Definition returns (o : outcome) (r : res stop (option error)) : Prop :=
  match o with
  | Finished _ => r = Ok None
  | Failed _ => exists e, r = Ok (Some e)
  | Unfinished => r = Panic Running
  end.
(** The name of a direction in labels. *)
Definition direction (k : kind7) : bytes :=
  match k with Download => str "download" | Upload => str "upload" end.
(** What the operator sees of it: one increment of one counter. *)
Definition counts (proto : bytes) (k : kind7) (o : outcome) : list (list bytes) :=
  match o with
  | Finished w | Failed w => [[proto; direction k; w]]
  | Unfinished => []
  end.

(** The limit of a sender with the given parameters. *)
Definition limit_of (p : params) : option Z := if p_early p then Some (p_max_bytes p) else None.

(** The sum of the first n elements. *)
Definition sum_first (n : nat) (l : list Z) : Z := fold_right Z.add 0 (firstn n l).

(** The message sizes of the specification's appendix: start at 8 KiB; the next message
    has twice the size if that is below 1 MiB and at most 1/16 of what was sent. *)
Definition scaling_rule (l : list Z) : Prop :=
  (forall s, nth_error l 0 = Some s -> s = 8192) /\
  (forall i s s', nth_error l i = Some s -> nth_error l (S i) = Some s' ->
     ((s < 1048576 /\ 16 * s <= sum_first (S i) l) -> s' = 2 * s) /\
     (~ (s < 1048576 /\ 16 * s <= sum_first (S i) l) -> s' = s)).

(** ** Counters *)

(** The label lists with which a counter was incremented, in order. *)
Definition counted (name : string) (tr : list event7) : list (list bytes) :=
  flat_map (fun e => match e with ECount n ls => if beqb n (str name) then [ls] else [] | _ => [] end) tr.
Definition sender_errors := counted "ndt7_client_sender_errors_total".
Definition receiver_errors := counted "ndt7_client_receiver_errors_total".
Definition test_results := counted "ndt7_client_test_results_total".
Definition connections := counted "ndt7_client_connections_total".
Definition observed_rates (tr : list event7) : list (list bytes * f64) :=
  flat_map (fun e => match e with
                     | EObserve n ls v => if beqb n (str "ndt_test_rate_mbps") then [(ls, v)] else []
                     | _ => []
                     end) tr.

(** ** Clock *)

Definition clock (tr : list event7) : list Z :=
  flat_map (fun e => match e with ENow t => [t] | _ => [] end) tr.
(** The clock does not go backwards. *)
Inductive ascending : list Z -> Prop :=
| asc_nil : ascending []
| asc_cons x l : Forall (fun y => x <= y) l -> ascending l -> ascending (x :: l).

(** ** What a receiver meets *)

(** One input of the receiver. *)
Inductive input :=
| IExpired                 (* its context has ended *)
| IText (data : bytes)     (* a complete text message *)
| IBinary                  (* a binary message *)
| IPong (payload : bytes)
| INoMessage               (* an error while waiting for a message *)
| INoBody.                 (* an error within a text message *)
Definition input_of_event (e : event7) : list input :=
  match e with
  | ECtxErr true => [IExpired]
  | EFrame InBinary => [IBinary]
  | EFrame (InPong p) | EBody (BodyPong p) => [IPong p]
  | EFrame InError => [INoMessage]
  | EBody (BodyText d) => [IText d]
  | EBody BodyError => [INoBody]
  | _ => []
  end.
Definition inputs (tr : list event7) : list input := flat_map input_of_event tr.

(** The measurements that were stored, in order. *)
Definition stored (tr : list event7) : list measurement :=
  flat_map (fun e => match e with EStore m => [m] | _ => [] end) tr.

(** The texts that denote a 64-bit integer when decoded into one: JSON integers, with
    white space around them; null counts as 0. *)
Definition int64_text (s : bytes) (n : Z) : Prop :=
  (n = 0 /\ json_text s JNull) \/
  (exists w1 x w2, s = w1 ++ x ++ w2 /\ ws w1 /\ ws w2 /\ jnumber x /\ atoi x = Some n).

Section Fatal.
  Variable decode : bytes -> option measurement.
  (** The inputs that end a receiver. *)
  Definition fatal (k : kind7) (i : input) : Prop :=
    match i with
    | IExpired | INoMessage | INoBody => True
    | IText d => decode d = None
    | IBinary => k = Download
    | IPong p => forall n, ~ int64_text p n
    end.
  (** The measurements of a list of inputs. *)
  Definition measurements_of (l : list input) : list measurement :=
    flat_map (fun i => match i with
                       | IText d => match decode d with Some m => [m] | None => [] end
                       | _ => []
                       end) l.
End Fatal.

(** The words a receiver counts for the input that ends it. *)
Definition reasons (i : input) (ws : list bytes) : Prop :=
  match i with
  | IExpired => ws = [str "receiver-context-expired"]
  | IText _ => ws = [str "unmarshal-client-message"]
  | IBinary => ws = [str "wrong-message-type"]
  | IPong _ => ws = [str "ping-parse-ticks"; str "read-message-type"] \/
               ws = [str "ping-parse-ticks"; str "read-message"]
  | INoMessage => ws = [str "read-message-type"]
  | INoBody => ws = [str "read-message"]
  end.
Definition receiver_labels (proto : bytes) (k : kind7) (ws : list bytes) : list (list bytes) :=
  map (fun w => [proto; match k with Download => str "0" | Upload => str "1" end; w]) ws.

(** ** Requests *)

(** The results that were written completely. *)
Definition results_written (tr : list event7) : list result7 :=
  flat_map (fun e => match e with EWriteResult r None => [r] | _ => [] end) tr.
Definition files_created (tr : list event7) : list (bytes * kind7) :=
  flat_map (fun e => match e with ENewFile u k None => [(u, k)] | _ => [] end) tr.
(** The flow notifications: true for a new flow, false for an ended one. *)
Definition flow_events (tr : list event7) : list (bool * bytes) :=
  flat_map (fun e => match e with
                     | EFlowCreated _ u _ => [(true, u)]
                     | EFlowDeleted _ u => [(false, u)]
                     | _ => []
                     end) tr.

(** The events that belong to a subtest: what is sent and received on the connection, the
    clock and the counters of senders and receivers. *)
Definition subtest_event (e : event7) : Prop :=
  match e with
  | ENow _ | EMeasurerStart | EMeasurerStop | EPrepare _ _ | EWriteDeadline _ _ | ETake _
  | ESendMeasurement _ _ | ESendPing _ _ _ | ESendBulk _ _ | ESendClose _ _ _ _ | EReceived _
  | EReadLimit _ | EReadDeadline _ _ | ECtxErr _ | EFrame _ | EBody _ | EStore _ => True
  | ECount n _ => n = str "ndt7_client_sender_errors_total" \/ n = str "ndt7_client_receiver_errors_total"
  | _ => False
  end.

(** The end of a measurement: its result is written, or the process ends because it cannot
    be. *)
Inductive saving (u : bytes) (k : kind7) (end_ : Z) (r : result7) : list event7 -> bool -> Prop :=
| sv_saved e : saving u k end_ r
    [ENow end_; ENewFile u k None; EWriteResult r None; ECloseFile e; EFlowDeleted end_ u] true
| sv_no_file e : saving u k end_ r [ENow end_; ENewFile u k (Some e); EExit] false
| sv_no_write e : saving u k end_ r
    [ENow end_; ENewFile u k None; EWriteResult r (Some e); EExit] false.

(** The parts of a result. *)
Definition data_of (k : kind7) (r : result7) (d : archival) : Prop :=
  match k with
  | Download => n_download r = Some d /\ n_upload r = None
  | Upload => n_download r = None /\ n_upload r = Some d
  end.
(** The IP address and port of an address; those of other than TCP addresses are replaced. *)
Definition ip_port (a : addr) (ip : bytes) (port : Z) : Prop :=
  match a with
  | TcpAddr i _ p => ip = i /\ port = p
  | OtherAddr _ => ip = str "::1" /\ port = 1
  end.
Definition addresses (c : wsconn) (r : result7) : Prop :=
  ip_port (w_remote c) (n_client_ip r) (n_client_port r) /\
  ip_port (w_local c) (n_server_ip r) (n_server_port r).

(** The rate of a subtest in Mbit/s, from the last archived measurement: eight times the
    bytes acknowledged (download) or received (upload), divided by the microseconds. *)
Definition is_rate (k : kind7) (ms : list measurement) (v : f64) : Prop :=
  (exists ms0 m t elapsed, ms = ms0 ++ [m] /\ m_tcp m = Some (t, elapsed) /\
     v = fdiv (fmul (f_of_int 8)
                    (f_of_int (match k with Download => ti_bytes_acked t | Upload => ti_bytes_received t end)))
              (f_of_int elapsed)) \/
  (v = f_zero /\ (ms = [] \/ exists ms0 m, ms = ms0 ++ [m] /\ m_tcp m = None)).

(** What is counted after a subtest: the result, with its label, and the rate if it is
    positive. *)
Definition tallied (q : request7) (k : kind7) (proto : bytes) (failed : bool) (rate : f64) (tl : list event7) : Prop :=
  let label := (if failed then str "error" else str "okay") ++
               (if f_is_zero rate then str "-without-rate" else str "-with-rate") in
  let result := ECount (str "ndt7_client_test_results_total") [proto; direction k; label] in
  (fltb f_zero rate = true /\
     tl = [result; EObserve (str "ndt_test_rate_mbps") [proto; direction k; q_is_mon q] rate]) \/
  (fltb f_zero rate = false /\ tl = [result]).

(** The early_exit parameter asks for nothing, or for a limit in bytes. *)
Definition early_exit_limit (l : list (bytes * bytes)) (limit : option Z) : Prop :=
  (limit = None /\ values_of (str "early_exit") l = []) \/
  (limit = Some 250000000 /\ first_value (str "early_exit") l (str "250")).

Definition subprotocol : bytes := str "net.measurementlab.ndt.v7".

(** The events before the subtest. *)
Definition opening (k : kind7) (c : wsconn) (u : bytes) (start : Z) (id : sock_id) : list event7 :=
  [EUpgrade (Some c); EUuid (Some u);
   ECount (str "ndt7_client_connections_total") [direction k; str "result"];
   ENow start; EFlowCreated start u id].
(** What a result says: the addresses, the times and the data of the one subtest. *)
Definition result_parts (k : kind7) (c : wsconn) (start end_ : Z) (d : archival) (r : result7) : Prop :=
  addresses c r /\ n_start r = start /\ n_end r = end_ /\ data_of k r d.

Section Requests.
  (** The subtest that is run on a connection, given the parameters. *)
  Variable subtest : wsconn -> params -> Go7 archival (option error).
  Variables (h : handler) (q : request7) (k : kind7).
  (** The parameters of the request. *)
  Variable l : list (bytes * bytes).

  Definition count_of (status : bytes) : event7 :=
    ECount (str "ndt7_client_connections_total") [direction k; status].

  (** The parameters, the client metadata and the socket identity of a measurement. *)
  Definition begins (limit : option Z) (c : wsconn) (id : sock_id) (ms : list (bytes * bytes))
      (p : params) : Prop :=
    early_exit_limit l limit /\ limit_of p = limit /\ q_subprotocol q = subprotocol /\
    NoDup (map fst ms) /\
    (forall name v, In (name, v) ms <-> has_prefix (str "server_") name = false /\ first_value name l v) /\
    exists sip sport cip cport,
      ip_port (w_local c) sip sport /\ ip_port (w_remote c) cip cport /\
      id = SockID sip cip (sport mod 65536) (cport mod 65536) (-1).

  Inductive request_run : list event7 -> res stop unit -> Prop :=
  | rq_bad_value v : first_value (str "early_exit") l v -> v <> str "250" ->
      request_run [EBadRequest] (Ok tt)
  | rq_bad_subprotocol limit : early_exit_limit l limit -> q_subprotocol q <> subprotocol ->
      request_run [EBadRequest; count_of (str "websocket-error")] (Ok tt)
  | rq_no_upgrade limit : early_exit_limit l limit -> q_subprotocol q = subprotocol ->
      request_run [EUpgrade None; count_of (str "websocket-error")] (Ok tt)
  | rq_no_uuid limit c : early_exit_limit l limit -> q_subprotocol q = subprotocol ->
      request_run [EUpgrade (Some c); EUuid None; count_of (str "uuid-error"); ECancel] (Ok tt)
  | rq_unfinished limit c u start id ms p sub d :
      begins limit c id ms p ->
      run (subtest c p (Archival u None None [] [] ms (h_meta h))) sub (d, Panic Running) ->
      request_run (opening k c u start id ++ sub) (Panic Running)
  | rq_measured limit c u start id ms p sub d err rate tl end_ res sv :
      begins limit c id ms p ->
      run (subtest c p (Archival u None None [] [] ms (h_meta h))) sub (d, Ok err) ->
      is_rate k (a_server d) rate -> tallied q k (conn_label7 c) (is_some err) rate tl ->
      result_parts k c start end_ d res -> saving u k end_ res sv true ->
      request_run (opening k c u start id ++ sub ++ tl ++ sv ++ [ECancel]) (Ok tt)
  | rq_panicked limit c u start id ms p sub d t end_ res sv :
      begins limit c id ms p ->
      run (subtest c p (Archival u None None [] [] ms (h_meta h))) sub (d, Panic (Panicked t)) ->
      result_parts k c start end_ d res -> saving u k end_ res sv true ->
      request_run (opening k c u start id ++ sub ++ sv ++ [ECancel]) (Panic (Panicked t))
  | rq_exited limit c u start id ms p sub d r tl end_ res sv :
      begins limit c id ms p ->
      run (subtest c p (Archival u None None [] [] ms (h_meta h))) sub (d, r) ->
      ((exists t, r = Panic (Panicked t) /\ tl = []) \/
       (exists err rate, r = Ok err /\ is_rate k (a_server d) rate /\
          tallied q k (conn_label7 c) (is_some err) rate tl)) ->
      result_parts k c start end_ d res -> saving u k end_ res sv false ->
      request_run (opening k c u start id ++ sub ++ tl ++ sv) (Panic Exited).
End Requests.

(** ** Whole requests *)

(** The measurements that the receiver stored. *)
Definition received (tr : list event7) : list measurement :=
  flat_map (fun e => match e with EReceived ms => ms | _ => [] end) tr.

(** The limit of a sender: uploads have none. *)
Definition kind_limit (k : kind7) (p : params) : option Z :=
  match k with Download => limit_of p | Upload => None end.

(** What a request with the subtests of the server leaves behind. *)
Definition leaves (h : handler) (k : kind7) (l : list (bytes * bytes)) (tr : list event7) (r : res stop unit) : Prop :=
  ((forall u, ~ In (EUuid (Some u)) tr) /\ r = Ok tt /\
     flow_events tr = [] /\ files_created tr = [] /\ results_written tr = [] /\ ~ In EExit tr) \/
  (exists u, In (EUuid (Some u)) tr /\
    ((r = Ok tt /\ flow_events tr = [(true, u); (false, u)] /\ files_created tr = [(u, k)] /\ ~ In EExit tr /\
      exists res d, results_written tr = [res] /\ data_of k res d /\ a_uuid d = u /\
        a_server d = delivered tr /\ a_client d = received tr /\ a_server_meta d = h_meta h /\
        NoDup (map fst (a_client_meta d)) /\
        (forall name v, In (name, v) (a_client_meta d) <->
           has_prefix (str "server_") name = false /\ first_value name l v)) \/
     (r = Panic Exited /\ flow_events tr = [(true, u)] /\ results_written tr = [] /\
      (exists tr', tr = tr' ++ [EExit] /\ ~ In EExit tr')) \/
     (r = Panic Running /\ flow_events tr = [(true, u)] /\ files_created tr = [] /\ results_written tr = [] /\
      ~ In EExit tr))).


(** The label of a result. *)
Definition rate_label (failed : bool) (v : f64) : bytes :=
  (if failed then str "error" else str "okay") ++ (if f_is_zero v then str "-without-rate" else str "-with-rate").

(** The clock readings, deadlines and times of a sender. *)
Definition timing (k : kind7) (a a' : archival) (tr : list event7) (r : res stop (option error)) : Prop :=
  (* the measurer is started first and, if the sender returns, stopped last, once each *)
  (exists mid, tr = EMeasurerStart :: mid ++ (match r with Panic _ => [] | Ok _ => [EMeasurerStop] end) /\
     ~ In EMeasurerStart mid /\ ~ In EMeasurerStop mid) /\
  (* one write deadline at most, 15 seconds after the first clock reading *)
  (forall d e, In (EWriteDeadline d e) tr ->
     exists t0 ts, clock tr = t0 :: ts /\ d = t0 + 15000000000) /\
  (* pings carry clock readings and have the write deadline; the close frame gets a second *)
  (forall p d e, In (ESendPing p d e) tr ->
     In (EWriteDeadline d None) tr /\ exists t, In t (clock tr) /\ p = itoa t) /\
  (forall c s d e, In (ESendClose c s d e) tr -> exists t, In t (clock tr) /\ d = t + 1000000000) /\
  (* the times of the archived data *)
  ((a_start a' = a_start a /\ a_end a' = a_end a /\ frames tr = [] /\ (exists e, r = Ok (Some e))) \/
   (exists t0 t1 ts, clock tr = t0 :: t1 :: ts /\ a_start a' = Some t1 /\
      match r with
      | Panic _ => a_end a' = a_end a
      | Ok _ => exists ts' t2, ts = ts' ++ [t2] /\ a_end a' = Some t2
      end)).

(** A sender of either kind. *)
Definition sender_run (fuel : nat) (k : kind7) (proto : bytes) (p : params) (a : archival)
    (tr : list event7) (a' : archival) (r : res stop (option error)) : Prop :=
  match k with
  | Download => run (download_sender fuel proto p a) tr (a', r)
  | Upload => run (upload_sender fuel proto a) tr (a', r)
  end.
