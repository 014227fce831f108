(** The time series that monitoring can see.  A collector is a name with one list of
    values for each of its labels, as a person reading the documentation of the metrics
    would write them down; Prometheus keeps one time series for each combination that
    has occurred, forever. *)
From Coq Require Import String ZArith List Bool.
From Verif Require Import Base.
Import ListNotations.
Open Scope Z_scope.

(** A row: the collector and, for every label in order, the values it may have. *)
Definition row : Type := (bytes * list (list bytes))%type.

(** A name with label values is a series of the table if one of the rows allows it. *)
Definition series (table : list row) (name : bytes) (labels : list bytes) : Prop :=
  exists columns, In (name, columns) table /\ Forall2 (fun l vs => In l vs) labels columns.

(** The number of combinations. *)
Definition row_size (r : row) : Z :=
  fold_right Z.mul 1 (map (fun vs => Z.of_nat (List.length vs)) (snd r)).
Definition table_size (table : list row) : Z :=
  fold_right Z.add 0 (map row_size table).

(** What Prometheus requires of a label value; plain ASCII is valid UTF-8. *)
Definition ascii_text (s : bytes) : Prop := Forall (fun c => 32 <= c <= 126) s.

(** ** NDT5, with the number of labels each collector is declared with in
    ndt5/metrics/metrics.go and metrics/metrics.go *)

Definition flags : list bytes := [str "true"; str "false"].
Definition protocols5 : list bytes := [str "ndt5+ws"; str "ndt5+wss"; str "ndt5+plain"].
Definition results : list bytes :=
  [str "okay-with-rate"; str "okay-without-rate"; str "error-with-rate"; str "error-without-rate"].

(** The words a panic is counted under. *)
Definition panics5 : list bytes :=
  [str "Login"; str "ParseInt"; str "SrvQueue"; str "MsgLoginVersion"; str "MsgLoginTests";
   str "C2S"; str "S2C"; str "MsgResults"; str "MsgLogout"; str "META"; str "panic"].

(** The 32 combinations of tests, each after "status". *)
Definition suites5 : list bytes :=
  flat_map (fun mid => flat_map (fun c2s => flat_map (fun s2c => flat_map (fun sfw =>
    map (fun meta => str "status" ++ mid ++ c2s ++ s2c ++ sfw ++ meta)
      [[]; str "-meta"]) [[]; str "-sfw"]) [[]; str "-s2c"]) [[]; str "-c2s"]) [[]; str "-mid"].

Definition table5 : list row :=
  [ (str "ActiveTests", [protocols5]);
    (str "ControlChannelDuration", [protocols5]);
    (str "ControlPanicCount", [protocols5; panics5]);
    (str "ControlCount", [protocols5; [str "okay"; str "panic"]]);
    (str "ClientRequestedTestSuites", [protocols5; suites5]);
    (str "ClientRequestedTests",
     [protocols5; [str "mid"; str "c2s"; str "s2c"; str "sfw"; str "meta"]]);
    (str "TestRate", [protocols5; [str "c2s"; str "s2c"]; flags]);
    (str "ClientTestResults", [protocols5; [str "c2s"; str "s2c"]; results]);
    (str "ClientTestErrors",
     [protocols5; [str "control"]; [str "LoginCeremony"; str "TestStatus"]]);
    (str "ClientTestErrors",
     [protocols5; [str "c2s"];
      [str "StartSingleServingServer"; str "TestPrepare"; str "ServeOnce"; str "TestStart";
       str "Drain"; str "EarlyExit"; str "TestMsg"; str "TestFinalize"]]);
    (str "ClientTestErrors",
     [protocols5; [str "s2c"];
      [str "StartSingleServingServer"; str "TestPrepare"; str "ServeOnce"; str "TestStart";
       str "web100Metrics"; str "TestMsgSend"; str "TestMsgRcv"; str "SendMetricsLegacy";
       str "SendMetricsArchival"; str "TestFinalize"]]);
    (str "ClientTestErrors",
     [protocols5; [str "meta"];
      [str "TestPrepare"; str "TestStart"; str "context"; str "ReceiveMessage";
       str "TestFinalize"]]);
    (str "SubmittedMetaValues", []) ].

(** The number of labels in the declarations. *)
Definition declared5 : list (bytes * nat) :=
  [ (str "ActiveTests", 1%nat); (str "ControlChannelDuration", 1%nat);
    (str "ControlPanicCount", 2%nat); (str "ControlCount", 2%nat);
    (str "ClientRequestedTestSuites", 2%nat); (str "ClientRequestedTests", 2%nat);
    (str "TestRate", 3%nat); (str "ClientTestResults", 3%nat); (str "ClientTestErrors", 3%nat);
    (str "SubmittedMetaValues", 0%nat) ].

(** ** ndt7 *)

Definition protocols7 : list bytes := [str "ndt7+wss"; str "ndt7+ws"; str "ndt7+unknown"].
Definition directions7 : list bytes := [str "download"; str "upload"].

Definition table7 : list row :=
  [ (str "ndt7_client_connections_total",
     [directions7; [str "result"; str "websocket-error"; str "uuid-error"]]);
    (str "ndt7_client_test_results_total", [protocols7; directions7; results]);
    (str "ndt7_client_sender_errors_total",
     [protocols7; [str "download"];
      [str "measurer-closed"; str "measurer-closed-early"; str "write-json";
       str "ping-send-ticks"; str "write-prepared-message"; str "make-prepared-message";
       str "set-write-deadline"]]);
    (str "ndt7_client_sender_errors_total",
     [protocols7; [str "upload"];
      [str "measurer-closed"; str "write-json"; str "ping-send-ticks"; str "set-write-deadline"]]);
    (str "ndt_test_rate_mbps", [protocols7; directions7; flags]) ].

(** The receiver prints its direction as a number. *)
Definition table7_receiver : list row :=
  [ (str "ndt7_client_receiver_errors_total",
     [protocols7; [str "0"; str "1"];
      [str "set-read-deadline"; str "receiver-context-expired"; str "read-message-type";
       str "read-message"; str "ping-parse-ticks"; str "unmarshal-client-message"]]);
    (str "ndt7_client_receiver_errors_total",
     [protocols7; [str "0"]; [str "wrong-message-type"]]) ].

Definition declared7 : list (bytes * nat) :=
  [ (str "ndt7_client_connections_total", 2%nat); (str "ndt7_client_test_results_total", 3%nat);
    (str "ndt7_client_sender_errors_total", 3%nat);
    (str "ndt7_client_receiver_errors_total", 3%nat); (str "ndt_test_rate_mbps", 3%nat) ].
