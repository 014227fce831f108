(** Properties C12, C53 and C55: ports, metric lines, results and counters of NDT5
    control connections. *)
From Coq Require Import String ZArith List Bool Lia.
From Verif Require Import Base BaseFacts WireModel WireSpec MessagerModel MessagerSpec GoFloat GoStrings
  Web100Model Effect ControlModel ControlSpec ControlProofs ControlMore ControlExample.
Import ListNotations.
Open Scope Z_scope.

(** ** C12 *)

(** The first message of each test announces the port of the server just started. *)
Theorem C12_c2s_port : forall g m tr s r f e, run (c2s_manage g m c2s_empty) tr (s, r) ->
  nth_error (writes tr) 0 = Some (f, e) ->
  exists port, ports tr = [port] /\ f = message m TestPrepare (itoa port).
Proof. exact c2s_port. Qed.
Print Assumptions C12_c2s_port.

Theorem C12_s2c_port : forall g m tr s r f e, run (s2c_manage g m s2c_empty) tr (s, r) ->
  nth_error (writes tr) 0 = Some (f, e) ->
  exists port, ports tr = [port] /\ f = message m TestPrepare (itoa port).
Proof. exact s2c_port. Qed.
Print Assumptions C12_s2c_port.

(** The results message states the rates of the archived record. *)
Theorem C12_results_text : forall g tr s x, run (handle_control_channel g tt) tr (s, x) ->
  exists r inbuff rest, saved tr = [r] /\ reads tr = inbuff :: rest /\
  forall f, In f (map fst (writes tr)) -> hd 0 f = MsgResults ->
    f = message (snd (login_of (c_kind g) inbuff)) MsgResults (results_text r).
Proof.
  intros g tr s x H. destruct (numbers g tr s x H) as (r & i & t & H1 & H2 & _ & _ & _ & _ & H3).
  eauto 6.
Qed.
Print Assumptions C12_results_text.

Example C12_results_example : exists tr,
  run (handle_control_channel g0 tt) tr (tt, Ok tt) /\ ports tr = [5000] /\
  In (message TLV MsgResults (str "You uploaded at 2000.0000 and downloaded at 0.0000")) (map fst (writes tr)) /\
  In (message TLV TestPrepare (str "5000")) (map fst (writes tr)).
Proof.
  destruct run_c2s_ok as (tr & H & _ & _ & _ & _ & A & B & C & _). eauto 6.
Qed.

(** ** C53 *)

(** After the result the S2C test sends one line per statistic, then one per scalar field
    of its own record, then the final message; if it stops early it has sent a prefix. *)
Theorem C53_lines : forall g m tr s r c w, run (s2c_manage g m s2c_empty) tr (s, r) ->
  measured tr = [(c, w)] ->
  exists n, map fst (skipn 3 (writes tr)) = firstn n (s2c_tail g m w s) /\
    (r = Ok None -> skipn 3 (writes tr) = map (fun f => (f, None)) (s2c_tail g m w s)).
Proof. exact s2c_lines. Qed.
Print Assumptions C53_lines.

(** ** C55 *)

(** Every test in the archived record is counted once, with its outcome, and its rate is
    observed exactly when it is not zero; every served request is counted. *)
Theorem C55_counters : forall g tr s x, run (handle_control_channel g tt) tr (s, x) ->
  exists r inbuff rest, saved tr = [r] /\ reads tr = inbuff :: rest /\
  counted (str "ClientTestResults") tr = test_counts (label g) r /\
  observed (str "TestRate") tr = rate_values (label g) (c_is_mon g) r /\
  counted (str "ClientRequestedTests") tr =
    match request g inbuff with Some tests => map (fun n => [label g; n]) (asked_tests tests) | None => [] end /\
  counted (str "ClientRequestedTestSuites") tr =
    match request g inbuff with
    | Some tests => [[label g; join (str "-") (str "status" :: asked_tests tests)]]
    | None => []
    end.
Proof.
  intros g tr s x H. destruct (numbers g tr s x H) as (r & i & t & H1 & H2 & H3 & H4 & H5 & H6 & _).
  exists r, i, t. auto 10.
Qed.
Print Assumptions C55_counters.

Example C55_example : exists tr,
  run (handle_control_channel g0 tt) tr (tt, Ok tt) /\
  counted (str "ClientTestResults") tr = [[str "ndt5+plain"; str "c2s"; str "okay-with-rate"]] /\
  counted (str "ClientRequestedTestSuites") tr = [[str "ndt5+plain"; str "status-c2s"]].
Proof.
  destruct run_c2s_ok as (tr & H & _ & _ & _ & _ & _ & _ & _ & A & B). eauto.
Qed.
