(** Property C76: clients cannot make up time series, nor metric calls that panic. *)
From Coq Require Import String ZArith List Bool Lia.
From Verif Require Import Base BaseFacts WireModel GoFloat QueryModel Effect ControlModel ControlSpec
  ControlExample Ndt7Model Ndt7Spec Ndt7Example MetricsSpec MetricsProofs.
Import ListNotations.
Open Scope Z_scope.

(** [seen5 tr n ls] and [seen7 tr n ls]: in this trace the collector [n] is used with the
    label values [ls]. *)
Definition seen5 (tr : list event) (n : bytes) (ls : list bytes) : Prop :=
  In (EvCount n ls) tr \/ (exists d, In (EvGauge n ls d) tr) \/ (exists v, In (EvObserve n ls v) tr).
Definition seen7 (tr : list event7) (n : bytes) (ls : list bytes) : Prop :=
  In (ECount n ls) tr \/ (exists v, In (EObserve n ls v) tr).

(** Whatever a client does on an NDT5 control connection, only the series of the table are
    touched. *)
Theorem C76_ndt5 : forall g s tr x n ls, In (c_is_mon g) [str "true"; str "false"] ->
  run (handle_control_channel g s) tr x -> seen5 tr n ls -> series table5 n ls.
Proof. exact good5_in. Qed.
Print Assumptions C76_ndt5.

(** The same for the request of an ndt7 client, and for the receiver beside it. *)
Theorem C76_ndt7 : forall fuel h q k v1 v2 s tr x n ls, In (q_is_mon q) [str "true"; str "false"] ->
  run (run_request fuel h q k v1 v2 s) tr x -> seen7 tr n ls -> series table7 n ls.
Proof. exact good7_in. Qed.
Print Assumptions C76_ndt7.

Theorem C76_receiver : forall decode fuel c k s tr x n ls,
  run (receiver decode fuel (conn_label7 c) k s) tr x -> seen7 tr n ls ->
  series table7_receiver n ls.
Proof. exact good7_receiver_in. Qed.
Print Assumptions C76_receiver.

(** So every use has the declared number of labels, and every value is printable ASCII:
    no use of a collector can panic. *)
Theorem C76_well_formed : forall n ls,
  (series table5 n ls -> In (n, List.length ls) declared5 /\ Forall ascii_text ls) /\
  (series table7 n ls \/ series table7_receiver n ls ->
   In (n, List.length ls) declared7 /\ Forall ascii_text ls).
Proof.
  intros n ls. split; [exact (table_ok _ _ n ls table5_ok)|].
  intros H. apply (table_ok _ _ n ls table7_ok).
  destruct H; [apply series_app_l|apply series_app_r]; assumption.
Qed.
Print Assumptions C76_well_formed.

(** However many connections are served, at most 268 different series come from NDT5. *)
Theorem C76_bounded_ndt5 : forall l, NoDup l ->
  (forall n ls, In (n, ls) l -> exists g s tr x, In (c_is_mon g) [str "true"; str "false"] /\
     run (handle_control_channel g s) tr x /\ seen5 tr n ls) ->
  Z.of_nat (List.length l) <= 268.
Proof.
  intros l Hn H. change 268 with (table_size table5). apply distinct_bound; [exact Hn|].
  intros n ls Hi. destruct (H n ls Hi) as (g & s & tr & x & Hm & Hr & Hs).
  exact (good5_in g s tr x n ls Hm Hr Hs).
Qed.
Print Assumptions C76_bounded_ndt5.

(** And at most 114 from ndt7. *)
Theorem C76_bounded_ndt7 : forall l, NoDup l ->
  (forall n ls, In (n, ls) l ->
     (exists fuel h q k v1 v2 s tr x, In (q_is_mon q) [str "true"; str "false"] /\
        run (run_request fuel h q k v1 v2 s) tr x /\ seen7 tr n ls) \/
     (exists decode fuel c k s tr x,
        run (receiver decode fuel (conn_label7 c) k s) tr x /\ seen7 tr n ls)) ->
  Z.of_nat (List.length l) <= 114.
Proof.
  intros l Hn H. change 114 with (table_size (table7 ++ table7_receiver)).
  apply distinct_bound; [exact Hn|]. intros n ls Hi.
  destruct (H n ls Hi) as [(fuel & h & q & k & v1 & v2 & s & tr & x & Hm & Hr & Hs)
                          |(decode & fuel & c & k & s & tr & x & Hr & Hs)].
  - apply series_app_l. exact (good7_in fuel h q k v1 v2 s tr x n ls Hm Hr Hs).
  - apply series_app_r. exact (good7_receiver_in decode fuel c k s tr x n ls Hr Hs).
Qed.
Print Assumptions C76_bounded_ndt7.

(** A connection that counts a result, and a download that observes a rate. *)
Example C76_ndt5_example : exists tr,
  run (handle_control_channel g0 tt) tr (tt, Ok tt) /\ In (c_is_mon g0) [str "true"; str "false"] /\
  ControlSpec.counted (str "ClientTestResults") tr = [[str "ndt5+plain"; str "c2s"; str "okay-with-rate"]].
Proof.
  destruct run_c2s_ok as (tr & H). exists tr. split; [apply H|]. split; [right; left; reflexivity|apply H].
Qed.
Example C76_ndt7_example : exists tr,
  run (run_request 4 h0 q0 Download (query raw0) (rev (query raw0)) tt) tr (tt, Ok tt) /\
  In (q_is_mon q0) [str "true"; str "false"] /\
  test_results tr = [[str "ndt7+wss"; str "download"; str "okay-with-rate"]].
Proof.
  destruct run_request_download as (tr & H). exists tr.
  split; [apply H|]. split; [right; left; reflexivity|apply H].
Qed.
Example C76_series_example :
  series table5 (str "ClientRequestedTestSuites") [str "ndt5+wss"; str "status-c2s-s2c-meta"] /\
  ~ series table5 (str "ClientRequestedTestSuites") [str "ndt5+wss"; str "status-c2s-c2s"].
Proof.
  split.
  - apply series_b_ok. vm_compute. reflexivity.
  - intros H. apply series_in in H.
    assert (existsb (fun p => beqb (fst p) (str "ClientRequestedTestSuites") &&
              match snd p with [_; b] => beqb b (str "status-c2s-c2s") | _ => false end)
              (all_series table5) = true) as E
      by (apply existsb_exists; eexists; split; [exact H|reflexivity]).
    vm_compute in E. discriminate E.
Qed.
