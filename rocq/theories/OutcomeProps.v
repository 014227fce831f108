(** Properties C71 and C72: how NDT5 tests and connections end. *)
From Coq Require Import String ZArith List Bool Lia.
From Verif Require Import Base BaseFacts WireModel WireSpec MessagerModel MessagerSpec GoFloat Web100Model
  Effect ControlModel ControlSpec ControlExample HandleProofs ControlMore OutcomeSpec OutcomeProofs OutcomeExample.
Import ListNotations.
Open Scope Z_scope.

(** ** C71 *)

(** On every connection with a valid request on which the network never fails, the upload
    lasts, no time limit is reached and every message of the client is one the tests accept,
    the connection is counted as successful, neither a panic nor an error is counted, and the
    one archived record has exactly the tests that were asked for, none with an error. *)
Theorem C71_completes : forall g tr s x inbuff rest tests,
  run (handle_control_channel g tt) tr (s, x) ->
  reads tr = inbuff :: rest -> request g inbuff = Some tests ->
  Forall succeeds tr -> Forall (acceptable (snd (login_of (c_kind g) inbuff))) rest ->
  counted (str "ControlCount") tr = [[label g; str "okay"]] /\
  counted (str "ControlPanicCount") tr = [] /\ errors_counted tr = [] /\
  exists r, saved tr = [r] /\ c2s_fine (wants_c2s tests) r /\ s2c_fine (wants_s2c tests) r.
Proof. exact completes. Qed.
Print Assumptions C71_completes.

(** A C2S test reports success exactly if all its steps succeeded; the upload may break
    after nine seconds. *)
Theorem C71_c2s : forall g m tr s r, run (c2s_manage g m c2s_empty) tr (s, r) ->
  (r = Ok None <-> Forall succeeds_but_drain tr /\ upload_lasted tr s).
Proof. exact c2s_success. Qed.
Print Assumptions C71_c2s.

(** An S2C test, exactly if all its steps succeeded and the message from the client was
    not refused. *)
Theorem C71_s2c : forall g m tr s r, run (s2c_manage g m s2c_empty) tr (s, r) ->
  (r = Ok None <-> Forall succeeds tr /\ Forall (usable m) (reads tr)).
Proof. exact s2c_success. Qed.
Print Assumptions C71_s2c.

(** A META test, exactly if all its steps succeeded, no time limit was reached and all
    messages from the client were accepted. *)
Theorem C71_meta : forall g m tr s l e, run (meta_manage g m tt) tr (s, Ok (l, e)) ->
  stays_done (deadline_checks tr) ->
  (e = None <-> Forall succeeds tr /\ Forall (acceptable m) (reads tr)).
Proof. exact meta_success. Qed.
Print Assumptions C71_meta.

Example C71_example : exists tr inbuff tests,
  run (handle_control_channel g0 tt) tr (tt, Ok tt) /\ reads tr = [inbuff] /\
  request g0 inbuff = Some tests /\ Forall succeeds tr /\
  wants_c2s tests = true /\ wants_s2c tests = false.
Proof.
  destruct run_c2s_fine as (tr & H & R & F). exists tr, (Some [2; 0; 1; 18]), 18.
  repeat (split; [assumption || reflexivity|]). split; reflexivity.
Qed.

Example C71_s2c_example : exists tr s, run (s2c_manage g0 TLV s2c_empty) tr (s, Ok None) /\ reads tr <> [].
Proof. destruct run_s2c_fine as (tr & s & H & F & R). exists tr, s. rewrite R. split; [exact H|discriminate]. Qed.

Example C71_c2s_example : exists tr s e,
  run (c2s_manage g0 TLV c2s_empty) tr (s, Ok (Some e)) /\ ~ upload_lasted tr s.
Proof.
  destruct run_c2s_early as (tr & s & H & C). exists tr, s, (ErrIo (str "reset")).
  split; [exact H|]. intros U. pose proof (c2s_failures _ _ _ _ _ H) as (what & E & F).
  rewrite C in E. destruct F; try discriminate E.
  destruct (U _ _ _ H0 H2) as [_ N]. exact (N H3).
Qed.

Example C71_meta_example : exists tr l, run (meta_manage g0 TLV tt) tr (tt, Ok (l, None)) /\
  stays_done (deadline_checks tr) /\ List.length (reads tr) = 3%nat.
Proof.
  destruct run_meta_ok as (tr & H & R & D). exists tr. eexists. split; [exact H|].
  rewrite R. split; [exact D|reflexivity].
Qed.

(** ** C72 *)

(** A C2S test that fails with [e] counts exactly one error, for the step that failed with
    [e]; one that succeeds or panics counts none. *)
Theorem C72_c2s : forall g m tr s r, run (c2s_manage g m c2s_empty) tr (s, r) ->
  match r with
  | Ok (Some e) => exists what, errors_counted tr = [[label g; str "c2s"; str what]] /\ c2s_failure tr s e what
  | _ => errors_counted tr = []
  end.
Proof. exact c2s_failures. Qed.
Print Assumptions C72_c2s.

Theorem C72_s2c : forall g m tr s r, run (s2c_manage g m s2c_empty) tr (s, r) ->
  match r with
  | Ok (Some e) => exists what, errors_counted tr = [[label g; str "s2c"; str what]] /\ s2c_failure g m tr s e what
  | _ => errors_counted tr = []
  end.
Proof. exact s2c_failures. Qed.
Print Assumptions C72_s2c.

Theorem C72_meta : forall g m tr s x, run (meta_manage g m tt) tr (s, x) ->
  exists l e, x = Ok (l, e) /\
    match e with
    | Some e => l = [] /\
        exists what, errors_counted tr = [[label g; str "meta"; str what]] /\ meta_failure m tr e what
    | None => errors_counted tr = []
    end.
Proof. exact meta_failures. Qed.
Print Assumptions C72_meta.

(** On a whole connection at most one error is counted, and the panic counter tells the
    same story. *)
Theorem C72_connection : forall g tr s x, run (handle_control_channel g tt) tr (s, x) ->
  counters_agree (label g) (counted (str "ControlPanicCount") tr) (errors_counted tr).
Proof. exact connection_errors. Qed.
Print Assumptions C72_connection.

Example C72_example : exists tr s e, run (c2s_manage g0 TLV c2s_empty) tr (s, Ok (Some e)) /\
  errors_counted tr = [[str "ndt5+plain"; str "c2s"; str "EarlyExit"]].
Proof. destruct run_c2s_early as (tr & s & H & C). eauto. Qed.

Example C72_connection_example : exists tr, run (handle_control_channel g0 tt) tr (tt, Ok tt) /\
  counted (str "ControlPanicCount") tr = [[str "ndt5+plain"; str "S2C"]].
Proof. destruct run_s2c_leak as (tr & H & _ & _ & C). eauto. Qed.
