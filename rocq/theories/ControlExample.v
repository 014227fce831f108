(** Concrete runs, used by the examples beside the theorems. *)
From Coq Require Import String ZArith List Bool Lia.
From Verif Require Import Base BaseFacts WireModel WireSpec MessagerModel GoFloat GoStrings
  Web100Model Effect ControlModel ControlSpec.
Import ListNotations.
Open Scope Z_scope.

Definition g0 : config :=
  Config KPlain [] (str "uuid") (str "10.0.0.1") 3001 (str "10.0.0.2") 4000 (str "false")
    (fun _ => str "error") (fun _ => str "time") (fun _ => str "duration").
Definition c0 : tconn := TConn 1 (str "test-uuid") (str "10.0.0.1") 5000 (str "10.0.0.2") 6000.
Definition w0 : web100 := Web100 30 10 40 2 1460 9 (TcpInfo 10000 1460 9 1250000 2500000 []).

#[local] Opaque fdiv fmul c2s_kbps fltb.

(** Executes one event with the given answer. *)
Ltac reduce :=
  try match goal with |- run ?p ?tr ?x => let q := eval hnf in p in change (run q tr x) end;
  cbn beta iota delta [run].
Ltac answer v := reduce; lazymatch goal with |- ex _ => idtac end; exists v; eexists; split; [reflexivity|].
Ltac silent := repeat (reduce; lazymatch goal with |- @ex unit _ => idtac end; exists tt; eexists; split; [reflexivity|]).

(** Computes a rate. *)
Ltac expose :=
  match goal with |- context [fdiv ?a ?b] =>
    let v := eval vm_compute in (fdiv a b) in
    replace (fdiv a b) with v by (vm_compute; reflexivity)
  end.

(** A login for test 16 + 2, a C2S test that succeeds, and the end. *)
Example run_c2s_ok : exists tr,
  run (handle_control_channel g0 tt) tr (tt, Ok tt) /\
  reads tr = [Some [2; 0; 1; 18]] /\ listened tr = [str "c2s"] /\ served tr = [c0] /\
  counted (str "ControlCount") tr = [[str "ndt5+plain"; str "okay"]] /\
  ports tr = [5000] /\
  In (message TLV MsgResults (str "You uploaded at 2000.0000 and downloaded at 0.0000")) (map fst (writes tr)) /\
  In (message TLV TestPrepare (str "5000")) (map fst (writes tr)) /\
  counted (str "ClientTestResults") tr = [[str "ndt5+plain"; str "c2s"; str "okay-with-rate"]] /\
  counted (str "ClientRequestedTestSuites") tr = [[str "ndt5+plain"; str "status-c2s"]].
Proof.
  eexists. split.
  - silent. answer 100. answer (Some [2; 0; 1; 18]).
    change (login_of (c_kind g0) (Some [2; 0; 1; 18])) with (LoginOk 18, TLV).
    cbv iota beta. unfold serve_tests.
    change (Z.land 18 16 =? 0) with false. cbv iota.
    change (wants 18 1) with false. change (wants 18 2) with true. change (wants 18 4) with false.
    change (wants 18 8) with false. change (wants 18 32) with false. cbv zeta.
    silent. answer (@None err). answer (@None err). answer (@None err).
    answer (@inl Z err 5000). answer (@None err). answer (Some c0, @None err). answer (@None err).
    answer 1000. silent. answer DrainTimeout. answer (Some w0). answer 10000001000.
    answer (@None err). answer (@None err). silent.
    expose.
    silent. answer (@None err). answer (@None err). answer 20000000000. silent.
    reduce. split; reflexivity.
  - do 5 (split; [reflexivity|]). split; [|split; [|split; reflexivity]]; vm_compute; auto 20.
Qed.

(** A crash: no statistics. *)
Example run_c2s_no_stats : exists tr,
  run (handle_control_channel g0 tt) tr (tt, Ok tt) /\
  reads tr = [Some [2; 0; 1; 18]] /\ In (EvStopMeasuring c0 None) tr /\
  counted (str "ControlPanicCount") tr = [[str "ndt5+plain"; str "panic"]].
Proof.
  eexists. split.
  - silent. answer 100. answer (Some [2; 0; 1; 18]).
    change (login_of (c_kind g0) (Some [2; 0; 1; 18])) with (LoginOk 18, TLV).
    cbv iota beta. unfold serve_tests.
    change (Z.land 18 16 =? 0) with false. cbv iota.
    change (wants 18 1) with false. change (wants 18 2) with true. change (wants 18 4) with false.
    change (wants 18 8) with false. change (wants 18 32) with false. cbv zeta.
    silent. answer (@None err). answer (@None err). answer (@None err).
    answer (@inl Z err 5000). answer (@None err). answer (Some c0, @None err). answer (@None err).
    answer 1000. silent. answer DrainTimeout. answer (@None web100). answer 10000001000.
    silent. answer 20000000000. silent.
    reduce. split; reflexivity.
  - split; [reflexivity|]. split; [|reflexivity]. cbn [In app]. auto 40.
Qed.

(** The port of the S2C test cannot be announced. *)
Example run_s2c_leak : exists tr,
  run (handle_control_channel g0 tt) tr (tt, Ok tt) /\
  started tr = [str "s2c"] /\ waited tr = [] /\
  counted (str "ControlPanicCount") tr = [[str "ndt5+plain"; str "S2C"]].
Proof.
  eexists. split.
  - silent. answer 100. answer (Some [2; 0; 1; 20]).
    change (login_of (c_kind g0) (Some [2; 0; 1; 20])) with (LoginOk 20, TLV).
    cbv iota beta. unfold serve_tests.
    change (Z.land 20 16 =? 0) with false. cbv iota.
    change (wants 20 1) with false. change (wants 20 2) with false. change (wants 20 4) with true.
    change (wants 20 8) with false. change (wants 20 32) with false. cbv zeta.
    silent. answer (@None err). answer (@None err). answer (@None err).
    answer (@inl Z err 5000). answer (Some (ErrIo (str "broken pipe"))). silent.
    reduce. change (f_is_zero (d_mean (d_set_error (ErrIo (str "broken pipe")) s2c_empty))) with true.
    silent. answer 20000000000. silent.
    reduce. split; reflexivity.
  - repeat split; reflexivity.
Qed.

(** The single-use server returns a connection and an error. *)
Example run_s2c_conn_and_error : exists tr,
  run (handle_control_channel g0 tt) tr (tt, Ok tt) /\
  served_with_error tr = [c0] /\ closed tr = [].
Proof.
  eexists. split.
  - silent. answer 100. answer (Some [2; 0; 1; 20]).
    change (login_of (c_kind g0) (Some [2; 0; 1; 20])) with (LoginOk 20, TLV).
    cbv iota beta. unfold serve_tests.
    change (Z.land 20 16 =? 0) with false. cbv iota.
    change (wants 20 1) with false. change (wants 20 2) with false. change (wants 20 4) with true.
    change (wants 20 8) with false. change (wants 20 32) with false. cbv zeta.
    silent. answer (@None err). answer (@None err). answer (@None err).
    answer (@inl Z err 5000). answer (@None err).
    answer (Some c0, Some (ErrIo (str "bad handshake"))). silent.
    reduce. change (f_is_zero (d_mean (d_set_error (ErrIo (str "bad handshake")) s2c_empty))) with true.
    silent. answer 20000000000. silent.
    reduce. split; reflexivity.
  - repeat split; reflexivity.
Qed.

(** One message of the META test, and its end. *)
Lemma loop_message {S} fuel m count results (s : S) x b msg tr y :
  receive_of m x TestMsg = (Some (b :: msg), None) ->
  run (meta_loop fuel m (count + 1)
         (match meta_pair (b :: msg) with Some p => results ++ [p] | None => results end) s) tr y ->
  run (meta_loop (Datatypes.S fuel) m count results s) (EvCtxDone false :: EvRead x :: tr) y.
Proof.
  intros E H. cbn [meta_loop bind pbind op run]. exists false. eexists. split; [reflexivity|].
  cbn [receive bind pbind op run ret]. exists x. eexists. split; [reflexivity|]. cbn [pbind run ret].
  rewrite E. cbn [fst snd option_map pbind]. exact H.
Qed.
Lemma loop_end {S} fuel m count results (s : S) x :
  receive_of m x TestMsg = (Some [], None) ->
  run (meta_loop (Datatypes.S fuel) m count results s) [EvCtxDone false; EvRead x]
    (s, Ok (count, results, None)).
Proof.
  intros E. cbn [meta_loop bind pbind op run]. exists false. eexists. split; [reflexivity|].
  cbn [receive bind pbind op run ret]. exists x. eexists. split; [reflexivity|]. cbn [pbind run ret].
  rewrite E. cbn [fst snd option_map pbind ret run]. auto.
Qed.

(** A META test with three messages, one of them without a colon. *)
Example run_meta_ok : exists tr,
  run (meta_manage g0 TLV tt) tr (tt, Ok ([(str "a", str "b c")], None)) /\
  reads tr = [Some (wire_frame (TestMsg, str " a : b c ")); Some (wire_frame (TestMsg, str "x"));
              Some (wire_frame (TestMsg, []))] /\
  stays_done (deadline_checks tr).
Proof.
  set (loop := [EvCtxDone false; EvRead (Some (wire_frame (TestMsg, str " a : b c ")));
                EvCtxDone false; EvRead (Some (wire_frame (TestMsg, str "x")));
                EvCtxDone false; EvRead (Some (wire_frame (TestMsg, [])))]).
  exists ([EvWrite (frame_of TLV TestPrepare []) None] ++ [EvWrite (frame_of TLV TestStart []) None] ++
          loop ++ [EvCtxDone false; EvObserve (str "SubmittedMetaValues") [] (f_of_int 2);
                   EvWrite (frame_of TLV TestFinalize []) None]).
  split.
  - unfold meta_manage.
    apply run_bind. left. eexists _, _, None, _. split; [reflexivity|].
    split; [apply run_op; exists None; split; reflexivity|].
    apply run_bind. left. eexists _, _, None, _. split; [reflexivity|].
    split; [apply run_op; exists None; split; reflexivity|].
    apply run_bind. left. exists loop, tt. eexists _, _. split; [reflexivity|]. split.
    + change (Z.to_nat max_client_messages) with 20%nat.
      eapply loop_message; [reflexivity|]. eapply loop_message; [reflexivity|].
      apply loop_end. reflexivity.
    + cbv iota beta.
      apply run_bind. left. eexists [_], _, false, _. split; [reflexivity|].
      split; [apply run_op; exists false; split; reflexivity|]. cbv iota.
      apply run_bind. left. eexists [_], _, _, _. split; [reflexivity|].
      split; [apply run_tell; split; reflexivity|].
      apply run_bind. left. eexists [_], _, None, []. split; [reflexivity|].
      split; [apply run_op; exists None; split; reflexivity|]. cbv iota.
      apply run_ret. split; reflexivity.
  - split; [reflexivity|]. intros a b E. cbn in E.
    repeat (destruct a as [|? a]; [discriminate E|try discriminate E; injection E as _ E]).
Qed.
