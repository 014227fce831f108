(** Concrete runs for the theorems about how NDT5 tests and connections end. *)
From Coq Require Import String ZArith List Bool Lia.
From Verif Require Import Base BaseFacts WireModel WireSpec MessagerModel MessagerSpec GoFloat GoStrings
  Web100Model Effect ControlModel ControlSpec ControlExample OutcomeSpec.
Import ListNotations.
Open Scope Z_scope.

#[local] Opaque fdiv fmul c2s_kbps fltb meta_pair.

Ltac all_succeed :=
  repeat (constructor; [first [exact I|reflexivity|eexists; reflexivity|discriminate]|]); constructor.

(** A login for tests 2 and 16, and the upload. *)
Example run_c2s_fine : exists tr,
  run (handle_control_channel g0 tt) tr (tt, Ok tt) /\
  reads tr = [Some [2; 0; 1; 18]] /\ Forall succeeds tr.
Proof.
  eexists. split.
  - silent. answer 100. answer (Some [2; 0; 1; 18]).
    change (login_of (c_kind g0) (Some [2; 0; 1; 18])) with (LoginOk 18, TLV).
    cbv iota beta. unfold serve_tests.
    change (Z.land 18 16 =? 0) with false. cbv iota.
    change (wants 18 1) with false. change (wants 18 2) with true. change (wants 18 4) with false.
    change (wants 18 8) with false. change (wants 18 32) with false. cbv zeta.
    silent. answer (@None err). answer (@None err). answer (@None err).
    answer (@inl Z err 5000). answer (@None err). answer (Some c0, @None err). answer (@None err).
    answer 1000. silent. answer DrainTimeout. answer (Some w0). answer 10000001000.
    answer (@None err). answer (@None err). silent.
    expose.
    silent. answer (@None err). answer (@None err). answer 20000000000. silent.
    reduce. split; reflexivity.
  - split; [reflexivity|]. all_succeed.
Qed.

(** A C2S test whose upload breaks after half a second. *)
Example run_c2s_early : exists tr s,
  run (c2s_manage g0 TLV c2s_empty) tr (s, Ok (Some (ErrIo (str "reset")))) /\
  errors_counted tr = [[str "ndt5+plain"; str "c2s"; str "EarlyExit"]].
Proof.
  eexists _, _. split.
  - answer (@inl Z err 5000). answer (@None err). answer (Some c0, @None err). answer (@None err).
    answer 1000. silent. answer (DrainError (ErrIo (str "reset"))). answer (Some w0). answer 500001000.
    cbn [pbind]. unfold bind, modify. cbn [pbind]. cbv beta iota zeta.
    change (ti_bytes_received (w_tcp_info w0) =? 0) with false. cbv iota.
    match goal with |- context [fltb ?a ?b] =>
      let v := eval vm_compute in (fltb a b) in
      replace (fltb a b) with v by (vm_compute; reflexivity)
    end.
    silent. reduce. split; reflexivity.
  - reflexivity.
Qed.

(** An S2C test that succeeds. *)
Example run_s2c_fine : exists tr s,
  run (s2c_manage g0 TLV s2c_empty) tr (s, Ok None) /\ Forall succeeds tr /\
  reads tr = [Some (wire_frame (TestMsg, str "1000"))].
Proof.
  eexists _, _. split.
  - answer (@inl Z err 5000). answer (@None err). answer (Some c0, @None err).
    answer (@None err). silent. answer 1. silent. answer 10000000001. answer (Some w0). silent.
    reduce. exists None. eexists. split; [f_equal; vm_compute; reflexivity|].
    answer (Some (wire_frame (TestMsg, str "1000"))).
    repeat answer (@None err).
    reduce. split; reflexivity.
  - split; [all_succeed|reflexivity].
Qed.
