(** A run in which the client reports the rate NaN. *)
From Coq Require Import String ZArith List Bool Lia.
From Verif Require Import Base BaseFacts WireModel WireSpec MessagerModel GoFloat GoStrings
  Web100Model Effect ControlModel ControlSpec ControlExample ArchiveModel.
Import ListNotations.
Open Scope Z_scope.

#[local] Opaque fdiv fmul c2s_kbps s2c_kbps fltb parse_float metric_lines.

Lemma lines_nonempty : exists l ls, metric_lines (w_view w0) [] = l :: ls.
Proof. eexists _, _. vm_compute. reflexivity. Qed.
Example run_nan : exists tr r,
  run (handle_control_channel g0 tt) tr (tt, Ok tt) /\ saved tr = [r] /\ finite_record r = false /\
  r_uuid r = str "uuid".
Proof.
  destruct lines_nonempty as (l & ls & E). eexists. eexists. split.
  - silent. answer 100. answer (Some [2; 0; 1; 20]).
    change (login_of (c_kind g0) (Some [2; 0; 1; 20])) with (LoginOk 20, TLV).
    cbv iota beta. unfold serve_tests.
    change (Z.land 20 16 =? 0) with false. cbv iota.
    change (wants 20 1) with false. change (wants 20 2) with false. change (wants 20 4) with true.
    change (wants 20 8) with false. change (wants 20 32) with false. cbv zeta.
    silent. answer (@None err). answer (@None err). answer (@None err).
    answer (@inl Z err 5000). answer (@None err). answer (Some c0, @None err).
    answer (@None err). silent. answer 1. silent. answer 10000000001. answer (Some w0). silent.
    answer (@None err). answer (Some [5; 0; 3; 78; 97; 78]).
    cbn [pbind ret]. change (receive_of TLV (Some [5; 0; 3; 78; 97; 78]) TestMsg) with (Some (str "NaN"), None : option recv_error).
    cbn [pbind ret fst snd option_map]. change (parse_float (str "NaN")) with (Some SpecFloat.S754_nan). cbv iota zeta.
    unfold s2c_finish. rewrite E.
    answer (Some (ErrIo (str "broken pipe"))). silent.
    expose. expose.
    silent. answer 20000000000. silent.
    reduce. split; reflexivity.
  - split; [reflexivity|]. split; reflexivity.
Qed.
