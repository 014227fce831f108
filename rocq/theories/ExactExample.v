(** A connection with an upload whose record is written with the codec of the program. *)
From Coq Require Import String ZArith List Bool Lia.
From Verif Require Import Base BaseFacts TextSpec TextProofs JsonSpec WireModel WireSpec MessagerModel MessagerSpec GoFloat GoStrings
  Web100Model Effect ControlModel ControlSpec ControlExample CodecModel CodecSpec CodecFacts CodecDemo ExactModel.
Import ListNotations.
Open Scope Z_scope.

#[local] Opaque fdiv fmul c2s_kbps fltb meta_pair.

Example run_archived : exists tr r u,
  run (handle_control_channel g0 tt) tr (tt, Ok tt) /\ saved tr = [r] /\ r_c2s r = Some u /\ record_bytes demo_text r /\
  encode5 (go_codec 0 (str "4abf83c") (str "v0.22")) demo_text r <> None.
Proof.
  eexists _, _, _. split; [|split; [|split; [|split]]].
  - silent. answer 100. answer (Some [2; 0; 1; 18]).
    change (login_of (c_kind g0) (Some [2; 0; 1; 18])) with (LoginOk 18, TLV).
    cbv iota beta. unfold serve_tests.
    change (Z.land 18 16 =? 0) with false. cbv iota.
    change (wants 18 1) with false. change (wants 18 2) with true. change (wants 18 4) with false.
    change (wants 18 8) with false. change (wants 18 32) with false. cbv zeta.
    silent. answer (@None err). answer (@None err). answer (@None err).
    answer (@inl Z err 5000). answer (@None err). answer (Some c0, @None err). answer (@None err).
    answer 1000. silent. answer DrainTimeout. answer (Some w0). answer 10000001000.
    answer (@None err). answer (@None err). silent.
    expose.
    silent. answer (@None err). answer (@None err). answer 20000000000. silent.
    reduce. split; reflexivity.
  - reflexivity.
  - reflexivity.
  - assert (B : forall s, bytes_okb s = true -> bytes_ok s) by (intros s; apply bytes_okb_spec).
    unfold record_bytes, pairs_bytes. do 3 (split; [apply B; vm_compute; reflexivity|]).
    split; [vm_compute; constructor|]. split; [vm_compute; constructor|]. do 2 (split; [apply B; vm_compute; reflexivity|]).
    split; [|split; [discriminate|intros e; apply B; reflexivity]].
    intros v E. cbn [r_c2s set_c2s] in E. injection E as <-. repeat split; apply B; vm_compute; reflexivity.
  - vm_compute. discriminate.
Qed.
