(** A request with a measurement in each direction, for C81. *)
From Coq Require Import String ZArith List Bool.
From Verif Require Import Base GoFloat Effect Web100Model ControlModel QueryModel QuerySpec QueryProofs
  Ndt7Model Ndt7Spec ControlExample Ndt7Example.
Import ListNotations.
Open Scope Z_scope.

#[local] Opaque fdiv fmul fltb f_of_int down_rate.

(** What the client sends, and what is stored. *)
Definition kept_text : bytes := str "{""appinfo"":{""NUMBYTES"":1,""ElapsedTime"":2,""x"":[]}, ""AppInfo"":{""elapsedTime"":3},""ConnectionInfo"":null}".
Definition kept : measurement := Measurement (Some (1, 3)) None None None.
Definition kept_result : result7 :=
  Result7 (str "10.0.0.2") 5000 (str "10.0.0.1") 443 5 70
    (Some (Archival (str "u") (Some 20) (Some 60) [m_early] [kept]
             [(str "client_name", str "n"); (str "early_exit", str "250")] [(str "machine", str "mlab1")])) None.
Lemma run_kept : exists tr,
  run (run_request 4 h0 q0 Download (query raw0) (rev (query raw0)) tt) tr (tt, Ok tt) /\
  results_written tr = [kept_result] /\ delivered tr = [m_early] /\ received tr = [kept].
Proof.
  eexists. split.
  - answer (Some ws0). answer (Some (str "u")). silent. answer 5. silent.
    answer (@None error). answer 10. answer (@None error). answer 20.
    answer NotReady. answer (@None error).
    answer (Got m_early). answer (@None error). answer 40. answer (@None error).
    answer 50. answer (@None error). silent. answer 60. silent. answer [kept].
    silent. repeat match goal with |- context [down_rate ?x] =>
      lazymatch x with [m_early] => fail | _ => change (down_rate x) with (down_rate [m_early]) end end.
    rewrite rate0. change (fltb f_zero (SpecFloat.S754_finite false 8796093022208000 (-43))) with true.
    silent. answer 70. answer (@None error). answer (@None error). answer (@None error). silent.
    reduce. split; reflexivity.
  - repeat split.
Qed.
