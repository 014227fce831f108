(** Specification vocabulary for NDT5 records. *)
From Coq Require Import String ZArith List Bool.
From Verif Require Import Base GoFloat Web100Model Effect ControlModel ControlSpec.
Import ListNotations.
Open Scope Z_scope.

(** The spellings of infinities and NaN, in any case. *)
Definition not_a_rate (t : bytes) : Prop :=
  lower t = str "nan" \/
  exists sign body, In sign [[]; str "+"; str "-"] /\ In body [str "inf"; str "infinity"] /\ lower t = sign ++ body.

(** The statistics are counters of 64 bits. *)
Definition stats_ok (tr : list event) : Prop :=
  forall c w, In (EvStopMeasuring c (Some w)) tr ->
    0 <= ti_bytes_received (w_tcp_info w) < 2 ^ 64 /\ 0 <= ti_bytes_acked (w_tcp_info w) < 2 ^ 64.

(** The tests in a record ended after they began. *)
Definition tests_last (r : record) : Prop :=
  (forall d t0 t1, r_c2s r = Some d -> u_start d = Some t0 -> u_end d = Some t1 -> 0 < t1 - t0 < 2 ^ 63) /\
  (forall d t0 t1, r_s2c r = Some d -> d_start d = Some t0 -> d_end d = Some t1 -> 0 < t1 - t0 < 2 ^ 63).
