(** How accurate a float64 is. *)
From Coq Require Import ZArith QArith Qabs Qpower.
From Coq Require Import Floats.SpecFloat.
From Verif Require Import Base GoFloat.
Open Scope Z_scope.

(** The exact value of a finite float64. *)
Definition f_value (v : f64) : option Q :=
  match v with
  | S754_zero _ => Some 0%Q
  | S754_finite s m e => Some ((if s then -1 # 1 else 1) * inject_Z (Zpos m) * (2 # 1) ^ e)%Q
  | _ => None
  end.

(** v is x with a relative error of at most 2^-50. *)
Definition accurate (v : f64) (x : Q) : Prop :=
  exists q, f_value v = Some q /\ (Qabs (q - x) <= x * (1 # 2 ^ 50))%Q.

(** n is x rounded down, up to one unit and that relative error. *)
Definition rounded (n : Z) (x : Q) : Prop :=
  (Qabs (inject_Z n - x) <= 1 + x * (1 # 2 ^ 50))%Q.

(** The rate in Mbit/s and in kbit/s of b bytes in d nanoseconds. *)
Definition mbit_per_s (b d : Z) : Q := (8 * inject_Z b / (1000000 # 1)) / (inject_Z d / (1000000000 # 1)).
Definition kbit_per_s (b d : Z) : Q := (8 * inject_Z b / (1000 # 1)) / (inject_Z d / (1000000000 # 1)).
