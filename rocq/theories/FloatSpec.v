(** How close a float64 is to a rational number. *)
From Coq Require Import ZArith.
From Coq Require Import Floats.SpecFloat.
From Verif Require Import Base GoFloat.
Open Scope Z_scope.

(** The positive number v is num/den with a relative error of at most 2^-51; numbers are
    compared in units of 2^-1074, the smallest positive float64. *)
Definition close_to (v : f64) (num den : Z) : Prop :=
  exists m e, v = S754_finite false m e /\ -1074 <= e /\
    2 ^ 51 * Z.abs (Zpos m * 2 ^ (e + 1074) * den - num * 2 ^ 1074) <= num * 2 ^ 1074.
