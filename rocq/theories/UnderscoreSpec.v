(** Specification of numbers that are written with underscores. *)
From Coq Require Import String ZArith List Bool.
From Verif Require Import Base JsonSpec NumberSpec.
Import ListNotations.
Open Scope Z_scope.

(** The text without its underscores. *)
Definition plain_text (t : bytes) : bytes := filter (fun b => negb (b =? 95)) t.

(** Every underscore stands between two of the digits. *)
Definition between (d : Z -> Prop) (t : bytes) : Prop :=
  forall a b, t = a ++ 95 :: b -> (exists a' x, a = a' ++ [x] /\ d x) /\ (exists y b', b = y :: b' /\ d y).

Definition decimal_digit (b : Z) : Prop := 48 <= b <= 57.
Definition hex_digit_char (b : Z) : Prop := 48 <= b <= 57 \/ 65 <= b <= 70 \/ 97 <= b <= 102.

(** The underscores of a number are well placed: between decimal digits or, in a text that
    starts with 0x, between hexadecimal ones, where the prefix counts as a digit. *)
Definition well_placed (t : bytes) : Prop :=
  between decimal_digit t \/
  exists sg neg c body, t = sg ++ [48; c] ++ body /\ a_sign sg neg /\ (c = 120 \/ c = 88) /\ between hex_digit_char (48 :: body).
