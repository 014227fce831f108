(** Property C77, continued: numbers that are too large. *)
From Coq Require Import String ZArith QArith List Bool Lia.
From Coq Require Import Floats.SpecFloat.
From Verif Require Import Base JsonSpec GoFloat RateSpec NumberSpec OverflowProofs.
Import ListNotations.
Open Scope Z_scope.

(** A decimal or hexadecimal number of 2^1024 or more, of either sign, is refused. *)
Theorem C77_too_large : forall t neg n k x, Z.abs x < 10000 ->
  (decimal_number t neg n k x /\ ((2 # 1) ^ 1024 <= inject_Z n * (10 # 1) ^ (x - k))%Q) \/
  (hex_number t neg n k x /\ ((2 # 1) ^ 1024 <= inject_Z n * (2 # 1) ^ (x - 4 * k))%Q) ->
  parse_float t = None.
Proof. intros t neg n k x B [[H R]|[H R]]; [exact (large_decimal t neg n k x H B R)|exact (large_hex t neg n k x H B R)]. Qed.
Print Assumptions C77_too_large.

Example C77_too_large_example : decimal_number (str "-1e309") true 1 0 309 /\
  ((2 # 1) ^ 1024 <= inject_Z 1 * (10 # 1) ^ (309 - 0))%Q /\ parse_float (str "-1e309") = None /\ parse_float (str "-1e308") <> None.
Proof.
  split; [|split; [vm_compute; discriminate|split; vm_compute; [reflexivity|discriminate]]].
  exists (str "-"), (str "1"), [], [], (str "e309"). unfold a_sign, digits, digit.
  repeat split; auto; try (repeat constructor; cbn; lia); try discriminate.
  right. exists 101, [], false, (str "309"). unfold a_sign, digits, digit.
  repeat split; auto; try (repeat constructor; cbn; lia); try discriminate; try (left; reflexivity).
Qed.
