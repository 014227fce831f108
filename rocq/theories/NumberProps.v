(** Property C77: numbers as text. *)
From Coq Require Import String ZArith QArith Qabs Qpower List Bool Lia.
From Coq Require Import Floats.SpecFloat.
From Verif Require Import Base BaseFacts JsonSpec WireModel WireSpec MessagerModel GoFloat Effect ControlModel ControlSpec
  ControlExample TestFacts RateSpec RateSpec2 NumberSpec NumberProofs NumberRound NumberParse NumberFacts.
Import ListNotations.
Open Scope Z_scope.

(** A rate is printed as the nearest multiple of 1/10000, the even one if there are two,
    with four digits after the point. *)
Theorem C77_printed : forall v q, f_value v = Some q ->
  exists n, fixed_text (negative v) n (format_f4 v) /\ nearest n ((10000 # 1) * Qabs q).
Proof. exact format_fixed. Qed.
Print Assumptions C77_printed.

Example C77_printed_example : f_value (fdiv (f_of_int 1) (f_of_int 3)) <> None /\
  format_f4 (fdiv (f_of_int 1) (f_of_int 3)) = str "0.3333" /\
  format_f4 (fdiv (f_of_int (-187)) (f_of_int 2)) = str "-93.5000" /\
  format_f4 (fdiv (f_of_int 1) (f_of_int 32)) = str "0.0312" /\ format_f4 (fdiv (f_of_int 3) (f_of_int 32)) = str "0.0938".
Proof. split; [discriminate|repeat split; reflexivity]. Qed.

(** The results message states a thousand times the rates of the record, to four digits and
    with one rounding. *)
Theorem C77_results : forall r q1 q2,
  f_value (c2s_rate r) = Some q1 -> f_value (s2c_rate r) = Some q2 ->
  (q1 == 0 \/ (2 # 1) ^ (-900) <= q1 <= (2 # 1) ^ 900)%Q -> (q2 == 0 \/ (2 # 1) ^ (-900) <= q2 <= (2 # 1) ^ 900)%Q ->
  exists t1 n1 t2 n2,
    results_text r = str "You uploaded at " ++ t1 ++ str " and downloaded at " ++ t2 /\
    fixed_text false n1 t1 /\ fixed_text false n2 t2 /\
    (Qabs ((inject_Z n1 / (10000 # 1)) - (1000 # 1) * q1) <= (1 # 20000) + (1000 # 1) * q1 * (1 # 2 ^ 53))%Q /\
    (Qabs ((inject_Z n2 / (10000 # 1)) - (1000 # 1) * q2) <= (1 # 20000) + (1000 # 1) * q2 * (1 # 2 ^ 53))%Q.
Proof.
  intros r q1 q2 H1 H2 R1 R2. destruct (rate_text _ _ H1 R1) as (n1 & A1 & B1). destruct (rate_text _ _ H2 R2) as (n2 & A2 & B2).
  eexists _, n1, _, n2. split; [reflexivity|]. auto.
Qed.
Print Assumptions C77_results.

Example C77_results_example : exists q, f_value (fdiv (f_of_int 187) (f_of_int 2)) = Some q /\ (q == 187 # 2)%Q /\
  ((2 # 1) ^ (-900) <= q <= (2 # 1) ^ 900)%Q.
Proof. eexists. split; [reflexivity|]. split; [reflexivity|]. split; vm_compute; discriminate. Qed.

(** Decimal numbers are read with one correct rounding. *)
Theorem C77_decimal : forall t neg n k x, decimal_number t neg n k x -> Z.abs x < 10000 ->
  let q := (inject_Z n * (10 # 1) ^ (x - k))%Q in
  (n = 0 -> parse_float t = Some (S754_zero neg)) /\
  (((2 # 1) ^ (-999) <= q <= (2 # 1) ^ 999)%Q -> exists v, parse_float t = Some v /\ rounded_to v neg q).
Proof. exact decimal_read. Qed.
Print Assumptions C77_decimal.

Example C77_decimal_example : decimal_number (str "93.50") false 9350 2 0 /\ decimal_number (str "-.1E+3") true 1 1 3.
Proof.
  split.
  - exists [], (str "93"), (str "."), (str "50"), []. unfold a_sign, digits, digit.
    repeat split; auto; try (repeat constructor; cbn; lia); discriminate.
  - exists (str "-"), [], (str "."), (str "1"), (str "E+3"). unfold a_sign, digits, digit.
    repeat split; auto; try (repeat constructor; cbn; lia); try discriminate.
    right. exists 69, (str "+"), false, (str "3"). unfold a_sign, digits, digit.
    repeat split; auto; try (repeat constructor; cbn; lia); try discriminate; try (right; left; reflexivity).
Qed.

(** So are hexadecimal numbers. *)
Theorem C77_hexadecimal : forall t neg n k x, hex_number t neg n k x -> Z.abs x < 10000 ->
  let q := (inject_Z n * (2 # 1) ^ (x - 4 * k))%Q in
  (n = 0 -> parse_float t = Some (S754_zero neg)) /\
  (((2 # 1) ^ (-999) <= q <= (2 # 1) ^ 999)%Q -> exists v, parse_float t = Some v /\ rounded_to v neg q).
Proof. exact hex_read. Qed.
Print Assumptions C77_hexadecimal.

(** Nothing else is read as a number, underscores aside. *)
Theorem C77_syntax : forall t v, ~ In 95 t -> parse_float t = Some v -> f_finite v = true ->
  (exists neg n k x, decimal_number t neg n k x) \/ (exists neg n k x, hex_number t neg n k x).
Proof. exact read_syntax. Qed.
Print Assumptions C77_syntax.

Example C77_syntax_example : ~ In 95 (str "0x1.8p3") /\ parse_float (str "0x1.8p3") = Some (f_of_int 12) /\
  parse_float (str "1,5") = None /\ parse_float (str "5 Mbps") = None /\ parse_float (str "0x1.8") = None /\ parse_float [] = None.
Proof. split; [vm_compute; lia|]. repeat split; reflexivity. Qed.

(** The rate a client reports in kbit/s is recorded in Mbit/s, with two roundings. *)
Theorem C77_client : forall g m tr s r x t neg n k e, run (s2c_manage g m s2c_empty) tr (s, r) ->
  reads tr = [x] -> (match m with TLV => tlv_receive x TestMsg | _ => json_receive x TestMsg end) = (Some t, None) ->
  decimal_number t neg n k e -> Z.abs e < 10000 ->
  let q := (inject_Z n * (10 # 1) ^ (e - k))%Q in
  ((2 # 1) ^ (-900) <= q <= (2 # 1) ^ 900)%Q ->
  negative (d_client_mbps s) = neg /\
  exists y, f_value (d_client_mbps s) = Some y /\ (Qabs (Qabs y - q / (1000 # 1)) <= q / (1000 # 1) * (1 # 2 ^ 51))%Q.
Proof. exact client_value. Qed.
Print Assumptions C77_client.

(** A client that reports 93500 kbit/s, over TLV. *)
Example C77_client_example : tlv_receive (Some (wire_frame (TestMsg, str "93500"))) TestMsg = (Some (str "93500"), None) /\
  decimal_number (str "93500") false 93500 0 0 /\
  ((2 # 1) ^ (-900) <= inject_Z 93500 * (10 # 1) ^ (0 - 0) <= (2 # 1) ^ 900)%Q.
Proof.
  split; [reflexivity|]. split; [|split; vm_compute; discriminate].
  exists [], (str "93500"), [], [], []. unfold a_sign, digits, digit.
  repeat split; auto; try (repeat constructor; cbn; lia); discriminate.
Qed.
