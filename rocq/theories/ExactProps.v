(** Numbers and times in documents are exact (C83). *)
From Coq Require Import String ZArith List Bool Lia.
From Coq Require Import Floats.SpecFloat.
From Verif Require Import Base BaseFacts TextSpec JsonSpec GoFloat TimeModel TimeSpec TimeFacts Effect ControlModel ControlSpec CodecModel CodecSpec ToldSpec ArchiveModel
  ExactModel ExactSpec ExactProofs ExactValid ExactTime ExactCodec ControlExample CodecDemo ExactExample.
Import ListNotations.
Open Scope Z_scope.

(** The text of a float64 is a JSON number, and it is read as that float64 and no other:
    nothing is lost by rounding. *)
Theorem C83_number : forall x, valid_binary 53 1024 x = true -> f_finite x = true ->
  jnumber (json_float x) /\ parse_float (json_float x) = Some x.
Proof. intros x V F. split; [apply json_float_number, F|apply json_float_exact; assumption]. Qed.
Print Assumptions C83_number.

(** So different numbers have different texts. *)
Theorem C83_distinct : forall x y, valid_binary 53 1024 x = true -> valid_binary 53 1024 y = true ->
  f_finite x = true -> f_finite y = true -> json_float x = json_float y -> x = y.
Proof.
  intros x y Vx Vy Fx Fy E. apply json_float_exact in Vx; [|exact Fx]. apply json_float_exact in Vy; [|exact Fy]. congruence.
Qed.
Print Assumptions C83_distinct.

(** One tenth, a million million millions more, the numbers around the change of form, a
    negative zero. *)
Example C83_number_example :
  let tenth := fdiv (f_of_int 1) (f_of_int 10) in
  valid_binary 53 1024 tenth = true /\ f_finite tenth = true /\
  json_float tenth = str "0.1" /\ json_float (fdiv (f_of_int 1) (f_of_int 3)) = str "0.3333333333333333" /\
  json_float (f_of_int (10 ^ 20)) = str "100000000000000000000" /\ json_float (f_of_int (10 ^ 21)) = str "1e+21" /\
  json_float (fdiv (f_of_int 1) (f_of_int (10 ^ 6))) = str "0.000001" /\
  json_float (fdiv (f_of_int 12) (f_of_int (10 ^ 8))) = str "1.2e-7" /\
  json_float (S754_zero true) = str "-0".
Proof. vm_compute. repeat split; reflexivity. Qed.

(** The rates in the archived document of a connection are numbers that are read as the
    rates of the record, to the last bit. *)
Theorem C83_rates : forall off commit version g tr s x r text doc, bytes_ok commit -> bytes_ok version ->
  run (handle_control_channel g tt) tr (s, x) -> saved tr = [r] -> record_bytes text r ->
  encode5 (go_codec off commit version) text r = Some doc ->
  exists j, stands_for doc j /\
    (forall u, r_c2s r = Some u -> exists part w, has_member (str "C2S") j part /\
       has_member (str "MeanThroughputMbps") part (JNum w) /\ parse_float w = Some (u_mean u)) /\
    (forall d, r_s2c r = Some d -> exists part w w', has_member (str "S2C") j part /\
       has_member (str "MeanThroughputMbps") part (JNum w) /\ parse_float w = Some (d_mean d) /\
       has_member (str "ClientReportedMbps") part (JNum w') /\ parse_float w' = Some (d_client_mbps d)).
Proof. exact document_rates. Qed.
Print Assumptions C83_rates.

Example C83_rates_example : exists tr r u,
  run (handle_control_channel g0 tt) tr (tt, Ok tt) /\ saved tr = [r] /\ r_c2s r = Some u /\ record_bytes demo_text r /\
  encode5 (go_codec 0 (str "4abf83c") (str "v0.22")) demo_text r <> None.
Proof. exact run_archived. Qed.

(** Which texts are read as times, and as which: those of RFC 3339 and a few more. *)
Theorem C83_time_read : forall w t z, read_time_zone w = Some (t, z) <-> time_text w t z.
Proof. exact read_time_spec. Qed.
Print Assumptions C83_time_read.

Theorem C83_rfc3339 : forall w t, denotes w t -> read_time w = Some t.
Proof. exact denotes_read. Qed.
Print Assumptions C83_rfc3339.

(** 1 January of the year 1, Go's zero time. *)
Definition year_one : Z := - 62135596800 * 10 ^ 9.
(** A time that is written and read again is the same instant, to the nanosecond, for every
    time of the years that can be written and every zone of whole minutes. *)
Theorem C83_time_back : forall off t w, off mod 60 = 0 -> year_one <= t -> marshal_time off t = Some w -> read_time w = Some t.
Proof.
  intros off t w M F H. apply marshal_read with off; [|exact M|exact H]. apply marshal_year in H as (_ & A & _). apply go_zero_local; assumption.
Qed.
Print Assumptions C83_time_back.

(** What C68, C69 and C81 assume of numbers and times is so. *)
Theorem C83_codec : forall off commit version, bytes_ok commit -> bytes_ok version ->
  codec_ok (go_codec off commit version) /\ (off mod 60 = 0 -> times_return (go_codec off commit version)).
Proof. intros off commit version C V. split; [apply go_codec_ok; assumption|apply go_times_return]. Qed.
Print Assumptions C83_codec.

(** Except that not every time that is read can be written again, in the zone it was sent
    with: what C69_storable assumes is not so.  A client that sends such a time gets no
    result. *)
Theorem C83_rewritten_refuted :
  (forall w t z, time_text w t z -> (marshal_time (z * 60) t = None <-> 24 * 60 <= Z.abs z)) /\
  exists w t z, time_text w t z /\ 24 * 60 <= Z.abs z.
Proof.
  split; [intros w t z T; exact (proj1 (read_again w t z T))|].
  exists (str "2020-01-01T00:00:00+24:00"). eexists _, 1440. split; [|cbn; lia]. apply read_time_spec. vm_compute. reflexivity.
Qed.
Print Assumptions C83_rewritten_refuted.

Example C83_time_example :
  marshal_time 19800 1709249400250000000 = Some (str "2024-03-01T05:00:00.25+05:30") /\
  read_time (str "2024-03-01T05:00:00.25+05:30") = Some 1709249400250000000 /\
  read_time (str "2024-02-29T5:00:00,2500Z") = Some 1709182800250000000 /\
  read_time (str "2023-02-29T05:00:00Z") = None /\ read_time (str "2024-02-29 05:00:00Z") = None.
Proof. vm_compute. repeat split; reflexivity. Qed.
