(** Model of the times in file names and documents: what package time of Go's standard
    library makes of the clock, for time.Now().UTC() and Format in ndt7/results/file.go:33-39,
    for StartTime.Format in ndt5/ndt5.go:41-48, and for Time.MarshalJSON, which prints the
    times of the archived records. *)
From Coq Require Import String ZArith List Bool.
From Verif Require Import Base ArchiveModel.
Import ListNotations.
Open Scope Z_scope.

(** absoluteZeroYear: the year from which absolute days are counted; it is 1 modulo 400. *)
Definition zero_year : Z := -292277022399.
(** unixToInternal and internalToAbsolute, in days: from 1 January of [zero_year] to that of
    1970. *)
Definition unix_days : Z := 730692556 * 146097 + 719162.

(** isLeap. *)
Definition is_leap (year : Z) : bool :=
  (Z.rem year 4 =? 0) && (negb (Z.rem year 100 =? 0) || (Z.rem year 400 =? 0)).

(** absDate: the year and the day of the year, for an absolute day. *)
Definition abs_year (d : Z) : Z * Z :=
  let n := d / 146097 in
  let y := 400 * n in
  let d := d - 146097 * n in
  let n := d / 36524 in
  let n := n - n / 4 in
  let y := y + 100 * n in
  let d := d - 36524 * n in
  let n := d / 1461 in
  let y := y + 4 * n in
  let d := d - 1461 * n in
  let n := d / 365 in
  let n := n - n / 4 in
  (y + n + zero_year, d - 365 * n).

(** daysBefore. *)
Definition days_before : list Z := [0; 31; 59; 90; 120; 151; 181; 212; 243; 273; 304; 334; 365].

(** absDate: the month and the day of the month. *)
Definition month_day (leap : bool) (yday : Z) : Z * Z :=
  if leap && (yday =? 59) then (2, 29)
  else
    let day := if leap && (59 <? yday) then yday - 1 else yday in
    let month := day / 31 in
    let before m := nth (Z.to_nat m) days_before 0 in
    if before (month + 1) <=? day then (month + 2, day - before (month + 1) + 1)
    else (month + 1, day - before month + 1).

(** Time.Date, Clock and Nanosecond of the instant [t], in nanoseconds since 1970, in a zone
    that is [off] seconds east of UTC (Time.abs adds the offset). *)
Definition civil_at (off t : Z) : civil :=
  let sec := t / 10 ^ 9 + off in
  let '(year, yday) := abs_year (sec / 86400 + unix_days) in
  let '(month, day) := month_day (is_leap year) yday in
  let s := sec mod 86400 in
  Civil year month day (s / 3600) (s mod 3600 / 60) (s mod 60) (t mod 10 ^ 9).

(** appendNano with nine digits at most: the digits without the zeros at the end, after a
    dot; nothing if there are none. *)
Fixpoint trim_zeros (s : bytes) : bytes :=
  match s with
  | [] => []
  | b :: r => match trim_zeros r with [] => if b =? 48 then [] else [b] | r' => b :: r' end
  end.
Definition fraction (nano : Z) : bytes :=
  match trim_zeros (digits 9 nano) with [] => [] | f => str "." ++ f end.

(** The zone of RFC 3339: Z, or the offset in hours and minutes. *)
Definition zone_text (off : Z) : bytes :=
  if off =? 0 then str "Z"
  else
    let zone := Z.quot off 60 in
    (if zone <? 0 then str "-" else str "+") ++
    digits 2 (Z.abs zone / 60) ++ str ":" ++ digits 2 (Z.abs zone mod 60).

(** appendFormatRFC3339 with nanoseconds. *)
Definition rfc3339 (off t : Z) : bytes :=
  let c := civil_at off t in
  digits 4 (t_year c) ++ str "-" ++ digits 2 (t_month c) ++ str "-" ++ digits 2 (t_day c) ++ str "T" ++
  digits 2 (t_hour c) ++ str ":" ++ digits 2 (t_minute c) ++ str ":" ++ digits 2 (t_second c) ++
  fraction (t_nano c) ++ zone_text off.

(** Time.MarshalJSON without the quotes: an error for a year that does not have four digits
    and for an offset of a day and more. *)
Definition marshal_time (off t : Z) : option bytes :=
  let c := civil_at off t in
  if (0 <=? t_year c) && (t_year c <=? 9999) && (Z.abs off <? 86400) then Some (rfc3339 off t) else None.
