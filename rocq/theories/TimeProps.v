(** Property C78: times in names and documents. *)
From Coq Require Import String ZArith List Bool Lia.
From Verif Require Import Base ArchiveModel ArchiveProofs TimeModel TimeSpec TimeFacts.
From Verif Require ArchiveProps CodecSpec.
Import ListNotations.
Open Scope Z_scope.

(** Times are nanoseconds since 1970.  From Go's zero time, 1 January of the year 1, to the
    end of the year 9999. *)
Definition first_time : Z := - 62135596800 * 10 ^ 9.
Definition last_time : Z := 253402300800 * 10 ^ 9 - 1.

(** The calendar of TimeSpec.v gives every day one date, and no two days the same. *)
Theorem C78_calendar :
  (forall n, exists d, date_of n d) /\
  (forall n d d', date_of n d -> date_of n d' -> d = d') /\
  (forall n n' d, date_of n d -> date_of n' d -> n = n').
Proof.
  split; [intros n; exists (calendar n); apply date_of_calendar; reflexivity|].
  split; [exact date_unique|exact day_unique].
Qed.
Print Assumptions C78_calendar.

(** The directory and the name of an ndt7 result show the date and the time, in UTC, at which
    it was made, to the nanosecond. *)
Theorem C78_ndt7_name : forall datadir what t uuid compress, datadir <> [] -> first_time <= t <= last_time ->
  exists day y m d h i s n yy mo dd hh mi ss nn,
    date_of day (y, m, d) /\ t = instant day h i s n 0 /\
    0 <= h < 24 /\ 0 <= i < 60 /\ 0 <= s < 60 /\ 0 <= n < 10 ^ 9 /\
    number 4 yy y /\ number 2 mo m /\ number 2 dd d /\ number 2 hh h /\ number 2 mi i /\ number 2 ss s /\ number 9 nn n /\
    ndt7_name datadir what (civil_at 0 t) uuid compress =
      ArchiveProps.under datadir ++ str "ndt7/" ++ yy ++ str "/" ++ mo ++ str "/" ++ dd ++ str "/ndt7-" ++ what ++ str "-" ++
      yy ++ mo ++ dd ++ str "T" ++ hh ++ mi ++ ss ++ str "." ++ nn ++ str "Z." ++ uuid ++ str ".json" ++
      (if compress then str ".gz" else []).
Proof. exact ndt7_name_time. Qed.
Print Assumptions C78_ndt7_name.

(** Results of one kind in one data directory sort by name in the order of time. *)
Theorem C78_sorted : forall datadir what t t' uuid uuid' compress compress',
  first_time <= t -> t < t' -> t' <= last_time ->
  sorts_before (ndt7_name datadir what (civil_at 0 t) uuid compress)
               (ndt7_name datadir what (civil_at 0 t') uuid' compress').
Proof. exact ndt7_sorted. Qed.
Print Assumptions C78_sorted.

(** The directory of an NDT5 record is named after the date at its StartTime in the zone of
    the process, which is [off] seconds east of UTC. *)
Theorem C78_ndt5_day : forall datadir off t, datadir <> [] -> Z.abs off < 86400 ->
  first_time <= t -> t + off * 10 ^ 9 <= last_time ->
  exists y m d yy mo dd,
    date_of ((t + off * 10 ^ 9) / (86400 * 10 ^ 9)) (y, m, d) /\
    number 4 yy y /\ number 2 mo m /\ number 2 dd d /\
    ndt5_dir datadir (civil_at off t) = ArchiveProps.under datadir ++ yy ++ str "/" ++ mo ++ str "/" ++ dd.
Proof. exact ndt5_day_time. Qed.
Print Assumptions C78_ndt5_day.

(** So, unlike for ndt7, it is not the date in UTC: in every other zone some times get the
    directory of another day. *)
Theorem C78_ndt5_utc_refuted : forall datadir off, off <> 0 -> Z.abs off < 86400 ->
  exists t, first_time <= t <= last_time /\
    ndt5_dir datadir (civil_at off t) <> ndt5_dir datadir (civil_at 0 t).
Proof. exact ndt5_zone. Qed.
Print Assumptions C78_ndt5_utc_refuted.

(** The time printed in a document is the time of the clock, to the nanosecond, in whatever
    zone. *)
Theorem C78_documents : forall off t w, off mod 60 = 0 -> first_time <= t ->
  marshal_time off t = Some w -> denotes w t.
Proof. intros off t w M F. exact (marshal_denotes off t w F M). Qed.
Print Assumptions C78_documents.

(** A text stands for one time only. *)
Theorem C78_unambiguous : forall w t t', denotes w t -> denotes w t' -> t = t'.
Proof. exact denotes_unique. Qed.
Print Assumptions C78_unambiguous.

(** Times before the year 10000 of the zone can be printed, others not. *)
Theorem C78_printable : forall off t, Z.abs off < 86400 -> first_time <= t ->
  marshal_time off t <> None <-> t + off * 10 ^ 9 <= last_time.
Proof. exact printable. Qed.
Print Assumptions C78_printable.

(** What is printed needs no escaping between quotes: the assumption on times under which the
    documents are proved to be JSON. *)
Theorem C78_plain : forall off t w, off mod 60 = 0 -> first_time <= t ->
  marshal_time off t = Some w -> Forall CodecSpec.time_char w.
Proof. intros off t w M F E. exact (denotes_plain w t (marshal_denotes off t w F M E)). Qed.
Print Assumptions C78_plain.

(** Unlike the names, the texts in documents do not sort in the order of time: a time within
    a second comes before the start of the second. *)
Theorem C78_document_order_refuted : forall t k, first_time <= t -> t + k <= last_time ->
  t mod 10 ^ 9 = 0 -> 0 < k < 10 ^ 9 ->
  exists w w', marshal_time 0 t = Some w /\ marshal_time 0 (t + k) = Some w' /\ sorts_before w' w.
Proof. exact document_order. Qed.
Print Assumptions C78_document_order_refuted.

(** 29 February 2024, 23:30:00.25 in UTC. *)
Definition leap_night : Z := 1709249400 * 10 ^ 9 + 250000000.
Example C78_example :
  first_time <= leap_night <= last_time /\
  ndt7_name (str "/data") (str "upload") (civil_at 0 leap_night) (str "u") false =
    str "/data/ndt7/2024/02/29/ndt7-upload-20240229T233000.250000000Z.u.json" /\
  ndt5_dir (str "/data") (civil_at 3600 leap_night) = str "/data/2024/03/01" /\
  marshal_time 0 leap_night = Some (str "2024-02-29T23:30:00.25Z") /\
  marshal_time (-12600) leap_night = Some (str "2024-02-29T20:00:00.25-03:30") /\
  marshal_time 0 first_time = Some (str "0001-01-01T00:00:00Z").
Proof. split; [vm_compute; split; discriminate|]. repeat split; vm_compute; reflexivity. Qed.
