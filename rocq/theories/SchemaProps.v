(** The schemas that are published for the archive (C84). *)
From Coq Require Import String ZArith List Bool Lia.
From Verif Require Import Base BaseFacts TextSpec TextProofs JsonSpec GoFloat TimeModel TimeSpec TimeFacts Effect ControlModel Ndt7Model
  CodecModel CodecSpec CodecDemo CodecProps ToldSpec ToldExample ToldProps ExactModel ExactProofs ExactCodec SchemaModel SchemaSpec SchemaProofs SchemaFacts.
Import ListNotations.
Open Scope Z_scope.

(** When the schema of ndt7 is written, an archived ndt7 result loads into a table with that
    schema exactly when its times are of the years 1 to 9999: there is a column of the right
    type for every member. *)
Theorem C84_ndt7 : forall off commit version path7 path5 w5 f, off mod 60 = 0 -> bytes_ok commit -> bytes_ok version -> path5 <> path7 ->
  let k := go_codec off commit version in
  exists s, fst (generate k path7 path5 Written w5 f) path7 = Some s /\
    forall r doc, result7_bytes r -> typed (ndt7_fields k) (ndt7_struct k r) -> encode7 k r = Some doc ->
      exists j, stands_for doc j /\ (loads s j <-> result7_dated r).
Proof. exact published7. Qed.
Print Assumptions C84_ndt7.
Example C84_ndt7_example : let k := go_codec 0 (str "4abf83c") (str "v0.22") in
  result7_bytes kept_result /\ typed (ndt7_fields k) (ndt7_struct k kept_result) /\ encode7 k kept_result <> None /\
  result7_dated kept_result.
Proof.
  cbv zeta. split; [exact (proj1 (proj2 (proj2 (proj2 C81_example))))|]. split; [apply (proj2 typed_check); vm_compute; reflexivity|].
  split; [vm_compute; discriminate|]. assert (S : forall t, (- 62135596800 * 10 ^ 9 <=? t) && (t <? 253402300800 * 10 ^ 9) = true -> timestamp t).
  { intros t H. apply andb_prop in H as [A B]. apply Z.leb_le in A. apply Z.ltb_lt in B. split; assumption. }
  split; [apply S; reflexivity|]. split; [apply S; reflexivity|]. intros a [A|A]; [discriminate|]. injection A as <-.
  split; [apply S; reflexivity|]. split; [apply S; reflexivity|]. repeat apply Forall_cons; try apply Forall_nil; intros c; discriminate.
Qed.

(** The schema published for ndt5 is not one for ndt5: no archived record of an NDT5
    connection loads into a table with it. *)
Theorem C84_ndt5_refuted : forall off commit version path7 path5 w7 f, bytes_ok commit -> bytes_ok version ->
  let k := go_codec off commit version in
  exists s, fst (generate k path7 path5 w7 Written f) path5 = Some s /\
    forall text r doc, record_bytes text r -> encode5 k text r = Some doc ->
      exists j, stands_for doc j /\ ~ loads s j.
Proof. exact published5. Qed.
Print Assumptions C84_ndt5_refuted.

(** They would load into the schema of their own struct. *)
Theorem C84_ndt5_intended : forall off commit version, off mod 60 = 0 -> bytes_ok commit -> bytes_ok version ->
  let k := go_codec off commit version in
  forall text r doc, record_bytes text r -> typed (ndt5_fields k) (ndt5_struct k text r) -> encode5 k text r = Some doc ->
    exists j, stands_for doc j /\ (loads (schema_of (ndt5_fields k)) j <-> record_dated r).
Proof. exact intended5. Qed.
Print Assumptions C84_ndt5_intended.
Example C84_ndt5_example : let k := go_codec 0 (str "4abf83c") (str "v0.22") in
  record_bytes demo_text demo_record /\ typed (ndt5_fields k) (ndt5_struct k demo_text demo_record) /\ encode5 k demo_text demo_record <> None /\
  record_dated demo_record.
Proof.
  cbv zeta. split; [exact (proj1 (proj2 C68_ndt5_example))|]. split; [apply (proj2 typed_check); vm_compute; reflexivity|].
  split; [vm_compute; discriminate|]. assert (S : forall t, (- 62135596800 * 10 ^ 9 <=? t) && (t <? 253402300800 * 10 ^ 9) = true -> timestamp t).
  { intros t H. apply andb_prop in H as [A B]. apply Z.leb_le in A. apply Z.ltb_lt in B. split; assumption. }
  split; [apply S; reflexivity|]. split; [apply S; reflexivity|]. split; [discriminate|]. intros d E. injection E as <-.
  split; [apply S; reflexivity|exact I].
Qed.

(** BigQuery accepts the schemas. *)
Theorem C84_legal : forall off commit version,
  let k := go_codec off commit version in
  legal_col (CRecord (schema_of (ndt7_fields k))) /\ legal_col (CRecord (schema_of (ndt5_fields k))).
Proof. exact both_legal. Qed.
Print Assumptions C84_legal.

(** The exit status does not tell whether the schemas were written. *)
Theorem C84_status_refuted : forall k path7 path5 w7 w5 f, snd (generate k path7 path5 w7 w5 f) = 0 /\
  (w7 <> Written -> w5 <> Written -> forall p s, fst (generate k path7 path5 w7 w5 f) p = Some s -> f p = Some s).
Proof. exact silent. Qed.
Print Assumptions C84_status_refuted.

(** A client can send a time of the year 0: it is accepted and archived, and the result of
    that test does not load. *)
Theorem C84_client_refuted : let k := go_codec 0 (str "4abf83c") (str "v0.22") in
  exists text m, measurement_text k text m /\
    (forall r a, n_upload r = Some a \/ n_download r = Some a -> In m (a_client a) -> ~ result7_dated r) /\
    exists r a, n_download r = Some a /\ a_client a = [m] /\ result7_bytes r /\
      typed (ndt7_fields k) (ndt7_struct k r) /\ encode7 k r <> None.
Proof. exact year_zero. Qed.
Print Assumptions C84_client_refuted.
