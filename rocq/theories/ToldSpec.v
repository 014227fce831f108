(** Vocabulary of C81: the parts of an archived ndt7 document, and what a measurement in it
    has to do with a message. *)
From Coq Require Import String ZArith List Bool.
From Verif Require Import Base JsonSpec Ndt7Model Ndt7Spec CodecModel CodecSpec.
Import ListNotations.
Open Scope Z_scope.

(** The object [j] has exactly one member with this name, and that is its value. *)
Definition has_member (name : bytes) (j value : json) : Prop :=
  exists l1 l2, j = JObj (l1 ++ (name, value) :: l2) /\ ~ In name (map fst (l1 ++ l2)).

(** The member of a result for a direction. *)
Definition part_name (k : kind7) : bytes := match k with Download => str "Download" | Upload => str "Upload" end.

(** The text is JSON and stands for this value and no other. *)
Definition stands_for (text : bytes) (j : json) : Prop := forall j', json_text text j' <-> j' = j.

(** The message with which the measurement is sent to a client stands for [j]. *)
Definition told (c : codec) (m : measurement) (j : json) : Prop :=
  exists text, encode_measurement c m = Some text /\ stands_for text j.

(** The client's message, read as a measurement, and the object [j], read as one, are the
    same measurement. *)
Definition agrees (c : codec) (text : bytes) (j : json) : Prop :=
  exists m l, (forall m', measurement_text c text m' <-> m' = m) /\
              j = JObj l /\ (forall m', measurement_members c l m' <-> m' = m).

(** Times read from a text are written as a text that is read as the same time. *)
Definition times_return (c : codec) : Prop :=
  (forall s n w, k_read_time c s = Some n -> k_time c n = Some w -> k_read_time c w = Some n) /\
  (forall w, k_time c zero_time = Some w -> k_read_time c w = Some zero_time).
