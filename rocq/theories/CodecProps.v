(** The documents of the archive (C68) and the measurements a client may send (C69). *)
From Coq Require Import String ZArith List Bool Lia.
From Verif Require Import Base BaseFacts TextSpec JsonSpec GoFloat MessagerSpec Web100Model Effect QueryModel
  ControlModel Ndt7Model Ndt7Spec ArchiveModel CodecModel CodecSpec CodecFacts CodecRead CodecDemo.
Import ListNotations.
Open Scope Z_scope.

(** ** C68 *)

(** The archived text of an NDT5 connection is one JSON value, and that value is the one the
    record describes: the members in this order, no others, and every value as it was
    measured. *)
Theorem C68_ndt5 : forall k text r doc, codec_ok k -> record_bytes text r -> encode5 k text r = Some doc ->
  exists j, ndt5_doc k text r j /\ forall j', json_text doc j' <-> j' = j.
Proof.
  intros k text r doc K B E. destruct (document5 k K text r doc B E) as (Bd & j & J & D).
  exists j. split; [exact D|]. intros j'. split; [apply (json_text_fun doc j j' Bd J)|intros ->; exact J].
Qed.
Print Assumptions C68_ndt5.

Example C68_ndt5_example : codec_ok demo /\ record_bytes demo_text demo_record /\
  encode5 demo demo_text demo_record <> None /\
  fits_fields demo (ndt5_fields demo) (ndt5_struct demo demo_text demo_record).
Proof.
  split; [exact demo_ok|]. split.
  { assert (B : forall s, bytes_okb s = true -> bytes_ok s) by (intros s; apply bytes_okb_spec).
    unfold record_bytes. do 3 (split; [apply B; reflexivity|]). split; [constructor|].
    split; [constructor; [split; apply B; reflexivity|constructor]|]. do 2 (split; [apply B; reflexivity|]).
    split; [discriminate|]. split; [|intros e; apply B; reflexivity].
    intros d E. assert (D : d = demo_s2c) by (cbn [r_s2c demo_record] in E; congruence). rewrite D.
    do 2 (split; [apply B; reflexivity|]). apply B; reflexivity. }
  split; [vm_compute; discriminate|].
  exact demo_fits.
Qed.

(** The same for the result of an ndt7 test. *)
Theorem C68_ndt7 : forall k r doc, codec_ok k -> result7_bytes r -> encode7 k r = Some doc ->
  exists j, ndt7_doc k r j /\ forall j', json_text doc j' <-> j' = j.
Proof.
  intros k r doc K B E. destruct (document7 k K r doc B E) as (Bd & j & J & D).
  exists j. split; [exact D|]. intros j'. split; [apply (json_text_fun doc j j' Bd J)|intros ->; exact J].
Qed.
Print Assumptions C68_ndt7.

(** The same for a measurement sent to the client. *)
Theorem C68_message : forall k m doc, codec_ok k -> measurement_bytes m -> encode_measurement k m = Some doc ->
  exists j, measurement_doc k m j /\ forall j', json_text doc j' <-> j' = j.
Proof.
  intros k m doc K B E. destruct (message7 k K m doc B E) as (Bd & j & J & D).
  exists j. split; [exact D|]. intros j'. split; [apply (json_text_fun doc j j' Bd J)|intros ->; exact J].
Qed.
Print Assumptions C68_message.

(** There is a document unless a rate is not a number or a time cannot be written. *)
Theorem C68_ndt5_fails : forall k text r, encode5 k text r = None <->
  finite_record r = false \/ Exists (fun t => k_time k t = None) (times5 r).
Proof. exact fails5. Qed.
Print Assumptions C68_ndt5_fails.

Theorem C68_ndt7_fails : forall k r, encode7 k r = None <-> Exists (fun t => k_time k t = None) (times7 r).
Proof. exact fails7. Qed.
Print Assumptions C68_ndt7_fails.

Theorem C68_message_fails : forall k m,
  encode_measurement k m = None <-> Exists (fun t => k_time k t = None) (measurement_times m).
Proof. exact fails_message. Qed.
Print Assumptions C68_message_fails.

(** The encoder C16 and C15 leave open is this one. *)
Theorem C68_ndt5_encoder : forall k text, exists body, forall r, Forall (printable k) (times5 r) ->
  encode5 k text r = encode body r.
Proof. exact encoder5. Qed.
Print Assumptions C68_ndt5_encoder.

(** Reading a document back gives what was written, if it survives at all: strings that are
    not UTF-8 were repaired. *)
Theorem C68_ndt5_back : forall k text r doc, codec_ok k -> record_bytes text r -> encode5 k text r = Some doc ->
  fits_fields k (ndt5_fields k) (ndt5_struct k text r) ->
  unmarshal_into k (ndt5_fields k) (zeros (ndt5_fields k)) doc = Some (ndt5_struct k text r).
Proof. intros k text r doc K. exact (back5 k K text r doc). Qed.
Print Assumptions C68_ndt5_back.

Theorem C68_ndt7_back : forall k r doc, codec_ok k -> result7_bytes r -> encode7 k r = Some doc ->
  fits_fields k (ndt7_fields k) (ndt7_struct k r) ->
  unmarshal_into k (ndt7_fields k) (zeros (ndt7_fields k)) doc = Some (ndt7_struct k r).
Proof. intros k r doc K. exact (back7 k K r doc). Qed.
Print Assumptions C68_ndt7_back.

Theorem C68_message_back : forall k m doc, codec_ok k -> measurement_bytes m -> encode_measurement k m = Some doc ->
  fits_fields k (measurement_fields k) (measurement_struct k m) ->
  (forall t e, m_tcp m = Some (t, e) -> tcp_like k t) -> decode_measurement k doc = Some m.
Proof.
  intros k m doc K B E F T. rewrite (back_message k K m doc B E F). f_equal. apply measurement_self; assumption.
Qed.
Print Assumptions C68_message_back.

(** ** C69 *)

(** Exactly these texts are accepted as measurements, and this is what is stored. *)
Theorem C69_accepted : forall k text m, codec_ok k -> bytes_ok text ->
  (decode_measurement k text = Some m <-> measurement_text k text m).
Proof. intros k text m K. exact (decode_spec k K text m). Qed.
Print Assumptions C69_accepted.

(** So a text stands for at most one measurement. *)
Theorem C69_one : forall k text m m', codec_ok k -> bytes_ok text ->
  measurement_text k text m -> measurement_text k text m' -> m = m'.
Proof.
  intros k text m m' K B H H'. apply (decode_spec k K text _ B) in H. apply (decode_spec k K text _ B) in H'. congruence.
Qed.
Print Assumptions C69_one.

(** The receiver of the server stores the measurements of the texts it got, up to the first
    that is not one. *)
Theorem C69_receiver : forall k fuel proto kind s tr s' r, codec_ok k ->
  run (receiver (decode_measurement k) fuel proto kind s) tr (s', r) ->
  (forall p, In (IPong p) (inputs tr) -> bytes_ok p) ->
  (forall d, In (IText d) (inputs tr) -> bytes_ok d) ->
  exists texts bad, texts_of (inputs tr) = texts ++ bad /\ Forall2 (measurement_text k) texts (stored tr) /\
    (bad = [] \/ exists d, bad = [d] /\ r = Ok tt /\ forall m, ~ measurement_text k d m).
Proof. exact receiver_texts. Qed.
Print Assumptions C69_receiver.

(** Whatever measurements the client sends, the result can be written. *)
Theorem C69_storable : forall k r, codec_ok k ->
  (forall s n, k_read_time k s = Some n -> k_time k n <> None) -> k_time k zero_time <> None ->
  Forall (printable k) (server_times r) ->
  Forall (fun m => exists text, bytes_ok text /\ decode_measurement k text = Some m) (client_measurements r) ->
  encode7 k r <> None.
Proof. intros k r K RT ZT. exact (storable k K RT ZT r). Qed.
Print Assumptions C69_storable.

(** Names without regard to case, a repeated member, an unknown member and a null. *)
Example C69_example : measurement_text demo
  (str "{""appinfo"":{""NUMBYTES"":1,""ElapsedTime"":2,""x"":[]}, ""AppInfo"":{""elapsedTime"":3},""ConnectionInfo"":null}")
  (Measurement (Some (1, 3)) None None None) /\
  (forall m, ~ measurement_text demo (str "{""AppInfo"":{""NumBytes"":1.5}}") m).
Proof.
  split.
  - apply C69_accepted; [exact demo_ok|apply bytes_okb_spec; reflexivity|vm_compute; reflexivity].
  - intros m H. apply C69_accepted in H; [|exact demo_ok|apply bytes_okb_spec; reflexivity]. revert H. vm_compute. discriminate.
Qed.

(** A measurement of the server comes back as it was. *)
Example C68_message_example :
  let m := Measurement (Some (10, 20)) (Some (ConnInfo (str "1.2.3.4:5") (str "5.6.7.8:443") (str "u_1") 7)) None
                       (Some (demo_tcp_info, 20)) in
  exists doc, encode_measurement demo m = Some doc /\ decode_measurement demo doc = Some m.
Proof. eexists. split; [vm_compute; reflexivity|vm_compute; reflexivity]. Qed.

(** A result with a client measurement that can be written. *)
Example C69_storable_example :
  let m := Measurement (Some (1, 3)) (Some (ConnInfo [] [] [] zero_time)) None None in
  let r := Result7 (str "1.2.3.4") 5 (str "5.6.7.8") 443 1 2
             (Some (Archival (str "u_1") (Some 1) None [] [m] [] [])) None in
  (forall s n, k_read_time demo s = Some n -> k_time demo n <> None) /\ k_time demo zero_time <> None /\
  Forall (printable demo) (server_times r) /\
  decode_measurement demo (str "{""AppInfo"":{""NumBytes"":1,""ElapsedTime"":3},""ConnectionInfo"":{}}") = Some m.
Proof.
  split; [exact demo_printed|]. split; [vm_compute; discriminate|]. split; [|vm_compute; reflexivity].
  repeat constructor; vm_compute; discriminate.
Qed.
