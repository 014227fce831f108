(** C81: the archive of an ndt7 test says what the client was told and what it said. *)
From Coq Require Import String ZArith List Bool Permutation.
From Verif Require Import Base BaseFacts TextSpec JsonSpec Effect Lts QueryModel QuerySpec Ndt7Model Ndt7Spec Ndt7Example Ndt7Props
  DoModel DoProofs GoroutineProps CodecModel CodecSpec CodecDemo CodecProps ToldSpec ToldProofs ToldExample.
Import ListNotations.
Open Scope Z_scope.

(** The document that is written for a request stands for one JSON value.  In it, the
    ServerMeasurements of the direction are null if no measurement was delivered; otherwise
    they are a list with one value for each that was, in that order, and that value is the
    one the client found in the message. *)
Theorem C81_told : forall fuel h q k l v1 v2 s tr s' r res c doc,
  query_pairs (q_raw q) l -> Permutation v1 (query (q_raw q)) -> Permutation v2 (query (q_raw q)) ->
  run (run_request fuel h q k v1 v2 s) tr (s', r) -> In res (results_written tr) ->
  codec_ok c -> result7_bytes res -> encode7 c res = Some doc ->
  exists j part list, stands_for doc j /\ has_member (part_name k) j part /\
    has_member (str "ServerMeasurements") part list /\ array (told c) (delivered tr) list.
Proof.
  intros fuel h q k l v1 v2 s tr s' r res c doc Q P1 P2 H I K B E.
  destruct (C36_request _ _ _ _ _ _ _ _ _ _ _ _ Q P1 P2 H I) as (d & D & <-).
  destruct (part_told c K k res d doc D B E) as (j & part & sm & cm & S & M & M1 & A1 & _).
  exists j, part, sm. auto.
Qed.
Print Assumptions C81_told.

(** Whatever messages the measurements of the client came in, however they were spelt: its
    ClientMeasurements are one object for each, in that order, and reading that object as a
    message gives what the message of the client gives. *)
Theorem C81_kept : forall fuel h q k l v1 v2 s tr s' r res c doc texts,
  query_pairs (q_raw q) l -> Permutation v1 (query (q_raw q)) -> Permutation v2 (query (q_raw q)) ->
  run (run_request fuel h q k v1 v2 s) tr (s', r) -> In res (results_written tr) ->
  codec_ok c -> times_return c -> result7_bytes res -> encode7 c res = Some doc ->
  Forall bytes_ok texts -> Forall2 (measurement_text c) texts (received tr) ->
  exists j part list, stands_for doc j /\ has_member (part_name k) j part /\
    has_member (str "ClientMeasurements") part list /\ array (agrees c) texts list.
Proof.
  intros fuel h q k l v1 v2 s tr s' r res c doc texts Q P1 P2 H I K T B E Bt F.
  assert (X : exists d, data_of k res d /\ a_client d = received tr).
  { apply (C34_one_result _ _ _ _ _ _ _ _ _ _ _ Q P1 P2) in H.
    destruct H as [(_ & _ & _ & _ & W & _)|(u & _ & [(_ & _ & _ & _ & res' & d & W & Dk & _ & _ & Dc & _)|[(_ & _ & W & _)|(_ & _ & _ & W & _)]])];
      rewrite W in I; cbn in I; try contradiction.
    destruct I as [<-|[]]. eauto. }
  destruct X as (d & D & Dc). rewrite <- Dc in F.
  destruct (part_told c K k res d doc D B E) as (j & part & sm & cm & S & M & _ & _ & M2 & A2).
  exists j, part, cm. repeat (split; [assumption|]). apply (array_agrees c K T texts (a_client d)); assumption.
Qed.
Print Assumptions C81_kept.

(** They come in the text messages the receiver got, up to the first that is not a
    measurement, if Do returned before the context of the request was done. *)
Theorem C81_receiver : forall sender c fuel proto k s snap, codec_ok c ->
  reachable (sub_init sender (receiver (decode_measurement c) fuel proto k tt)) sub_step s ->
  d_returned s = Some (snap, false) ->
  (forall p, In (IPong p) (inputs (d_rtrace s)) -> bytes_ok p) ->
  (forall t, In (IText t) (inputs (d_rtrace s)) -> bytes_ok t) ->
  exists texts bad, texts_of (inputs (d_rtrace s)) = texts ++ bad /\ Forall2 (measurement_text c) texts snap /\
    (bad = [] \/ exists t, bad = [t] /\ forall m, ~ measurement_text c t m).
Proof.
  intros sender c fuel proto k s snap K R E P B.
  destruct (C40_unexpired _ _ _ _ _ _ _ R E) as (_ & H & ->).
  destruct (C69_receiver _ _ _ _ _ _ _ _ K H P B) as (texts & bad & E1 & F & [->|(t & -> & _ & N)]); exists texts; eauto 8.
Qed.
Print Assumptions C81_receiver.

(** A download with one measurement in each direction, in whole. *)
Example C81_example : query_pairs raw0 pairs0 /\ codec_ok demo /\ times_return demo /\ result7_bytes kept_result /\
  encode7 demo kept_result <> None /\ Forall2 (measurement_text demo) [kept_text] [kept] /\
  exists tr, run (run_request 4 h0 q0 Download (query raw0) (rev (query raw0)) tt) tr (tt, Ok tt) /\
    results_written tr = [kept_result] /\ delivered tr = [m_early] /\ received tr = [kept].
Proof.
  assert (B : forall s, bytes_okb s = true -> bytes_ok s) by (intros s; apply bytes_okb_spec).
  split; [exact pairs0_ok|]. split; [exact demo_ok|]. split; [split; intros; apply demo_back; assumption|]. split.
  { unfold result7_bytes, kept_result. cbn [n_server_ip n_client_ip n_upload n_download]. do 2 (split; [apply B; reflexivity|]).
    split; [discriminate|]. intros a E. injection E as <-. unfold archival_bytes. cbn [a_uuid a_server a_client a_client_meta a_server_meta].
    split; [apply B; reflexivity|].
    split; [constructor; [intros c; discriminate|constructor]|]. split; [constructor; [intros c; discriminate|constructor]|].
    split; repeat apply Forall_cons; try apply Forall_nil; split; apply B; reflexivity. }
  split; [vm_compute; discriminate|]. split; [constructor; [exact (proj1 C69_example)|constructor]|]. exact run_kept.
Qed.
