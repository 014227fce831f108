(** Property C46: a document that was cut off is not taken for a complete one. *)
From Coq Require Import String ZArith List Bool Lia.
From Verif Require Import Base BaseFacts TextSpec JsonSpec GoFloat MessagerSpec Web100Model Effect QueryModel
  ControlModel Ndt7Model Ndt7Spec ArchiveModel ArchiveProofs ArchiveProps CodecModel CodecSpec CodecFacts CodecDemo CodecProps ToldExample ToldProps
  TruncateProofs.
Import ListNotations.
Open Scope Z_scope.

(** ndt7, not compressed: wherever saving a result stops, at a crash or a failing write, the
    file is as it was, or is the whole document, or is not JSON. *)
Theorem C46_cut_ndt7 : forall k r doc datadir what t uuid gz before tr after, codec_ok k -> result7_bytes r ->
  encode7 k r = Some doc ->
  starts (write_result datadir what t uuid false gz doc) tr -> fs_run before tr after ->
  let p := ndt7_name datadir what t uuid false in
  after p = before p \/
  before p = None /\ exists text, after p = Some text /\ (text = doc \/ forall j, ~ json_text text j).
Proof.
  intros k r doc d what t u gz f tr g K B E S R p.
  destruct (C46_ndt7 _ _ _ _ _ _ _ _ _ _ S R) as [_ [H|(N & n & H)]]; [left; exact H|right].
  split; [exact N|]. eexists. split; [exact H|]. exact (cut7 k r doc n K B E).
Qed.
Print Assumptions C46_cut_ndt7.

(** NDT5: the same, except that the line feed at the end may be missing, without which the
    text says the same. *)
Theorem C46_cut_ndt5 : forall k etext r doc datadir t uuid before tr after, codec_ok k -> record_bytes etext r ->
  encode5 k etext r = Some doc ->
  starts (save_data datadir t uuid (Some doc)) tr -> fs_run before tr after ->
  exists p, (forall q, q <> p -> after q = before q) /\
    (after p = before p \/
     exists text, after p = Some text /\
       (text = doc \/ (text ++ [10] = doc /\ forall j, json_text text j <-> json_text doc j) \/ forall j, ~ json_text text j)).
Proof.
  intros k et r doc d t u f tr g K B E S R.
  destruct (C46_ndt5 _ _ _ _ _ _ _ S R) as (p & A & H). exists p. split; [exact A|].
  destruct H as [H|(n & H)]; [left; exact H|right]. eexists. split; [exact H|]. exact (cut5 k et r doc n K B E).
Qed.
Print Assumptions C46_cut_ndt5.

(** Documents of both kinds, and a crash after the first byte of the first. *)
Example C46_cut_example : codec_ok demo /\ record_bytes demo_text demo_record /\ encode5 demo demo_text demo_record <> None /\
  result7_bytes kept_result /\
  exists doc tr after, encode7 demo kept_result = Some doc /\
    starts (write_result (str "/data") (str "download") noon (str "host_1_2") false plain_writer doc) tr /\
    fs_run (fun _ => None) tr after /\
    after (ndt7_name (str "/data") (str "download") noon (str "host_1_2") false) = Some (str "{").
Proof.
  split; [exact (proj1 C68_ndt5_example)|]. split; [exact (proj1 (proj2 C68_ndt5_example))|].
  split; [exact (proj1 (proj2 (proj2 C68_ndt5_example)))|].
  split; [exact (proj1 (proj2 (proj2 (proj2 C81_example))))|].
  destruct (encode7 demo kept_result) as [doc|] eqn:E; [|exfalso; exact (proj1 (proj2 (proj2 (proj2 (proj2 C81_example)))) E)].
  assert (L : (1 < length doc)%nat /\ firstn 1 doc = str "{").
  { assert (Q : option_map (fun d => (Nat.ltb 1 (length d), firstn 1 d)) (encode7 demo kept_result) = Some (true, str "{")) by (vm_compute; reflexivity).
    rewrite E in Q. cbn [option_map] in Q. injection Q as Q1 Q2. apply PeanoNat.Nat.ltb_lt in Q1. auto. }
  destruct L as [L F].
  destruct (C46_partial_document_refuted (str "/data") (str "download") noon (str "host_1_2") doc L) as (tr & after & S & R & A & _).
  exists doc, tr, after. rewrite F in A. auto.
Qed.
