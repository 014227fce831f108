(** Property C86: whether what a client sends can end the process of the server. *)
From Coq Require Import String ZArith List Bool Lia.
From Verif Require Import Base BaseFacts TextSpec JsonSpec Effect QueryModel QuerySpec QueryProofs ControlModel Ndt7Model Ndt7Spec ControlExample Ndt7Example
  TimeModel TimeSpec TimeProps ExactModel ExactSpec ExactTime ExactProps ArchiveModel ArchiveProofs ArchiveProps CodecModel CodecSpec CodecProofs CodecProps
  Ndt7Props ZoneModel ZoneSpec ZoneProofs.
Import ListNotations.
Open Scope Z_scope.

(** When every file operation works, saving the result of an ndt7 test ends the process
    exactly if the client sent a StartTime in a zone a day or more from UTC, or a time of the
    server itself is after the year 9999 in the zone of the process. *)
Theorem C86_exactly : forall off r client text datadir what t uuid compress gz ops x,
  Z.abs off < 24 * 3600 -> (forall own, server_time r own -> first_time <= own) ->
  Forall (fun tz => exists w, time_text w (fst tz) (snd tz)) client ->
  run (save_result datadir what t uuid compress gz (marshal_result off (own_times r) client text)) ops x ->
  Forall worked ops ->
  (In FExit ops <->
   Exists (fun tz => 24 * 60 <= Z.abs (snd tz)) client \/ exists own, server_time r own /\ last_time < own + off * 10 ^ 9).
Proof.
  intros off r client text d what t u c gz ops x A O C R W.
  pose proof (marshal_exact off r client text A O C) as M. unfold wide in M.
  rewrite <- M. clear M. destruct (marshal_result off (own_times r) client text) as [doc|].
  - split; [|discriminate]. intros H. destruct (saved_stays _ _ _ _ _ _ _ _ _ R W H).
  - split; [reflexivity|]. intros _. exact (failed_exits _ _ _ _ _ _ _ _ R).
Qed.
Print Assumptions C86_exactly.

(** What the process leaves when the document cannot be made: at most an empty file of that
    name, and only where there was none; every other file is as it was.  This is so however
    the file operations go. *)
Theorem C86_left_behind : forall datadir what t uuid compress gz ops x before after,
  run (save_result datadir what t uuid compress gz None) ops x -> fs_run before ops after ->
  let p := ndt7_name datadir what t uuid compress in
  In FExit ops /\ (forall other, other <> p -> after other = before other) /\
  (after p = before p \/ (before p = None /\ after p = Some [])).
Proof.
  intros d what t u c gz ops x f g R F p. split; [exact (failed_exits _ _ _ _ _ _ _ _ R)|].
  exact (left_behind _ _ _ _ _ _ _ _ _ _ R F).
Qed.
Print Assumptions C86_left_behind.

(** The claim that no client ends the process is false.  This message is accepted as a
    measurement; its StartTime is one instant in a zone of 24 hours, and the document of any
    result with it cannot be made; so saving it ends the process in every case; and a
    download in which the client sends it ends with WriteResult failing and with the end of
    the process. *)
Theorem C86_client_exit_refuted : forall e : error,
  exists text m start,
    text = str "{""ConnectionInfo"":{""StartTime"":""2020-01-01T00:00:00+24:00""}}" /\
    measurement_text (go_codec 0 [] []) text m /\ option_map ci_start (m_conn m) = Some start /\
    time_text (str "2020-01-01T00:00:00+24:00") start (24 * 60) /\
    (forall off own client doc datadir what t uuid compress gz ops x, In (start, 24 * 60) client ->
       run (save_result datadir what t uuid compress gz (marshal_result off own client doc)) ops x -> In FExit ops) /\
    exists tr r, run (run_request 4 h0 q0 Download (query raw0) (rev (query raw0)) tt) tr (tt, Panic Exited) /\
      received tr = [m] /\ In (EWriteResult r (Some e)) tr /\ In EExit tr.
Proof.
  intros e. exists wide_text, wide_sent, wide_start. split; [reflexivity|].
  assert (T : time_text (str "2020-01-01T00:00:00+24:00") wide_start (24 * 60)) by (apply read_time_spec; vm_compute; reflexivity).
  split; [|split; [reflexivity|split; [exact T|split]]].
  - apply C69_accepted; [exact (proj1 (C83_codec 0 [] [] ltac:(constructor) ltac:(constructor)))| |].
    + apply bytes_okb_spec. reflexivity.
    + vm_compute. reflexivity.
  - intros off own client doc d what t u c gz ops x I R.
    replace (marshal_result off own client doc) with (@None bytes) in R; [exact (failed_exits _ _ _ _ _ _ _ _ R)|].
    unfold marshal_result. assert (F : forallb (fun tz => is_some (marshal_time (snd tz * 60) (fst tz))) client = false).
    { destruct (forallb _ client) eqn:Q; [|reflexivity]. rewrite forallb_forall in Q. specialize (Q _ I). cbn [fst snd] in Q.
      rewrite (proj2 (proj1 (read_again _ _ _ T))) in Q; [discriminate|]. vm_compute. discriminate. }
    rewrite F, andb_false_r. reflexivity.
  - destruct (run_wide e) as (tr & R & W & G & X). exists tr, wide_result. auto.
Qed.
Print Assumptions C86_client_exit_refuted.

(** Two saves without a failing file operation: of that result, which ends the process, and
    of one of a client whose StartTime is in a zone of 23 hours and 59 minutes. *)
Example C86_example : exists start near,
  own_times wide_result = [5; 70; 20; 60] /\
  (forall own, server_time wide_result own -> first_time <= own) /\
  time_text (str "2020-01-01T00:00:00+24:00") start (24 * 60) /\ time_text (str "2020-01-01T00:00:00-23:59") near (- (23 * 60 + 59)) /\
  marshal_result 0 (own_times wide_result) [(start, 24 * 60)] (str "{}") = None /\
  marshal_result 0 (own_times wide_result) [(near, - (23 * 60 + 59))] (str "{}") = Some (str "{}") /\
  exists ops, run (save_result (str "/data") (str "download") noon (str "u") false plain_writer None) ops tt /\ Forall worked ops.
Proof.
  exists wide_start. eexists. split; [reflexivity|]. split.
  { intros own S. apply own_times_in in S. unfold first_time. cbn [In own_times app part_times wide_result n_start n_end n_upload n_download a_start a_end a_server time_of flat_map] in S. destruct S as [S|[S|[S|[S|[]]]]]; subst own; vm_compute; discriminate. }
  split; [apply read_time_spec; vm_compute; reflexivity|]. split; [apply read_time_spec; vm_compute; reflexivity|].
  split; [vm_compute; reflexivity|]. split; [vm_compute; reflexivity|].
  eexists. split.
  - exists true. eexists. split; [reflexivity|]. exists true. eexists. split; [reflexivity|]. exists tt. eexists. split; [reflexivity|]. split; reflexivity.
  - repeat constructor.
Qed.
