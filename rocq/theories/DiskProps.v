(** Properties C16 and C81: what is on the disk after a test, from the conversation with the
    client to the JSON value in the file. *)
From Coq Require Import String ZArith List Bool Permutation Lia.
From Verif Require Import Base BaseFacts TextSpec JsonSpec GoFloat MessagerSpec Web100Model Effect QueryModel QuerySpec QueryProofs
  ControlModel ControlSpec ControlExample ControlProps Ndt7Model Ndt7Spec Ndt7Props ArchiveModel ArchiveProofs ArchiveProps TimeModel CodecModel CodecSpec CodecFacts CodecDemo CodecProps
  ExactModel ExactCodec ExactExample ExactProps ToldSpec ToldExample ToldProps Ndt7Example DiskProofs.
Import ListNotations.
Open Scope Z_scope.

(** A control connection whose UUID is known, and whose record is stored without a failing
    file operation: the file named after the day of its start and its UUID holds the record
    as one JSON value, every member as the record has it; or nothing, if a number in the
    record is not finite or a time cannot be written. *)
Theorem C16_on_disk : forall off commit version g tr s x etext datadir ops y before after,
  bytes_ok commit -> bytes_ok version -> c_uuid g <> str "ERROR_DISCOVERING_UUID" ->
  run (handle_control_channel g tt) tr (s, x) ->
  let k := go_codec off commit version in
  exists r, saved tr = [r] /\
    (record_bytes etext r ->
     let day := civil_at off (r_start r) in
     run (save_data datadir day (r_uuid r) (encode5 k etext r)) ops y -> fs_run before ops after -> Forall succeeded ops ->
     exists text, after (ndt5_name (ndt5_dir datadir day) (c_uuid g)) = Some text /\
       (finite_record r = false \/ Exists (fun t => marshal_time off t = None) (times5 r) -> text = []) /\
       (finite_record r = true -> Forall (fun t => marshal_time off t <> None) (times5 r) ->
        exists j, stands_for text j /\ ndt5_doc k etext r j)).
Proof.
  intros off commit version g tr s x et d ops y f h C V N R k.
  destruct (C54_archived_record g tr s x R) as (r & S & U & _). exists r. split; [exact S|].
  intros B day W F Sc. destruct (save_data_run _ _ _ _ _ _ _ _ W F Sc) as (rnd & E).
  unfold ndt5_file in E. rewrite U in E. destruct (beqb (c_uuid g) bad_uuid) eqn:Q; [apply beqb_spec in Q; contradiction|].
  eexists. split; [exact E|].
  pose proof (fails5_at off commit version et r) as Fl. fold k in Fl. split.
  - intros H. apply Fl in H. rewrite H. reflexivity.
  - intros H1 H2. destruct (encode5 k et r) as [doc|] eqn:D.
    + destruct (C68_ndt5 k et r doc (proj1 (C83_codec off commit version C V)) B D) as (j & J & T). exists j. split; [exact T|exact J].
    + exfalso. destruct (proj1 Fl eq_refl) as [H|H]; [congruence|]. apply Exists_exists in H as (t & I & Z).
      rewrite Forall_forall in H2. exact (H2 t I Z).
Qed.
Print Assumptions C16_on_disk.

(** A connection with an upload and a download test, stored. *)
Example C16_on_disk_example : exists tr r u ops after,
  run (handle_control_channel g0 tt) tr (tt, Ok tt) /\ saved tr = [r] /\ r_c2s r = Some u /\ record_bytes demo_text r /\
  let data := encode5 (go_codec 0 (str "4abf83c") (str "v0.22")) demo_text r in
  data <> None /\
  run (save_data (str "/data") (civil_at 0 (r_start r)) (r_uuid r) data) ops tt /\
  fs_run (fun _ => None) ops after /\ Forall succeeded ops.
Proof.
  destruct C83_rates_example as (tr & r & u & R & S & U & B & E).
  exists tr, r, u. set (t := civil_at 0 (r_start r)). set (p := ndt5_name (ndt5_dir (str "/data") t) (r_uuid r)).
  destruct (encode5 _ _ _) as [doc|]; [|contradiction].
  exists [FMkdir (ndt5_dir (str "/data") t) true; FOpen p false true; FWrite p doc (length doc); FClose p].
  exists (fs_set (fs_set (fun _ => None) p []) p ([] ++ firstn (length doc) doc)).
  split; [exact R|]. split; [exact S|]. split; [exact U|]. split; [exact B|]. cbv zeta. split; [discriminate|].
  destruct (C54_archived_record g0 tr tt (Ok tt) R) as (r' & S' & U' & _). assert (r' = r) as -> by congruence.
  split; [|split].
  - unfold save_data. replace (beqb (r_uuid r) bad_uuid) with false by (rewrite U'; reflexivity).
    exists true. eexists. split; [reflexivity|]. exists true. eexists. split; [reflexivity|].
    exists (length doc). eexists. split; [reflexivity|].
    exists tt. eexists. split; [reflexivity|]. split; reflexivity.
  - econstructor; [constructor|]. econstructor; [apply fs_open_trunc|]. econstructor; [apply fs_write; [apply set_same|lia]|].
    econstructor; [constructor|constructor].
  - repeat (apply Forall_cons; [exact I || reflexivity|]). constructor.
Qed.

(** An ndt7 request, from the socket to the disk, without compression: unless the process
    ends, the file that is named after the test holds one JSON value, whose
    ServerMeasurements are those that were delivered to the client, each as the client found
    it in its message; and no other file is touched. *)
Theorem C81_on_disk : forall fuel h q k l v1 v2 s tr s' r res c doc datadir what t uuid gz ops x before after,
  query_pairs (q_raw q) l -> Permutation v1 (query (q_raw q)) -> Permutation v2 (query (q_raw q)) ->
  run (run_request fuel h q k v1 v2 s) tr (s', r) -> In res (results_written tr) ->
  codec_ok c -> result7_bytes res -> encode7 c res = Some doc ->
  run (write_result datadir what t uuid false gz doc) ops x -> fs_run before ops after -> ~ In FExit ops ->
  let p := ndt7_name datadir what t uuid false in
  (forall other, other <> p -> after other = before other) /\
  exists text j part list, after p = Some text /\ stands_for text j /\ has_member (part_name k) j part /\
    has_member (str "ServerMeasurements") part list /\ array (told c) (delivered tr) list.
Proof.
  intros fuel h q k l v1 v2 s tr s' r res c doc d what t u gz ops x f g Q P1 P2 R I K B E W F N p.
  split.
  - refine (proj1 (C46_ndt7 d what t u false gz doc f ops g _ F)). rewrite <- (app_nil_r ops) in W. exact (run_starts _ _ _ _ W).
  - destruct (C81_told _ _ _ _ _ _ _ _ _ _ _ _ _ _ Q P1 P2 R I K B E) as (j & part & lst & H).
    exists doc, j, part, lst. split; [exact (C59_uncompressed _ _ _ _ _ _ _ _ _ _ W F N)|exact H].
Qed.
Print Assumptions C81_on_disk.

(** The request of the example of C81, stored. *)
Example C81_on_disk_example : exists tr doc ops after,
  run (run_request 4 h0 q0 Download (query raw0) (rev (query raw0)) tt) tr (tt, Ok tt) /\
  In kept_result (results_written tr) /\ encode7 demo kept_result = Some doc /\
  run (write_result (str "/data") (str "download") noon (str "host_1_2") false plain_writer doc) ops tt /\
  fs_run (fun _ => None) ops after /\ ~ In FExit ops.
Proof.
  destruct C81_example as (_ & _ & _ & _ & E & _ & tr & R & W & _).
  destruct (encode7 demo kept_result) as [doc|]; [|contradiction].
  destruct (stored_plain (str "/data") (str "download") noon (str "host_1_2") doc) as (ops & after & S & F & N).
  exists tr, doc, ops, after. split; [exact R|]. split; [rewrite W; left; reflexivity|]. split; [reflexivity|]. auto.
Qed.

(** The same with compression, for whatever undoes it: unless the process ends or a write
    falls short, what comes out of the file is that JSON value. *)
Theorem C81_on_disk_compressed : forall fuel h q k l v1 v2 s tr s' r res c doc datadir what t uuid gz unzip ops x before after,
  query_pairs (q_raw q) l -> Permutation v1 (query (q_raw q)) -> Permutation v2 (query (q_raw q)) ->
  run (run_request fuel h q k v1 v2 s) tr (s', r) -> In res (results_written tr) ->
  codec_ok c -> result7_bytes res -> encode7 c res = Some doc ->
  (forall d, unzip (concat (fst (gz d)) ++ concat (snd (gz d))) = Some d) ->
  run (write_result datadir what t uuid true gz doc) ops x -> fs_run before ops after -> ~ In FExit ops ->
  (forall p d n, In (FWrite p d n) ops -> n = length d) ->
  let p := ndt7_name datadir what t uuid true in
  (forall other, other <> p -> after other = before other) /\
  exists file text j part list, after p = Some file /\ unzip file = Some text /\ stands_for text j /\
    has_member (part_name k) j part /\ has_member (str "ServerMeasurements") part list /\ array (told c) (delivered tr) list.
Proof.
  intros fuel h q k l v1 v2 s tr s' r res c doc d what t u gz unzip ops x f g Q P1 P2 R I K B E U W F N A p.
  split.
  - refine (proj1 (C46_ndt7 d what t u true gz doc f ops g _ F)). rewrite <- (app_nil_r ops) in W. exact (run_starts _ _ _ _ W).
  - destruct (C81_told _ _ _ _ _ _ _ _ _ _ _ _ _ _ Q P1 P2 R I K B E) as (j & part & lst & H).
    destruct (C59_compressed _ _ _ _ _ _ _ _ _ _ W F N) as (n & G & _ & C).
    exists (firstn n (stream true gz doc)), doc, j, part, lst. split; [exact G|]. split; [|exact H].
    rewrite C; [rewrite firstn_all; apply U|]. apply Forall_forall. intros e J. destruct e; try exact Logic.I. exact (A _ _ _ J).
Qed.
Print Assumptions C81_on_disk_compressed.

(** With a compressor that puts a byte before and one after. *)
Example C81_on_disk_compressed_example : let gz := fun d : bytes => ([[1]; d], [[2]]) in
  (exists unzip : bytes -> option bytes, forall d, unzip (concat (fst (gz d)) ++ concat (snd (gz d))) = Some d) /\
  exists tr doc ops after,
  run (run_request 4 h0 q0 Download (query raw0) (rev (query raw0)) tt) tr (tt, Ok tt) /\
  In kept_result (results_written tr) /\ encode7 demo kept_result = Some doc /\
  run (write_result (str "/data") (str "download") noon (str "host_1_2") true gz doc) ops tt /\
  fs_run (fun _ => None) ops after /\ ~ In FExit ops /\ (forall p d n, In (FWrite p d n) ops -> n = length d).
Proof.
  intros gz. split.
  { exists (fun s => match s with [] => None | _ :: s => Some (removelast s) end). intros d. cbn.
    rewrite app_nil_r, removelast_last. reflexivity. }
  destruct C81_example as (_ & _ & _ & _ & E & _ & tr & R & W & _).
  destruct (encode7 demo kept_result) as [doc|]; [|contradiction].
  destruct (stored_framed (str "/data") (str "download") noon (str "host_1_2") doc) as (ops & after & S & F & N & A).
  exists tr, doc, ops, after. split; [exact R|]. split; [rewrite W; left; reflexivity|]. split; [reflexivity|]. auto.
Qed.
