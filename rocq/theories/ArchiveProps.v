(** Properties C45, C46, C47 and C59: result files. *)
From Coq Require Import String ZArith List Bool Lia.
From Verif Require Import Base BaseFacts GoFloat Effect ControlModel ArchiveModel ArchiveProofs.
Import ListNotations.
Open Scope Z_scope.

(** A time as time.Now().UTC() gives it, before the year 10000. *)
Definition valid_time (t : civil) : Prop :=
  0 <= t_year t < 10000 /\ 1 <= t_month t <= 12 /\ 1 <= t_day t <= 31 /\
  0 <= t_hour t < 24 /\ 0 <= t_minute t < 60 /\ 0 <= t_second t < 60 /\ 0 <= t_nano t < 1000000000.

(** ** C45 *)
Theorem C45_names : forall datadir what t uuid compress what' t' uuid' compress',
  valid_time t -> valid_time t' ->
  In what [str "download"; str "upload"] -> In what' [str "download"; str "upload"] ->
  ndt7_name datadir what t uuid compress = ndt7_name datadir what' t' uuid' compress' ->
  what = what' /\ t = t' /\ uuid = uuid' /\ compress = compress'.
Proof. exact ndt7_name_inj. Qed.
Print Assumptions C45_names.

(** Saving a result never changes a file that was there before, even if it is cut off. *)
Theorem C45_no_overwrite : forall datadir what t uuid compress gz data before tr after,
  starts (write_result datadir what t uuid compress gz data) tr -> fs_run before tr after ->
  forall q old, before q = Some old -> after q = Some old.
Proof.
  intros d what t u c gz data f tr g S R q old E. destruct (write_result_starts _ _ _ _ _ _ _ _ _ _ S R) as [A B].
  destruct (beqb q (ndt7_name d what t u c)) eqn:Q.
  - apply beqb_spec in Q. subst q. destruct B as [B|[B _]]; congruence.
  - rewrite A; [exact E|]. intros ->. rewrite beqb_refl in Q. discriminate.
Qed.
Print Assumptions C45_no_overwrite.

(** If the name is taken nothing is written, and the process ends. *)
Theorem C45_taken : forall datadir what t uuid compress gz data before tr after x,
  run (write_result datadir what t uuid compress gz data) tr x -> fs_run before tr after ->
  before (ndt7_name datadir what t uuid compress) <> None ->
  In FExit tr /\ forall q, after q = before q.
Proof.
  intros d what t u c gz data f tr g x S R. exact (proj1 (write_result_run _ _ _ _ _ _ _ _ _ _ _ S R)).
Qed.
Print Assumptions C45_taken.

Definition noon : civil := Civil 2026 11 16 12 0 0 7.
Example C45_example : valid_time noon /\
  ndt7_name (str "/var/spool/ndt/") (str "download") noon (str "host_1_2") true =
  str "/var/spool/ndt/ndt7/2026/11/16/ndt7-download-20261116T120000.000000007Z.host_1_2.json.gz".
Proof. split; [unfold valid_time, noon; cbn; lia|reflexivity]. Qed.

(** ** C46 *)

(** The bytes of a complete result file: the document itself, or what the compressor makes
    of it. *)
Definition stream (compress : bool) (gz : writer) (data : bytes) : bytes :=
  if compress then concat (fst (gz data)) ++ concat (snd (gz data)) else data.

Lemma stream_spec c gz data :
  stream c gz data = concat (fst ((if c then gz else plain_writer) data)) ++ concat (snd ((if c then gz else plain_writer) data)).
Proof. destruct c; [reflexivity|]. cbn. rewrite !app_nil_r. reflexivity. Qed.

(** ndt7: whatever happens, including a crash at any point, every other file is as before,
    and the file of the result is as before or holds the beginning of the result. *)
Theorem C46_ndt7 : forall datadir what t uuid compress gz data before tr after,
  starts (write_result datadir what t uuid compress gz data) tr -> fs_run before tr after ->
  let p := ndt7_name datadir what t uuid compress in
  (forall q, q <> p -> after q = before q) /\
  (after p = before p \/
   before p = None /\ exists n, after p = Some (firstn n (stream compress gz data))).
Proof.
  intros d what t u c gz data f tr g S R p. destruct (write_result_starts _ _ _ _ _ _ _ _ _ _ S R) as [A B].
  split; [exact A|]. destruct B as [B|(B & n & _ & E)]; [left; exact B|]. right. split; [exact B|]. exists n.
  rewrite stream_spec. exact E.
Qed.
Print Assumptions C46_ndt7.

(** The same when other saves happen at the same time, as long as they write to other
    files. *)
Theorem C46_concurrent : forall datadir what t uuid compress gz data before own tr after,
  let p := ndt7_name datadir what t uuid compress in
  starts (write_result datadir what t uuid compress gz data) own ->
  filter (at_path p) tr = filter (at_path p) own -> fs_run before tr after ->
  after p = before p \/
  before p = None /\ exists n, after p = Some (firstn n (stream compress gz data)).
Proof.
  intros d what t u c gz data f own tr g p S E R. destruct (interleaved _ _ _ _ _ _ _ _ _ _ _ S E R) as (g' & R' & E').
  destruct (C46_ndt7 _ _ _ _ _ _ _ _ _ _ S R') as [_ H]. fold p in H, E'. rewrite E' in H. exact H.
Qed.
Print Assumptions C46_concurrent.

(** NDT5: the same, except that a file of the same name is replaced. *)
Theorem C46_ndt5 : forall datadir t uuid data before tr after,
  starts (save_data datadir t uuid data) tr -> fs_run before tr after ->
  exists p, (forall q, q <> p -> after q = before q) /\
    (after p = before p \/
     exists n, after p = Some (firstn n (match data with Some x => x | None => [] end))).
Proof.
  intros d t u data f tr g S R. destruct (save_data_starts _ _ _ _ _ _ _ S R) as (r & A & B).
  exists (ndt5_file d t u r). split; [exact A|]. destruct B as [B|[_ B]]; auto.
Qed.
Print Assumptions C46_ndt5.

(** A crash in the middle of a write leaves a partial document: files are not replaced
    atomically. *)
Theorem C46_partial_document_refuted : forall datadir what t uuid data, (1 < length data)%nat ->
  exists tr after, starts (write_result datadir what t uuid false plain_writer data) tr /\
    fs_run (fun _ => None) tr after /\ after (ndt7_name datadir what t uuid false) = Some (firstn 1 data) /\
    firstn 1 data <> data /\ firstn 1 data <> [].
Proof. exact partial_document. Qed.
Print Assumptions C46_partial_document_refuted.

(** ** C47 *)

(** The text before the day: the cleaned data directory and a slash. *)
Definition under (datadir : bytes) : bytes :=
  if beqb (path_clean datadir) (str ".") then []
  else if beqb (path_clean datadir) (str "/") then str "/" else path_clean datadir ++ str "/".

(** yyyy/mm/dd. *)
Definition day (t : civil) : bytes :=
  digits 4 (t_year t) ++ str "/" ++ digits 2 (t_month t) ++ str "/" ++ digits 2 (t_day t).

(** A save only touches <datadir>/yyyy/mm/dd/<uuid>.json or, if the UUID is not known, one
    file in that directory that did not exist. *)
Theorem C47_placement : forall datadir t uuid data before tr after, datadir <> [] -> valid_time t ->
  ~ In 47 uuid ->
  starts (save_data datadir t uuid data) tr -> fs_run before tr after ->
  exists p, (forall q, q <> p -> after q = before q) /\
    (uuid <> str "ERROR_DISCOVERING_UUID" -> p = under datadir ++ day t ++ str "/" ++ uuid ++ str ".json") /\
    (uuid = str "ERROR_DISCOVERING_UUID" ->
       exists r, p = under datadir ++ day t ++ str "/ERROR_DISCOVERING_UUID" ++ r ++ str ".json" /\
                 (after p = before p \/ before p = None)).
Proof.
  intros d t u data f tr g N V U S R. destruct (save_data_starts _ _ _ _ _ _ _ S R) as (r & A & B).
  exists (ndt5_file d t u r). split; [exact A|].
  assert (P : dir_prefix d = under d) by (apply dir_prefix_clean, N). unfold ndt5_file in *. split.
  - intros NB. destruct (beqb u bad_uuid) eqn:E; [apply beqb_spec in E; contradiction|].
    rewrite ndt5_name_spec, P by assumption. reflexivity.
  - intros ->. exists r. change (beqb (str "ERROR_DISCOVERING_UUID") bad_uuid) with true in *. cbv iota in *. split.
    + unfold temp_name. rewrite ndt5_dir_spec, P by assumption. rewrite <- !app_assoc. reflexivity.
    + destruct B as [B|[B _]]; [left; exact B|right; apply B; reflexivity].
Qed.
Print Assumptions C47_placement.

(** Records of different days or UUIDs have different files. *)
Theorem C47_distinct : forall datadir t uuid t' uuid', valid_time t -> valid_time t' ->
  ~ In 47 uuid -> ~ In 47 uuid' ->
  ndt5_name (ndt5_dir datadir t) uuid = ndt5_name (ndt5_dir datadir t') uuid' ->
  day t = day t' /\ uuid = uuid'.
Proof.
  intros d t u t' u' V V' U U' E. destruct (ndt5_name_inj d t u t' u' V V' U U' E) as ((A & B & C) & ->).
  split; [|reflexivity]. unfold day. rewrite A, B, C. reflexivity.
Qed.
Print Assumptions C47_distinct.

(** A save whose operations succeed leaves the whole document. *)
Theorem C47_saved : forall datadir t uuid data before tr after x,
  uuid <> str "ERROR_DISCOVERING_UUID" ->
  run (save_data datadir t uuid (Some data)) tr x -> fs_run before tr after -> Forall succeeded tr ->
  after (ndt5_name (ndt5_dir datadir t) uuid) = Some data.
Proof.
  intros d t u data f tr g x N S R F. destruct (save_data_run _ _ _ _ _ _ _ _ S R F) as (r & E).
  unfold ndt5_file in E. destruct (beqb u bad_uuid) eqn:B; [apply beqb_spec in B; contradiction|]. exact E.
Qed.
Print Assumptions C47_saved.

(** A second record with the same UUID on the same day replaces the first, unlike in ndt7. *)
Theorem C47_replaced_refuted : forall datadir t uuid old data, uuid <> str "ERROR_DISCOVERING_UUID" ->
  let p := ndt5_name (ndt5_dir datadir t) uuid in
  exists tr after, run (save_data datadir t uuid (Some data)) tr tt /\
    fs_run (fs_set (fun _ => None) p old) tr after /\ after p = Some data.
Proof. exact replaced. Qed.
Print Assumptions C47_replaced_refuted.

Example C47_example :
  ndt5_name (ndt5_dir (str "/data/../var//ndt5/") noon) (str "host_1_2") = str "/var/ndt5/2026/11/16/host_1_2.json" /\
  under (str "/data/../var//ndt5/") = str "/var/ndt5/".
Proof. split; reflexivity. Qed.

(** ** C59 *)

(** Uncompressed: unless the process ends, the file holds the whole result. *)
Theorem C59_uncompressed : forall datadir what t uuid gz data before tr after x,
  run (write_result datadir what t uuid false gz data) tr x -> fs_run before tr after -> ~ In FExit tr ->
  after (ndt7_name datadir what t uuid false) = Some data.
Proof.
  intros d what t u gz data f tr g x S R N. destruct (proj2 (write_result_run _ _ _ _ _ _ _ _ _ _ _ S R) N) as (n & L & E & _).
  rewrite E. cbn in *. rewrite !app_nil_r in *. rewrite firstn_all2 by lia. reflexivity.
Qed.
Print Assumptions C59_uncompressed.

(** Compressed: unless the process ends, the file holds at least what the compressor
    wrote before it was closed; and all, if no write failed. *)
Theorem C59_compressed : forall datadir what t uuid gz data before tr after x,
  run (write_result datadir what t uuid true gz data) tr x -> fs_run before tr after -> ~ In FExit tr ->
  exists n, after (ndt7_name datadir what t uuid true) = Some (firstn n (stream true gz data)) /\
    (length (concat (fst (gz data))) <= n)%nat /\
    (Forall (fun e => match e with FWrite _ d m => m = length d | _ => True end) tr -> n = length (stream true gz data)).
Proof.
  intros d what t u gz data f tr g x S R N. destruct (proj2 (write_result_run _ _ _ _ _ _ _ _ _ _ _ S R) N) as (n & L & E & C).
  exists n. split; [exact E|]. split; [apply L|exact C].
Qed.
Print Assumptions C59_compressed.

(** So a compressed result can be lost without the fatal error the code announces: all
    that is written when the compressor is closed may be missing. *)
Theorem C59_silent_loss_refuted : forall datadir what t uuid data gz last rest, snd (gz data) = last :: rest -> last <> [] ->
  let p := ndt7_name datadir what t uuid true in
  exists tr after, run (write_result datadir what t uuid true gz data) tr tt /\
    fs_run (fun _ => None) tr after /\ ~ In FExit tr /\ after p = Some (concat (fst (gz data))).
Proof. exact silent_loss. Qed.
Print Assumptions C59_silent_loss_refuted.
