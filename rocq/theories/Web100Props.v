(** Property C22: the web100 summary. *)
From Coq Require Import String ZArith List Bool Lia.
From Verif Require Import Base BaseFacts MessagerModel Web100Model Web100Proofs.
Import ListNotations.
Open Scope Z_scope.

(** An example sequence of snapshots with the given round-trip times. *)
Definition snap_of (rtt : Z) : tcp_info := TcpInfo rtt 1448 77 5000 6000 [].

(** A summary exists exactly when there is a snapshot. *)
Theorem C22_summary_iff_snapshot : forall snaps,
  (exists w, summarize snaps = Some w) <-> snaps <> [].
Proof.
  intros snaps. destruct (summarize snaps) eqn:E.
  - split; [intros _ ->; discriminate | eauto].
  - apply summarize_none in E. subst. split; [intros [w H]; discriminate | congruence].
Qed.
Print Assumptions C22_summary_iff_snapshot.

(** The last snapshot is the one reported. *)
Theorem C22_last_snapshot : forall earlier l w, summarize (earlier ++ [l]) = Some w ->
  w_tcp_info w = l /\ w_cur_mss w = ti_snd_mss l /\ w_pkts_out w = ti_segs_out l mod 2 ^ 32.
Proof. exact summarize_last. Qed.
Print Assumptions C22_last_snapshot.

(** Count and sum, modulo the width of the fields. *)
Theorem C22_count_and_sum : forall snaps w, summarize snaps = Some w ->
  w_count_rtt w = Z.of_nat (length snaps) mod 2 ^ 32 /\
  w_sum_rtt w = (fold_right Z.add 0 (map ti_rtt snaps) mod 2 ^ 32) / 1000.
Proof. exact summarize_count_sum. Qed.
Print Assumptions C22_count_and_sum.

(** The maximum is the largest sample, in whole milliseconds. *)
Theorem C22_maximum : forall snaps w, summarize snaps = Some w ->
  Forall (fun r => 0 <= r) (map ti_rtt snaps) ->
  exists m, In m (map ti_rtt snaps) /\ Forall (fun r => r <= m) (map ti_rtt snaps) /\
    w_max_rtt w = m / 1000.
Proof. exact summarize_max. Qed.
Print Assumptions C22_maximum.

(** The minimum is the smallest sample if all samples are positive. *)
Theorem C22_minimum_positive : forall snaps w, summarize snaps = Some w ->
  Forall (fun r => 0 < r) (map ti_rtt snaps) ->
  exists m, In m (map ti_rtt snaps) /\ Forall (fun r => m <= r) (map ti_rtt snaps) /\
    w_min_rtt w = m / 1000.
Proof. exact summarize_min_pos. Qed.
Print Assumptions C22_minimum_positive.

(** With a zero sample only the samples after the last zero one count. *)
Theorem C22_minimum_after_zero : forall before z after w,
  summarize (before ++ z :: after) = Some w ->
  Forall (fun r => 0 <= r) (map ti_rtt before) -> ti_rtt z = 0 ->
  Forall (fun r => 0 < r) (map ti_rtt after) ->
  (after = [] -> w_min_rtt w = 0) /\
  (after <> [] -> exists m, In m (map ti_rtt after) /\
     Forall (fun r => m <= r) (map ti_rtt after) /\ w_min_rtt w = m / 1000).
Proof. exact summarize_min_zero. Qed.
Print Assumptions C22_minimum_after_zero.

(** So the reported minimum is not the minimum of the samples in general. *)
Theorem C22_minimum_refuted : exists snaps w, summarize snaps = Some w /\
  Forall (fun r => 0 <= r < 2 ^ 32) (map ti_rtt snaps) /\
  exists r, In r (map ti_rtt snaps) /\ r / 1000 < w_min_rtt w.
Proof.
  exists (map snap_of [5000; 0; 7000]). eexists. split; [reflexivity|].
  split; [apply Forall_forall; cbn; intros x H; repeat destruct H as [<-|H]; try lia; contradiction|].
  exists 5000. split; [cbn; auto | cbn; lia].
Qed.
Print Assumptions C22_minimum_refuted.

(** The reported minimum never exceeds the reported maximum, and reported times are
    32-bit values. *)
Theorem C22_ordered : forall snaps w, summarize snaps = Some w ->
  Forall (fun r => 0 <= r < 2 ^ 32) (map ti_rtt snaps) ->
  0 <= w_min_rtt w <= w_max_rtt w /\ w_max_rtt w < 2 ^ 32 /\ 0 <= w_sum_rtt w < 2 ^ 32.
Proof. exact summarize_ordered. Qed.
Print Assumptions C22_ordered.

Example C22_example : exists w, summarize (map snap_of [9000; 4000; 12999]) = Some w /\
  Forall (fun r => 0 < r) (map ti_rtt (map snap_of [9000; 4000; 12999])) /\
  w_min_rtt w = 4 /\ w_max_rtt w = 12 /\ w_sum_rtt w = 25 /\ w_count_rtt w = 3.
Proof.
  eexists. split; [reflexivity|]. repeat split.
  apply Forall_forall; cbn; intros x H; repeat destruct H as [<-|H]; try lia; contradiction.
Qed.
