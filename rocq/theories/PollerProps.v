(** Property C23: measuring a test connection. *)
From Coq Require Import ZArith List Bool Lia.
From Verif Require Import Base Web100Model Web100Proofs Lts PollerModel PollerProofs.
Import ListNotations.
Open Scope nat_scope.

(** [successes rs]: the outcomes of ReadInfo that are no error. *)
Definition successes (rs : list (option tcp_info)) : list tcp_info :=
  flat_map (fun x => match x with Some s => [s] | None => [] end) rs.

(** The first StopMeasuring after a StartMeasuring returns the summary of all successful
    reads, and an error iff there is none; without StartMeasuring, an error. *)
Theorem C23_result : forall k p w, mc_reachable k -> In (p, w) (k_stops k) ->
  match p with
  | None => w = None
  | Some p => p_taken p = false -> w = summarize (successes (p_reads p)) /\
                (w = None <-> successes (p_reads p) = [])
  end.
Proof.
  intros k p w R I. destruct (mc_inv_holds k R) as (_ & _ & _ & A & B). destruct p as [p|]; [|apply B, I].
  intros T. rewrite (A p w I), T. fold (successes (p_reads p)). unfold good_reads. fold (successes (p_reads p)).
  split; [reflexivity|]. split.
  - apply summarize_none.
  - intros ->. reflexivity.
Qed.
Print Assumptions C23_result.

(** Of two StopMeasuring on the same measurement, the later one returns an error. *)
Theorem C23_second_stop : forall k l1 p w l2 q w' l3, mc_reachable k ->
  k_stops k = l1 ++ (Some p, w) :: l2 ++ (Some q, w') :: l3 -> p_id p = p_id q -> w' = None.
Proof.
  intros k l1 p w l2 q w' l3 R E I. destruct (ids_hold k R) as (_ & _ & _ & H).
  apply (H l1 (Some p, w) l2 (Some q, w') l3 (p_id p) E); [exists p, w; auto|exists q, w'; auto].
Qed.
Print Assumptions C23_second_stop.

(** StopMeasuring returns under every fair schedule: there is a number that no step
    increases and that some step, open while it has not returned, decreases; without
    StartMeasuring, it returns an error without waiting. *)
Theorem C23_returns : exists rank : mconn -> nat,
  (forall k t, mc_reachable k -> k_user k = UStopping -> mc_step k t -> rank t <= rank k) /\
  (forall k, mc_reachable k -> k_user k = UStopping -> exists t, mc_step k t /\ rank t < rank k) /\
  (forall k, k_cur k = None -> k_user k = UStopping ->
     exists t, mc_step k t /\ k_user t = UIdle /\ k_stops t = k_stops k ++ [(None, None)]).
Proof.
  exists stop_left. split; [exact stop_mono|]. split; [exact stop_progress|].
  intros [c o u n st] C U. cbn in *. subst. eexists. split; [apply k_never|]. auto.
Qed.
Print Assumptions C23_returns.

(** The goroutine of a poller whose context is done ends, whatever the user does. *)
Theorem C23_poller_ends : forall p, p_done p = true -> inevitable poll_step (fun q => p_at q = PEnd) p.
Proof. exact poll_inevitable. Qed.
Print Assumptions C23_poller_ends.

(** After the context is done at most one more read happens, and only if it had begun. *)
Theorem C23_late_reads : forall k p, mc_reachable k -> k_cur k = Some p -> p_late p <= 1.
Proof. intros k p R E. destruct (mc_inv_holds k R) as (A & _). apply (A p E). Qed.
Print Assumptions C23_late_reads.

(** The comment in measureUntilContextCancellation, that one last measurement occurs after
    the context is cancelled, is false: a poller that waits for its ticker when the
    context is done never reads again. *)
Theorem C23_last_measurement_refuted : forall p q, p_done p = true -> p_at p = PTick ->
  later poll_step p q -> p_reads q = p_reads p.
Proof. intros p q D A L. apply (no_last p q L D). congruence. Qed.
Print Assumptions C23_last_measurement_refuted.

(** Three reads, one of them failing and one in progress at the stop; then a second stop. *)
Example C23_example : forall s1 s2, exists k p p', mc_reachable k /\
  k_stops k = [(Some p, summarize [s1; s2]); (Some p', None)] /\ p_reads p = [Some s1; None; Some s2].
Proof. exact two_stops_run. Qed.
