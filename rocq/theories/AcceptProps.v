(** Property theorems about the accept loop of the plain NDT5 port (C67). *)
From Coq Require Import ZArith List Bool Lia.
From Verif Require Import Lts AcceptModel AcceptProofs.
Import ListNotations.

Definition accept_possible : accepting -> Prop := reachable accept_init accept_step.

(** Until the server is told to stop, it serves: whatever failed before (refused and failed
    accepts, panics of connections), every connection that waits is given its own goroutine, in
    order, under every schedule, and then the loop waits for more. *)
Theorem C67_keeps_serving : forall s, accept_possible s -> a_ctx s = false ->
  a_loop s <> LEnd /\ a_open s = true /\
  inevitable accept_sys (fun t => a_loop t = LAccept /\ a_queue t = [] /\ a_ctx t = false /\
    a_handlers t = a_handlers s ++ map (fun x => (x, HRun)) (a_queue s)) s.
Proof.
  intros s R L. destruct (ainv_holds s R) as (A & B & C & _). split; [intros E; apply A in E; congruence|].
  split; [rewrite B; destruct (a_closer s); [reflexivity|]; specialize (C eq_refl); congruence|]. exact (live_accepts s R L).
Qed.
Print Assumptions C67_keeps_serving.

(** No connection is handled twice, handled and refused, or lost before the server stops. *)
Theorem C67_each_once : forall s, accept_possible s ->
  NoDup (map fst (a_handlers s) ++ a_failed s ++ a_queue s) /\
  (a_ctx s = false -> forall x, x < a_made s <-> In x (map fst (a_handlers s) ++ a_failed s ++ a_queue s)).
Proof.
  intros s R. destruct (ainv_holds s R) as (_ & _ & _ & _ & _ & _ & lost & G & H & I). split.
  - rewrite !app_assoc in G. apply nodup_front in G. rewrite <- app_assoc in G. exact G.
  - intros L x. rewrite <- H, (I L), app_nil_r. reflexivity.
Qed.
Print Assumptions C67_each_once.

(** When it is told to stop, the loop ends and the socket is closed under every schedule, and
    at most one more connection is accepted, the one that came just then. *)
Theorem C67_stops : forall s t, accept_possible s -> a_ctx s = true -> later accept_step s t ->
  inevitable accept_sys (fun u => a_loop u = LEnd /\ a_open u = false) t /\
  length (a_handlers t) <= length (a_handlers s) + 1.
Proof.
  intros s t R L P. destruct (done_later s t R L P) as [R' L']. split; [exact (done_stops t R' L')|].
  pose proof (late_bound s t R L P) as B. destruct (ainv_holds t R') as (_ & _ & _ & _ & E & _). lia.
Qed.
Print Assumptions C67_stops.

(** Two connections, one of which panicked, a refused one and a failed accept; then the stop and
    a connection that was accepted late. *)
Example C67_example : exists s t, accept_possible s /\ a_ctx s = false /\ a_handlers s = [(0, HRecovered); (2, HRun)] /\ a_failed s = [1] /\
  a_queue s = [3] /\ later accept_step s t /\ a_ctx t = true /\ a_handlers t = [(0, HRecovered); (2, HRun); (3, HRun)].
Proof.
  eexists _, _. split; [|split; [|split; [|split; [|split; [|split; [|split]]]]]].
  - eexists. split; [reflexivity|].
    do 4 (eapply later_front; [left; apply ae_connect|]).
    eapply later_front; [right; apply as_go|]. eapply later_front; [right; apply as_accept|].
    eapply later_front; [left; apply (ae_handler 0 HRecovered _ _ _ _ _ [] []); discriminate|].
    eapply later_front; [right; apply as_go|]. eapply later_front; [left; apply ae_refused|].
    eapply later_front; [right; apply as_go|]. eapply later_front; [left; apply ae_error|].
    eapply later_front; [right; apply as_go|]. eapply later_front; [right; apply as_accept|]. constructor.
  - reflexivity.
  - reflexivity.
  - reflexivity.
  - reflexivity.
  - eapply later_front; [right; apply as_go|]. eapply later_front; [left; apply ae_done|]. eapply later_front; [right; apply as_accept|]. constructor.
  - reflexivity.
  - reflexivity.
Qed.
