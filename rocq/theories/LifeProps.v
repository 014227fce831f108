(** Property theorems about the life of an ndt7 request (C70). *)
From Coq Require Import ZArith List Bool Lia.
From Verif Require Import Base Web100Model Ndt7Model Lts MeasurerModel MeasurerSpec MeasurerProofs LifeModel LifeProofs.
Import ListNotations.
Open Scope nat_scope.

(** The executions of a request, from the upgrade on.  [c], [v] and [u] are the client's and the
    server's address and the UUID, [k] the subtest. *)
Definition life_possible (c v u : bytes) (k : kind7) : life -> Prop :=
  reachable life_init (life_step c v u k).

(** Nothing is left of a request: its goroutine has returned (or the process has ended), the
    connection is closed, the goroutine that closes it has ended, the receiver has ended or
    was never started, and so have the goroutines of the measurer. *)
Definition request_gone (s : life) : Prop :=
  (i_main s = HBack \/ i_main s = HExit) /\ i_open s = false /\ i_closer s = KDone /\
  (i_recv s = RNone \/ i_recv s = RGone) /\
  match i_meas s with Some m => at_rest m | None => True end.

(** Once MaxRuntime has passed, or the request has returned for whatever reason, the server's
    goroutines alone bring everything to its end, under every schedule, whatever the client
    does or does not do. *)
Theorem C70_ends : forall c v u k s t, life_possible c v u k s ->
  i_late s = true \/ i_main s = HBack \/ i_main s = HExit ->
  later (life_step c v u k) s t -> inevitable (life_sys c v u k) request_gone t.
Proof.
  intros c v u k s t R E L.
  assert (X : i_ctx s = true) by (destruct (inv_holds _ _ _ _ s R) as (_ & _ & C & _); apply C, E).
  destruct (ctx_later _ _ _ _ s t R X L) as [R' X']. exact (ctx_ends _ _ _ _ t R' X').
Qed.
Print Assumptions C70_ends.

(** From the moment the connection is closed this takes finitely many steps, those of the
    client and of the clock included. *)
Theorem C70_closed_ends : forall c v u k s, life_possible c v u k s -> i_open s = false ->
  inevitable (life_step c v u k) request_gone s.
Proof. exact closed_ends. Qed.
Print Assumptions C70_closed_ends.

(** It is not closed earlier: not while the request is being served and MaxRuntime has not
    passed. *)
Theorem C70_not_early : forall c v u k s, life_possible c v u k s -> i_open s = false ->
  i_late s = true \/ i_main s = HBack \/ i_main s = HExit.
Proof. exact closed_reason. Qed.
Print Assumptions C70_not_early.

(** A request that has returned has written one result if it had begun its subtest, and none
    otherwise. *)
Theorem C70_saved : forall c v u k s, life_possible c v u k s -> i_main s = HBack ->
  (i_recv s = RNone /\ i_saved s = 0) \/ (i_recv s <> RNone /\ i_saved s = 1).
Proof. exact saved_once. Qed.
Print Assumptions C70_saved.

(** "The sender will not be stuck sending for more than the MaxRuntime of the subtest": a
    write whose deadline has passed can only fail, and can fail at once. *)
Theorem C70_sender_unstuck : forall c v u k s w, life_possible c v u k s ->
  i_main s = HWrite w -> i_wd s = true ->
  (exists t, life_sys c v u k s t /\ i_main t = HStop) /\
  (forall t, life_step c v u k s t -> i_main t = HWrite w \/ i_main t = HStop).
Proof. intros c v u k s w _. apply late_write. Qed.
Print Assumptions C70_sender_unstuck.

(** "The goroutine will always terminate after a MaxRuntime timeout": from its deadline on the
    receiver can always take a step by itself, and takes at most three more before it has
    ended. *)
Definition steps_left (r : recv_at) : nat :=
  match r with RNone => 4 | RReply => 3 | RHead => 3 | RRead => 2 | REnd => 1 | RGone => 0 end.
Theorem C70_receiver_ends : forall c v u k s, life_possible c v u k s ->
  i_rd s = true -> i_recv s <> RNone ->
  (i_recv s <> RGone -> exists t, life_sys c v u k s t /\ i_recv t <> i_recv s) /\
  (forall t, life_step c v u k s t -> i_rd t = true /\ i_recv t <> RNone /\
     (i_recv t = i_recv s \/ steps_left (i_recv t) < steps_left (i_recv s))).
Proof. exact receiver_steps. Qed.
Print Assumptions C70_receiver_ends.

(** "After timeout, the sender closes the conn, which results in the receiver completing"
    (download.go:18-20, upload.go:18-20) is false: the sender has ended with its close frame,
    the connection is open, the receiver waits for the client, and nothing happens until the
    client or the clock acts. *)
Theorem C70_sender_closes_refuted : forall c v u k, exists s, life_possible c v u k s /\
  i_main s = HRecv /\ i_open s = true /\ i_recv s = RRead /\ i_late s = false /\
  stuck (life_sys c v u k) s.
Proof. exact silent_client. Qed.
Print Assumptions C70_sender_closes_refuted.

(** A request that has returned with one result while its connection is open and its receiver
    waits: the case in which C70_ends has most to say. *)
Example C70_example : exists s, life_possible [1%Z] [2%Z] [3%Z] Download s /\ i_main s = HBack /\ i_saved s = 1 /\
  i_open s = true /\ i_recv s = RRead.
Proof. exact (returned_run [1%Z] [2%Z] [3%Z] Download). Qed.
