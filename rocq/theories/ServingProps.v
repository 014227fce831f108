(** Properties C24, C25, C26 and C58: the single-use test servers. *)
From Coq Require Import List Bool Arith Lia.
From Verif Require Import Lts ServingModel ServingProofs.
Import ListNotations.

(** ** C24 *)

(** What ServeOnce returns: never neither connection nor error; a connection was upgraded
    on this server; without connection the error is one of the two of ServeOnce or that
    of an upgrade.  The listener and the server are then closed, and the stop counted
    once. *)
Theorem C24_result : forall s conn err, ws_reachable s -> v_main s = MDone (conn, err) ->
  (conn = None -> err = Some NoConnection \/ err = Some DidNotClose \/ exists n, err = Some (UpgradeFailed n)) /\
  (forall c, conn = Some c -> In c (v_conns s) /\ (err = None \/ exists n, err = Some (UpgradeFailed n))) /\
  v_close s = Over /\ v_stops s = 1.
Proof.
  intros s conn err R E. pose proof (result_real s R) as [_ A]. pose proof (result_errors s R) as [B C].
  pose proof (members s R) as (_ & _ & D). pose proof (stops_once s R) as S1. pose proof (done_over s R _ E) as O.
  rewrite E in *. cbn in *. rewrite O in S1. repeat split; try assumption.
  - intros ->. destruct err as [e|]; [|congruence]. destruct (B e eq_refl) as [-> | [-> | [n ->]]]; eauto.
  - eapply D. rewrite H. reflexivity.
  - subst. destruct err as [e|]; [|auto]. destruct (C _ _ eq_refl) as [n ->]. eauto.
Qed.
Print Assumptions C24_result.

(** The result, the closing and the one count stay. *)
Theorem C24_final : forall s t r, ws_reachable s -> v_main s = MDone r -> later ws_step s t ->
  v_main t = MDone r /\ v_close t = Over /\ v_stops t = 1 /\ v_requests t = v_requests s.
Proof.
  intros s t r R E L. assert (G : v_main t = MDone r /\ v_close t = Over /\ v_requests t = v_requests s).
  { pose proof (done_over s R _ E) as O. induction L as [|x y L IH St]; [auto|].
    destruct IH as (A & B & C). inversion St; subst; fields; intuition congruence. }
  destruct G as (A & B & C). pose proof (stops_once t (reachable_later _ _ _ _ R L)) as S1. rewrite B in S1. auto.
Qed.
Print Assumptions C24_final.

(** Once its context is done ServeOnce returns under every fair schedule: there is a
    number that no step of any goroutine increases and that some step, open as long as
    ServeOnce has not returned, decreases. *)
Theorem C24_returns : exists rank : ws_state -> nat,
  (forall s t, ws_step s t -> rank t <= rank s) /\
  (forall s, v_parent s = true \/ v_cancel s = true -> (forall r, v_main s <> MDone r) ->
     exists t, ws_step s t /\ rank t < rank s) /\
  (forall s t, ws_step s t -> v_parent s = true \/ v_cancel s = true -> v_parent t = true \/ v_cancel t = true).
Proof.
  exists left_to_do. split; [exact left_mono|]. split; [exact left_progress|].
  intros s t St H. inversion St; subst; fields; tauto.
Qed.
Print Assumptions C24_returns.

Example C24_example : exists s, ws_reachable s /\ v_main s = MDone (Some 0, None).
Proof. destruct good_run as (s & R & E & _). eauto. Qed.

(** ** C25 *)

(** With one request at most, no expiry and no failure of the HTTP server, ServeOnce
    returns the connection of that request without error, and it is the only one. *)
Theorem C25_one_client : forall s r, ws_reachable s -> v_requests s <= 1 ->
  v_parent s = false -> v_broke s = false -> v_main s = MDone r ->
  exists c, r = (Some c, None) /\ v_conns s = [c].
Proof.
  intros s r R L P B E. destruct (one_client s R L P B r) as [-> X]; [rewrite E; reflexivity|]. eauto.
Qed.
Print Assumptions C25_one_client.

Example C25_example : exists s, ws_reachable s /\ v_requests s <= 1 /\ v_parent s = false /\
  v_broke s = false /\ v_main s = MDone (Some 0, None).
Proof. destruct good_run as (s & R & E & _ & Q & P & B). exists s. rewrite Q. auto. Qed.

(** In general it is false.  A refused request followed by a good one: ServeOnce returns
    the connection together with an error, and its callers drop both. *)
Theorem C25_stray_request_refuted : forall n, exists s, ws_reachable s /\
  v_main s = MDone (Some 0, Some (UpgradeFailed n)) /\ v_parent s = false /\ v_broke s = false.
Proof. exact both_run. Qed.
Print Assumptions C25_stray_request_refuted.

(** Two clients: both are upgraded, the second is returned, the first is neither returned
    nor closed. *)
Theorem C25_two_clients_refuted : exists s, ws_reachable s /\ v_main s = MDone (Some 1, None) /\
  v_conns s = [0; 1] /\ v_parent s = false /\ v_broke s = false /\ v_err s = None.
Proof. exact two_run. Qed.
Print Assumptions C25_two_clients_refuted.

(** One client, upgraded before the context expires: ServeOnce returns an error, and the
    connection is neither returned nor closed. *)
Theorem C25_late_upgrade_refuted : exists s, ws_reachable s /\
  v_main s = MDone (None, Some NoConnection) /\ v_conns s = [0] /\ v_conn s = Some 0 /\ v_requests s = 1.
Proof. exact late_run. Qed.
Print Assumptions C25_late_upgrade_refuted.

(** ** C26 *)

(** What ServeOnce of the plain server returns: a connection, the only accepted one, and no
    error; or the error of Accept, and nothing was accepted; or the error for "neither",
    and then the context has expired.  The listener is closed and the stop counted
    once. *)
Theorem C26_result : forall s conn err, plain_reachable s -> q_main s = PDone (conn, err) ->
  ((exists c, conn = Some c /\ err = None /\ q_conns s = [c]) \/
   (exists n, conn = None /\ err = Some (AcceptFailed n) /\ q_conns s = []) \/
   (conn = None /\ err = Some NilConn /\ q_expired s = true)) /\
  q_listening s = false /\ q_stops s = 1.
Proof.
  intros s conn err R E. destruct (plain_inv_holds s R) as (_ & H2 & _ & _ & _ & H6 & _). rewrite E in *. cbn in *.
  split; [|exact H2]. destruct conn as [c|].
  - destruct H6 as (-> & -> & ->). left. eauto.
  - destruct err as [[n|]|]; [|auto|contradiction]. right. left. exists n. repeat split. apply H6.
Qed.
Print Assumptions C26_result.

(** An accepted connection that is not returned means expiry; so without expiry none is
    lost. *)
Theorem C26_lost_only_on_expiry : forall s conn err c, plain_reachable s -> q_main s = PDone (conn, err) ->
  In c (q_conns s) -> conn <> Some c -> q_expired s = true.
Proof.
  intros s conn err c R E I N. destruct (C26_result s conn err R E) as ([(c' & -> & _ & X)|[(n & _ & _ & X)|(_ & _ & X)]] & _).
  - rewrite X in I. destruct I as [->|[]]. congruence.
  - rewrite X in I. destruct I.
  - exact X.
Qed.
Print Assumptions C26_lost_only_on_expiry.

(** And it does happen: the connection is accepted while ServeOnce, woken by the expiry, is
    about to leave; it is neither returned nor closed. *)
Theorem C26_lost_refuted : exists s, plain_reachable s /\ q_main s = PDone (None, Some NilConn) /\
  q_conns s = [0] /\ q_conn s = Some 0.
Proof. exact plain_lost_run. Qed.
Print Assumptions C26_lost_refuted.

Example C26_example : exists s, plain_reachable s /\ q_main s = PDone (Some 0, None) /\ q_conns s = [0] /\ q_expired s = false.
Proof. exact plain_good_run. Qed.

(** ** C58 *)

(** No test server ever adds to the counter of accepted connections. *)
Theorem C58_accepts_never_counted_refuted :
  (forall s, ws_reachable s -> v_accepts s = 0) /\ (forall s, plain_reachable s -> q_accepts s = 0) /\
  (exists s c, ws_reachable s /\ v_main s = MDone (Some c, None)) /\
  (exists s c, plain_reachable s /\ q_main s = PDone (Some c, None)).
Proof.
  split; [exact accepts_zero|]. split; [intros s R; apply (plain_inv_holds s R)|]. split.
  - destruct good_run as (s & R & E & _). eauto.
  - destruct plain_good_run as (s & R & E & _). eauto.
Qed.
Print Assumptions C58_accepts_never_counted_refuted.
