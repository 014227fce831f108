(** Properties C27, C28 and C61: the plain NDT5 port. *)
From Coq Require Import String ZArith List Bool Lia.
From Verif Require Import Base BaseFacts WireModel Lts SniffModel SniffProofs.
Import ListNotations.
Open Scope Z_scope.

(** What a connection can be after any behaviour of the client, the websocket server, the
    clock, the operator and the scheduler. *)
Definition possible (s : state) : Prop := reachable (fun i => i = start) step s.

(** The client's stream looks like HTTP. *)
Definition http (stream : bytes) : Prop := 3 <= len stream /\ take 3 stream = str "GET".
(** It can be seen not to. *)
Definition not_http (stream : bytes) : Prop := 3 <= len stream /\ take 3 stream <> str "GET".

(** ** C27 *)

(** The decision: for every way the stream arrives it is that of the first three bytes, and
    the reader that is used afterwards still holds the whole stream. *)
Theorem C27_decision : forall segments, tcp_wf segments ->
  let stream := tcp_data segments in
  (fst (sniff (bufio_new segments)) = None <-> len stream < 3) /\
  (fst (sniff (bufio_new segments)) = Some true <-> http stream) /\
  (fst (sniff (bufio_new segments)) = Some false <-> not_http stream) /\
  bufio_data (snd (sniff (bufio_new segments))) = stream.
Proof.
  intros t W stream. destruct (sniff_spec t W) as [A B]. fold stream in A, B. rewrite A. unfold http, not_http.
  destruct (Z.ltb_spec (len stream) 3) as [L|L].
  - repeat split; intros; try discriminate; try lia; assumption.
  - destruct (beqb (take 3 stream) (str "GET")) eqn:G.
    + apply beqb_spec in G. repeat split; intros; try discriminate; try lia; try assumption. destruct H. contradiction.
    + assert (N : take 3 stream <> str "GET") by (intros E; rewrite E, beqb_refl in G; discriminate).
      repeat split; intros; try discriminate; try lia; try assumption. destruct H. contradiction.
Qed.
Print Assumptions C27_decision.

Example C27_decision_example :
  let segments := [str "G"; str "ET"; str " / HTTP"] in
  tcp_wf segments /\ fst (sniff (bufio_new segments)) = Some true.
Proof. split; [repeat constructor; discriminate|reflexivity]. Qed.

(** A login is never taken for HTTP. *)
Theorem C27_login : forall segments msgType message rest, tcp_wf segments ->
  msgType = MsgLogin \/ msgType = MsgExtendedLogin ->
  tcp_data segments = write_tlv msgType message ++ rest ->
  fst (sniff (bufio_new segments)) = Some false.
Proof.
  intros t ty m rest W T D. apply C27_decision; [exact W|]. rewrite D. unfold not_http, write_tlv.
  cbn [app]. rewrite !len_cons. pose proof (len_nonneg (m ++ rest)). split; [lia|].
  destruct T as [-> | ->]; discriminate.
Qed.
Print Assumptions C27_login.

(** In every execution: nothing of the client's stream is lost, reordered or duplicated; the
    websocket server gets none of it unless it starts with "GET", and then the control
    channel gets none and the client gets exactly what the websocket server sends; the
    control channel gets none of it if it starts with "GET", and otherwise the client is
    sent the kickoff message first (all of it, unless the client has closed). *)
Theorem C27_streams : forall s, possible s ->
  csent s = tob s ++ ctl s ++ arrived s /\
  (tob s <> [] \/ proxied s <> 0%nat \/ fwd s <> NotDialed \/ bsent s <> [] ->
    http (csent s) /\ ctl s = [] /\ bsent s = toc s ++ barrived s) /\
  (ctl s <> [] \/ main s = MPlain \/ (toc s <> [] /\ fwd s = NotDialed) ->
    not_http (csent s) /\ tob s = [] /\ proxied s = 0%nat /\ fwd s = NotDialed /\
    exists n rest, toc s = take n (str "123456 654321") ++ rest /\ 0 <= n <= 13 /\ (n < 13 -> ceof s = true)).
Proof. exact delivered. Qed.
Print Assumptions C27_streams.

Example C27_streams_example : possible one_sided /\ tob one_sided = str "GET /" /\ toc one_sided = str "HTTP".
Proof. split; [exact one_sided_reach|split; reflexivity]. Qed.

(** The server decides as soon as it has three bytes. *)
Theorem C27_progress : forall s, possible s -> main s = MPeek -> 3 <= len (csent s) ->
  (exists t, sys s t) /\
  (forall t, sys s t -> (http (csent s) -> main t = MDial) /\ (not_http (csent s) -> main t = MPlain)).
Proof. exact peek_step. Qed.
Print Assumptions C27_progress.

Example C27_progress_example : exists s, possible s /\ main s = MPeek /\ http (csent s).
Proof.
  eexists. split; [eapply reachable_step; [apply reachable_init; reflexivity|left; apply (e_client_send start (str "GET /")); [discriminate|reflexivity]]|].
  split; [reflexivity|]. split; [cbn; lia|reflexivity].
Qed.

(** Unless time runs out or the server shuts down, each direction ends only when all of it
    has been delivered or the receiver has closed, and the proxy connection is closed only
    when both have ended. *)
Theorem C27_complete : forall s, possible s -> ctx s <> Expired -> shutdown s = false ->
  (cp1 s = Ended -> tob s = csent s /\ ceof s = true \/ beof s = true) /\
  (cp2 s = Ended -> toc s = bsent s /\ beof s = true \/ ceof s = true) /\
  (fwd s = FwdClosed -> cp1 s = Ended /\ cp2 s = Ended).
Proof. exact complete. Qed.
Print Assumptions C27_complete.

Example C27_complete_example :
  possible one_sided /\ ctx one_sided <> Expired /\ shutdown one_sided = false /\ cp1 one_sided = Ended.
Proof. split; [exact one_sided_reach|repeat split; discriminate]. Qed.

(** ** C28 *)

(** Nothing of the connection is left: both sockets are closed and no goroutine runs. *)
Definition torn_down (s : state) : Prop :=
  main s = MDone /\ conn_open s = false /\ fwd s <> FwdOpen /\ cp1 s <> Running /\ cp2 s <> Running /\ waiter s <> Running.

(** If a forwarded connection has run out of time, or the server shuts down, or both peers
    have closed, then every schedule of the server's goroutines ends with the connection torn
    down; and that stays so whatever the peers do meanwhile. *)
Theorem C28_teardown : forall s, possible s -> proxied s = 1%nat ->
  ctx s <> Live \/ (ceof s = true /\ beof s = true) ->
  forall t, later step s t -> inevitable sys torn_down t.
Proof.
  intros s R P G t L.
  assert (X : possible t /\ going t).
  { induction L as [|a b L IH E]; [split; [exact R|split; assumption]|]. destruct IH as [R' G'].
    split; [eapply reachable_step; eassumption|eapply going_stays; [apply reach_inv, R'|exact G'|exact E]]. }
  destruct X as [R' G']. exact (teardown t R' G').
Qed.
Print Assumptions C28_teardown.

Example C28_teardown_example : exists s, possible s /\ proxied s = 1%nat /\ ctx s = Expired /\ cp2 s = Running.
Proof.
  eexists. split; [eapply reachable_step; [exact one_sided_reach|left; apply e_expire; reflexivity]|repeat split; reflexivity].
Qed.

(** The count of forwarding timeouts is exact. *)
Theorem C28_timeouts : forall s, possible s ->
  timeouts s = (match fwd s, ctx s with FwdClosed, Expired => 1 | _, _ => 0 end)%nat.
Proof. exact timeouts_exact. Qed.
Print Assumptions C28_timeouts.

Example C28_timeouts_example : exists s, possible s /\ timeouts s = 1%nat.
Proof.
  eexists. split; [eapply reachable_step; [eapply reachable_step; [exact one_sided_reach|left; apply e_expire; reflexivity]|right; left; apply s_done; [reflexivity|discriminate]]|reflexivity].
Qed.

(** The comment in the code says that either peer's closing tears the connection down.  It
    does not: either of them can close, have everything it sent delivered, and yet no
    goroutine can move, with both sockets open and time left. *)
Theorem C28_one_sided_refuted :
  (exists s, possible s /\ ceof s = true /\ beof s = false /\ stuck sys s /\
    ctx s = Live /\ conn_open s = true /\ fwd s = FwdOpen /\ tob s = csent s /\ toc s = bsent s /\ csent s <> []) /\
  (exists s, possible s /\ ceof s = false /\ beof s = true /\ stuck sys s /\
    ctx s = Live /\ conn_open s = true /\ fwd s = FwdOpen /\ tob s = csent s /\ toc s = bsent s /\ csent s <> []).
Proof.
  split.
  - exists one_sided. split; [exact one_sided_reach|]. split; [reflexivity|]. split; [reflexivity|]. split; [exact one_sided_stuck|]. repeat split; discriminate.
  - exists one_sided'. split; [exact one_sided_reach'|]. split; [reflexivity|]. split; [reflexivity|]. split; [exact one_sided_stuck'|]. repeat split; discriminate.
Qed.
Print Assumptions C28_one_sided_refuted.

(** ** C61 *)

(** "No client should wait around for more than 2 minutes": one that sends fewer than three
    bytes does. *)
Theorem C61_limit_refuted : exists s, possible s /\ ctx s = Expired /\ conn_open s = true /\ stuck sys s.
Proof. exists silent. split; [exact silent_reach|]. split; [reflexivity|]. split; [reflexivity|exact silent_stuck]. Qed.
Print Assumptions C61_limit_refuted.

(** A connection that the end of its context does not end is one of these: the client has
    sent fewer than three bytes and waits, or the connection is in the hands of the control
    channel, which does not look at the context. *)
Theorem C61_who : forall s, possible s -> ctx s <> Live -> stuck sys s ->
  torn_down s \/ (len (csent s) < 3 /\ ceof s = false) \/ not_http (csent s).
Proof.
  intros s R C K. destruct (outlive s R C K) as [H|[(_ & H)|H]]; [left; exact H|right; left; exact H|right; right].
  apply (delivered s R). right. left. exact H.
Qed.
Print Assumptions C61_who.

Example C61_who_example : possible silent /\ ctx silent <> Live /\ stuck sys silent.
Proof. split; [exact silent_reach|split; [discriminate|exact silent_stuck]]. Qed.
