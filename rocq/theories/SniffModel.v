(** Model of the plain NDT5 port: ndt5/plain/plain.go, sniffThenHandle (45-129) and the
    goroutine that calls it (151-163).  One connection, as a transition system; the client,
    the websocket server behind the proxy and the clock are the environment. *)
From Coq Require Import String ZArith List Bool.
From Verif Require Import Base WireModel.
Import ListNotations.
Open Scope Z_scope.

(** The state of the context made in plain.go:153 and 53: WithTimeout of the server's
    context, and WithCancel of that. *)
Inductive ctx_state := Live | Cancelled | Expired.
(** A goroutine started by plain.go:78-92. *)
Inductive gostate := NotStarted | Running | Ended.
(** The connection to the websocket server, plain.go:70. *)
Inductive fwd_state := NotDialed | FwdOpen | FwdClosed.
(** Where sniffThenHandle is. *)
Inductive main_state :=
| MPeek        (* input.Peek(3), :57 *)
| MDial        (* ps.dialer.Dial, :70 *)
| MWait        (* <-ctx.Done(), :109 *)
| MPlain       (* HandleControlChannel, :128 *)
| MReturn      (* the deferred calls, :52, :54 *)
| MDone.

Record state := St {
  arrived : bytes;       (* from the client, not yet passed on; in the socket or in the bufio.Reader *)
  ceof : bool;           (* the client has closed *)
  csent : bytes;         (* ghost: all the client has sent *)
  barrived : bytes;      (* from the websocket server, not yet passed on *)
  beof : bool;           (* the websocket server has closed *)
  bsent : bytes;         (* ghost: all the websocket server has sent *)
  tob : bytes;           (* written to the websocket server *)
  toc : bytes;           (* written to the client *)
  ctl : bytes;           (* ghost: read by the control channel *)
  conn_open : bool;
  fwd : fwd_state;
  cp1 : gostate;         (* io.Copy(fwd, input), :78-81 *)
  cp2 : gostate;         (* io.Copy(conn, fwd), :83-86 *)
  waiter : gostate;      (* wg.Wait(); cancel(), :88-91 *)
  ctx : ctx_state;
  shutdown : bool;       (* ghost: the server's context was cancelled *)
  main : main_state;
  proxied : nat;         (* SniffedReverseProxyCount *)
  timeouts : nat         (* ClientForwardingTimeouts *)
}.

Definition start : state :=
  St [] false [] [] false [] [] [] [] true NotDialed NotStarted NotStarted NotStarted Live false MPeek 0 0.

(** A cancel of a context that is done changes nothing. *)
Definition cancelled (c : ctx_state) : ctx_state := match c with Live => Cancelled | _ => c end.

(** plain.go:121. *)
Definition kickoff : bytes := str "123456 654321".

(** The environment. *)
Inductive env : state -> state -> Prop :=
| e_client_send s d : d <> [] -> ceof s = false ->
    env s (St (arrived s ++ d) (ceof s) (csent s ++ d) (barrived s) (beof s) (bsent s) (tob s) (toc s) (ctl s)
             (conn_open s) (fwd s) (cp1 s) (cp2 s) (waiter s) (ctx s) (shutdown s) (main s) (proxied s) (timeouts s))
| e_client_close s : 
    env s (St (arrived s) true (csent s) (barrived s) (beof s) (bsent s) (tob s) (toc s) (ctl s)
             (conn_open s) (fwd s) (cp1 s) (cp2 s) (waiter s) (ctx s) (shutdown s) (main s) (proxied s) (timeouts s))
| e_backend_send s d : d <> [] -> beof s = false -> fwd s <> NotDialed ->
    env s (St (arrived s) (ceof s) (csent s) (barrived s ++ d) (beof s) (bsent s ++ d) (tob s) (toc s) (ctl s)
             (conn_open s) (fwd s) (cp1 s) (cp2 s) (waiter s) (ctx s) (shutdown s) (main s) (proxied s) (timeouts s))
| e_backend_close s : fwd s <> NotDialed ->
    env s (St (arrived s) (ceof s) (csent s) (barrived s) true (bsent s) (tob s) (toc s) (ctl s)
             (conn_open s) (fwd s) (cp1 s) (cp2 s) (waiter s) (ctx s) (shutdown s) (main s) (proxied s) (timeouts s))
| e_expire s : ctx s = Live ->                    (* ps.timeout has passed, :153 *)
    env s (St (arrived s) (ceof s) (csent s) (barrived s) (beof s) (bsent s) (tob s) (toc s) (ctl s)
             (conn_open s) (fwd s) (cp1 s) (cp2 s) (waiter s) Expired (shutdown s) (main s) (proxied s) (timeouts s))
| e_shutdown s :                                  (* the server's context is cancelled *)
    env s (St (arrived s) (ceof s) (csent s) (barrived s) (beof s) (bsent s) (tob s) (toc s) (ctl s)
             (conn_open s) (fwd s) (cp1 s) (cp2 s) (waiter s) (cancelled (ctx s)) true (main s) (proxied s) (timeouts s)).

(** The server. *)
Inductive sys : state -> state -> Prop :=
(* Peek has its three bytes and they are "GET", :62-63 *)
| s_peek_get s : main s = MPeek -> 3 <= len (arrived s) -> take 3 (arrived s) = str "GET" ->
    sys s (St (arrived s) (ceof s) (csent s) (barrived s) (beof s) (bsent s) (tob s) (toc s) (ctl s)
             (conn_open s) (fwd s) (cp1 s) (cp2 s) (waiter s) (ctx s) (shutdown s) MDial (S (proxied s)) (timeouts s))
(* Three other bytes, :121-125: the kickoff message; an error is only logged *)
| s_peek_plain s n : main s = MPeek -> 3 <= len (arrived s) -> take 3 (arrived s) <> str "GET" ->
    (0 <= n <= len kickoff) -> (n < len kickoff -> ceof s = true) ->
    sys s (St (arrived s) (ceof s) (csent s) (barrived s) (beof s) (bsent s) (tob s) (toc s ++ take n kickoff) (ctl s)
             (conn_open s) (fwd s) (cp1 s) (cp2 s) (waiter s) (ctx s) (shutdown s) MPlain (proxied s) (timeouts s))
(* Peek fails, :58-61 *)
| s_peek_fail s : main s = MPeek -> len (arrived s) < 3 -> ceof s = true ->
    sys s (St (arrived s) (ceof s) (csent s) (barrived s) (beof s) (bsent s) (tob s) (toc s) (ctl s)
             (conn_open s) (fwd s) (cp1 s) (cp2 s) (waiter s) (ctx s) (shutdown s) MReturn (proxied s) (timeouts s))
(* Dial, :70-74, and the goroutines *)
| s_dial_ok s : main s = MDial ->
    sys s (St (arrived s) (ceof s) (csent s) (barrived s) (beof s) (bsent s) (tob s) (toc s) (ctl s)
             (conn_open s) FwdOpen Running Running Running (ctx s) (shutdown s) MWait (proxied s) (timeouts s))
| s_dial_fail s : main s = MDial ->
    sys s (St (arrived s) (ceof s) (csent s) (barrived s) (beof s) (bsent s) (tob s) (toc s) (ctl s)
             (conn_open s) (fwd s) (cp1 s) (cp2 s) (waiter s) (ctx s) (shutdown s) MReturn (proxied s) (timeouts s))
(* io.Copy(fwd, input): some bytes, the end of the input, or an error *)
| s_copy1_data s n : cp1 s = Running -> fwd s = FwdOpen -> 0 < n <= len (arrived s) ->
    sys s (St (drop n (arrived s)) (ceof s) (csent s) (barrived s) (beof s) (bsent s) (tob s ++ take n (arrived s)) (toc s) (ctl s)
             (conn_open s) (fwd s) (cp1 s) (cp2 s) (waiter s) (ctx s) (shutdown s) (main s) (proxied s) (timeouts s))
| s_copy1_end s : cp1 s = Running ->
    (arrived s = [] /\ ceof s = true) \/ conn_open s = false \/ (arrived s <> [] /\ (fwd s = FwdClosed \/ beof s = true)) ->
    sys s (St (arrived s) (ceof s) (csent s) (barrived s) (beof s) (bsent s) (tob s) (toc s) (ctl s)
             (conn_open s) (fwd s) Ended (cp2 s) (waiter s) (ctx s) (shutdown s) (main s) (proxied s) (timeouts s))
(* io.Copy(conn, fwd) *)
| s_copy2_data s n : cp2 s = Running -> fwd s = FwdOpen -> conn_open s = true -> 0 < n <= len (barrived s) ->
    sys s (St (arrived s) (ceof s) (csent s) (drop n (barrived s)) (beof s) (bsent s) (tob s) (toc s ++ take n (barrived s)) (ctl s)
             (conn_open s) (fwd s) (cp1 s) (cp2 s) (waiter s) (ctx s) (shutdown s) (main s) (proxied s) (timeouts s))
| s_copy2_end s : cp2 s = Running ->
    (barrived s = [] /\ beof s = true) \/ fwd s = FwdClosed \/ (barrived s <> [] /\ (conn_open s = false \/ ceof s = true)) ->
    sys s (St (arrived s) (ceof s) (csent s) (barrived s) (beof s) (bsent s) (tob s) (toc s) (ctl s)
             (conn_open s) (fwd s) (cp1 s) Ended (waiter s) (ctx s) (shutdown s) (main s) (proxied s) (timeouts s))
(* wg.Wait() returns, cancel() *)
| s_wait s : waiter s = Running -> cp1 s = Ended -> cp2 s = Ended ->
    sys s (St (arrived s) (ceof s) (csent s) (barrived s) (beof s) (bsent s) (tob s) (toc s) (ctl s)
             (conn_open s) (fwd s) (cp1 s) (cp2 s) Ended (cancelled (ctx s)) (shutdown s) (main s) (proxied s) (timeouts s))
(* the context is done, :109-115 *)
| s_done s : main s = MWait -> ctx s <> Live ->
    sys s (St (arrived s) (ceof s) (csent s) (barrived s) (beof s) (bsent s) (tob s) (toc s) (ctl s)
             (conn_open s) FwdClosed (cp1 s) (cp2 s) (waiter s) (ctx s) (shutdown s) MReturn (proxied s)
             (match ctx s with Expired => S (timeouts s) | _ => timeouts s end))
(* the deferred cancel() and conn.Close(); a panic of the control channel ends here too *)
| s_return s : main s = MReturn ->
    sys s (St (arrived s) (ceof s) (csent s) (barrived s) (beof s) (bsent s) (tob s) (toc s) (ctl s)
             false (fwd s) (cp1 s) (cp2 s) (waiter s) (cancelled (ctx s)) (shutdown s) MDone (proxied s) (timeouts s)).

(** The control channel, plain.go:128: it reads, writes and ends.  What it does and when is in
    the control channel's own model; here it may do anything, and it does not look at the
    context. *)
Inductive control : state -> state -> Prop :=
| s_control_read s n : main s = MPlain -> 0 < n <= len (arrived s) ->
    control s (St (drop n (arrived s)) (ceof s) (csent s) (barrived s) (beof s) (bsent s) (tob s) (toc s) (ctl s ++ take n (arrived s))
             (conn_open s) (fwd s) (cp1 s) (cp2 s) (waiter s) (ctx s) (shutdown s) (main s) (proxied s) (timeouts s))
| s_control_write s d : main s = MPlain ->
    control s (St (arrived s) (ceof s) (csent s) (barrived s) (beof s) (bsent s) (tob s) (toc s ++ d) (ctl s)
             (conn_open s) (fwd s) (cp1 s) (cp2 s) (waiter s) (ctx s) (shutdown s) (main s) (proxied s) (timeouts s))
| s_control_end s : main s = MPlain ->
    control s (St (arrived s) (ceof s) (csent s) (barrived s) (beof s) (bsent s) (tob s) (toc s) (ctl s)
             (conn_open s) (fwd s) (cp1 s) (cp2 s) (waiter s) (ctx s) (shutdown s) MReturn (proxied s) (timeouts s)).

Definition step (s t : state) : Prop := env s t \/ sys s t \/ control s t.

(** What sniffThenHandle decides from the bufio.Reader, plain.go:56-62: [None] if the peek
    fails, otherwise whether to forward; and the reader afterwards. *)
Definition sniff (b : bufio) : option bool * bufio :=
  let '(lead, b') := bufio_peek 3 b in
  (match lead with None => None | Some l => Some (beqb l (str "GET")) end, b').
