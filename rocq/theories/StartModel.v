(** Model of the start and the end of the process: main (ndt-server.go:191-341) and
    ndt7/listener/listener.go.  What each server does with requests is MainModel; signals
    before the context is cancelled are MainModel's [sigstep]; the accept loop of the plain
    port is AcceptModel. *)
From Coq Require Import String ZArith List Bool.
From Verif Require Import Base GoStrings MainModel Lts.
Import ListNotations.
Open Scope Z_scope.

(** The steps of main that can end the process (rtx.Must calls log.Fatal): the flags (:193),
    the metrics server (:200), the token verifier (:210-213), the event socket (:216-221),
    the plain NDT5 port (:243-246) and the HTTP servers. *)
Inductive task := TArgs | TMetrics | TVerifier | TEvents | TPlain | THttp (l : listening).

Definition plan (f : flags) : list task :=
  [TArgs; TMetrics; TVerifier; TEvents; TPlain] ++ map THttp (listenings f).

(** The verifier's error is ignored unless tokens are required, :211. *)
Definition fatal (f : flags) (t : task) : bool :=
  match t with TVerifier => f_required5 f || f_required7 f | _ => true end.

(** The goroutine of ListenAndServeAsync (listener.go:25-30, 54) or ListenAndServeTLSAsync
    (57-62, 90): not yet in Serve; in Serve; Serve returned something else than ErrServerClosed
    or just that; ended. *)
Inductive goroutine := GNew | GServing | GFailed | GBack | GEnd.

(** An HTTP server: what it is for, server.Addr, whether its listening socket is open, and
    whether Close was called. *)
Record running := Running {
  rn_for : listening; rn_addr : bytes; rn_open : bool; rn_closed : bool; rn_go : goroutine
}.

Definition tls (l : listening) : bool := match ls_cert l with Cleartext => false | _ => true end.

(** server.Addr after ListenAndServeAsync (listener.go:47-51) and ListenAndServeTLSAsync
    (79-87); [bound] is listener.Addr().String(). *)
Definition addr_after (l : listening) (bound : bytes) : bytes :=
  let addr := sv_addr (ls_server l) in
  if negb (tls l) && has_suffix (str ":0") addr then bound else addr.

Definition started (l : listening) (bound : bytes) : running := Running l (addr_after l bound) true false GNew.

(** Where main is: these steps are to come; at line 340; in the deferred calls, with the
    servers with a smaller number still to close; back. *)
Inductive main_at := Starting (rest : list task) | Waiting | Closing (n : nat) | Returned.

(** What ended the process with status 1. *)
Inductive failure := FTask (t : task) | FServe (l : listening).

(** [p_plain]: [None] before the plain port is set up, then whether its socket is open.
    [p_exit]: the exit status.  [p_why] is not in the program. *)
Record process := Process {
  p_main : main_at; p_plain : option bool; p_http : list running; p_done : bool;
  p_exit : option Z; p_why : option failure
}.

Definition start_init (f : flags) (p : process) : Prop :=
  p = Process (Starting (plan f)) None [] false None None.

(** The context is cancelled (C48); Serve of a server that nobody closed returns, and closes its
    socket: Accept failed for good. *)
Inductive start_env : process -> process -> Prop :=
| sv_cancel m pl h w : start_env (Process m pl h false None w) (Process m pl h true None w)
| sv_fails m pl h1 h2 l a o d w :
    start_env (Process m pl (h1 ++ Running l a o false GServing :: h2) d None w)
              (Process m pl (h1 ++ Running l a false false GFailed :: h2) d None w).

(** What a step of main that succeeds does. *)
Inductive succeeds : task -> option bool -> list running -> option bool -> list running -> Prop :=
| su_plain pl h : succeeds TPlain pl h (Some true) h
| su_http l bound pl h : succeeds (THttp l) pl h pl (h ++ [started l bound])
| su_other t pl h : (match t with TPlain | THttp _ => False | _ => True end) -> succeeds t pl h pl h.

(** http.Server.Close: the socket is closed if Serve has it. *)
Definition close_server (r : running) : running :=
  Running (rn_for r) (rn_addr r) (match rn_go r with GServing => false | _ => rn_open r end) true (rn_go r).

Inductive start_sys (f : flags) : process -> process -> Prop :=
(* main *)
| ss_ok t rest pl h pl' h' d w : succeeds t pl h pl' h' ->
    start_sys f (Process (Starting (t :: rest)) pl h d None w) (Process (Starting rest) pl' h' d None w)
| ss_ignored t rest pl h d w : fatal f t = false ->
    start_sys f (Process (Starting (t :: rest)) pl h d None w) (Process (Starting rest) pl h d None w)
| ss_fatal t rest pl h d w : fatal f t = true ->
    start_sys f (Process (Starting (t :: rest)) pl h d None w)
                (Process (Starting (t :: rest)) pl h d (Some 1) (Some (FTask t)))
| ss_wait pl h d w : start_sys f (Process (Starting []) pl h d None w) (Process Waiting pl h d None w)
| ss_done pl h w : start_sys f (Process Waiting pl h true None w) (Process (Closing (List.length h)) pl h true None w)
| ss_close n pl h1 r h2 d w : List.length h1 = n ->
    start_sys f (Process (Closing (S n)) pl (h1 ++ r :: h2) d None w)
                (Process (Closing n) pl (h1 ++ close_server r :: h2) d None w)
| ss_exit pl h d w : start_sys f (Process (Closing 0) pl h d None w) (Process Returned pl h d (Some 0) w)
(* plain.go:142-145 *)
| ss_plain m h w : start_sys f (Process m (Some true) h true None w) (Process m (Some false) h true None w)
(* the goroutines: Serve starts, and ServeTLS after it has found its certificate; after Close it
   returns ErrServerClosed at once *)
| ss_serve m pl h1 h2 l a o d w :
    start_sys f (Process m pl (h1 ++ Running l a o false GNew :: h2) d None w)
                (Process m pl (h1 ++ Running l a o false GServing :: h2) d None w)
| ss_late m pl h1 h2 l a o d w :
    start_sys f (Process m pl (h1 ++ Running l a o true GNew :: h2) d None w)
                (Process m pl (h1 ++ Running l a false true GBack :: h2) d None w)
| ss_certificate m pl h1 h2 l a o c d w cert key : ls_cert l = LoadPair cert key ->
    start_sys f (Process m pl (h1 ++ Running l a o c GNew :: h2) d None w)
                (Process m pl (h1 ++ Running l a false c GFailed :: h2) d None w)
| ss_closed m pl h1 h2 l a o d w :
    start_sys f (Process m pl (h1 ++ Running l a o true GServing :: h2) d None w)
                (Process m pl (h1 ++ Running l a false true GBack :: h2) d None w)
| ss_back m pl h1 h2 l a o c d w :
    start_sys f (Process m pl (h1 ++ Running l a o c GBack :: h2) d None w)
                (Process m pl (h1 ++ Running l a o c GEnd :: h2) d None w)
(* logFatalf *)
| ss_dies m pl h1 h2 l a o c d w :
    start_sys f (Process m pl (h1 ++ Running l a o c GFailed :: h2) d None w)
                (Process m pl (h1 ++ Running l a o c GFailed :: h2) d (Some 1) (Some (FServe l))).

Definition start_step (f : flags) (p q : process) : Prop := start_env p q \/ start_sys f p q.

(** Where the plain server forwards websocket clients to: plain.NewServer gets the flag, :243. *)
Definition forward_to (f : flags) : bytes := f_ndt5_ws f.
