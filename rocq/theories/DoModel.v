(** Model of the two goroutines of an ndt7 subtest: the sender, which runs in the
    goroutine of the request, and the receiver (ndt7/download/download.go:17-32,
    ndt7/upload/upload.go:17-32, ndt7/receiver/receiver.go:106-125). *)
From Coq Require Import ZArith List Bool.
From Verif Require Import Base Effect Lts Ndt7Model Ndt7Spec.
Import ListNotations.

(** One event of a program. *)
Inductive does {E A} : prog E A -> E -> prog E A -> Prop :=
| does_ev B (ev : B -> E) k b : does (Do ev k) (ev b) (k b).

(** The state of a subtest.  [d_sender] and [d_recv] are what the two goroutines have yet
    to do; [d_strace] and [d_rtrace] what they have done; [d_client] is
    data.ClientMeasurements; [d_parent] says whether the context of the request is done,
    [d_cancel2] whether the receiver's goroutine has cancelled its context;
    [d_returned], once Do has returned, holds the client measurements of that moment and
    whether the context of the request was done then. *)
Record subtest_state := Sub {
  d_sender : prog event7 (archival * res stop (option error));
  d_recv : prog event7 (unit * res stop unit);
  d_strace : list event7; d_rtrace : list event7;
  d_client : list measurement;
  d_parent : bool; d_cancel2 : bool;
  d_returned : option (list measurement * bool)
}.

Section Do.
  (** The two programs. *)
  Variable sender0 : prog event7 (archival * res stop (option error)).
  Variable recv0 : prog event7 (unit * res stop unit).

  Definition sub_init (s : subtest_state) : Prop :=
    s = Sub sender0 recv0 [] [] [] false false None.

  (** One step of one goroutine or of the outside world.
      - The sender is one event further.
      - The receiver is one event further; if it asks whether its context is done, it
        is told so if the context of the request is done (it has a timeout of its own
        as well); if it stores a measurement, the archival data has it.
      - The receiver has returned; its goroutine cancels ctx2 (receiver.go:110, 122).
      - The context of the request is done: timeout or cancellation.
      - The sender has returned, and ctx2, a child of the context of the request, is
        done: Do returns (download.go:30-31). *)
  Inductive sub_step : subtest_state -> subtest_state -> Prop :=
  | st_send p e p' r st rt c pa ca re : does p e p' ->
      sub_step (Sub p r st rt c pa ca re) (Sub p' r (st ++ [e]) rt c pa ca re)
  | st_recv p r e r' st rt c pa ca re : does r e r' -> (e = ECtxErr false -> pa = false) ->
      sub_step (Sub p r st rt c pa ca re) (Sub p r' st (rt ++ [e]) (c ++ stored [e]) pa ca re)
  | st_cancel2 p x st rt c pa re :
      sub_step (Sub p (Ret (x, Ok tt)) st rt c pa false re) (Sub p (Ret (x, Ok tt)) st rt c pa true re)
  | st_parent p r st rt c ca re :
      sub_step (Sub p r st rt c false ca re) (Sub p r st rt c true ca re)
  | st_return a e r st rt c pa ca : pa || ca = true ->
      sub_step (Sub (Ret (a, Ok e)) r st rt c pa ca None) (Sub (Ret (a, Ok e)) r st rt c pa ca (Some (c, pa))).
End Do.
