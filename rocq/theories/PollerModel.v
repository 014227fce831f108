(** Model of the TCP_INFO poller of NDT5 test connections and of its use:
    ndt5/protocol/protocol.go:131-168 and ndt5/web100/web100_linux.go:55-108. *)
From Coq Require Import ZArith List Bool.
From Verif Require Import Base Web100Model Lts.
Import ListNotations.

(** Where the goroutine of MeasureViaPolling is: at the test of the loop, line 70; in its
    body; waiting for the ticker; before summarize (line 79); before close(c); ended. *)
Inductive poll_at := PCheck | PRead | PTick | PSum | PClose | PEnd.

(** [p_done]: its context is done.  [p_snaps]: the slice of snapshots.  [p_buf],
    [p_closed]: the channel, of capacity one.  Not in the program: [p_reads], the
    outcomes of all calls of ReadInfo, [p_late], how many came after the context was
    done, [p_taken], whether a StopMeasuring has received from the channel, and [p_id],
    which tells pollers apart. *)
Record poller := Poller {
  p_at : poll_at; p_done : bool; p_snaps : list tcp_info;
  p_buf : option web100; p_closed : bool;
  p_reads : list (option tcp_info); p_late : nat; p_taken : bool; p_id : nat
}.

(** MeasureViaPolling, lines 95-108, with a context that may already be done. *)
Definition new_poller (id : nat) (done : bool) : poller := Poller PCheck done [] None false [] 0 false id.

(** One step of the goroutine; a call of ReadInfo may fail. *)
Inductive poll_step : poller -> poller -> Prop :=
| po_go sn bu cl rd la tk id :
    poll_step (Poller PCheck false sn bu cl rd la tk id) (Poller PRead false sn bu cl rd la tk id)
| po_over sn bu cl rd la tk id :
    poll_step (Poller PCheck true sn bu cl rd la tk id) (Poller PSum true sn bu cl rd la tk id)
| po_read x d sn bu cl rd la tk id :
    poll_step (Poller PRead d sn bu cl rd la tk id)
              (Poller PTick d (match x with Some s => sn ++ [s] | None => sn end) bu cl
                 (rd ++ [x]) (if d then S la else la) tk id)
| po_tick d sn bu cl rd la tk id :
    poll_step (Poller PTick d sn bu cl rd la tk id) (Poller PCheck d sn bu cl rd la tk id)
(* the send does not block: it is the only one, and the channel has capacity one *)
| po_sum d sn bu cl rd la tk id :
    poll_step (Poller PSum d sn bu cl rd la tk id)
              (Poller PClose d sn (match summarize sn with Some w => Some w | None => bu end) cl rd la tk id)
| po_close d sn bu cl rd la tk id :
    poll_step (Poller PClose d sn bu cl rd la tk id) (Poller PEnd d sn bu true rd la tk id).

(** The context is done: its parent is, or it is cancelled. *)
Definition finish (p : poller) : poller :=
  Poller (p_at p) true (p_snaps p) (p_buf p) (p_closed p) (p_reads p) (p_late p) (p_taken p) (p_id p).

(** Receiving from the channel. *)
Definition receive_from (p : poller) : option (option web100 * poller) :=
  match p_buf p with
  | Some w => Some (Some w, Poller (p_at p) (p_done p) (p_snaps p) None (p_closed p) (p_reads p) (p_late p) true (p_id p))
  | None => if p_closed p then Some (None, Poller (p_at p) (p_done p) (p_snaps p) None (p_closed p) (p_reads p) (p_late p) true (p_id p))
            else None
  end.

(** The user of the connection: between calls, or in StopMeasuring before the receive of
    protocol.go:163. *)
Inductive user_at := UIdle | UStopping.

(** A measured connection: its current poller ([None] until StartMeasuring is called; the
    channel is then closed and cancelling does nothing, protocol.go:140-147), the pollers
    that an earlier StartMeasuring has started, and, not in the program, how many pollers
    there were and what each StopMeasuring has returned ([None]: an error) with the poller it received from. *)
Record mconn := MConn {
  k_cur : option poller; k_old : list poller; k_user : user_at; k_started : nat;
  k_stops : list (option poller * option web100)
}.

Definition mc_init (k : mconn) : Prop := k = MConn None [] UIdle 0 [].

Inductive mc_step : mconn -> mconn -> Prop :=
(* StartMeasuring, protocol.go:151-155 *)
| k_start d c o n st :
    mc_step (MConn c o UIdle n st)
            (MConn (Some (new_poller n d)) (match c with Some p => o ++ [p] | None => o end) UIdle (S n) st)
(* StopMeasuring, protocol.go:161 *)
| k_stop c o n st : mc_step (MConn c o UIdle n st) (MConn (option_map finish c) o UStopping n st)
(* protocol.go:163-167 *)
| k_never o n st : mc_step (MConn None o UStopping n st) (MConn None o UIdle n (st ++ [(None, None)]))
| k_receive p w p' o n st : receive_from p = Some (w, p') ->
    mc_step (MConn (Some p) o UStopping n st) (MConn (Some p') o UIdle n (st ++ [(Some p, w)]))
(* the pollers and their contexts *)
| k_poll p p' o u n st : poll_step p p' -> mc_step (MConn (Some p) o u n st) (MConn (Some p') o u n st)
| k_expire p o u n st : mc_step (MConn (Some p) o u n st) (MConn (Some (finish p)) o u n st)
| k_old_poll c o1 p p' o2 u n st : poll_step p p' ->
    mc_step (MConn c (o1 ++ p :: o2) u n st) (MConn c (o1 ++ p' :: o2) u n st)
| k_old_expire c o1 p o2 u n st :
    mc_step (MConn c (o1 ++ p :: o2) u n st) (MConn c (o1 ++ finish p :: o2) u n st).

Definition mc_reachable : mconn -> Prop := reachable mc_init mc_step.
