(** Model of the data phase of the NDT5 tests: drainForeverButMeasureFor and the delayed close
    of ndt5/c2s/c2s.go (76-84, 142-176), and FillUntil of ndt5/protocol/protocol.go (183-196
    and 275-284) as ndt5/s2c/s2c.go:104-106 uses it. *)
From Coq Require Import ZArith List Bool.
From Verif Require Import Base Web100Model Lts PollerModel ControlModel.
Import ListNotations.
Open Scope Z_scope.

(** ** Upload *)

(** The draining goroutine, c2s.go:152-160: not started; in ReadBytes; after its loop, before
    the send; ended. *)
Inductive drain_at := DIdle | DRead | DGot (e : err) | DEnd.

(** drainForeverButMeasureFor: before StartMeasuring; in the select of line 164; in
    StopMeasuring, after the timeout or after an error; returned; never called, because TestStart
    could not be sent. *)
Inductive wait_at := WInit | WSkip | WSelect | WStop (d : drain_end) | WBack (w : option web100) (e : option err).

(** The goroutine of c2s.go:80-83: not started, sleeping, done. *)
Inductive close_at := CNone | CSleep | CDone.

(** [u_sent]: bytes that arrived and were not read.  [u_fail]: the client has closed or the
    connection is broken.  [u_open]: the server has not closed the test connection.  [u_errs]:
    the channel errs, of capacity one.  [u_ctx]: derivedCtx is done.  [u_poll]: the poller that
    StartMeasuring started.  Not in the program: [u_read], the number of bytes that ReadBytes
    has returned. *)
Record upload := Upload {
  u_sent : Z; u_fail : option err; u_open : bool; u_drain : drain_at; u_errs : option err;
  u_ctx : bool; u_poll : option poller; u_wait : wait_at; u_close : close_at; u_read : Z
}.

Definition upload_init (s : upload) : Prop :=
  s = Upload 0 None true DIdle None false None WInit CNone 0.

(** What the function returns after StopMeasuring gave [w], c2s.go:165-175. *)
Definition wait_result (d : drain_end) (w : option web100) : option err :=
  match d with
  | DrainTimeout => match w with None => Some ErrNoStats | Some _ => None end
  | DrainError e => Some e
  end.

(** The client and the clock: data arrives, the client closes or breaks off, the ten seconds
    (or the contexts above them) end. *)
Inductive upload_env : upload -> upload -> Prop :=
| e_data n x o d c k p w cl r : 0 < n ->
    upload_env (Upload x None o d c k p w cl r) (Upload (x + n) None o d c k p w cl r)
| e_fail e x o d c k p w cl r :
    upload_env (Upload x None o d c k p w cl r) (Upload x (Some e) o d c k p w cl r)
| e_time x f o d c p w cl r :
    upload_env (Upload x f o d c false p w cl r) (Upload x f o d c true (option_map finish p) w cl r).

(** The error of a Read on a connection the server has closed. *)
Definition closed_conn : err := ErrIo [].

(** The goroutines of the server, without the poller. *)
Inductive upload_work : upload -> upload -> Prop :=
(* c2s.go:146-160: StartMeasuring and the go statement *)
| s_start x f o c k cl r :
    upload_work (Upload x f o DIdle c k None WInit cl r)
                (Upload x f o DRead c k (Some (new_poller 0 k)) WSelect cl r)
(* c2s.go:156-158: ReadBytes (protocol.go:228-235, 270-273) *)
| s_read n x f c k p w cl r : 0 < n <= x ->
    upload_work (Upload x f true DRead c k p w cl r) (Upload (x - n) f true DRead c k p w cl (r + n))
| s_read_fail e x c k p w cl r :
    upload_work (Upload x (Some e) true DRead c k p w cl r) (Upload x (Some e) true (DGot e) c k p w cl r)
| s_read_closed x f c k p w cl r :
    upload_work (Upload x f false DRead c k p w cl r) (Upload x f false (DGot closed_conn) c k p w cl r)
(* c2s.go:159 *)
| s_send e x f o k p w cl r :
    upload_work (Upload x f o (DGot e) None k p w cl r) (Upload x f o DEnd (Some e) k p w cl r)
(* c2s.go:165-167, with the cancellation in StopMeasuring *)
| s_timeout x f o d c p cl r :
    upload_work (Upload x f o d c true p WSelect cl r)
                (Upload x f o d c true (option_map finish p) (WStop DrainTimeout) cl r)
(* c2s.go:168-170 *)
| s_error e x f o d k p cl r :
    upload_work (Upload x f o d (Some e) k p WSelect cl r)
                (Upload x f o d None k (option_map finish p) (WStop (DrainError e)) cl r)
(* protocol.go:163-167, c2s.go:172-175 and the deferred derivedCancel *)
| s_stopped y x f o d c k p w p' cl r : receive_from p = Some (w, p') ->
    upload_work (Upload x f o d c k (Some p) (WStop y) cl r)
                (Upload x f o d c true (Some (finish p')) (WBack w (wait_result y w)) cl r)
(* c2s.go:82-83 *)
| s_close x f o d c k p w r :
    upload_work (Upload x f o d c k p w CSleep r) (Upload x f false d c k p w CDone r).

(** The server: its goroutines and the poller. *)
Inductive upload_sys : upload -> upload -> Prop :=
| s_work s t : upload_work s t -> upload_sys s t
| s_poll p p' x f o d c k w cl r : poll_step p p' ->
    upload_sys (Upload x f o d c k (Some p) w cl r) (Upload x f o d c k (Some p') w cl r).

(** The return of ManageTest, which runs its deferred functions, c2s.go:76-84.  When it comes
    depends on the control connection; if TestStart could not be sent (line 93) it comes
    without a wait. *)
Inductive upload_return : upload -> upload -> Prop :=
| m_return x f o d c k p w e r :
    upload_return (Upload x f o d c k p (WBack w e) CNone r) (Upload x f o d c k p (WBack w e) CSleep r)
| m_early x f o k r :
    upload_return (Upload x f o DIdle None k None WInit CNone r) (Upload x f o DIdle None k None WSkip CSleep r).

Definition upload_step (s t : upload) : Prop := upload_env s t \/ upload_sys s t \/ upload_return s t.

(** ** Download *)

(** FillUntil: at the test of the loop; in Write; returned with a count and an error. *)
Inductive fill_at := FCheck | FWrite | FBack (n : Z) (e : option err).

(** [f_plain]: a netConnection, otherwise a wsConnection.  [f_size]: length of the buffer.
    [f_room]: how many bytes the connection can still take before the client reads some.
    [f_gone]: the client has closed or the connection is broken.  [f_past]: the time is over.
    [f_ctx]: the context of the test, and of the control connection, is done.  [f_count]: the
    variable bytesWritten.  Not in the program: [f_taken], the payload bytes that the
    connection took. *)
Record fill := Fill {
  f_plain : bool; f_size : Z; f_room : Z; f_gone : option err; f_past : bool; f_ctx : bool;
  f_at : fill_at; f_count : Z; f_taken : Z
}.

Definition fill_init (s : fill) : Prop :=
  exists plain size room, 0 < size /\ 0 <= room /\ s = Fill plain size room None false false FCheck 0 0.

(** The client reads, closes or breaks off; time passes. *)
Inductive fill_env : fill -> fill -> Prop :=
| f_reads n pl sz rm pa cx at_ co ta : 0 < n ->
    fill_env (Fill pl sz rm None pa cx at_ co ta) (Fill pl sz (rm + n) None pa cx at_ co ta)
| f_breaks e pl sz rm pa cx at_ co ta :
    fill_env (Fill pl sz rm None pa cx at_ co ta) (Fill pl sz rm (Some e) pa cx at_ co ta)
| f_time pl sz rm go cx at_ co ta :
    fill_env (Fill pl sz rm go false cx at_ co ta) (Fill pl sz rm go true cx at_ co ta)
| f_expires pl sz rm go pa at_ co ta :
    fill_env (Fill pl sz rm go pa false at_ co ta) (Fill pl sz rm go pa true at_ co ta).

(** The loop, protocol.go:188-196 and 276-284.  A Write returns when the connection took the
    whole buffer, or fails; a failing Write may have passed on a part of it.  The write of a
    prepared message is all or nothing to its caller; its framing is not counted. *)
Inductive fill_sys : fill -> fill -> Prop :=
| f_go pl sz rm go cx co ta :
    fill_sys (Fill pl sz rm go false cx FCheck co ta) (Fill pl sz rm go false cx FWrite co ta)
| f_over pl sz rm go cx co ta :
    fill_sys (Fill pl sz rm go true cx FCheck co ta) (Fill pl sz rm go true cx (FBack co None) co ta)
| f_wrote pl sz rm pa cx co ta : sz <= rm ->
    fill_sys (Fill pl sz rm None pa cx FWrite co ta) (Fill pl sz (rm - sz) None pa cx FCheck (co + sz) (ta + sz))
| f_failed n e pl sz rm pa cx co ta : 0 <= n < sz -> n <= rm ->
    fill_sys (Fill pl sz rm (Some e) pa cx FWrite co ta) (Fill pl sz (rm - n) (Some e) pa cx (FBack co (Some e)) co (ta + n)).

Definition fill_step (s t : fill) : Prop := fill_env s t \/ fill_sys s t.
