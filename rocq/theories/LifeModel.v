(** Model of the life of an ndt7 request from the upgrade on: the goroutine of the request
    (runMeasurement of ndt7/handler/handler.go:92-145, Do of ndt7/download and ndt7/upload,
    Start of the two senders), the one that closes the connection (handler.go:98-101), the
    receiver (ndt7/receiver/receiver.go) and the measurer, which is that of
    MeasurerModel.v.  What is sent and stored is in Ndt7Model.v; here is who waits for
    whom. *)
From Coq Require Import ZArith List Bool.
From Verif Require Import Base Web100Model Ndt7Model Lts MeasurerModel.
Import ListNotations.
Open Scope Z_scope.

(** A write of the sender: WriteJSON; WriteControl of a ping; WritePreparedMessage;
    WriteControl of the close frame, which has a deadline of one second of its own. *)
Inductive write_of := WJson | WPing | WBulk | WClose.

(** The goroutine of the request: in getData; before Do; before mr.Start; before the loop of
    the sender; at the head of the loop; in a write; in the deferred mr.Stop; at
    <-recv.Done(); in the deferred function of handler.go:119-123; in the deferred cancel;
    returned; the process has ended. *)
Inductive req_at :=
| HData | HDo | HStart | HSetup | HLoop | HWrite (w : write_of) | HStop | HRecv | HSave | HCancel | HBack | HExit.

(** The receiver: not started; at the head of its loop; in a read; in the reply to a control
    frame, which has a deadline of one second; before cancel2; ended. *)
Inductive recv_at := RNone | RHead | RRead | RReply | REnd | RGone.

(** The goroutine of handler.go:98-101: waiting; done. *)
Inductive closer_at := KWait | KDone.

(** [i_ctx]: ctx of handler.go:96 is done.  [i_open]: the server has not closed the
    connection.  [i_gone]: the client has closed or the connection is broken.  [i_rd],
    [i_wd]: the deadlines for reads and writes have passed.  [i_ctx2]: cancel2 was called.
    [i_meas]: the measurer, once started.  Not in the program: [i_late], whether MaxRuntime has
    passed or the context of the HTTP server was cancelled; [i_saved], how often
    writeResult was called. *)
Record life := Life {
  i_main : req_at; i_recv : recv_at; i_closer : closer_at; i_meas : option mstate;
  i_ctx : bool; i_ctx2 : bool; i_open : bool; i_gone : bool; i_rd : bool; i_wd : bool;
  i_late : bool; i_saved : nat
}.

(** The upgrade has succeeded and the closing goroutine was started. *)
Definition life_init (s : life) : Prop :=
  s = Life HData RNone KWait None false false true false false false false 0.

(** The context of a measurer is done. *)
Definition expire (m : mstate) : mstate :=
  MS (s_loop m) (s_tick m) (s_cons m) (s_set m) (s_stop m) true (s_given m) (s_drained m) (s_clock m).

(** mr.Start with a context that may already be done. *)
Definition new_measurer (t : Z) (done : bool) : mstate := MS LBoot TNone CRead false false done [] [] t.

Section Life.
  (** The addresses and the UUID of the connection, and the subtest. *)
  Variables client server uuid : bytes.
  Variable kind : kind7.

  (** The client and the clock. *)
  Inductive life_env : life -> life -> Prop :=
  (* MaxRuntime has passed; the context of the measurer descends from ctx *)
  | le_late h r k m x2 o g rd wd l n :
      life_env (Life h r k m false x2 o g rd wd l n) (Life h r k (option_map expire m) true x2 o g rd wd true n)
  (* the ten seconds of the measurer have passed *)
  | le_runtime h r k m x x2 o g rd wd l n : s_expired m = false ->
      life_env (Life h r k (Some m) x x2 o g rd wd l n) (Life h r k (Some (expire m)) x x2 o g rd wd l n)
  | le_gone h r k m x x2 o rd wd l n :
      life_env (Life h r k m x x2 o false rd wd l n) (Life h r k m x x2 o true rd wd l n)
  | le_read_deadline h r k m x x2 o g wd l n :
      life_env (Life h r k m x x2 o g false wd l n) (Life h r k m x x2 o g true wd l n)
  | le_write_deadline h r k m x x2 o g rd l n :
      life_env (Life h r k m x x2 o g rd false l n) (Life h r k m x x2 o g rd true l n)
  (* a write succeeds: the client, or the kernel on its behalf, takes the data *)
  | le_wrote w h r k m x x2 g rd l n :
      match w, h with
      | WJson, HWrite WPing | WPing, HLoop | WBulk, HLoop => True
      | WPing, HWrite WClose => kind = Download          (* early exit *)
      | WBulk, HStop => True                             (* makePreparedMessage fails *)
      | _, _ => False
      end ->
      life_env (Life (HWrite w) r k m x x2 true g rd false l n) (Life h r k m x x2 true g rd false l n)
  (* the receiver gets a message and stores or skips it; a control frame that needs a reply; a
     message that ends it *)
  | le_frame r h k m x x2 g wd l n : r = RHead \/ r = RReply \/ r = RRead \/ r = REnd ->
      life_env (Life h RRead k m x x2 true g false wd l n) (Life h r k m x x2 true g false wd l n).

  (** The goroutines of the server. *)
  Inductive life_sys : life -> life -> Prop :=
  (* handler.go:98-101 *)
  | ls_close h r m x2 o g rd wd l n :
      life_sys (Life h r KWait m true x2 o g rd wd l n) (Life h r KDone m true x2 false g rd wd l n)
  (* handler.go:104-118: getData fails; it succeeds; the process ends in GetUUID *)
  | ls_no_data r k m x x2 o g rd wd l n :
      life_sys (Life HData r k m x x2 o g rd wd l n) (Life HCancel r k m x x2 o g rd wd l n)
  | ls_data r k m x x2 o g rd wd l n :
      life_sys (Life HData r k m x x2 o g rd wd l n) (Life HDo r k m x x2 o g rd wd l n)
  (* the start of the receiver, receiver.go:106-125; SetReadDeadline may fail *)
  | ls_do r' r k m x x2 o g rd wd l n : r' = RHead \/ r' = REnd ->
      life_sys (Life HDo r k m x x2 o g rd wd l n) (Life HStart r' k m x x2 o g rd wd l n)
  (* the start of the measurer *)
  | ls_start t r k m x x2 o g rd wd l n :
      life_sys (Life HStart r k m x x2 o g rd wd l n) (Life HSetup r k (Some (new_measurer t x)) x x2 o g rd wd l n)
  (* makePreparedMessage and SetWriteDeadline *)
  | ls_setup h r k m x x2 o g rd wd l n : h = HLoop \/ h = HStop ->
      life_sys (Life HSetup r k m x x2 o g rd wd l n) (Life h r k m x x2 o g rd wd l n)
  (* a measurement is received *)
  | ls_take m m' r k x x2 o g rd wd l n : m_step client server uuid m m' -> s_given m' <> s_given m ->
      life_sys (Life HLoop r k (Some m) x x2 o g rd wd l n) (Life (HWrite WJson) r k (Some m') x x2 o g rd wd l n)
  (* the channel is closed *)
  | ls_closed m r k x x2 o g rd wd l n : s_loop m = LEnd ->
      life_sys (Life HLoop r k (Some m) x x2 o g rd wd l n) (Life (HWrite WClose) r k (Some m) x x2 o g rd wd l n)
  (* the default of the select of the download *)
  | ls_bulk m r k x x2 o g rd wd l n : kind = Download -> s_loop m <> LEnd ->
      life_sys (Life HLoop r k (Some m) x x2 o g rd wd l n) (Life (HWrite WBulk) r k (Some m) x x2 o g rd wd l n)
  (* a write fails *)
  | ls_failed w r k m x x2 o g rd wd l n : o = false \/ g = true \/ wd = true ->
      life_sys (Life (HWrite w) r k m x x2 o g rd wd l n) (Life HStop r k m x x2 o g rd wd l n)
  (* StartClosing returns *)
  | ls_closing r k m x x2 o g rd wd l n :
      life_sys (Life (HWrite WClose) r k m x x2 o g rd wd l n) (Life HStop r k m x x2 o g rd wd l n)
  (* the measurer's goroutines, and mr.Stop *)
  | ls_measurer m m' h r k x x2 o g rd wd l n : m_step client server uuid m m' ->
      s_given m' = s_given m -> s_cons m' = s_cons m \/ h = HStop ->
      (s_expired m = false -> s_expired m' = true -> s_loop m' = LEnd) ->
      life_sys (Life h r k (Some m) x x2 o g rd wd l n) (Life h r k (Some m') x x2 o g rd wd l n)
  (* mr.Stop returns *)
  | ls_stopped m r k x x2 o g rd wd l n : s_cons m = CBack ->
      life_sys (Life HStop r k (Some m) x x2 o g rd wd l n) (Life HRecv r k (Some m) x x2 o g rd wd l n)
  (* <-recv.Done(): ctx2 descends from ctx *)
  | ls_recv_done r k m x x2 o g rd wd l n : x || x2 = true ->
      life_sys (Life HRecv r k m x x2 o g rd wd l n) (Life HSave r k m x x2 o g rd wd l n)
  (* handler.go:119-123: the result is written, or the process ends *)
  | ls_saved r k m x x2 o g rd wd l n :
      life_sys (Life HSave r k m x x2 o g rd wd l n) (Life HCancel r k m x x2 o g rd wd l (S n))
  | ls_exit h r k m x x2 o g rd wd l n : h = HData \/ h = HSave ->
      life_sys (Life h r k m x x2 o g rd wd l n) (Life HExit RGone KDone None true true false g rd wd l n)
  (* the deferred cancel, handler.go:97 *)
  | ls_cancel r k m x x2 o g rd wd l n :
      life_sys (Life HCancel r k m x x2 o g rd wd l n) (Life HBack r k (option_map expire m) true x2 o g rd wd l n)
  (* the receiver: line 58 of receiver.go, whose context has a timeout of its own *)
  | ls_head h k m x x2 o g rd wd l n : x || x2 = false ->
      life_sys (Life h RHead k m x x2 o g rd wd l n) (Life h RRead k m x x2 o g rd wd l n)
  | ls_head_done h k m x x2 o g rd wd l n : x || x2 || rd = true ->
      life_sys (Life h RHead k m x x2 o g rd wd l n) (Life h REnd k m x x2 o g rd wd l n)
  (* a read fails *)
  | ls_read_failed h k m x x2 o g rd wd l n : o = false \/ g = true \/ rd = true ->
      life_sys (Life h RRead k m x x2 o g rd wd l n) (Life h REnd k m x x2 o g rd wd l n)
  (* the reply to a control frame; an error ends the read *)
  | ls_replied r h k m x x2 o g rd wd l n : r = RRead \/ r = REnd ->
      life_sys (Life h RReply k m x x2 o g rd wd l n) (Life h r k m x x2 o g rd wd l n)
  (* cancel2 *)
  | ls_cancel2 h k m x x2 o g rd wd l n :
      life_sys (Life h REnd k m x x2 o g rd wd l n) (Life h RGone k m x true o g rd wd l n).

  Definition life_step (s t : life) : Prop := life_env s t \/ life_sys s t.
End Life.
