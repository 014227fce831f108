(** Model of the ndt7 measurer: ndt7/measurer/measurer.go:60-136 and
    netx/net.go:128-138.  Three goroutines: the loop of the measurer, the ticker it
    makes, and the consumer, which is the sender of the subtest. *)
From Coq Require Import String ZArith List Bool.
From Verif Require Import Base Web100Model Ndt7Model Lts.
Import ListNotations.
Open Scope Z_scope.

(** Conn.ReadInfo, netx/net.go:128-138, given what GetBBRInfo and GetTCPInfo return;
    [None] is an error. *)
Definition read_info (bbr : option bbr_info) (tcp : option tcp_info) : option (bbr_info * tcp_info) :=
  let b := match bbr with Some b => b | None => BBRInfo 0 0 0 0 end in
  match tcp with Some t => Some (b, t) | None => None end.

(** measure, measurer.go:60-76, and lines 105-107 of loop: the measurement taken at a
    tick.  The difference of two times is taken not to leave the range of a
    time.Duration. *)
Definition take (ci : conn_info) (now : Z) (bbr : option bbr_info) (tcp : option tcp_info) : measurement :=
  let t := Z.quot (now - ci_start ci) 1000 in
  match read_info bbr tcp with
  | Some (b, i) => Measurement None (Some ci) (Some (b, t)) (Some (i, t))
  | None => Measurement None (Some ci) None None
  end.

(** spec.go:47-59 and the check of memoryless.NewTicker on its configuration. *)
Definition sampling_min : Z := 25 * 10 ^ 6.
Definition sampling_expected : Z := 250 * 10 ^ 6.
Definition sampling_max : Z := 625 * 10 ^ 6.
Definition sampling_ok (min expected max : Z) : bool :=
  (0 <=? min) && (min <=? expected) && ((max =? 0) || (expected <=? max)).

(** Where loop (measurer.go:78-112) is: before it reads the clock; before NewTicker;
    between NewTicker and the assignment to m.ticker; receiving from the ticker;
    sending a measurement; or it has returned, its channel closed. *)
Inductive loop_at :=
| LBoot
| LBegun (ci : conn_info)
| LMade (ci : conn_info)
| LRange (ci : conn_info)
| LSend (ci : conn_info) (m : measurement)
| LEnd.

(** Where the goroutine of the ticker (memoryless.Ticker) is: not there yet; about to
    look at its context; waiting for its timer; offering a tick; or it has returned,
    its channel closed. *)
Inductive tick_at := TNone | TCheck | TWait | TOffer (now : Z) | TClosed.

(** Where the consumer is: it has not called Stop; in Stop, before line 130; draining
    the channel, line 133; or Stop has returned. *)
Inductive cons_at := CRead | CStop | CDrain | CBack.

(** [s_set]: m.ticker is not nil.  [s_stop]: Stop of the ticker was called.  [s_expired]:
    the context of the measurer is done.  [s_given] are the measurements the consumer has
    got, [s_drained] those Stop has thrown away.  [s_clock] is the last reading of the
    clock. *)
Record mstate := MS {
  s_loop : loop_at; s_tick : tick_at; s_cons : cons_at;
  s_set : bool; s_stop : bool; s_expired : bool;
  s_given : list measurement; s_drained : list measurement; s_clock : Z
}.

(** The measurer has just been started. *)
Definition m_init (s : mstate) : Prop :=
  exists t, s = MS LBoot TNone CRead false false false [] [] t.

Section Measurer.
  (** The addresses and the UUID of the connection. *)
  Variables client server uuid : bytes.

  Inductive m_step : mstate -> mstate -> Prop :=
  (* loop: lines 81-94 *)
  | m_begin ti c ts st ex g d t t' : t <= t' ->
      m_step (MS LBoot ti c ts st ex g d t) (MS (LBegun (ConnInfo client server uuid t')) ti c ts st ex g d t')
  (* loop: NewTicker fails, and the deferred functions run *)
  | m_fail ci ti c ts st ex g d t : sampling_ok sampling_min sampling_expected sampling_max = false ->
      m_step (MS (LBegun ci) ti c ts st ex g d t) (MS LEnd ti c ts st true g d t)
  (* loop: NewTicker starts the ticker *)
  | m_made ci c ts st ex g d t : sampling_ok sampling_min sampling_expected sampling_max = true ->
      m_step (MS (LBegun ci) TNone c ts st ex g d t) (MS (LMade ci) TCheck c ts st ex g d t)
  (* loop: line 102 *)
  | m_assign ci ti c ts st ex g d t :
      m_step (MS (LMade ci) ti c ts st ex g d t) (MS (LRange ci) ti c true st ex g d t)
  (* loop and ticker: a tick is received and measured *)
  | m_tick ci now bbr tcp c ts st ex g d t :
      m_step (MS (LRange ci) (TOffer now) c ts st ex g d t) (MS (LSend ci (take ci now bbr tcp)) TCheck c ts st ex g d t)
  (* loop and consumer: line 107 and a receive *)
  | m_give ci m ti ts st ex g d t :
      m_step (MS (LSend ci m) ti CRead ts st ex g d t) (MS (LRange ci) ti CRead ts st ex (g ++ [m]) d t)
  | m_drain ci m ti ts st ex g d t :
      m_step (MS (LSend ci m) ti CDrain ts st ex g d t) (MS (LRange ci) ti CDrain ts st ex g (d ++ [m]) t)
  (* loop: the channel of the ticker is closed, and the deferred functions run *)
  | m_end ci c ts st ex g d t :
      m_step (MS (LRange ci) TClosed c ts st ex g d t) (MS LEnd TClosed c ts st true g d t)
  (* ticker *)
  | t_go l c ts g d t :
      m_step (MS l TCheck c ts false false g d t) (MS l TWait c ts false false g d t)
  | t_over l c ts st ex g d t : st || ex = true ->
      m_step (MS l TCheck c ts st ex g d t) (MS l TClosed c ts st ex g d t)
  | t_fire l c ts st ex g d t t' : t <= t' ->
      m_step (MS l TWait c ts st ex g d t) (MS l (TOffer t') c ts st ex g d t')
  | t_done l c ts st ex g d t : st || ex = true ->
      m_step (MS l TWait c ts st ex g d t) (MS l TCheck c ts st ex g d t)
  (* the tick is dropped: nobody receives, or the context is done *)
  | t_drop l now c ts st ex g d t :
      m_step (MS l (TOffer now) c ts st ex g d t) (MS l TCheck c ts st ex g d t)
  (* consumer: calls Stop; lines 130-132; line 133 finds the channel closed *)
  | c_stop l ti ts st ex g d t :
      m_step (MS l ti CRead ts st ex g d t) (MS l ti CStop ts st ex g d t)
  | c_ticker l ti ts st ex g d t :
      m_step (MS l ti CStop ts st ex g d t) (MS l ti CDrain ts (ts || st) ex g d t)
  | c_back ti ts st ex g d t :
      m_step (MS LEnd ti CDrain ts st ex g d t) (MS LEnd ti CBack ts st ex g d t)
  (* the context is done: the timeout, or the context of the request *)
  | e_expire l ti c ts st g d t :
      m_step (MS l ti c ts st false g d t) (MS l ti c ts st true g d t).

  Definition m_reachable : mstate -> Prop := reachable m_init m_step.
End Measurer.
