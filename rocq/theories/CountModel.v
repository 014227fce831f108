(** The counters of the single-use test servers over the life of the process:
    ndt5/singleserving/server.go with ndt5_measurementserver_start_total and
    ndt5_measurementserver_stop_total of ndt5/metrics/metrics.go:38-58. *)
From Coq Require Import List Bool Arith.
From Verif Require Import Lts ServingModel ControlModel.
Import ListNotations.

(** One call of ListenWS, ListenWSS or ListenPlain and what became of it: it returned an error;
    it returned a server on which ServeOnce was not called; ServeOnce runs or has returned. *)
Inductive mserver :=
| Unbound (k : server_kind)
| Idle (k : server_kind)
| WsRun (k : server_kind) (s : ws_state)
| PlainRun (s : plain_state).

Definition kind_of (m : mserver) : server_kind :=
  match m with Unbound k | Idle k | WsRun k _ => k | PlainRun _ => KPlain end.

Definition kind_eqb (j k : server_kind) : bool :=
  match j, k with KWs, KWs | KWss, KWss | KPlain, KPlain => true | _, _ => false end.

(** WithLabelValues(k).Add(n) on a counter with one label. *)
Definition bump (c : server_kind -> nat) (k : server_kind) (n : nat) : server_kind -> nat :=
  fun j => if kind_eqb j k then c j + n else c j.

(** All calls of the process so far, and the two counters. *)
Record metering := Metering { mt_servers : list mserver; mt_start : server_kind -> nat; mt_stop : server_kind -> nat }.

Definition meter_init (s : metering) : Prop := s = Metering [] (fun _ => 0) (fun _ => 0).

Inductive meter_step : metering -> metering -> Prop :=
(* ListenWS, ListenWSS, ListenPlain, lines 97-130, 144-159 and 208-223: counted before net.Listen *)
| mt_listen k l a b : meter_step (Metering l a b) (Metering (l ++ [Idle k]) (bump a k 1) b)
| mt_fails k l a b : meter_step (Metering l a b) (Metering (l ++ [Unbound k]) (bump a k 1) b)
(* ServeOnce, lines 49 and 178; a test calls it once *)
| mt_serve_ws k s l l' a b : k <> KPlain -> ws_init s ->
    meter_step (Metering (l ++ Idle k :: l') a b) (Metering (l ++ WsRun k s :: l') a b)
| mt_serve_plain s l l' a b : plain_init s ->
    meter_step (Metering (l ++ Idle KPlain :: l') a b) (Metering (l ++ PlainRun s :: l') a b)
(* lines 85 and 170 add to the other counter *)
| mt_ws k s t l l' a b : ws_step s t ->
    meter_step (Metering (l ++ WsRun k s :: l') a b)
               (Metering (l ++ WsRun k t :: l') a (bump b k (v_stops t - v_stops s)))
| mt_plain s t l l' a b : plain_step s t ->
    meter_step (Metering (l ++ PlainRun s :: l') a b)
               (Metering (l ++ PlainRun t :: l') a (bump b KPlain (q_stops t - q_stops s))).

Definition meter_reachable : metering -> Prop := reachable meter_init meter_step.
