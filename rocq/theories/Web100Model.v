(** Model of ndt5/web100: the metrics struct and the summary of the snapshots. *)
From Coq Require Import String ZArith List Bool.
From Verif Require Import Base MessagerModel.
Import ListNotations.
Open Scope Z_scope.

(** tcp.LinuxTCPInfo (github.com/m-lab/tcp-info/tcp): the fields the server uses.
    [ti_fields] stands for the reflected view of the whole struct. *)
Record tcp_info := TcpInfo {
  ti_rtt : Z;               (* uint32, microseconds *)
  ti_snd_mss : Z;           (* uint32 *)
  ti_segs_out : Z;          (* int32 *)
  ti_bytes_acked : Z;       (* int64 *)
  ti_bytes_received : Z;    (* int64 *)
  ti_fields : list (bytes * fval)
}.

(** web100.Metrics, web100.go:11-30.  Only the fields that are ever set are kept;
    every other field of the struct stays zero (see [w_view]). *)
Record web100 := Web100 {
  w_max_rtt : Z;
  w_min_rtt : Z;
  w_sum_rtt : Z;
  w_count_rtt : Z;
  w_cur_mss : Z;
  w_pkts_out : Z;
  w_tcp_info : tcp_info
}.

(** What reflection sees of a web100.Metrics: the fields in declaration order,
    web100.go:12-29. *)
Definition w_view (w : web100) : list (bytes * fval) :=
  [ (str "MaxRTT", FInt (w_max_rtt w)); (str "MinRTT", FInt (w_min_rtt w));
    (str "SumRTT", FInt (w_sum_rtt w)); (str "CurRTO", FInt 0);
    (str "SndLimTimeCwnd", FInt 0); (str "SndLimTimeRwin", FInt 0);
    (str "SndLimTimeSender", FInt 0); (str "DataBytesOut", FInt 0);
    (str "DupAcksIn", FInt 0); (str "PktsOut", FInt (w_pkts_out w));
    (str "PktsRetrans", FInt 0); (str "Timeouts", FInt 0);
    (str "CountRTT", FInt (w_count_rtt w)); (str "CongestionSignals", FInt 0);
    (str "AckPktsIn", FInt 0); (str "MaxCwnd", FInt 0); (str "MaxRwinRcvd", FInt 0);
    (str "CurMSS", FInt (w_cur_mss w)); (str "Sndbuf", FInt 0);
    (str "RcvWinScale", FInt 0); (str "SndWinScale", FInt 0);
    (str "BytesPerSecond", FOther);
    (str "TCPInfo", FStruct (ti_fields (w_tcp_info w))) ].

(** The accumulators of summarize, web100_linux.go:17-20. *)
Record rtt_acc := RttAcc { a_sum : Z; a_count : Z; a_max : Z; a_min : Z }.

(** The body of the loop, web100_linux.go:21-30, with uint32 arithmetic. *)
Definition rtt_step (a : rtt_acc) (snap : tcp_info) : rtt_acc :=
  {| a_count := wrap_u32 (a_count a + 1);
     a_sum := wrap_u32 (a_sum a + ti_rtt snap);
     a_min := if (ti_rtt snap <? a_min a) || (a_min a =? 0) then ti_rtt snap else a_min a;
     a_max := if a_max a <? ti_rtt snap then ti_rtt snap else a_max a |}.

(** The last element of a non-empty list, snaps[len(snaps)-1]. *)
Fixpoint last_snap (d : tcp_info) (l : list tcp_info) : tcp_info :=
  match l with [] => d | x :: r => last_snap x r end.

(** summarize, web100_linux.go:13-53: [None] is the error for no snapshots. *)
Definition summarize (snaps : list tcp_info) : option web100 :=
  match snaps with
  | [] => None
  | s0 :: r =>
      let a := fold_left rtt_step snaps (RttAcc 0 0 0 0) in
      let l := last_snap s0 r in
      Some {| w_tcp_info := l;
              w_min_rtt := a_min a / 1000;
              w_max_rtt := a_max a / 1000;
              w_sum_rtt := a_sum a / 1000;
              w_count_rtt := a_count a;
              w_cur_mss := ti_snd_mss l;
              w_pkts_out := wrap_u32 (ti_segs_out l) |}
  end.
