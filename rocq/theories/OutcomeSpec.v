(** Vocabulary for how NDT5 tests and connections end: what counts as a failure, and of
    which step. *)
From Coq Require Import String ZArith List Bool.
From Verif Require Import Base WireModel MessagerModel MessagerSpec GoFloat Web100Model Effect ControlModel
  ControlSpec.
Import ListNotations.
Open Scope Z_scope.

(** [n] messages were sent, and the one after them failed with [e] and was the last. *)
Definition write_failed (tr : list event) (n : nat) (e : err) : Prop :=
  exists l f, writes tr = l ++ [(f, Some e)] /\ List.length l = n.

(** The error counter. *)
Definition errors_counted (tr : list event) : list (list bytes) := counted (str "ClientTestErrors") tr.

(** The upload ended early because of [e], after statistics with [w] had been collected. *)
Definition upload_broke (tr : list event) (e : err) (w : web100) : Prop :=
  exists c, In (EvDrain c (DrainError e)) tr /\ In (EvStopMeasuring c (Some w)) tr.
(** The time the test took, in the record. *)
Definition c2s_took (d : c2s_data) (ns : Z) : Prop :=
  exists t0 t1, u_start d = Some t0 /\ u_end d = Some t1 /\ ns = t1 - t0.
(** Less than nine seconds, as the code computes it. *)
Definition under_nine_seconds (ns : Z) : Prop := fltb (dur_seconds ns) (f_of_int 9) = true.

(** The step of a C2S test that failed with [e]; [d] is the record. *)
Inductive c2s_failure (tr : list event) (d : c2s_data) (e : err) : string -> Prop :=
| cf_listen : In (EvListen (str "c2s") (inr e)) tr -> c2s_failure tr d e "StartSingleServingServer"
| cf_prepare : write_failed tr 0 e -> c2s_failure tr d e "TestPrepare"
| cf_serve c : In (EvServe (str "c2s") (c, Some e)) tr -> c2s_failure tr d e "ServeOnce"
| cf_start : write_failed tr 1 e -> served tr <> [] -> c2s_failure tr d e "TestStart"
| cf_drain w : upload_broke tr e w -> ti_bytes_received (w_tcp_info w) = 0 ->
    List.length (writes tr) = 2%nat -> c2s_failure tr d e "Drain"
| cf_early w ns : upload_broke tr e w -> ti_bytes_received (w_tcp_info w) <> 0 ->
    c2s_took d ns -> under_nine_seconds ns ->
    List.length (writes tr) = 2%nat -> c2s_failure tr d e "EarlyExit"
| cf_msg : write_failed tr 2 e -> c2s_failure tr d e "TestMsg"
| cf_final : write_failed tr 3 e -> c2s_failure tr d e "TestFinalize".

(** Number of lines with the statistics, and with the fields of the record. *)
Definition stat_lines (w : web100) : nat := List.length (statistics w).
Definition record_lines (g : config) (d : s2c_data) : nat := List.length (s2c_fields g d).

(** The same for an S2C test. *)
Inductive s2c_failure (g : config) (m : encoding) (tr : list event) (d : s2c_data) (e : err)
  : string -> Prop :=
| df_listen : In (EvListen (str "s2c") (inr e)) tr -> s2c_failure g m tr d e "StartSingleServingServer"
| df_prepare : write_failed tr 0 e -> s2c_failure g m tr d e "TestPrepare"
| df_serve c : In (EvServe (str "s2c") (c, Some e)) tr -> s2c_failure g m tr d e "ServeOnce"
| df_none : In (EvServe (str "s2c") (None, None)) tr -> e = ErrNilConn -> s2c_failure g m tr d e "ServeOnce"
| df_start : write_failed tr 1 e -> served tr <> [] -> s2c_failure g m tr d e "TestStart"
| df_stats c : In (EvStopMeasuring c None) tr -> e = ErrNoStats -> s2c_failure g m tr d e "web100Metrics"
| df_result : write_failed tr 2 e -> s2c_failure g m tr d e "TestMsgSend"
| df_client x x' : reads tr = [x] -> receive_of m x TestMsg = (None, Some x') -> e = ErrRecv x' ->
    List.length (writes tr) = 3%nat -> s2c_failure g m tr d e "TestMsgRcv"
| df_legacy c w n : measured tr = [(c, w)] -> (n < stat_lines w)%nat ->
    write_failed tr (3 + n) e -> s2c_failure g m tr d e "SendMetricsLegacy"
| df_archival c w n : measured tr = [(c, w)] -> (n < record_lines g d)%nat ->
    write_failed tr (3 + stat_lines w + n) e -> s2c_failure g m tr d e "SendMetricsArchival"
| df_final c w : measured tr = [(c, w)] ->
    write_failed tr (3 + stat_lines w + record_lines g d) e -> s2c_failure g m tr d e "TestFinalize".

(** The same for a META test. *)
Inductive meta_failure (m : encoding) (tr : list event) (e : err) : string -> Prop :=
| mf_prepare : write_failed tr 0 e -> meta_failure m tr e "TestPrepare"
| mf_start : write_failed tr 1 e -> meta_failure m tr e "TestStart"
| mf_context a : deadline_checks tr = a ++ [true] -> e = ErrContext -> List.length (writes tr) = 2%nat ->
    meta_failure m tr e "context"
| mf_receive a x x' b : reads tr = a ++ [x] -> heard m x = inr x' -> e = ErrRecv x' ->
    deadline_checks tr = b ++ [false] -> List.length (writes tr) = 2%nat -> meta_failure m tr e "ReceiveMessage"
| mf_final : write_failed tr 2 e -> meta_failure m tr e "TestFinalize".

(** ** Connections on which nothing goes wrong *)

(** Everything the server does succeeds, the upload lasts as long as it should and no time
    limit is reached. *)
Definition succeeds (e : event) : Prop :=
  match e with
  | EvWrite _ x => x = None
  | EvListen _ p => exists n, p = inl n
  | EvServe _ r => exists c, r = (Some c, None)
  | EvDrain _ d => d = DrainTimeout
  | EvStopMeasuring _ w => w <> None
  | EvCtxDone b => b = false
  | _ => True
  end.
(** A message that the tests accept from the client. *)
Definition acceptable (m : encoding) (x : option bytes) : Prop := exists text, heard m x = inl text.

(** A message in which the S2C test finds a text, or nothing, but no error without text. *)
Definition usable (m : encoding) (x : option bytes) : Prop :=
  forall e, receive_of m x TestMsg <> (None, Some e).

(** The steps of a C2S test other than the upload itself succeed. *)
Definition succeeds_but_drain (e : event) : Prop :=
  match e with EvDrain _ _ => True | _ => succeeds e end.
(** The upload lasted, or at least nine seconds of it. *)
Definition upload_lasted (tr : list event) (d : c2s_data) : Prop :=
  forall e w ns, upload_broke tr e w -> c2s_took d ns ->
    ti_bytes_received (w_tcp_info w) <> 0 /\ ~ under_nine_seconds ns.

(** The three tests of a record, each present without error exactly if it was asked for. *)
Definition c2s_fine (asked : bool) (r : record) : Prop :=
  match r_c2s r with Some d => asked = true /\ u_error d = None | None => asked = false end.
Definition s2c_fine (asked : bool) (r : record) : Prop :=
  match r_s2c r with Some d => asked = true /\ d_error d = None | None => asked = false end.

(** ** Panics and errors of a connection *)

(** What the panic counter and the error counter of a connection with label [l] say
    together. *)
Inductive counters_agree (l : bytes) : list (list bytes) -> list (list bytes) -> Prop :=
| ca_fine : counters_agree l [] []
| ca_status : counters_agree l [] [[l; str "control"; str "TestStatus"]]
| ca_login : counters_agree l [[l; str "Login"]] [[l; str "control"; str "LoginCeremony"]]
| ca_other w : In w ["SrvQueue"; "MsgLoginVersion"; "MsgLoginTests"; "MsgResults"; "MsgLogout"; "panic"]%string ->
    counters_agree l [[l; str w]] []
| ca_test dir w what : In (dir, w) [("c2s", "C2S"); ("s2c", "S2C"); ("meta", "META")]%string ->
    counters_agree l [[l; str w]] [[l; str dir; what]].
