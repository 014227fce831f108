(** Properties C11-C15, C17-C21, C52-C54: NDT5 control connections.  A run of
    [handle_control_channel g] covers a whole connection; its trace [tr] lists every
    interaction with the outside world, whose answers are arbitrary. *)
From Coq Require Import String ZArith List Bool Lia.
From Verif Require Import Base BaseFacts WireModel WireSpec MessagerModel GoFloat GoStrings Web100Model
  Effect ControlModel ControlSpec StringsProofs ControlProofs MetaProofs HandleProofs ControlFacts
  TestFacts ControlExample.
Import ListNotations.
Open Scope Z_scope.

(** ** C11 *)

(** Which measurement servers are asked for, for every requested integer. *)
Theorem C11_requested_tests : forall g tr s x inbuff rest tests m,
  run (handle_control_channel g tt) tr (s, x) -> reads tr = inbuff :: rest ->
  login_of (c_kind g) inbuff = (LoginOk tests, m) ->
  if wants_status tests then
    exists rest, listened tr ++ rest =
      (if wants_c2s tests then [str "c2s"] else []) ++ (if wants_s2c tests then [str "s2c"] else []) /\
      (counted (str "ControlCount") tr = [[label g; str "okay"]] -> rest = [])
  else io tr = [EvRead inbuff] /\ listened tr = [].
Proof. exact c11_tests. Qed.
Print Assumptions C11_requested_tests.

(** The other bits change nothing but counters. *)
Theorem C11_other_bits : forall g m tests tests' r tr r' x,
  wants_c2s tests = wants_c2s tests' -> wants_s2c tests = wants_s2c tests' ->
  wants_status tests = wants_status tests' -> wants_meta tests = wants_meta tests' ->
  run (serve_tests g m tests r) tr (r', x) ->
  exists tr', run (serve_tests g m tests' r) tr' (r', x) /\ without_metrics tr' = without_metrics tr.
Proof. exact c11_other_bits. Qed.
Print Assumptions C11_other_bits.

Example C11_example : exists tr,
  run (handle_control_channel g0 tt) tr (tt, Ok tt) /\ reads tr = [Some [2; 0; 1; 18]] /\
  login_of (c_kind g0) (Some [2; 0; 1; 18]) = (LoginOk 18, TLV) /\ wants_status 18 = true /\
  listened tr = [str "c2s"].
Proof.
  destruct run_c2s_ok as (tr & H & R & L & _). exists tr. repeat split; auto.
Qed.
(** Negative requests: -14 has bits 16, 32 and 2, but not 4. *)
Example C11_negative : wants_status (-14) = true /\ wants_c2s (-14) = true /\
  wants_s2c (-14) = false /\ wants_meta (-14) = true.
Proof. repeat split. Qed.

(** ** C12 *)

(** The conversation, and whether it was completed. *)
Theorem C12_conversation : forall g tr s x, run (handle_control_channel g tt) tr (s, x) ->
  exists inbuff rest, io tr = EvRead inbuff :: rest /\
  match login_of (c_kind g) inbuff with
  | (LoginOk tests, m) =>
      if wants_status tests then
        exists w complete,
          conversation m (wants_c2s tests) (wants_s2c tests) (wants_meta tests) w /\
          follows rest w complete /\
          counted (str "ControlCount") tr = [[label g; if complete then str "okay" else str "panic"]]
      else rest = [] /\ counted (str "ControlCount") tr = [[label g; str "okay"]]
  | _ => rest = [] /\ counted (str "ControlCount") tr = [[label g; str "panic"]]
  end.
Proof. exact c12_grammar. Qed.
Print Assumptions C12_conversation.

Example C12_example : exists tr inbuff rest,
  run (handle_control_channel g0 tt) tr (tt, Ok tt) /\ io tr = EvRead inbuff :: rest /\
  counted (str "ControlCount") tr = [[str "ndt5+plain"; str "okay"]].
Proof.
  destruct run_c2s_ok as (tr & H & R & _ & _ & C & _).
  destruct (c12_grammar _ _ _ _ H) as (i & r & I & _). exists tr, i, r. auto.
Qed.

(** ** C13 *)

(** One record is saved, then the connection is closed, once. *)
Theorem C13_saved_then_closed : forall g tr s x, run (handle_control_channel g tt) tr (s, x) ->
  exists r, filter (fun e => match e with EvSave _ | EvClose => true | _ => false end) tr =
            [EvSave r; EvClose].
Proof. exact c13. Qed.
Print Assumptions C13_saved_then_closed.

(** Also when a test crashes. *)
Example C13_example : exists tr,
  run (handle_control_channel g0 tt) tr (tt, Ok tt) /\
  counted (str "ControlPanicCount") tr = [[str "ndt5+plain"; str "panic"]].
Proof. destruct run_c2s_no_stats as (tr & H & _ & _ & C). eauto. Qed.

(** ** C14 *)

(** Nothing escapes, and the counters agree. *)
Theorem C14_contained_and_balanced : forall g tr s x, run (handle_control_channel g tt) tr (s, x) ->
  x = Ok tt /\ gauge_change (str "ActiveTests") tr = 0 /\
  ((counted (str "ControlCount") tr = [[label g; str "okay"]] /\
    counted (str "ControlPanicCount") tr = []) \/
   (counted (str "ControlCount") tr = [[label g; str "panic"]] /\
    exists word, counted (str "ControlPanicCount") tr = [[label g; word]])).
Proof. exact c14. Qed.
Print Assumptions C14_contained_and_balanced.

Example C14_example : exists tr,
  run (handle_control_channel g0 tt) tr (tt, Ok tt) /\
  counted (str "ControlPanicCount") tr = [[str "ndt5+plain"; str "panic"]].
Proof. destruct run_c2s_no_stats as (tr & H & _ & _ & C). eauto. Qed.

(** ** C15 *)

(** Eleven labels, whatever the text of the panic is. *)
Theorem C15_label_set : forall text,
  In (panic_msg_to_err_type text)
     [ str "Login"; str "ParseInt"; str "SrvQueue"; str "MsgLoginVersion"; str "MsgLoginTests";
       str "C2S"; str "S2C"; str "MsgResults"; str "MsgLogout"; str "META"; str "panic" ].
Proof. exact err_type_total. Qed.
Print Assumptions C15_label_set.

(** The label names what went wrong. *)
Theorem C15_label_cause : forall g tr s x lbl word, run (handle_control_channel g tt) tr (s, x) ->
  In [lbl; word] (counted (str "ControlPanicCount") tr) ->
  lbl = label g /\
  exists inbuff rest, reads tr = inbuff :: rest /\
    cause (c_kind g) (snd (login_of (c_kind g) inbuff)) word tr.
Proof. exact c15_cause. Qed.
Print Assumptions C15_label_cause.

Example C15_example : exists tr,
  run (handle_control_channel g0 tt) tr (tt, Ok tt) /\
  In [str "ndt5+plain"; str "S2C"] (counted (str "ControlPanicCount") tr).
Proof.
  destruct run_s2c_leak as (tr & H & _ & _ & C). exists tr. split; [exact H|].
  rewrite C. left. reflexivity.
Qed.

(** ** C17 *)

(** The C2S test crashes exactly when there are no socket statistics or no connection;
    otherwise the error returned is the error recorded. *)
Theorem C17_error_recorded : forall g m tr s r, run (c2s_manage g m c2s_empty) tr (s, r) ->
  ((exists p, r = Panic p) <->
   (exists c, In (EvStopMeasuring c None) tr) \/ (exists d, In (EvServe d (None, None)) tr)) /\
  (forall e, r = Ok e -> u_error s = e).
Proof. exact c17_outcome. Qed.
Print Assumptions C17_error_recorded.

(** So a record is not always returned. *)
Theorem C17_always_returns_refuted : exists g m tr s p,
  run (c2s_manage g m c2s_empty) tr (s, Panic p).
Proof.
  exists g0, TLV.
  exists [ EvListen (str "c2s") (inl 5000); EvWrite (frame_of TLV TestPrepare (itoa 5000)) None;
           EvServe (str "c2s") (Some c0, None); EvWrite (frame_of TLV TestStart []) None; EvNow 1;
           EvStartMeasuring c0; EvDrain c0 DrainTimeout; EvStopMeasuring c0 None; EvNow 2;
           EvTestCloseLater (Some c0) ].
  eexists _, _. answer (@inl Z err 5000). answer (@None err). answer (Some c0, @None err).
  answer (@None err). answer 1. silent. answer DrainTimeout. answer (@None web100). answer 2. silent.
  reduce. split; reflexivity.
Qed.
Print Assumptions C17_always_returns_refuted.

(** The rate message (the third one): when it is sent, and its value. *)
Theorem C17_rate_message : forall g m tr s r, run (c2s_manage g m c2s_empty) tr (s, r) ->
  (forall f e, nth_error (writes tr) 2 = Some (f, e) ->
     exists c how w t0 t1,
       In (EvDrain c how) tr /\ In (EvStopMeasuring c (Some w)) tr /\
       u_start s = Some t0 /\ u_end s = Some t1 /\
       (how = DrainTimeout \/
        ti_bytes_received (w_tcp_info w) <> 0 /\ fltb (dur_seconds (t1 - t0)) (f_of_int 9) = false) /\
       let kbps := fdiv (fdiv (fmul (f_of_int 8) (f_of_int (ti_bytes_received (w_tcp_info w))))
                              (f_of_int 1000)) (dur_seconds (t1 - t0)) in
       f = message m TestMsg (itoa (f_to_int64 kbps)) /\ u_mean s = fdiv kbps (f_of_int 1000)) /\
  (nth_error (writes tr) 2 = None -> u_mean s = f_zero) /\
  (forall c how w t0 t1, In (EvDrain c how) tr -> In (EvStopMeasuring c (Some w)) tr ->
     u_start s = Some t0 -> u_end s = Some t1 ->
     (how = DrainTimeout \/
      ti_bytes_received (w_tcp_info w) <> 0 /\ fltb (dur_seconds (t1 - t0)) (f_of_int 9) = false) ->
     nth_error (writes tr) 2 <> None).
Proof.
  intros g m tr s r H. destruct (c17_rate g m tr s r H) as (A & B & C).
  split; [|split; [exact B|exact C]]. intros f e N.
  destruct (A f e N) as (c & how & w & t0 & t1 & H1 & H2 & H3 & H4 & H5 & H6 & H7).
  exists c, how, w, t0, t1. injection H6 as H6. repeat (split; [assumption|]). exact H7.
Qed.
Print Assumptions C17_rate_message.

(** A test that reports a rate. *)
Example C17_example : exists tr s,
  run (c2s_manage g0 TLV c2s_empty) tr (s, Ok None) /\
  nth_error (writes tr) 2 = Some (message TLV TestMsg (str "2000"), None).
Proof.
  exists [ EvListen (str "c2s") (inl 5000); EvWrite (frame_of TLV TestPrepare (itoa 5000)) None;
           EvServe (str "c2s") (Some c0, None); EvWrite (frame_of TLV TestStart []) None; EvNow 1;
           EvStartMeasuring c0; EvDrain c0 DrainTimeout; EvStopMeasuring c0 (Some w0); EvNow 10000000001;
           EvWrite (frame_of TLV TestMsg (str "2000")) None; EvWrite (frame_of TLV TestFinalize []) None;
           EvTestCloseLater (Some c0) ].
  eexists. split; [|reflexivity].
  answer (@inl Z err 5000). answer (@None err). answer (Some c0, @None err).
  answer (@None err). answer 1. silent. answer DrainTimeout. answer (Some w0). answer 10000000001.
  reduce. exists None. eexists. split; [f_equal; vm_compute; reflexivity|].
  answer (@None err). silent. reduce. split; reflexivity.
Qed.

(** ** C18 *)

(** The connections handed over without error are closed, each once, in order; the S2C
    test closes its connection before it sends anything after TestStart. *)
Theorem C18_closed : forall g tr s x, run (handle_control_channel g tt) tr (s, x) ->
  closed tr = served tr.
Proof. exact c18. Qed.
Print Assumptions C18_closed.

Theorem C18_s2c_order : forall g m tr s r, run (s2c_manage g m s2c_empty) tr (s, r) ->
  (List.length (writes tr) <= 2)%nat \/
  exists hd c tl, tr = hd ++ EvTestClose c :: tl /\
    (exists port, writes hd = [(message m TestPrepare (itoa port), None); (message m TestStart [], None)]) /\
    served hd = [c] /\ closed hd = [] /\ served tl = [] /\ closed tl = [].
Proof. exact c18_s2c_order. Qed.
Print Assumptions C18_s2c_order.

(** A connection handed over with an error is not closed. *)
Theorem C18_every_connection_refuted : exists g tr s x c,
  run (handle_control_channel g tt) tr (s, x) /\
  In c (served_with_error tr) /\ ~ In c (closed tr).
Proof.
  destruct run_s2c_conn_and_error as (tr & H & E & C).
  exists g0, tr, tt, (Ok tt), c0. rewrite E, C. cbn. auto.
Qed.
Print Assumptions C18_every_connection_refuted.

Example C18_example : exists tr,
  run (handle_control_channel g0 tt) tr (tt, Ok tt) /\ served tr = [c0].
Proof. destruct run_c2s_ok as (tr & H & _ & _ & S & _). eauto. Qed.

(** ** C19 *)

(** Every single-use server is waited for, except one whose port could not be
    announced; then it is the last one and nothing more is sent. *)
Theorem C19_servers_stopped : forall g tr s x, run (handle_control_channel g tt) tr (s, x) ->
  started tr = waited tr \/
  exists a d port f e b, tr = a ++ EvListen d (inl port) :: EvWrite f (Some e) :: b /\
    started tr = waited tr ++ [d] /\ writes b = [].
Proof. exact c19. Qed.
Print Assumptions C19_servers_stopped.

Theorem C19_always_stopped_refuted : exists g tr s x,
  run (handle_control_channel g tt) tr (s, x) /\ started tr = [str "s2c"] /\ waited tr = [].
Proof.
  destruct run_s2c_leak as (tr & H & A & B & _). exists g0, tr, tt, (Ok tt). auto.
Qed.
Print Assumptions C19_always_stopped_refuted.

Example C19_example : exists tr,
  run (handle_control_channel g0 tt) tr (tt, Ok tt) /\ listened tr = [str "c2s"] /\ served tr = [c0].
Proof. destruct run_c2s_ok as (tr & H & _ & L & S & _). eauto. Qed.

(** ** C20 *)

Theorem C20_stored_metadata : forall g m s tr s' pairs e,
  run (meta_manage g m s) tr (s', Ok (pairs, e)) ->
  (List.length pairs <= 20)%nat /\
  Forall (fun p => (List.length (fst p) <= 63)%nat /\ (List.length (snd p) <= 255)%nat) pairs /\
  (e <> None -> pairs = []) /\
  (e = None -> exists msgs last,
     map (heard m) (reads tr) = map inl (msgs ++ last) /\ Forall (fun x => x <> []) msgs /\
     (last = [] \/ last = [[]]) /\ stored_pairs msgs pairs).
Proof. exact meta_c20. Qed.
Print Assumptions C20_stored_metadata.

(** The META test never crashes. *)
Theorem C20_returns : forall g m s tr s' r, run (meta_manage g m s) tr (s', r) ->
  exists pairs e, r = Ok (pairs, e).
Proof.
  intros g m s tr s' r H. destruct (meta_manage_runs g m s tr s' r H) as ([p e] & -> & _). eauto.
Qed.
Print Assumptions C20_returns.

(** ** C21 *)

Theorem C21_reads_and_finalize : forall g m s tr s' pairs e,
  run (meta_manage g m s) tr (s', Ok (pairs, e)) -> stays_done (deadline_checks tr) ->
  (List.length (reads tr) <= 20)%nat /\
  (forall a x b, reads tr = a ++ x :: b -> b <> [] -> exists t, heard m x = inl t /\ t <> []) /\
  let prepare := message m TestPrepare [] in
  let start := message m TestStart [] in
  let finalize := message m TestFinalize [] in
  let interrupted := (exists x e', In x (reads tr) /\ heard m x = inr e') \/
                     In true (deadline_checks tr) in
  ((exists e', writes tr = [(prepare, Some e')] /\ reads tr = [] /\ e = Some e') \/
   (exists e', writes tr = [(prepare, None); (start, Some e')] /\ reads tr = [] /\ e = Some e') \/
   (writes tr = [(prepare, None); (start, None)] /\ interrupted /\ e <> None) \/
   (writes tr = [(prepare, None); (start, None); (finalize, e)] /\ ~ interrupted /\
    (List.length (reads tr) = 20%nat \/ exists a x, reads tr = a ++ [x] /\ heard m x = inl []))).
Proof. exact meta_c21. Qed.
Print Assumptions C21_reads_and_finalize.

Example C20_C21_example : exists tr,
  run (meta_manage g0 TLV tt) tr (tt, Ok ([(str "a", str "b c")], None)) /\
  reads tr = [Some (wire_frame (TestMsg, str " a : b c ")); Some (wire_frame (TestMsg, str "x"));
              Some (wire_frame (TestMsg, []))] /\
  stays_done (deadline_checks tr).
Proof. exact run_meta_ok. Qed.

(** ** C10, logins of the three kinds of server *)

(** The login that a control connection accepts, and the encoding it goes on with. *)
Theorem C10_login_by_kind : forall k first n m,
  bytes_ok (match first with Some b => b | None => [] end) ->
  (login_of k first = (LoginOk n, m) <-> logs_in k first n m).
Proof. exact login_by_kind. Qed.
Print Assumptions C10_login_by_kind.

Example C10_login_by_kind_example :
  logs_in KPlain (Some [2; 0; 1; 22]) 22 TLV /\ ~ logs_in KWs (Some [2; 0; 1; 22]) 22 TLV.
Proof. split; [right; repeat split|]. intros [(H & _)|(_ & H & _)]; discriminate H. Qed.

(** ** C52, connection kinds *)

Theorem C52_kinds_distinct : forall k k',
  conn_label (conn_type k) = conn_label (conn_type k') -> k = k'.
Proof. intros [] []; cbn; intros H; try reflexivity; discriminate H. Qed.
Print Assumptions C52_kinds_distinct.

(** The names in records and in metrics. *)
Theorem C52_names : forall g,
  (conn_type (c_kind g), label g) = names (c_kind g) /\
  map encoding_string [JSON; TLV] = [str "JSON"; str "TLV"].
Proof. intros g. split; [unfold label; destruct (c_kind g)|]; reflexivity. Qed.
Print Assumptions C52_names.

Theorem C52_unknown_kind : forall c,
  conn_label c = str "ndt5+unknown" <-> c <> str "WS" /\ c <> str "WSS" /\ c <> str "PLAIN".
Proof.
  intros c. unfold conn_label.
  destruct (beqb c (str "WSS")) eqn:E1;
    [apply beqb_spec in E1; subst; split; [discriminate|intros (_ & H & _); congruence]|].
  destruct (beqb c (str "WS")) eqn:E2;
    [apply beqb_spec in E2; subst; split; [discriminate|intros (H & _); congruence]|].
  destruct (beqb c (str "PLAIN")) eqn:E3;
    [apply beqb_spec in E3; subst; split; [discriminate|intros (_ & _ & H); congruence]|].
  split; [|reflexivity]. intros _.
  repeat split; intros ->; rewrite beqb_refl in *; discriminate.
Qed.
Print Assumptions C52_unknown_kind.

(** ** C53 *)

(** The S2C test always returns; the record, the error and the result message agree. *)
Theorem C53_s2c_record : forall g m tr s r, run (s2c_manage g m s2c_empty) tr (s, r) ->
  (exists e, r = Ok e /\ d_error s = e) /\
  match measured tr with
  | [] => (List.length (writes tr) <= 2)%nat /\ d_mean s = f_zero /\ d_tcp_info s = None /\ r <> Ok None
  | [(c, w)] =>
     exists t0 t1 e,
       d_start s = Some t0 /\ d_end s = Some t1 /\
       d_uuid s = tc_uuid c /\ d_server_ip s = tc_server_ip c /\ d_server_port s = tc_server_port c /\
       d_client_ip s = tc_client_ip c /\ d_client_port s = tc_client_port c /\
       d_tcp_info s = Some (w_tcp_info w) /\ d_count_rtt s = w_count_rtt w /\
       d_min_rtt s = w_min_rtt w * 1000000 /\ d_max_rtt s = w_max_rtt w * 1000000 /\
       d_sum_rtt s = w_sum_rtt w * 1000000 /\
       let acked := ti_bytes_acked (w_tcp_info w) in
       let kbps := fdiv (fdiv (fmul (f_of_int 8) (f_of_int acked)) (dur_seconds (t1 - t0)))
                        (f_of_int 1000) in
       d_mean s = fdiv kbps (f_of_int 1000) /\
       exists f, nth_error (writes tr) 2 = Some (f, e) /\ Say f = say_result m (f_to_int64 kbps) 0 acked
  | _ => False
  end.
Proof.
  intros g m tr s r H. destruct (s2c_result g m tr s r H) as [A B]. split; [exact A|].
  destruct (measured tr) as [|[c w] [|]]; [exact B| |exact B].
  destruct B as (t0 & t1 & f & e & B). exists t0, t1, e.
  destruct B as (B1 & B2 & B3 & B4 & B5 & B6 & B7 & B8 & B9 & B10 & B11 & B12 & B13 & B14 & B15).
  repeat (split; [assumption|]). exists f. split; [exact B14|exact B15].
Qed.
Print Assumptions C53_s2c_record.

(** The rate the client reported is recorded if it is a number. *)
Theorem C53_client_rate : forall g m tr s r, run (s2c_manage g m s2c_empty) tr (s, r) ->
  d_client_mbps s =
    match reads tr with
    | [x] => match (match m with TLV => tlv_receive x TestMsg | _ => json_receive x TestMsg end) with
             | (None, Some _) => f_zero
             | (p, _) => match parse_float (match p with Some t => t | None => [] end) with
                         | Some v => fdiv v (f_of_int 1000)
                         | None => f_zero
                         end
             end
    | _ => f_zero
    end.
Proof. exact s2c_client. Qed.
Print Assumptions C53_client_rate.

Example C53_example : exists tr s e,
  run (s2c_manage g0 TLV s2c_empty) tr (s, Ok (Some e)) /\ measured tr = [(c0, w0)] /\
  nth_error (writes tr) 2 = Some (message TLV TestMsg (str "1000 0 1250000"), Some e).
Proof.
  exists [ EvListen (str "s2c") (inl 5000); EvWrite (frame_of TLV TestPrepare (itoa 5000)) None;
           EvServe (str "s2c") (Some c0, None); EvWrite (frame_of TLV TestStart []) None;
           EvStartMeasuring c0; EvNow 1; EvFill c0; EvNow 10000000001; EvStopMeasuring c0 (Some w0);
           EvTestClose c0;
           EvWrite (frame_of TLV TestMsg (str "1000 0 1250000")) (Some ErrContext);
           EvCount (str "ClientTestErrors") [str "ndt5+plain"; str "s2c"; str "TestMsgSend"] ].
  eexists _, ErrContext. split; [|split; reflexivity].
  answer (@inl Z err 5000). answer (@None err). answer (Some c0, @None err).
  answer (@None err). silent. answer 1. silent. answer 10000000001. answer (Some w0). silent.
  reduce. exists (Some ErrContext). eexists. split; [f_equal; vm_compute; reflexivity|].
  silent. reduce. split; reflexivity.
Qed.

(** ** C54 *)

(** The archived record holds the connection's identity, the times at its start and end,
    and exactly what the tests returned. *)
Theorem C54_archived_record : forall g tr s x, run (handle_control_channel g tt) tr (s, x) ->
  exists r, saved tr = [r] /\
    r_uuid r = c_uuid g /\ r_protocol r = conn_type (c_kind g) /\ r_server_meta r = c_meta g /\
    r_server_ip r = c_server_ip g /\ r_server_port r = c_server_port g /\
    r_client_ip r = c_client_ip g /\ r_client_port r = c_client_port g /\
    (exists a b c t, tr = a ++ EvNow (r_start r) :: b ++ EvNow t :: EvSave r :: c /\ r_end r = Some t /\
                     io a = []) /\
    exists inbuff rest, reads tr = inbuff :: rest /\
    match login_of (c_kind g) inbuff with
    | (LoginOk tests, m) =>
        if wants_status tests then
          let failed := negb (beqb (str "okay") (last (last (counted (str "ControlCount") tr) []) [])) in
          r_message_protocol r = encoding_string m /\
          c2s_part_of g m (wants_c2s tests) tr failed (r_c2s r) /\
          s2c_part_of g m (wants_s2c tests) tr failed (r_s2c r) /\
          meta_part_of g m (wants_meta tests) tr failed (r_client_meta r)
        else r_c2s r = None /\ r_s2c r = None /\ r_client_meta r = []
    | _ => r_c2s r = None /\ r_s2c r = None /\ r_client_meta r = []
    end.
Proof. exact archived. Qed.
Print Assumptions C54_archived_record.

Example C54_example : exists tr r d, run (handle_control_channel g0 tt) tr (tt, Ok tt) /\
  saved tr = [r] /\ r_c2s r = Some d.
Proof.
  destruct run_c2s_ok as (tr & H & R & _ & _ & C & _).
  destruct (archived _ _ _ _ H) as (r & S & _ & _ & _ & _ & _ & _ & _ & _ & i & rest & R' & A).
  rewrite R in R'. injection R' as <- <-.
  change (login_of (c_kind g0) (Some [2; 0; 1; 18])) with (LoginOk 18, TLV) in A.
  change (wants_status 18) with true in A. cbv iota beta zeta in A. destruct A as (_ & A & _).
  rewrite C in A. change (negb _) with false in A. change (wants_c2s 18) with true in A.
  unfold c2s_part_of in A. destruct (r_c2s r) as [d|] eqn:D; [|destruct A; discriminate].
  eauto 6.
Qed.
