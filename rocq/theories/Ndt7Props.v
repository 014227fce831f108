(** Properties C34 to C39, C42 to C44 and C56: ndt7 requests and subtests. *)
From Coq Require Import String ZArith List Bool Lia Permutation.
From Coq Require Import Floats.SpecFloat.
From Verif Require Import Base BaseFacts GoFloat FloatSpec FloatFacts Web100Model Effect ControlModel QueryModel
  QuerySpec QueryProofs Ndt7Model Ndt7Spec SenderProofs SenderFacts ReceiverProofs RequestProofs RequestFacts
  Ndt7More Ndt7Example.
Import ListNotations.
Open Scope Z_scope.

(** ** C34 *)

(** Every run of a request, whatever the subtests do, panics included (they do not end
    the process themselves). *)
Theorem C34_requests : forall do_download do_upload h q k l v1 v2 s tr s' r,
  (forall c p a t a', ~ run (subtest do_download do_upload k c p a) t (a', Panic Exited)) ->
  query_pairs (q_raw q) l -> Permutation v1 (query (q_raw q)) -> Permutation v2 (query (q_raw q)) ->
  run (run_measurement do_download do_upload h q k v1 v2 s) tr (s', r) ->
  request_run (subtest do_download do_upload k) h q k l tr r.
Proof. exact request_runs. Qed.
Print Assumptions C34_requests.

(** With the subtests of the server: no flow, no file and no result unless the connection
    was set up; then exactly one flow, file and result, or the end of the process. *)
Theorem C34_one_result : forall fuel h q k l v1 v2 s tr s' r,
  query_pairs (q_raw q) l -> Permutation v1 (query (q_raw q)) -> Permutation v2 (query (q_raw q)) ->
  run (run_request fuel h q k v1 v2 s) tr (s', r) -> leaves h k l tr r.
Proof. intros until 4. eapply request_leaves, (real_request _ _ _ _ _ _ _ _ _ _ _ H H0 H1 H2). Qed.
Print Assumptions C34_one_result.

(** A bad early_exit value or subprotocol: status 400 and nothing else but a counter. *)
Theorem C34_rejected : forall fuel h q k l v1 v2 s tr s' r,
  query_pairs (q_raw q) l -> Permutation v1 (query (q_raw q)) -> Permutation v2 (query (q_raw q)) ->
  run (run_request fuel h q k v1 v2 s) tr (s', r) ->
  (In EBadRequest tr <->
     (exists v, first_value (str "early_exit") l v /\ v <> str "250") \/
     q_subprotocol q <> str "net.measurementlab.ndt.v7") /\
  (In EBadRequest tr -> r = Ok tt /\
     (tr = [EBadRequest] \/
      tr = [EBadRequest; ECount (str "ndt7_client_connections_total") [direction k; str "websocket-error"]])).
Proof.
  intros fuel h q k l v1 v2 s tr s' r Q P1 P2 H. apply (real_request _ _ _ _ _ _ _ _ _ _ _ Q P1 P2) in H.
  apply request_rejected in H. exact H.
Qed.
Print Assumptions C34_rejected.

Example C34_example : query_pairs raw0 pairs0 /\ exists tr,
  run (run_request 4 h0 q0 Download (query raw0) (rev (query raw0)) tt) tr (tt, Ok tt) /\
  results_written tr = [res0] /\ flow_events tr = [(true, str "u"); (false, str "u")].
Proof.
  split; [exact pairs0_ok|]. destruct run_request_download as (tr & H & A & _ & B & _). eauto.
Qed.

(** ** C35 *)

(** The sizes of the binary messages of a download follow the scaling rule, are powers of
    two from 2^13 to 2^20 and do not decrease. *)
Theorem C35_sizes : forall fuel proto p a tr a' r, run (download_sender fuel proto p a) tr (a', r) ->
  scaling_rule (bulk_sizes tr) /\
  Forall (fun s => exists e, 13 <= e <= 20 /\ s = 2 ^ e) (bulk_sizes tr) /\
  (forall i j s s', (i <= j)%nat -> nth_error (bulk_sizes tr) i = Some s ->
     nth_error (bulk_sizes tr) j = Some s' -> s <= s').
Proof.
  intros fuel proto p a tr a' r H. apply download_ladder in H.
  split; [apply ladder_rule, H|]. split; [apply (ladder_powers _ 8192 0 13); [reflexivity|lia|exact H]|].
  intros i j s s' Hij H1 H2. eapply (ladder_mono _ 8192 0); eauto. lia.
Qed.
Print Assumptions C35_sizes.

(** The size of a message is determined by its ordinal: any two downloads agree. *)
Theorem C35_ordinal : forall fuel proto p a tr a' r fuel2 proto2 p2 a2 tr2 a2' r2 i s s',
  run (download_sender fuel proto p a) tr (a', r) -> run (download_sender fuel2 proto2 p2 a2) tr2 (a2', r2) ->
  nth_error (bulk_sizes tr) i = Some s -> nth_error (bulk_sizes tr2) i = Some s' -> s = s'.
Proof.
  intros until 2. intros H1 H2. eapply ladder_ordinal; [eapply download_ladder, H|eapply download_ladder, H0|exact H1|exact H2].
Qed.
Print Assumptions C35_ordinal.

(** The same of a whole request. *)
Theorem C35_request : forall fuel h q l v1 v2 s tr s' r,
  query_pairs (q_raw q) l -> Permutation v1 (query (q_raw q)) -> Permutation v2 (query (q_raw q)) ->
  run (run_request fuel h q Download v1 v2 s) tr (s', r) -> scaling_rule (bulk_sizes tr).
Proof. intros until 4. eapply ladder_rule, request_sizes, (real_request _ _ _ _ _ _ _ _ _ _ _ H H0 H1 H2). Qed.
Print Assumptions C35_request.

Example C35_example : (exists tr a', run (download_sender 4 (str "ndt7+wss") (Params true 250000000) a_empty) tr (a', Ok None) /\
    bulk_sizes tr = [8192]) /\
  scaling_rule (repeat 8192 16 ++ repeat 16384 8 ++ [32768]).
Proof.
  split.
  - destruct run_download as (tr & a' & H & F & _). exists tr, a'. split; [exact H|]. unfold bulk_sizes. rewrite F. reflexivity.
  - apply ladder_rule. vm_compute. tauto.
Qed.

(** ** C36 *)

(** The archived server measurements are those delivered, in order. *)
Theorem C36_delivered : forall fuel k proto p a tr a' r, sender_run fuel k proto p a tr a' r ->
  a_server a' = a_server a ++ delivered tr /\
  a_uuid a' = a_uuid a /\ a_client a' = a_client a /\
  a_client_meta a' = a_client_meta a /\ a_server_meta a' = a_server_meta a.
Proof.
  intros fuel k proto p a tr a' r H. apply sender_shapes in H.
  destruct (shape_frames _ _ _ _ _ _ _ H) as (o & _ & _ & _ & E & _). split; [exact E|eapply shape_data, H].
Qed.
Print Assumptions C36_delivered.

(** The same of a whole request and the result it leaves. *)
Theorem C36_request : forall fuel h q k l v1 v2 s tr s' r res,
  query_pairs (q_raw q) l -> Permutation v1 (query (q_raw q)) -> Permutation v2 (query (q_raw q)) ->
  run (run_request fuel h q k v1 v2 s) tr (s', r) -> In res (results_written tr) ->
  exists d, data_of k res d /\ a_server d = delivered tr.
Proof.
  intros fuel h q k l v1 v2 s tr s' r res Q P1 P2 H I.
  apply (C34_one_result _ _ _ _ _ _ _ _ _ _ _ Q P1 P2) in H.
  destruct H as [(_ & _ & _ & _ & E & _)|(u & _ & [(_ & _ & _ & _ & res' & d & E & Dk & _ & Ds & _)|[(_ & _ & E & _)|(_ & _ & _ & E & _)]])];
    rewrite E in I; cbn in I; try contradiction.
  destruct I as [<-|[]]. eauto.
Qed.
Print Assumptions C36_request.

Example C36_example : exists tr a' e,
  sender_run 4 Upload (str "ndt7+ws") (Params false 0) a_empty tr a' (Ok (Some e)) /\
  delivered tr = [m_late] /\ a_server a' = [m_late].
Proof.
  destruct run_upload_fails as (tr & a' & e & H & F & S). exists tr, a', e. split; [exact H|]. split; [|exact S].
  unfold delivered. rewrite F. reflexivity.
Qed.

(** ** C37 *)

(** With a limit, no delivered measurement before the last one reaches it; if the last one
    does, only a ping and the close frame follow (or the ping fails).  The sender counts
    an early end exactly if a delivered measurement reaches the limit and its ping
    succeeds. *)
Theorem C37_early_exit : forall fuel proto p a tr a' r, run (download_sender fuel proto p a) tr (a', r) ->
  p_early p = true ->
  forall m ms1 ms2, delivered tr = ms1 ++ m :: ms2 -> acked (p_max_bytes p) m ->
    ms2 = [] /\ (forall m', In m' ms1 -> ~ acked (p_max_bytes p) m') /\
    exists f0 ping,
      (exists ok, frames tr = f0 ++ [(FMeasurement m, true); (FPing ping, true); (closing, ok)] /\ r = Ok None /\
         sender_errors tr = [[proto; str "download"; str "measurer-closed-early"]]) \/
      (frames tr = f0 ++ [(FMeasurement m, true); (FPing ping, false)] /\ (exists e, r = Ok (Some e)) /\
         sender_errors tr = [[proto; str "download"; str "ping-send-ticks"]]).
Proof.
  intros fuel proto p a tr a' r H E m ms1 ms2 D A. apply download_sender_shape in H.
  destruct (shape_frames _ _ _ _ _ _ _ H) as (o & Dg & Rt & Se & _).
  assert (L : limit_of p = Some (p_max_bytes p)) by (unfold limit_of; rewrite E; reflexivity).
  destruct (dialogue_limit _ _ _ _ _ Dg L m ms1 ms2 D A) as (-> & N & f0 & pg & Hd).
  split; [reflexivity|]. split; [exact N|]. exists f0, pg.
  destruct Hd as [(ok & Ef & ->)|(Ef & ->)]; [left; exists ok|right]; (split; [exact Ef|]); split; assumption.
Qed.
Print Assumptions C37_early_exit.

(** The sender ends for that reason only with a limit that is reached. *)
Theorem C37_only_then : forall fuel proto p a tr a' r, run (download_sender fuel proto p a) tr (a', r) ->
  sender_errors tr = [[proto; str "download"; str "measurer-closed-early"]] ->
  p_early p = true /\ exists m ms, delivered tr = ms ++ [m] /\ acked (p_max_bytes p) m.
Proof.
  intros fuel proto p a tr a' r H E. apply download_sender_shape in H.
  destruct (shape_frames _ _ _ _ _ _ _ H) as (o & Dg & _ & Se & _). rewrite E in Se.
  assert (O : o = Finished (str "measurer-closed-early") \/ exists w, o = Failed w).
  { destruct o as [w|w|]; cbn in Se; [left|right; eauto|discriminate]. injection Se as <-. reflexivity. }
  destruct O as [->|[w ->]].
  - destruct (dialogue_early _ _ _ _ Dg eq_refl) as (l & m & ms & L & D & A).
    unfold limit_of in L. destruct (p_early p); [|discriminate]. injection L as <-. split; [reflexivity|]. eauto.
  - cbn in Se. injection Se as <-. exfalso. eapply dialogue_failed_word; [exact Dg|reflexivity].
Qed.
Print Assumptions C37_only_then.

(** In a whole request the limit is that of the query string. *)
Theorem C37_request : forall fuel h q k l v1 v2 s tr s' r,
  query_pairs (q_raw q) l -> Permutation v1 (query (q_raw q)) -> Permutation v2 (query (q_raw q)) ->
  run (run_request fuel h q k v1 v2 s) tr (s', r) ->
  frames tr = [] \/
  exists limit o c, early_exit_limit l limit /\ In (EUpgrade (Some c)) tr /\
    dialogue k (match k with Download => limit | Upload => None end) (frames tr) o /\
    sender_errors tr = counts (conn_label7 c) k o.
Proof. intros until 4. eapply request_dialogue, (real_request _ _ _ _ _ _ _ _ _ _ _ H H0 H1 H2). Qed.
Print Assumptions C37_request.

Example C37_example : acked 250000000 m_early /\ ~ acked 250000000 m_late /\ exists tr a',
  run (download_sender 4 (str "ndt7+wss") (Params true 250000000) a_empty) tr (a', Ok None) /\
  delivered tr = [m_late] ++ m_early :: [].
Proof.
  split; [exists (TcpInfo 10000 1460 9 250000000 0 []), 2000000; split; [reflexivity|cbn; lia]|].
  split; [intros (t & el & E & L); injection E as <- _; cbn in L; lia|].
  destruct run_download as (tr & a' & H & F & _). exists tr, a'. split; [exact H|]. unfold delivered. rewrite F. reflexivity.
Qed.

(** ** C38 *)

(** All that a sender writes, and how it returns, is one of the dialogues of the
    specification; one counter says which. *)
Theorem C38_dialogue : forall fuel k proto p a tr a' r, sender_run fuel k proto p a tr a' r ->
  exists o, dialogue k (kind_limit k p) (frames tr) o /\ returns o r /\ sender_errors tr = counts proto k o /\
    (In (ETake Closed) tr <-> o = Finished (str "measurer-closed")).
Proof.
  intros fuel k proto p a tr a' r H. apply sender_shapes in H.
  destruct (shape_frames _ _ _ _ _ _ _ H) as (o & H1 & H2 & H3 & _ & H4). eauto.
Qed.
Print Assumptions C38_dialogue.

(** A sender without error has sent exactly one close frame, as its last frame; one with
    an error, or still at work, has sent none. *)
Theorem C38_close : forall fuel k proto p a tr a' r, sender_run fuel k proto p a tr a' r ->
  (r = Ok None -> exists f0 ok, frames tr = f0 ++ [(FClose 1000 (str "Done sending"), ok)] /\ existsb is_close f0 = false) /\
  (r <> Ok None -> existsb is_close (frames tr) = false).
Proof.
  intros fuel k proto p a tr a' r H. destruct (C38_dialogue _ _ _ _ _ _ _ _ H) as (o & Dg & Rt & _). split.
  - intros ->. destruct o; cbn in Rt; [|destruct Rt; discriminate|discriminate]. eapply dialogue_closed; eauto.
  - intros N. eapply dialogue_not_closed; [exact Dg|]. intros w ->. cbn in Rt. contradiction.
Qed.
Print Assumptions C38_close.

(** Every delivered measurement is followed by a ping at once, every ping follows a
    delivered measurement at once, nothing follows a failed write, and an upload sends no
    binary message. *)
Theorem C38_frames : forall fuel k proto p a tr a' r, sender_run fuel k proto p a tr a' r ->
  (forall m f1 f2, frames tr = f1 ++ (FMeasurement m, true) :: f2 -> exists pg ok f3, f2 = (FPing pg, ok) :: f3) /\
  (forall pg ok f1 f2, frames tr = f1 ++ (FPing pg, ok) :: f2 -> exists f0 m, f1 = f0 ++ [(FMeasurement m, true)]) /\
  (forall f f1 f2, frames tr = f1 ++ (f, false) :: f2 -> f2 = []) /\
  (k = Upload -> existsb is_bulk (frames tr) = false).
Proof.
  intros fuel k proto p a tr a' r H. destruct (C38_dialogue _ _ _ _ _ _ _ _ H) as (o & Dg & _).
  split; [eapply dialogue_measurement, Dg|]. split; [eapply dialogue_ping, Dg|].
  split; [eapply dialogue_failure, Dg|eapply dialogue_upload, Dg].
Qed.
Print Assumptions C38_frames.

Example C38_example : exists tr a',
  sender_run 4 Download (str "ndt7+wss") (Params true 250000000) a_empty tr a' (Ok None) /\
  frames tr = [(FBulk 8192, true); (FMeasurement m_late, true); (FPing (str "30"), true);
               (FMeasurement m_early, true); (FPing (str "40"), true); (closing, true)].
Proof. destruct run_download as (tr & a' & H & F & _). eauto. Qed.

(** ** C39 *)

(** The stored measurements are exactly the decoded text messages; the receiver goes on
    until the first fatal input and no further, and counts its reason. *)
Theorem C39_receiver : forall decode fuel proto k s tr s' r,
  run (receiver decode fuel proto k s) tr (s', r) ->
  (forall p, In (IPong p) (inputs tr) -> bytes_ok p) ->
  exists t0 e rest,
    tr = EReadLimit 16777216 :: ENow t0 :: EReadDeadline (t0 + 15000000000) e :: rest /\
    ((e <> None /\ r = Ok tt /\
        rest = [ECount (str "ndt7_client_receiver_errors_total")
                  [proto; match k with Download => str "0" | Upload => str "1" end; str "set-read-deadline"]]) \/
     (e = None /\ stored rest = measurements_of decode (inputs rest) /\
       ((r = Panic Running /\ Forall (fun i => ~ fatal decode k i) (inputs rest) /\ receiver_errors rest = []) \/
        (r = Ok tt /\ exists l i ws, inputs rest = l ++ [i] /\ Forall (fun i => ~ fatal decode k i) l /\
           fatal decode k i /\ reasons i ws /\ receiver_errors rest = receiver_labels proto k ws)))).
Proof. exact receiver_facts. Qed.
Print Assumptions C39_receiver.

Example C39_example : exists tr,
  run (receiver (fun d => match d with [] => None | _ => Some m_late end) 12 (str "ndt7+ws") Upload tt) tr (tt, Ok tt) /\
  inputs tr = [IText (str "{}"); IBinary; IPong (str "7"); IText (str "{}"); IText []] /\
  stored tr = [m_late; m_late].
Proof. exact run_receiver. Qed.

(** ** C42 *)

(** The counters of a request that leaves a result: the rate is that of the last archived
    measurement; the label says whether the sender failed and whether the rate is zero;
    the rate is observed iff it is positive. *)
Theorem C42_counters : forall fuel h q k l v1 v2 s tr s' r,
  query_pairs (q_raw q) l -> Permutation v1 (query (q_raw q)) -> Permutation v2 (query (q_raw q)) ->
  run (run_request fuel h q k v1 v2 s) tr (s', r) ->
  results_written tr = [] \/
  exists res d v c o, results_written tr = [res] /\ data_of k res d /\ is_rate k (a_server d) v /\
    In (EUpgrade (Some c)) tr /\
    (exists limit, dialogue k limit (frames tr) o) /\ o <> Unfinished /\
    test_results tr = [[conn_label7 c; direction k; rate_label (match o with Failed _ => true | _ => false end) v]] /\
    observed_rates tr = (if fltb f_zero v then [([conn_label7 c; direction k; q_is_mon q], v)] else []).
Proof. intros until 4. eapply request_tally, (real_request _ _ _ _ _ _ _ _ _ _ _ H H0 H1 H2). Qed.
Print Assumptions C42_counters.

(** The rate: zero without TCP information; with it, and a positive elapsed time, zero if
    the byte counter is zero, and otherwise a positive number that is 8*bytes/elapsed with
    a relative error of at most 2^-51. *)
Theorem C42_rate : forall k ms v, is_rate k ms v ->
  (ms = [] -> v = f_zero) /\
  (forall ms0 m, ms = ms0 ++ [m] ->
     (m_tcp m = None -> v = f_zero) /\
     (forall t el, m_tcp m = Some (t, el) -> 1 <= el < 2 ^ 63 ->
        let b := match k with Download => ti_bytes_acked t | Upload => ti_bytes_received t end in
        (b = 0 -> v = f_zero) /\
        (1 <= b < 2 ^ 63 ->
           close_to v (8 * b) el /\ fltb f_zero v = true /\ f_is_zero v = false /\ f_finite v = true))).
Proof. exact rate_cases. Qed.
Print Assumptions C42_rate.

(** Refuted for an elapsed time of zero: a rate that is no number is labelled as a rate
    though no byte was transferred, and an infinite one is observed. *)
Theorem C42_zero_time_refuted : forall k ms0 m t v, m_tcp m = Some (t, 0) -> is_rate k (ms0 ++ [m]) v ->
  let b := match k with Download => ti_bytes_acked t | Upload => ti_bytes_received t end in
  (b = 0 -> v = S754_nan /\ rate_label false v = str "okay-with-rate" /\ fltb f_zero v = false) /\
  (1 <= b < 2 ^ 63 -> v = S754_infinity false /\ fltb f_zero v = true).
Proof. exact rate_zero_time. Qed.
Print Assumptions C42_zero_time_refuted.

Example C42_example : is_rate Download [m_late; m_early] (S754_finite false 8796093022208000 (-43)) /\
  close_to (S754_finite false 8796093022208000 (-43)) (8 * 250000000) 2000000.
Proof.
  split.
  - left. exists [m_late], m_early. do 2 eexists. split; [reflexivity|]. split; [reflexivity|]. vm_compute. reflexivity.
  - exists 8796093022208000%positive, (-43). split; [reflexivity|]. split; [lia|]. 
    apply Z.leb_le. vm_compute. reflexivity.
Qed.

(** ** C43 *)

(** The label of a connection depends on the last digits of the local port only. *)
Theorem C43_label : forall c ip zone port, w_local c = TcpAddr ip zone port -> 0 <= port ->
  (port mod 1000 = 443 -> conn_label7 c = str "ndt7+wss") /\
  (port mod 100 = 80 -> conn_label7 c = str "ndt7+ws") /\
  (port mod 1000 <> 443 -> port mod 100 <> 80 -> conn_label7 c = str "ndt7+unknown").
Proof.
  intros c ip zone port W P. rewrite (label_spec c ip zone port W P).
  assert (H : port mod 100 = 80 -> port mod 1000 <> 443).
  { intros H1 H2. pose proof (Z.div_mod port 1000 ltac:(lia)) as D. rewrite H2 in D.
    replace port with (43 + (10 * (port / 1000) + 4) * 100) in H1 by lia.
    rewrite Z.mod_add in H1 by lia. discriminate. }
  split; [|split].
  - intros ->. reflexivity.
  - intros E. specialize (H E). apply Z.eqb_neq in H. rewrite H, E. reflexivity.
  - intros N1 N2. apply Z.eqb_neq in N1, N2. rewrite N1, N2. reflexivity.
Qed.
Print Assumptions C43_label.

Example C43_example :
  conn_label7 (WsConn (TcpAddr (str "fe80::80") (str "eth443") 4443) (OtherAddr [])) = str "ndt7+wss" /\
  conn_label7 (WsConn (TcpAddr (str "10.0.0.1") [] 8080) (OtherAddr [])) = str "ndt7+ws" /\
  conn_label7 (WsConn (TcpAddr (str "10.0.0.1") [] 4433) (OtherAddr [])) = str "ndt7+unknown".
Proof. repeat split. Qed.

(** ** C44 *)

(** A pong that echoes the ping sent at t0 gives the time since then. *)
Theorem C44_echo : forall t0 t1, int64_ok t0 ->
  parse_ticks (itoa t0) t1 = Some (wrap64 (t1 - t0)) /\
  (int64_ok (t1 - t0) -> parse_ticks (itoa t0) t1 = Some (t1 - t0)).
Proof.
  intros t0 t1 H. unfold parse_ticks. rewrite (parse_own_ticks t0 H). cbn [option_map].
  split; [reflexivity|]. intros K. rewrite wrap64_id by exact K. reflexivity.
Qed.
Print Assumptions C44_echo.

(** Every other payload gives the time since the integer it denotes, or an error if it
    denotes none. *)
Theorem C44_any : forall s t d, bytes_ok s ->
  (parse_ticks s t = Some d <-> exists n, int64_text s n /\ d = wrap64 (t - n)) /\
  (parse_ticks s t = None <-> forall n, ~ int64_text s n).
Proof. exact parse_ticks_spec. Qed.
Print Assumptions C44_any.

Example C44_example : parse_ticks (str "1000") 1500 = Some 500 /\ parse_ticks (str " null ") 7 = Some 7 /\
  parse_ticks (str "1e3") 7 = None /\ parse_ticks (str "007") 7 = None /\ int64_ok 1000.
Proof. repeat split; discriminate. Qed.

(** ** C56 *)

(** Start and stop of the measurer, deadlines, ping payloads and archived times. *)
Theorem C56_timing : forall fuel k proto p a tr a' r, sender_run fuel k proto p a tr a' r -> timing k a a' tr r.
Proof. intros. eapply shape_timing, sender_shapes; eassumption. Qed.
Print Assumptions C56_timing.

(** If the clock does not go back, no subtest is archived as ending before it starts. *)
Theorem C56_order : forall fuel k proto p a tr a' x s e, sender_run fuel k proto p a tr a' (Ok x) ->
  ascending (clock tr) -> a_start a = None -> a_start a' = Some s -> a_end a' = Some e -> s <= e.
Proof. intros. eapply timing_order; eauto. eapply shape_timing, sender_shapes; eassumption. Qed.
Print Assumptions C56_order.

Example C56_example : exists tr a',
  sender_run 4 Download (str "ndt7+wss") (Params true 250000000) a_empty tr a' (Ok None) /\
  a_start a' = Some 20 /\ a_end a' = Some 60 /\ ascending (clock tr).
Proof.
  destruct run_download as (tr & a' & H & _ & _ & A & B & C & _). exists tr, a'. split; [exact H|].
  split; [exact A|]. split; [exact B|]. rewrite C. repeat (constructor; [repeat (constructor; [lia|]); constructor|]). constructor.
Qed.
