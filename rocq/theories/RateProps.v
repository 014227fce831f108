(** Properties C16 and C60: NDT5 records reach the disk, and the rates are accurate. *)
From Coq Require Import String ZArith List Bool Lia QArith.
From Verif Require Import Base BaseFacts WireModel WireSpec MessagerModel GoFloat GoStrings Web100Model
  Effect ControlModel ControlSpec ControlExample TestFacts ArchiveModel ArchiveProofs
  RateSpec RateSpec2 RateProofs RateExample.
Import ListNotations.
Open Scope Z_scope.

(** ** C16 *)

(** If all operations succeed, a record whose numbers are all finite is stored as a
    document, and any other record leaves an empty file. *)
Theorem C16_stored : forall text datadir t r before tr after x,
  r_uuid r <> str "ERROR_DISCOVERING_UUID" ->
  run (save_data datadir t (r_uuid r) (encode text r)) tr x -> fs_run before tr after -> Forall succeeded tr ->
  after (ndt5_name (ndt5_dir datadir t) (r_uuid r)) =
    Some (if finite_record r then text r ++ [10] else []).
Proof.
  intros text d t r f tr g x N S R F. destruct (save_data_run _ _ _ _ _ _ _ _ S R F) as (rnd & E).
  unfold ndt5_file in E. destruct (beqb (r_uuid r) bad_uuid) eqn:B; [apply beqb_spec in B; contradiction|].
  rewrite E. unfold encode. destruct (finite_record r); reflexivity.
Qed.
Print Assumptions C16_stored.

(** The rate reported by the client is a finite number unless the client sent one of the
    spellings of infinity and NaN. *)
Theorem C16_client : forall g m tr s r, run (s2c_manage g m s2c_empty) tr (s, r) ->
  (f_finite (d_client_mbps s) = false <->
   exists x, reads tr = [x] /\
     not_a_rate (match fst (match m with TLV => tlv_receive x TestMsg | _ => json_receive x TestMsg end) with
                 | Some t => t | None => [] end)).
Proof. exact client_finite. Qed.
Print Assumptions C16_client.

(** The server's own numbers are always finite: whether the record of a control connection
    can be stored depends only on the rate reported by the client. *)
Theorem C16_exact : forall g tr s x r, run (handle_control_channel g tt) tr (s, x) -> saved tr = [r] ->
  stats_ok tr -> tests_last r ->
  (finite_record r = true <-> forall d, r_s2c r = Some d -> f_finite (d_client_mbps d) = true).
Proof.
  intros g tr s x r H S St L. rewrite (record_finite g tr s x r H S St L).
  destruct (r_s2c r) as [d|]; split; intros E; [intros d' [= <-]; exact E|apply E; reflexivity|discriminate|reflexivity].
Qed.
Print Assumptions C16_exact.

(** So a client can make the record of its own connection vanish. *)
Theorem C16_always_stored_refuted : forall text datadir t, exists tr r ops after,
  run (handle_control_channel g0 tt) tr (tt, Ok tt) /\ saved tr = [r] /\
  run (save_data datadir t (r_uuid r) (encode text r)) ops tt /\ Forall succeeded ops /\
  fs_run (fun _ => None) ops after /\
  after (ndt5_name (ndt5_dir datadir t) (r_uuid r)) = Some [].
Proof.
  intros text d t. destruct run_nan as (tr & r & H & S & F & U). set (p := ndt5_name (ndt5_dir d t) (r_uuid r)).
  exists tr, r, [FMkdir (ndt5_dir d t) true; FOpen p false true; FClose p], (fs_set (fun _ => None) p []).
  split; [exact H|]. split; [exact S|]. unfold encode. rewrite F. split; [|split; [|split]].
  - unfold save_data. replace (beqb (r_uuid r) bad_uuid) with false by (rewrite U; reflexivity).
    exists true. eexists. split; [reflexivity|]. exists true. eexists. split; [reflexivity|].
    exists tt. eexists. split; [reflexivity|]. split; reflexivity.
  - repeat (apply Forall_cons; [exact I || reflexivity|]). constructor.
  - econstructor; [constructor|]. econstructor; [apply fs_open_trunc|]. econstructor; constructor.
  - apply set_same.
Qed.
Print Assumptions C16_always_stored_refuted.

Example C16_example : not_a_rate (str "NaN") /\ not_a_rate (str "-Infinity") /\ ~ not_a_rate (str "93.5").
Proof.
  split; [left; reflexivity|]. split.
  - right. exists (str "-"), (str "infinity"). cbn. auto.
  - intros [H|(sg & bd & S & B & H)]; [discriminate|].
    destruct S as [<-|[<-|[<-|[]]]]; destruct B as [<-|[<-|[]]]; discriminate.
Qed.

(** ** C60 *)

(** The C2S rate: the archived rate in Mbit/s and the reported whole number of kbit/s are
    8 times the bytes received over the recorded duration. *)
Theorem C60_c2s : forall g m tr s r f e, run (c2s_manage g m c2s_empty) tr (s, r) -> stats_ok tr ->
  nth_error (writes tr) 2 = Some (f, e) ->
  (forall t0 t1, u_start s = Some t0 -> u_end s = Some t1 -> 0 < t1 - t0 < 2 ^ 63) ->
  exists c w t0 t1 n, In (EvStopMeasuring c (Some w)) tr /\ u_start s = Some t0 /\ u_end s = Some t1 /\
    f = message m TestMsg (itoa n) /\
    let b := ti_bytes_received (w_tcp_info w) in
    accurate (u_mean s) (mbit_per_s b (t1 - t0)) /\
    ((kbit_per_s b (t1 - t0) < inject_Z (2 ^ 62))%Q -> rounded n (kbit_per_s b (t1 - t0))).
Proof.
  intros g m tr s r f e H St W L. destruct (c17_rate g m tr s r H) as (A & _ & _).
  destruct (A f e W) as (c & how & w & t0 & t1 & _ & H2 & H3 & H4 & _ & H6 & H7). injection H6 as H6.
  exists c, w, t0, t1. eexists. split; [exact H2|]. split; [exact H3|]. split; [exact H4|]. split; [exact H6|].
  rewrite H7. apply c2s_accurate; [apply (St c w H2)|apply (L _ _ H3 H4)].
Qed.
Print Assumptions C60_c2s.

(** The S2C rate, from the bytes acknowledged. *)
Theorem C60_s2c : forall g m tr s r c w, run (s2c_manage g m s2c_empty) tr (s, r) -> stats_ok tr ->
  In (c, w) (measured tr) ->
  (forall t0 t1, d_start s = Some t0 -> d_end s = Some t1 -> 0 < t1 - t0 < 2 ^ 63) ->
  let b := ti_bytes_acked (w_tcp_info w) in
  exists t0 t1 n f e, d_start s = Some t0 /\ d_end s = Some t1 /\
    nth_error (writes tr) 2 = Some (f, e) /\ Say f = say_result m n 0 b /\
    accurate (d_mean s) (mbit_per_s b (t1 - t0)) /\
    ((kbit_per_s b (t1 - t0) < inject_Z (2 ^ 62))%Q -> rounded n (kbit_per_s b (t1 - t0))).
Proof.
  intros g m tr s r c w H St M L. destruct (s2c_result g m tr s r H) as [_ B].
  destruct (measured tr) as [|[c' w'] [|]] eqn:Me; [destruct M| |contradiction B].
  destruct M as [[= -> ->]|[]]. apply measured_in in Me.
  destruct B as (t0 & t1 & f & e & M1 & M2 & _ & _ & _ & _ & _ & _ & _ & _ & _ & _ & M3 & M4 & M5).
  exists t0, t1. eexists. exists f, e. split; [exact M1|]. split; [exact M2|]. split; [exact M4|]. split; [exact M5|].
  rewrite M3. apply s2c_accurate; [apply (St c w Me)|apply (L _ _ M1 M2)].
Qed.
Print Assumptions C60_s2c.

(** 2.5 MB in ten seconds are 2 Mbit/s. *)
Example C60_example : (mbit_per_s 2500000 10000000000 == 2)%Q /\ (kbit_per_s 2500000 10000000000 == 2000)%Q /\
  (kbit_per_s 2500000 10000000000 < inject_Z (2 ^ 62))%Q.
Proof. repeat split; vm_compute; reflexivity. Qed.
