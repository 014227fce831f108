(** The codec of the program meets what the properties of documents assume of a codec. *)
From Coq Require Import String ZArith List Bool Lia.
From Coq Require Import ZifyBool ZifyNat.
From Coq Require Import Floats.SpecFloat.
From Verif Require Import Base BaseFacts JsonSpec GoFloat TimeModel TimeSpec TimeProofs TimeFacts CodecModel CodecSpec CodecFacts CodecDemo ToldSpec
  ExactFloat ExactSpec ExactModel ExactProofs ExactValid ExactTime.
From Verif Require Import ToldProofs Effect WireModel MessagerModel Web100Model ControlModel ControlSpec TestFacts ControlMore ArchiveModel RateSpec RateSpec2 RateProofs.
Import ListNotations.
Open Scope Z_scope.

Fixpoint nodupb (l : list bytes) : bool :=
  match l with [] => true | x :: r => negb (existsb (beqb x) r) && nodupb r end.
Lemma nodupb_spec l : nodupb l = true -> NoDup l.
Proof.
  induction l as [|x r IH]; cbn [nodupb]; intros H; [constructor|]. apply andb_prop in H as [A B]. constructor; [|apply IH, B].
  intros I. apply negb_true_iff in A. assert (E : existsb (beqb x) r = true) by (apply existsb_exists; exists x; split; [exact I|apply beqb_refl]).
  congruence.
Qed.
Definition field_okb (f : bytes * (Z * Z)) : bool :=
  negb (beqb (fst f) []) && forallb (fun b => ((65 <=? b) && (b <=? 90)) || ((97 <=? b) && (b <=? 122))) (fst f) &&
  (- 2 ^ 63 <=? fst (snd f)) && (fst (snd f) <=? 0) && (0 <=? snd (snd f)) && (snd (snd f) <? 2 ^ 63).
Lemma field_ok f : field_okb f = true -> fst f <> [] /\ Forall letter (fst f) /\ - 2 ^ 63 <= fst (snd f) <= 0 /\ 0 <= snd (snd f) < 2 ^ 63.
Proof.
  unfold field_okb. intros H. apply andb_prop in H as [H H6]. apply andb_prop in H as [H H5]. apply andb_prop in H as [H H4].
  apply andb_prop in H as [H H3]. apply andb_prop in H as [H1 H2]. split; [intros E; rewrite E in H1; discriminate|]. split; [|lia].
  apply Forall_forall. intros b B. rewrite forallb_forall in H2. specialize (H2 b B). unfold letter. lia.
Qed.

Lemma go_codec_ok off commit version : bytes_ok commit -> bytes_ok version -> codec_ok (go_codec off commit version).
Proof.
  intros C V. unfold codec_ok, go_codec. cbn [k_float k_time k_tcp k_commit k_version]. split; [exact json_float_number|].
  split; [exact (fun n w => marshal_plain off n w)|]. split; [|split; [|auto]].
  - assert (A : forallb field_okb linux_tcp_info = true) by (vm_compute; reflexivity). rewrite forallb_forall in A.
    apply Forall_forall. intros f F. apply field_ok, A, F.
  - apply nodupb_spec. vm_compute. reflexivity.
Qed.

Lemma local_bound off z t : Z.abs off < 86400 -> - (800000 - 100) * day_ns <= local (z * 60) t -> Z.abs z <= 1500 -> - unix_days * day_ns <= local off t.
Proof.
  intros O L Z1. pose proof unix_days_big as U. apply Z.le_trans with (- 800000 * day_ns).
  - apply Z.mul_le_mono_nonneg_r; [unfold day_ns; lia|lia].
  - unfold local, day_ns in *. change (10 ^ 9) with 1000000000 in *. lia.
Qed.
Lemma zone_range z n : wide_zone z n -> Z.abs n <= 1500.
Proof. intros []; lia. Qed.
Lemma text_zone w t z : time_text w t z -> Z.abs z <= 1500.
Proof. intros []. eapply zone_range; eassumption. Qed.

Lemma read_time_text w t : read_time w = Some t <-> exists z, time_text w t z.
Proof.
  unfold read_time. split.
  - destruct (read_time_zone w) as [[t' z]|] eqn:E; [|discriminate]. intros H. injection H as ->. exists z. apply read_time_spec, E.
  - intros (z & T). apply read_time_spec in T. rewrite T. reflexivity.
Qed.

Lemma times_come_back off s t w : off mod 60 = 0 -> read_time s = Some t -> marshal_time off t = Some w -> read_time w = Some t.
Proof.
  intros M R H. apply read_time_text in R as (z & T). destruct (read_again s t z T) as [_ L]. pose proof (text_zone _ _ _ T) as Z1.
  apply marshal_read with off; [|exact M|exact H]. apply marshal_year in H as (_ & A & _). eapply local_bound; eassumption.
Qed.
Lemma zero_come_back off w : off mod 60 = 0 -> marshal_time off zero_time = Some w -> read_time w = Some zero_time.
Proof.
  intros M H. apply marshal_read with off; [|exact M|exact H]. apply marshal_year in H as (_ & A & _). apply go_zero_local; [|exact A]. unfold zero_time, go_zero. lia.
Qed.
Lemma go_times_return off commit version : off mod 60 = 0 -> times_return (go_codec off commit version).
Proof.
  intros M. split; cbn [k_read_time k_time go_codec].
  - intros s n w. apply times_come_back, M.
  - intros w. apply zero_come_back, M.
Qed.

(** ** The rates of a record *)

Lemma zero_or_quotient x : x = f_zero \/ (exists a b, x = fdiv a b) -> valid_binary 53 1024 x = true.
Proof. intros [->|(a & b & ->)]; [reflexivity|apply div_valid]. Qed.

Lemma c2s_valid g m t d e : run (c2s_manage g m c2s_empty) t (d, Ok e) -> valid_binary 53 1024 (u_mean d) = true.
Proof.
  intros R. destruct (c17_rate g m t d (Ok e) R) as (A1 & A2 & _). apply zero_or_quotient.
  destruct (nth_error (writes t) 2) as [[f e']|] eqn:W; [|left; apply A2; reflexivity].
  destruct (A1 f e' eq_refl) as (c & how & w & t0 & t1 & H1 & H2 & H3 & H4 & _ & _ & H7). right. rewrite H7. eauto.
Qed.
Lemma s2c_valid g m t d e : run (s2c_manage g m s2c_empty) t (d, Ok e) ->
  valid_binary 53 1024 (d_mean d) = true /\ valid_binary 53 1024 (d_client_mbps d) = true.
Proof.
  intros R. split; apply zero_or_quotient.
  - destruct (s2c_result g m t d (Ok e) R) as [_ M]. destruct (measured t) as [|[c w] [|]] eqn:Me; [| |contradiction M].
    + destruct M as (_ & -> & _). left. reflexivity.
    + destruct M as (t0 & t1 & f & e' & M1 & M2 & _ & _ & _ & _ & _ & _ & _ & _ & _ & _ & M3 & _). right. rewrite M3. eauto.
  - rewrite (s2c_client g m t d (Ok e) R). destruct (ControlSpec.reads t) as [|x [|y l]]; auto.
    destruct (receive_of m x TestMsg) as [[p|] [er|]]; cbn [fst]; try (left; reflexivity);
      match goal with |- context [parse_float ?q] => destruct (parse_float q); [right; eauto|left; reflexivity] end.
Qed.

Lemma record_valid g tr s x r : run (handle_control_channel g tt) tr (s, x) -> saved tr = [r] ->
  (forall u, r_c2s r = Some u -> valid_binary 53 1024 (u_mean u) = true) /\
  (forall d, r_s2c r = Some d -> valid_binary 53 1024 (d_mean d) = true /\ valid_binary 53 1024 (d_client_mbps d) = true).
Proof.
  intros H Sv. destruct (archived g tr s x H) as (r' & Sv' & _ & _ & _ & _ & _ & _ & _ & _ & ib & rest & _ & A).
  rewrite Sv in Sv'. injection Sv' as <-.
  assert (P : (forall d, r_c2s r = Some d -> exists m t e, within t tr /\ run (c2s_manage g m c2s_empty) t (d, Ok e)) /\
              (forall d, r_s2c r = Some d -> exists m t e, within t tr /\ run (s2c_manage g m s2c_empty) t (d, Ok e))).
  { destruct (login_of (c_kind g) ib) as [[tests| |] m]; [|destruct A as (-> & -> & _); split; discriminate..].
    destruct (wants_status tests); [|destruct A as (-> & -> & _); split; discriminate]. destruct A as (_ & C & D & _).
    split; intros d E; rewrite E in *; [destruct C as (_ & t & e & C)|destruct D as (_ & t & e & D)]; eauto. }
  destruct P as [Pc Ps]. split.
  - intros u E. destruct (Pc u E) as (m & t & e & _ & R). eapply c2s_valid, R.
  - intros d E. destruct (Ps d E) as (m & t & e & _ & R). eapply s2c_valid, R.
Qed.

Ltac named_parts := repeat (apply Forall2_cons; [first [assumption|apply named_member|apply named_optional|intros ? -> ? []]|]); apply Forall2_nil.

Lemma ndt5_members k text r j : ndt5_doc k text r j ->
  (forall u, r_c2s r = Some u -> exists part, has_member (str "C2S") j part /\ c2s_doc k text u part) /\
  (forall d, r_s2c r = Some d -> exists part, has_member (str "S2C") j part /\ s2c_doc k text d part).
Proof.
  unfold ndt5_doc, header_parts. cbn [app].
  set (heads := [str "GitShortCommit"; str "Version"; str "ServerIP"; str "ServerPort"; str "ClientIP"; str "ClientPort"; str "StartTime"; str "EndTime"; str "Control"]).
  intros H. split.
  - intros u E. rewrite E in H. cbn [optional] in H.
    match type of H with object (?a :: ?b :: ?c :: ?d :: ?e :: ?f :: ?g :: ?h :: ?i :: ?x :: [?y]) _ =>
      apply (object_member [a; b; c; d; e; f; g; h; i] (str "C2S") (c2s_doc k text u) [y] heads [str "S2C"]) in H end;
      [exact H| | |vm_compute; reflexivity].
    + unfold heads. named_parts.
    + apply Forall2_cons; [|apply Forall2_nil]. apply (named_optional (str "S2C")).
  - intros d E. rewrite E in H. cbn [optional] in H.
    match type of H with object (?a :: ?b :: ?c :: ?d1 :: ?e :: ?f :: ?g :: ?h :: ?i :: ?x :: [?y]) _ =>
      apply (object_member [a; b; c; d1; e; f; g; h; i; x] (str "S2C") (s2c_doc k text d) [] (heads ++ [str "C2S"]) []) in H end;
      [exact H| | |vm_compute; reflexivity].
    + unfold heads. cbn [app]. repeat (apply Forall2_cons; [first [apply named_member|apply (named_optional (str "C2S"))]|]). apply Forall2_nil.
    + apply Forall2_nil.
Qed.

Lemma c2s_member k text u j : c2s_doc k text u j ->
  exists v, has_member (str "MeanThroughputMbps") j v /\ is_float k (u_mean u) v.
Proof.
  unfold c2s_doc. intros H.
  match type of H with object (?a :: ?b :: ?c :: ?d :: ?e :: ?f :: ?g :: ?x :: [?y]) _ =>
    apply (object_member [a; b; c; d; e; f; g] (str "MeanThroughputMbps") (is_float k (u_mean u)) [y]
      [str "ServerIP"; str "ServerPort"; str "ClientIP"; str "ClientPort"; str "UUID"; str "StartTime"; str "EndTime"] [str "Error"]) in H end;
    [exact H| | |vm_compute; reflexivity].
  - repeat (apply Forall2_cons; [apply named_member|]); apply Forall2_nil.
  - apply Forall2_cons; [|apply Forall2_nil]. unfold error_part. apply (named_optional (str "Error")).
Qed.
Lemma s2c_member k text d j : s2c_doc k text d j ->
  (exists v, has_member (str "MeanThroughputMbps") j v /\ is_float k (d_mean d) v) /\
  (exists v, has_member (str "ClientReportedMbps") j v /\ is_float k (d_client_mbps d) v).
Proof.
  unfold s2c_doc. intros H.
  match type of H with object (?p1 :: ?p2 :: ?p3 :: ?p4 :: ?p5 :: ?p6 :: ?p7 :: ?p8 :: ?p9 :: ?p10 :: ?p11 :: ?p12 :: ?p13 :: ?p14 :: [?p15]) _ =>
    split; [apply (object_member [p1; p2; p3; p4; p5; p6; p7] (str "MeanThroughputMbps") (is_float k (d_mean d)) [p9; p10; p11; p12; p13; p14; p15]
      [str "UUID"; str "ServerIP"; str "ServerPort"; str "ClientIP"; str "ClientPort"; str "StartTime"; str "EndTime"]
      [str "MinRTT"; str "MaxRTT"; str "SumRTT"; str "CountRTT"; str "ClientReportedMbps"; str "TCPInfo"; str "Error"]) in H
    | apply (object_member [p1; p2; p3; p4; p5; p6; p7; p8; p9; p10; p11; p12] (str "ClientReportedMbps") (is_float k (d_client_mbps d)) [p14; p15]
      [str "UUID"; str "ServerIP"; str "ServerPort"; str "ClientIP"; str "ClientPort"; str "StartTime"; str "EndTime"; str "MeanThroughputMbps"; str "MinRTT"; str "MaxRTT"; str "SumRTT"; str "CountRTT"]
      [str "TCPInfo"; str "Error"]) in H] end;
    try exact H; try (vm_compute; reflexivity);
    repeat (apply Forall2_cons; [first [apply (named_optional (str "TCPInfo"))|unfold error_part; apply (named_optional (str "Error"))|apply named_member]|]); apply Forall2_nil.
Qed.

(** The rates in the document of a connection. *)
Lemma document_rates off commit version g tr s x r text doc : bytes_ok commit -> bytes_ok version ->
  run (handle_control_channel g tt) tr (s, x) -> saved tr = [r] -> record_bytes text r ->
  encode5 (go_codec off commit version) text r = Some doc ->
  exists j, stands_for doc j /\
    (forall u, r_c2s r = Some u -> exists part w, has_member (str "C2S") j part /\
       has_member (str "MeanThroughputMbps") part (JNum w) /\ parse_float w = Some (u_mean u)) /\
    (forall d, r_s2c r = Some d -> exists part w w', has_member (str "S2C") j part /\
       has_member (str "MeanThroughputMbps") part (JNum w) /\ parse_float w = Some (d_mean d) /\
       has_member (str "ClientReportedMbps") part (JNum w') /\ parse_float w' = Some (d_client_mbps d)).
Proof.
  intros C V R Sv B E. pose proof (go_codec_ok off commit version C V) as K.
  destruct (record_valid g tr s x r R Sv) as [Vu Vd].
  destruct (document5 _ K text r doc B E) as (Bd & j & J & D). exists j. split.
  { intros j'. split; [apply (json_text_fun doc j j' Bd J)|intros ->; exact J]. }
  apply ndt5_members in D as [Dc Ds]. split.
  - intros u U. destruct (Dc u U) as (part & P & Q). apply c2s_member in Q as (v & M & Fi & ->).
    exists part, (json_float (u_mean u)). split; [exact P|]. split; [exact M|]. apply json_float_exact; [exact (Vu u U)|exact Fi].
  - intros d U. destruct (Ds d U) as (part & P & Q). apply s2c_member in Q as [(v & M & Fi & ->) (v' & M' & Fi' & ->)].
    destruct (Vd d U) as [V1 V2].
    exists part, (json_float (d_mean d)), (json_float (d_client_mbps d)). split; [exact P|]. split; [exact M|].
    split; [apply json_float_exact; assumption|]. split; [exact M'|]. apply json_float_exact; assumption.
Qed.
