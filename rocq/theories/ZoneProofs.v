(** Proofs for ZoneProps. *)
From Coq Require Import String ZArith List Bool Lia.
From Verif Require Import Base BaseFacts GoFloat Effect Web100Model ControlModel QueryModel QuerySpec QueryProofs
  Ndt7Model Ndt7Spec ControlExample Ndt7Example TimeModel TimeSpec TimeProps ExactModel ExactSpec ExactTime ArchiveModel CodecModel ZoneModel ZoneSpec.
Import ListNotations.
Open Scope Z_scope.

Lemma write_all_worked p l : forall k tr x, run (write_all p l k) tr x -> Forall worked tr ->
  exists tr' tr'', tr = tr' ++ tr'' /\ ~ In FExit tr' /\ run (k true) tr'' x.
Proof.
  induction l as [|c l IH]; intros k tr x R W; cbn [write_all] in R.
  - exists [], tr. split; [reflexivity|]. split; [intros []|exact R].
  - destruct R as (n & tr1 & -> & R). inversion W as [|? ? E W']; subst. cbn [worked] in E. subst n.
    rewrite PeanoNat.Nat.eqb_refl in R. destruct (IH _ _ _ R W') as (a & b & -> & N & R').
    exists (FWrite p c (length c) :: a), b. split; [reflexivity|]. split; [|exact R'].
    intros [H|H]; [discriminate|exact (N H)].
Qed.

Lemma saved_stays d what t u c gz data tr x : run (write_result d what t u c gz data) tr x -> Forall worked tr -> ~ In FExit tr.
Proof.
  intros R W. unfold write_result in R. destruct R as (ok & tr1 & -> & R). inversion W as [|? ? E1 W1]; subst. cbn [worked] in E1. subst ok.
  cbn [negb] in R. destruct R as (ok & tr2 & -> & R). inversion W1 as [|? ? E2 W2]; subst. cbn [worked] in E2. subst ok. cbn [negb] in R.
  destruct (write_all_worked _ _ _ _ _ R W2) as (a & b & -> & Na & R1). cbn [negb] in R1.
  assert (Wb : Forall worked b) by (apply Forall_app in W2; apply W2).
  destruct (write_all_worked _ _ _ _ _ R1 Wb) as (a' & b' & -> & Nb & R2).
  destruct R2 as ([] & tr3 & -> & R2). cbn in R2. destruct R2 as [-> _].
  intros [H|[H|H]]; try discriminate. apply in_app_iff in H as [H|H]; [exact (Na H)|].
  apply in_app_iff in H as [H|[H|[]]]; [exact (Nb H)|discriminate].
Qed.

Lemma failed_exits d what t u c gz tr x : run (save_result d what t u c gz None) tr x ->
  In FExit tr.
Proof.
  intros R. unfold save_result in R. destruct R as (ok & tr1 & -> & R). destruct ok; cbn [negb] in R.
  - destruct R as (ok & tr2 & -> & R). destruct R as ([] & tr3 & -> & _). cbn. auto.
  - destruct R as ([] & tr3 & -> & _). cbn. auto.
Qed.

Definition wide (tz : Z * Z) : Prop := 24 * 60 <= Z.abs (snd tz).

Lemma part_times_in o t : In t (part_times o) <->
  exists a, o = Some a /\ (t = time_of (a_start a) \/ t = time_of (a_end a) \/
     exists m c, In m (a_server a) /\ m_conn m = Some c /\ t = ci_start c).
Proof.
  destruct o as [a|]; cbn [part_times]; [|split; [intros []|intros (a & E & _); discriminate]].
  rewrite in_app_iff, in_flat_map. cbn [In]. split.
  - intros H. exists a. split; [reflexivity|]. destruct H as [[H|[H|[]]]|(m & I & H)]; auto.
    right. right. destruct (m_conn m) as [c|] eqn:E; [|destruct H]. destruct H as [H|[]]. exists m, c. auto.
  - intros (a' & E & H). injection E as <-. destruct H as [H|[H|(m & c & I & E & H)]]; auto.
    right. exists m. split; [exact I|]. rewrite E. left. auto.
Qed.

Lemma own_times_in r t : In t (own_times r) <-> server_time r t.
Proof.
  unfold own_times, server_time. rewrite !in_app_iff, !part_times_in. cbn [In]. split.
  - intros [[H|[H|[]]]|[(a & E & H)|(a & E & H)]]; auto; right; right; exists a; auto.
  - intros [H|[H|(a & [E|E] & H)]]; auto; right; [left|right]; exists a; auto.
Qed.

Lemma marshal_exact off r client text : Z.abs off < 86400 ->
  (forall t, server_time r t -> first_time <= t) ->
  Forall (fun tz => exists w, time_text w (fst tz) (snd tz)) client ->
  (marshal_result off (own_times r) client text = None <->
   Exists wide client \/ exists t, server_time r t /\ last_time < t + off * 10 ^ 9).
Proof.
  intros A O C. unfold marshal_result.
  assert (Ho : forallb (fun t => is_some (marshal_time off t)) (own_times r) = false <->
               exists t, server_time r t /\ last_time < t + off * 10 ^ 9).
  { split.
    - intros H. apply not_true_iff_false in H.
      assert (X : Exists (fun t => marshal_time off t = None) (own_times r)).
      { apply Exists_exists. clear O. induction (own_times r) as [|t l IH]; [destruct (H eq_refl)|]. cbn [forallb] in H.
        destruct (marshal_time off t) eqn:E; [|exists t; split; [left; reflexivity|exact E]].
        destruct (IH H) as (t' & I & E'). exists t'. split; [right; exact I|exact E']. }
      apply Exists_exists in X as (t & I & E). apply own_times_in in I. exists t. split; [exact I|].
      pose proof (proj2 (C78_printable off t A (O t I))) as P. destruct (Z_lt_le_dec last_time (t + off * 10 ^ 9)) as [L|L]; [exact L|].
      destruct (P L E).
    - intros (t & I & L). destruct (forallb _ (own_times r)) eqn:Q; [|reflexivity]. rewrite forallb_forall in Q.
      specialize (Q t (proj2 (own_times_in r t) I)). pose proof (proj1 (C78_printable off t A (O t I))) as P.
      destruct (marshal_time off t); [|discriminate]. specialize (P ltac:(discriminate)). lia. }
  assert (Hc : forallb (fun tz => is_some (marshal_time (snd tz * 60) (fst tz))) client = false <-> Exists wide client).
  { clear Ho O. induction C as [|tz client (w & T) C IH]; [split; [discriminate|intros H; inversion H]|].
    cbn [forallb]. pose proof (proj1 (read_again _ _ _ T)) as R. unfold wide in *.
    destruct (marshal_time (snd tz * 60) (fst tz)); cbn [is_some andb].
    - rewrite IH. split; [intros H; right; exact H|]. intros H. inversion H as [? ? H1|? ? H1]; subst; [|exact H1].
      apply R in H1. discriminate.
    - split; [intros _; left; apply R; reflexivity|reflexivity]. }
  rewrite <- Ho, <- Hc. destruct (forallb _ (own_times r)), (forallb _ client); cbn [andb]; split; intros H; auto; try discriminate.
  destruct H; discriminate.
Qed.

(** The request of ToldExample, with another measurement of the client and a failing
    WriteResult. *)
#[local] Opaque fdiv fmul fltb f_of_int down_rate.
Definition wide_text : bytes := str "{""ConnectionInfo"":{""StartTime"":""2020-01-01T00:00:00+24:00""}}".
Definition wide_start : Z := 1577750400 * 10 ^ 9.
Definition wide_sent : measurement := Measurement None (Some (ConnInfo [] [] [] wide_start)) None None.
Definition wide_result : result7 :=
  Result7 (str "10.0.0.2") 5000 (str "10.0.0.1") 443 5 70
    (Some (Archival (str "u") (Some 20) (Some 60) [m_early] [wide_sent]
             [(str "client_name", str "n"); (str "early_exit", str "250")] [(str "machine", str "mlab1")])) None.
Lemma run_wide (e : error) : exists tr,
  run (run_request 4 h0 q0 Download (query raw0) (rev (query raw0)) tt) tr (tt, Panic Exited) /\
  In (EWriteResult wide_result (Some e)) tr /\ received tr = [wide_sent] /\ In EExit tr.
Proof.
  eexists. split.
  - answer (Some ws0). answer (Some (str "u")). silent. answer 5. silent.
    answer (@None error). answer 10. answer (@None error). answer 20.
    answer NotReady. answer (@None error).
    answer (Got m_early). answer (@None error). answer 40. answer (@None error).
    answer 50. answer (@None error). silent. answer 60. silent. answer [wide_sent].
    silent. repeat match goal with |- context [down_rate ?x] =>
      lazymatch x with [m_early] => fail | _ => change (down_rate x) with (down_rate [m_early]) end end.
    rewrite rate0. change (fltb f_zero (SpecFloat.S754_finite false 8796093022208000 (-43))) with true.
    silent. answer 70. answer (@None error). answer (Some e). silent.
    reduce. split; reflexivity.
  - split; [|split]; [|reflexivity|]; cbn; tauto.
Qed.

Lemma left_behind d what t u c gz tr x f g : run (save_result d what t u c gz None) tr x -> fs_run f tr g ->
  let p := ndt7_name d what t u c in
  (forall other, other <> p -> g other = f other) /\ (g p = f p \/ (f p = None /\ g p = Some [])).
Proof.
  intros R F p. unfold save_result in R. fold p in R. destruct R as (ok & tr1 & -> & R). destruct ok; cbn [negb] in R.
  - destruct R as (ok & tr2 & -> & R). destruct R as ([] & tr3 & -> & R). cbn in R. destruct R as [-> _].
    inversion F as [|? ? ? ? ? S1 F1]; subst. inversion S1; subst.
    inversion F1 as [|? ? ? ? ? S2 F2]; subst. inversion F2 as [|? ? ? ? ? S3 F3]; subst. inversion S3; subst. inversion F3; subst.
    inversion S2; subst.
    + auto.
    + split; [intros o N; unfold fs_set; destruct (beqb o p) eqn:Q; [apply beqb_spec in Q; contradiction|reflexivity]|].
      right. split; [assumption|]. unfold fs_set. rewrite (proj2 (beqb_spec p p) eq_refl). reflexivity.
  - destruct R as ([] & tr3 & -> & R). cbn in R. destruct R as [-> _].
    inversion F as [|? ? ? ? ? S1 F1]; subst. inversion S1; subst. inversion F1 as [|? ? ? ? ? S2 F2]; subst. inversion S2; subst. inversion F2; subst. auto.
Qed.
