(** Requests with the real subtests. *)
From Coq Require Import String ZArith List Bool Lia Permutation.
From Verif Require Import Base BaseFacts GoFloat ControlModel Effect QueryModel QuerySpec QueryProofs Web100Model
  Ndt7Model Ndt7Spec SenderProofs SenderFacts RequestProofs.
Import ListNotations.
Open Scope Z_scope.

Lemma loop_trace_events dl tr : loop_trace dl tr -> Forall subtest_event tr.
Proof. induction 1; repeat (constructor; cbn; auto). Qed.

Lemma shape_events k limit proto a a' tr r : sender_shape k limit proto a a' tr r -> Forall subtest_event tr.
Proof.
  intros [(e & -> & -> & -> & ->)|[(e & t0 & -> & -> & ->)|(t0 & t1 & lt & last & -> & a1 & F & Hl)]].
  - repeat constructor; auto.
  - destruct k; repeat constructor; auto.
  - destruct F as (o & D & R & C & A & L & K). apply loop_trace_events in L.
    destruct k; repeat constructor; apply Forall_app; (split; [exact L|]);
      destruct Hl as [(_ & -> & _)|(x & t2 & _ & -> & _)]; repeat constructor.
Qed.

Lemma shape_result k limit proto a a' tr r : sender_shape k limit proto a a' tr r ->
  r = Panic Running \/ exists x, r = Ok x.
Proof.
  intros [(e & -> & -> & -> & ->)|[(e & t0 & -> & -> & ->)|(t0 & t1 & lt & last & -> & a1 & F & Hl)]]; eauto.
  destruct Hl as [(-> & _)|(x & t2 & -> & _)]; eauto.
Qed.

(** The subtest of a request. *)
Definition real (fuel : nat) (k : kind7) (c : wsconn) (p : params) : Go7 archival (option error) :=
  subtest (download_do fuel) (upload_do fuel) k c p.

(** A subtest is a sender followed by the wait for the receiver. *)
Lemma real_runs fuel k c p a tr a' r : run (real fuel k c p a) tr (a', r) ->
  exists t1 a1, sender_shape k (kind_limit k p) (conn_label7 c) a a1 t1 r /\
    ((r = Panic Running /\ tr = t1 /\ a' = a1) \/
     (exists x ms, r = Ok x /\ tr = t1 ++ [EReceived ms] /\ a' = add_clients ms a1)).
Proof.
  assert (G : forall (snd : Go7 archival (option error)),
    (forall a tr a' r, run (snd a) tr (a', r) -> sender_shape k (kind_limit k p) (conn_label7 c) a a' tr r) ->
    run (bind snd (fun e => bind await_receiver (fun _ => ret e)) a) tr (a', r) ->
    exists t1 a1, sender_shape k (kind_limit k p) (conn_label7 c) a a1 t1 r /\
    ((r = Panic Running /\ tr = t1 /\ a' = a1) \/
     (exists x ms, r = Ok x /\ tr = t1 ++ [EReceived ms] /\ a' = add_clients ms a1))).
  { intros snd Hs H. apply run_bind in H. destruct H as [(t1 & a1 & e & t2 & -> & H1 & H2)|(pp & -> & H1)].
    - apply Hs in H1. unfold await_receiver in H2. exe7 H2. do 2 eexists. split; [exact H1|]. right. eauto.
    - apply Hs in H1. do 2 eexists. split; [exact H1|]. left.
      destruct (shape_result _ _ _ _ _ _ _ H1) as [E|[x E]]; [injection E as ->; auto|discriminate]. }
  destruct k; apply G; intros; [eapply download_sender_shape|eapply upload_sender_shape]; eassumption.
Qed.

Lemma subtest_quiet tr : Forall subtest_event tr ->
  results_written tr = [] /\ files_created tr = [] /\ flow_events tr = [] /\
  ~ In EExit tr /\ ~ In EBadRequest tr /\ (forall u, ~ In (EUuid u) tr) /\
  connections tr = [] /\ test_results tr = [] /\ observed_rates tr = [].
Proof.
  induction 1 as [|e tr He H IH]; [cbn; tauto|].
  destruct IH as (I1 & I2 & I3 & I4 & I5 & I6 & I7 & I8 & I9).
  unfold connections, test_results, counted in *.
  destruct e; cbn in He; try contradiction; cbn -[str beqb].
  all: try (repeat split; auto; try (intros [?|?]; [discriminate|contradiction]);
            try (intros u0 [?|Hu]; [discriminate|apply (I6 _ Hu)]); fail).
  destruct He as [-> | ->]; change (beqb (str "ndt7_client_sender_errors_total") (str "ndt7_client_connections_total")) with false;
    change (beqb (str "ndt7_client_sender_errors_total") (str "ndt7_client_test_results_total")) with false;
    change (beqb (str "ndt7_client_receiver_errors_total") (str "ndt7_client_connections_total")) with false;
    change (beqb (str "ndt7_client_receiver_errors_total") (str "ndt7_client_test_results_total")) with false; cbn [app];
  (repeat split; auto; try (intros [?|?]; [discriminate|contradiction]);
            try (intros u0 [?|Hu]; [discriminate|apply (I6 _ Hu)]); fail).
Qed.

Lemma loop_received dl tr : loop_trace dl tr -> received tr = [].
Proof. induction 1; cbn; auto. Qed.

(** Everything about the subtest of a request. *)
Lemma real_facts fuel k c p a tr a' r : run (real fuel k c p a) tr (a', r) ->
  Forall subtest_event tr /\ (r = Panic Running \/ exists x, r = Ok x) /\
  a_uuid a' = a_uuid a /\ a_client_meta a' = a_client_meta a /\ a_server_meta a' = a_server_meta a /\
  a_server a' = a_server a ++ delivered tr /\ a_client a' = a_client a ++ received tr /\
  exists o, dialogue k (kind_limit k p) (frames tr) o /\ returns o r /\
    sender_errors tr = counts (conn_label7 c) k o.
Proof.
  intros H. apply real_runs in H. destruct H as (t1 & a1 & Sh & H).
  pose proof (shape_events _ _ _ _ _ _ _ Sh) as Ev. pose proof (shape_result _ _ _ _ _ _ _ Sh) as Rs.
  pose proof (shape_data _ _ _ _ _ _ _ Sh) as (D1 & D2 & D3 & D4).
  pose proof (shape_frames _ _ _ _ _ _ _ Sh) as (o & Dg & Rt & Se & Sv & _).
  assert (Rc : received t1 = []).
  { destruct Sh as [(e & -> & _ & _ & ->)|[(e & t0 & _ & _ & ->)|(t0 & t2 & lt & last & -> & a2 & F & Hl)]].
    - reflexivity.
    - destruct k; reflexivity.
    - destruct F as (o' & _ & _ & _ & _ & L & _). apply loop_received in L. unfold received in *.
      destruct k; cbn; rewrite flat_map_app, L; destruct Hl as [(_ & -> & _)|(x & t3 & _ & -> & _)]; reflexivity. }
  destruct H as [(-> & -> & ->)|(x & ms & -> & -> & ->)].
  - repeat (split; [assumption|]). split; [rewrite Rc, app_nil_r; exact D2|]. eauto.
  - split; [apply Forall_app; split; [exact Ev|repeat constructor]|]. split; [exact Rs|].
    split; [exact D1|]. split; [exact D3|]. split; [exact D4|].
    split; [rewrite delivered_app; cbn; rewrite app_nil_r; exact Sv|].
    split; [unfold received in *; rewrite flat_map_app, Rc; cbn; rewrite app_nil_r, D2; reflexivity|].
    exists o. rewrite frames_app. cbn. rewrite app_nil_r. split; [exact Dg|]. split; [exact Rt|].
    unfold sender_errors, counted in *. rewrite flat_map_app. cbn. rewrite app_nil_r. exact Se.
Qed.

Lemma real_request fuel h q k l v1 v2 s tr s' r :
  query_pairs (q_raw q) l -> Permutation v1 (query (q_raw q)) -> Permutation v2 (query (q_raw q)) ->
  run (run_request fuel h q k v1 v2 s) tr (s', r) ->
  request_run (real fuel k) h q k l tr r.
Proof.
  intros Q P1 P2 H. eapply request_runs; [|exact Q|exact P1|exact P2|exact H]. intros c p a t a' X.
  apply (real_facts fuel k c p) in X. destruct X as (_ & [X|[x X]] & _); discriminate.
Qed.

(** ** Summaries *)

Section Summary.
  Variables (fuel : nat) (h : handler) (q : request7) (k : kind7) (l : list (bytes * bytes)).

  Lemma tallied_quiet qq kk proto failed rate tl : tallied qq kk proto failed rate tl ->
    results_written tl = [] /\ files_created tl = [] /\ flow_events tl = [] /\ ~ In EExit tl /\
    frames tl = [] /\ received tl = [].
  Proof.
    intros [(_ & ->)|(_ & ->)]; cbn; repeat split; auto; intuition discriminate.
  Qed.

  Lemma request_leaves tr r : request_run (real fuel k) h q k l tr r -> leaves h k l tr r.
  Proof.
    intros H. destruct H as [v Fv Nv|lim El Sp|lim El Sp|lim c El Sp
      |lim c u start id ms p sub d B Hs|lim c u start id ms p sub d err rate tl end_ res sv B Hs Hr Ht Hp Hv
      |lim c u start id ms p sub d t end_ res sv B Hs Hp Hv|lim c u start id ms p sub d r tl end_ res sv B Hs Hr Hp Hv].
    1-4: left; cbn; repeat split; try (intros; intro); intuition (discriminate || congruence).
    - right. exists u. split; [right; left; reflexivity|]. right. right.
      apply real_facts in Hs. destruct Hs as (Ev & _). apply subtest_quiet in Ev.
      destruct Ev as (E1 & E2 & E3 & E4 & _).
      unfold opening. cbn [app]. unfold flow_events, files_created, results_written in *. cbn. rewrite E1, E2, E3.
      repeat split; auto. intuition discriminate.
    - right. exists u. split; [right; left; reflexivity|]. left.
      apply real_facts in Hs. destruct Hs as (Ev & _ & D1 & D2 & D3 & D4 & D5 & _). apply subtest_quiet in Ev.
      destruct Ev as (E1 & E2 & E3 & E4 & _).
      apply tallied_quiet in Ht. destruct Ht as (T1 & T2 & T3 & T4 & T5 & T6).
      destruct B as (_ & _ & _ & B1 & B2 & _). destruct Hp as (_ & _ & _ & Hd).
      inversion Hv; subst. unfold opening. cbn [app].
      split; [reflexivity|].
      unfold flow_events, files_created, results_written, delivered, frames, received in *.
      cbn [flat_map app frame_of_event]. rewrite !flat_map_app, E1, E2, E3, T1, T2, T3, T5, T6. cbn [app flat_map frame_of_event].
      split; [reflexivity|]. split; [reflexivity|]. split.
      { cbn. rewrite !in_app_iff. cbn. intuition discriminate. }
      exists res, d. split; [reflexivity|]. split; [exact Hd|]. split; [exact D1|].
      cbn in D2, D3, D4, D5. rewrite !app_nil_r. split; [exact D4|]. split; [exact D5|]. split; [exact D3|].
      rewrite D2. split; [exact B1|exact B2].
    - apply real_facts in Hs. destruct Hs as (_ & [X|[x X]] & _); discriminate.
    - right. exists u. split; [right; left; reflexivity|]. right. left.
      apply real_facts in Hs. destruct Hs as (Ev & Rs & _). apply subtest_quiet in Ev.
      destruct Ev as (E1 & E2 & E3 & E4 & _).
      assert (T : results_written tl = [] /\ files_created tl = [] /\ flow_events tl = [] /\ ~ In EExit tl).
      { destruct Hr as [(t & -> & ->)|(err & rate & _ & _ & Ht)]; [cbn; tauto|].
        apply tallied_quiet in Ht. tauto. }
      destruct T as (T1 & T2 & T3 & T4).
      split; [reflexivity|]. unfold opening. cbn [app].
      unfold flow_events, files_created, results_written in *.
      inversion Hv; subst; cbn [flat_map app]; rewrite !flat_map_app, ?E1, ?E2, ?E3, ?T1, ?T2, ?T3; cbn.
      all: split; [reflexivity|]; split; [reflexivity|].
      + exists ([EUpgrade (Some c); EUuid (Some u);
           ECount (str "ndt7_client_connections_total") [kind_name k; str "result"]; ENow start;
           EFlowCreated start u id] ++ sub ++ tl ++ [ENow end_; ENewFile u k (Some e)]).
        split; [cbn; rewrite <- !app_assoc; reflexivity|]. rewrite !in_app_iff. cbn. intuition discriminate.
      + exists ([EUpgrade (Some c); EUuid (Some u);
           ECount (str "ndt7_client_connections_total") [kind_name k; str "result"]; ENow start;
           EFlowCreated start u id] ++ sub ++ tl ++ [ENow end_; ENewFile u k None; EWriteResult res (Some e)]).
        split; [cbn; rewrite <- !app_assoc; reflexivity|]. rewrite !in_app_iff. cbn. intuition discriminate.
  Qed.
End Summary.
