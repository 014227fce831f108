(** Requests: runMeasurement around an arbitrary subtest. *)
From Coq Require Import String ZArith List Bool Lia Permutation.
From Verif Require Import Base BaseFacts GoFloat ControlModel Effect QueryModel QuerySpec QueryProofs Web100Model
  Ndt7Model Ndt7Spec SenderProofs SenderFacts.
Import ListNotations.
Open Scope Z_scope.

(** What is counted when a subtest returns [err] with the data [d]. *)
Definition tally (q : request7) (k : kind7) (c : wsconn) (err : option error) (d : archival) : list event7 :=
  let rate := match k with Download => down_rate (a_server d) | Upload => up_rate (a_server d) end in
  ECount (str "ndt7_client_test_results_total") [conn_label7 c; kind_name k; result_label (is_some err) rate] ::
  (if fltb f_zero rate
   then [EObserve (str "ndt_test_rate_mbps") [conn_label7 c; kind_name k; q_is_mon q] rate] else []).

(** Whether a run of the subtest is followed by the tally. *)
Definition after (q : request7) (k : kind7) (c : wsconn) (r : res stop (option error)) (d : archival)
    (tl : list event7) (r' : res stop unit) : Prop :=
  match r with
  | Ok err => tl = tally q k c err d /\ r' = Ok tt
  | Panic p => tl = [] /\ r' = Panic p
  end.

Section Request.
  Variable do_download : bytes -> params -> Go7 archival (option error).
  Variable do_upload : bytes -> Go7 archival (option error).

  Definition subtest (k : kind7) (c : wsconn) (p : params) : Go7 archival (option error) :=
    match k with Download => do_download (conn_label7 c) p | Upload => do_upload (conn_label7 c) end.

  Lemma write_result_runs {S} u k r end_ (s : S) tr s' x :
    run (bind (write_result u k r) (fun _ => tell (EFlowDeleted end_ u)) s) tr (s', x) ->
    s' = s /\ exists b, saving u k end_ r (ENow end_ :: tr) b /\
      x = if b then Ok tt else Panic Exited.
  Proof.
    intros H. unfold write_result, must in H. exe7 H.
    all: split; [reflexivity|].
    - exists false. split; [constructor|reflexivity].
    - exists false. split; [constructor|reflexivity].
    - exists true. split; [constructor|]. match goal with |- Ok ?u = _ => destruct u end. reflexivity.
  Qed.

  (** The shape of [measure]. *)
  Lemma measure_runs h q k c p u vs ms a tr a' r :
    client_metadata vs = Some ms ->
    run (measure do_download do_upload h q k c p u vs a) tr (a', r) ->
    exists start sub d rs tl r1,
      run (subtest k c p (set_server_meta (h_meta h) (add_client_meta ms a))) sub (d, rs) /\
      after q k c rs d tl r1 /\ a' = d /\
      let pre := [ECount (str "ndt7_client_connections_total") [kind_name k; str "result"]; ENow start;
                  EFlowCreated start u (sock_id_of c)] in
      ((skips rs = true /\ tr = pre ++ sub /\ r = r1) \/
       (skips rs = false /\ exists end_ sv b, saving u k end_ (result_of c k start end_ d) sv b /\
          tr = pre ++ sub ++ tl ++ sv /\ r = if b then r1 else Panic Exited)).
  Proof.
    intros Hm H. unfold measure in H. rewrite Hm in H.
    red7 H. destruct H as ([] & t1 & -> & start & t2 & -> & [] & t3 & -> & H).
    change (match k with Download => do_download (conn_label7 c) p | Upload => do_upload (conn_label7 c) end)
      with (subtest k c p) in H.
    apply run_go_defer in H. destruct H as (t4 & s1 & r1 & H1 & H2).
    apply run_bind in H1.
    assert (Hsub : exists sub rs tl, t4 = sub ++ tl /\
      run (subtest k c p (set_server_meta (h_meta h) (add_client_meta ms a))) sub (s1, rs) /\
      after q k c rs s1 tl r1 /\ skips r1 = skips rs).
    { destruct H1 as [(ta & sa & err & tb & -> & Ha & Hb)|(pp & -> & Ha)].
      - unfold count_result in Hb. red7 Hb. destruct Hb as ([] & tc & -> & Hb).
        exists ta, (Ok err).
        exists (ECount (str "ndt7_client_test_results_total")
          [conn_label7 c; kind_name k; result_label (is_some err)
             (match k with Download => down_rate (a_server sa) | Upload => up_rate (a_server sa) end)] :: tc).
        destruct (fltb f_zero _) eqn:F; exe7 Hb.
        all: (split; [reflexivity|]); (split; [exact Ha|]); (split; [|reflexivity]).
        all: cbn [after]; unfold tally; rewrite F; split; [reflexivity|]; try reflexivity.
        match goal with |- Ok ?u = _ => destruct u end. reflexivity.
      - exists t4, (Panic pp), []. rewrite app_nil_r. repeat split; auto. }
    destruct Hsub as (sub & rs & tl & -> & Hs & Haf & Hsk).
    exists start, sub, s1, rs, tl, r1.
    destruct H2 as [(Es & -> & -> & ->)|(Es & t5 & y & H2 & -> & ->)].
    - split; [exact Hs|]. split; [exact Haf|]. split; [reflexivity|]. left. split; [congruence|].
      assert (tl = []) as ->. { rewrite Hsk in Es. destruct rs; [discriminate|]. apply Haf. }
      rewrite app_nil_r. auto.
    - red7 H2. destruct H2 as (end_ & t6 & -> & H2).
      change (run (bind (write_result u k (result_of c k start end_ s1))
                        (fun _ => tell (EFlowDeleted end_ u)) s1) t6 (a', y)) in H2.
      apply write_result_runs in H2. destruct H2 as (-> & b & Sv & ->).
      split; [exact Hs|]. split; [exact Haf|]. split; [reflexivity|]. right. split; [congruence|].
      exists end_, (ENow end_ :: t6), b. split; [exact Sv|]. cbn. rewrite <- app_assoc.
      split; [reflexivity|]. destruct b; reflexivity.
  Qed.

  Lemma early_exit_cases q l vs : query_pairs (q_raw q) l -> Permutation vs (query (q_raw q)) ->
    (exists v, first_value (str "early_exit") l v /\ v <> str "250" /\ validate_early_exit vs = Reject) \/
    (exists limit p, early_exit_limit l limit /\ limit_of p = limit /\ validate_early_exit vs = Accept p).
  Proof.
    intros H P. rewrite (early_exit_spec _ _ _ H P). unfold first_value, early_exit_limit.
    destruct (values_of (str "early_exit") l) as [|v r] eqn:V.
    - right. exists None, (Params false 0). auto.
    - destruct (beqb v (str "250")) eqn:E.
      + right. apply beqb_spec in E. subst v. exists (Some 250000000), (Params true 250000000).
        split; [|auto]. right. split; [reflexivity|]. exists r. exact V.
      + left. apply beqb_false in E. exists v. eauto.
  Qed.

  Lemma rev_last {A} (l : list A) x r : rev l = x :: r -> l = rev r ++ [x].
  Proof. intros H. rewrite <- (rev_involutive l), H. reflexivity. Qed.

  Lemma rate_is k ms : is_rate k ms (match k with Download => down_rate ms | Upload => up_rate ms end).
  Proof.
    unfold is_rate, down_rate, up_rate, rate_of, last_tcp.
    destruct (rev ms) as [|m r] eqn:E.
    - right. assert (ms = []) by (rewrite <- (rev_involutive ms), E; reflexivity). destruct k; auto.
    - apply rev_last in E. destruct (m_tcp m) as [[t el]|] eqn:T.
      + left. exists (rev r), m, t, el. destruct k; auto.
      + right. split; [destruct k; reflexivity|]. eauto.
  Qed.

  Lemma tally_spec q k c err d :
    tallied q k (conn_label7 c) (is_some err)
      (match k with Download => down_rate (a_server d) | Upload => up_rate (a_server d) end) (tally q k c err d).
  Proof.
    unfold tallied, tally. destruct (fltb f_zero _); [left|right]; auto.
  Qed.

  Lemma ip_port_of a : ip_port a (fst (tcp_addr a)) (snd (tcp_addr a)).
  Proof. destruct a; cbn; auto. Qed.
  Lemma sock_id_spec c : sock_id_of c = SockID (fst (tcp_addr (w_local c))) (fst (tcp_addr (w_remote c)))
    (snd (tcp_addr (w_local c)) mod 65536) (snd (tcp_addr (w_remote c)) mod 65536) (-1).
  Proof. unfold sock_id_of. destruct (tcp_addr (w_remote c)), (tcp_addr (w_local c)). reflexivity. Qed.
  Lemma result_spec k c start end_ d : result_parts k c start end_ d (result_of c k start end_ d).
  Proof.
    unfold result_parts, result_of, addresses.
    pose proof (ip_port_of (w_remote c)) as H1. pose proof (ip_port_of (w_local c)) as H2.
    destruct (tcp_addr (w_remote c)), (tcp_addr (w_local c)). cbn in *. destruct k; cbn; auto 8.
  Qed.

  Lemma request_runs h q k l v1 v2 s tr s' r :
    (forall c p a tr a' , ~ run (subtest k c p a) tr (a', Panic Exited)) ->
    query_pairs (q_raw q) l -> Permutation v1 (query (q_raw q)) -> Permutation v2 (query (q_raw q)) ->
    run (run_measurement do_download do_upload h q k v1 v2 s) tr (s', r) ->
    request_run (subtest k) h q k l tr r.
  Proof.
    intros NE Q P1 P2 H. unfold run_measurement in H.
    destruct (early_exit_cases q l v1 Q P1) as [(v & Fv & Nv & E)|(limit & p & El & Ep & E)]; rewrite E in H.
    { exe7 H. match goal with |- request_run _ _ _ _ _ _ (Ok ?u) => destruct u end. eapply rq_bad_value; eauto. }
    unfold setup_conn in H. destruct (beqb (q_subprotocol q) (str "net.measurementlab.ndt.v7")) eqn:Sp.
    2:{ apply beqb_false in Sp. cbn [negb] in H. exe7 H.
        match goal with |- request_run _ _ _ _ _ _ (Ok ?u) => destruct u end.
        eapply rq_bad_subprotocol; eauto. }
    apply beqb_spec in Sp. cbn [negb] in H.
    red7 H. destruct H as (oc & t & -> & H). destruct oc as [c|].
    2:{ exe7 H. match goal with |- request_run _ _ _ _ _ _ (Ok ?u) => destruct u end.
        eapply rq_no_upgrade; eauto. }
    apply run_go_defer in H. destruct H as (t1 & s1 & r1 & H1 & H2).
    red7 H1. destruct H1 as (ou & t2 & -> & H1). destruct ou as [u|].
    2:{ exe7 H1. destruct H2 as [(E' & _)|(_ & t3 & y & H2 & -> & ->)]; [discriminate|]. exe7 H2.
        match goal with |- request_run _ _ _ _ _ _ (Ok ?u) => destruct u end.
        eapply rq_no_uuid; eauto. }
    apply run_bind in H1.
    destruct (metadata_spec _ _ _ Q P2) as (ms & Hm & Nd & Im).
    assert (B : begins q l limit c (sock_id_of c) ms p).
    { split; [exact El|]. split; [exact Ep|]. split; [exact Sp|]. split; [exact Nd|]. split; [exact Im|].
      rewrite sock_id_spec. do 4 eexists. split; [apply ip_port_of|]. split; [apply ip_port_of|]. reflexivity. }
    assert (H3 : exists a' rm, run (measure do_download do_upload h q k c p u v2 (Archival u None None [] [] [] [])) t2 (a', rm) /\
      r1 = match rm with Ok _ => Ok tt | Panic x => Panic x end).
    { destruct H1 as [(ta & sa & x & tb & -> & Ha & Hb)|(pp & -> & Ha)]; apply run_call in Ha.
      - destruct Ha as (-> & a1 & rm & Ha & Ex). exe7 Hb. rewrite app_nil_r. exists a1, rm. split; [exact Ha|].
        destruct rm; [reflexivity|discriminate].
      - destruct Ha as (-> & a1 & rm & Ha & Ex). exists a1, rm. split; [exact Ha|].
        destruct rm; [discriminate|congruence]. }
    destruct H3 as (a' & rm & H3 & ->). clear H1.
    eapply measure_runs in H3; [|exact Hm].
    destruct H3 as (start & sub & d & rs & tl & r2 & Hs & Ha & -> & H3).
    change (set_server_meta (h_meta h) (add_client_meta ms (Archival u None None [] [] [] [])))
      with (Archival u None None [] [] ms (h_meta h)) in Hs.
    destruct H3 as [(Sk & -> & ->)|(Sk & end_ & sv & b & Sv & -> & ->)].
    - destruct rs as [|[tx| |]]; try discriminate; [exfalso; eapply NE, Hs|].
      destruct Ha as [_ ->]. destruct H2 as [(_ & -> & _ & ->)|(E' & _)]; [|discriminate].
      eapply rq_unfinished; [exact B|exact Hs].
    - pose proof (result_spec k c start end_ d) as Hr. destruct b.
      + destruct rs as [err|[tx| |]]; try discriminate; destruct Ha as [-> ->].
        * destruct H2 as [(E' & _)|(_ & t3 & y & H2 & -> & ->)]; [discriminate|]. exe7 H2.
          epose proof (rq_measured (subtest k) h q k l) as X.
          specialize (X _ _ _ start _ _ _ _ _ _ _ _ _ _ _ B Hs (rate_is _ _) (tally_spec q k c err d) Hr Sv).
          unfold opening in X. cbn [app] in X |- *. rewrite <- !app_assoc in *. exact X.
        * destruct H2 as [(E' & _)|(_ & t3 & y & H2 & -> & ->)]; [discriminate|]. exe7 H2.
          epose proof (rq_panicked (subtest k) h q k l) as X.
          specialize (X _ _ _ start _ _ _ _ _ _ _ _ _ B Hs Hr Sv).
          unfold opening in X. cbn [app] in X |- *. rewrite <- !app_assoc in *. exact X.
      + destruct H2 as [(_ & -> & _ & ->)|(E' & _)]; [|discriminate].
        eapply rq_exited; [exact B|exact Hs| |exact Hr|exact Sv].
        destruct rs as [err|[tx| |]]; try discriminate; destruct Ha as [-> ->].
        * right. eexists err, _. split; [reflexivity|]. split; [apply rate_is|apply tally_spec].
        * left. eauto.
  Qed.
End Request.
