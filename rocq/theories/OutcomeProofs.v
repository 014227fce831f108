(** Lemmas about how NDT5 tests and connections end. *)
From Coq Require Import String ZArith List Bool Lia.
From Coq Require Import ZifyBool ZifyNat.
From Verif Require Import Base BaseFacts WireModel MessagerModel MessagerSpec MessagerProofs GoFloat GoStrings
  StringsProofs Web100Model Effect ControlModel ControlSpec ControlProofs MetaProofs HandleProofs ControlFacts
  TestFacts ControlMore OutcomeSpec.
Import ListNotations.
Open Scope Z_scope.

(** ** C2S *)

Ltac wf n := unfold write_failed; cbn [writes flat_map app];
  lazymatch n with
  | 0%nat => exists [] | 1%nat => eexists [_] | 2%nat => eexists [_; _] | 3%nat => eexists [_; _; _]
  end; eexists; split; reflexivity.

Lemma c2s_failures g m tr s r : run (c2s_manage g m c2s_empty) tr (s, r) ->
  match r with
  | Ok (Some e) => exists what, errors_counted tr = [[label g; str "c2s"; str what]] /\ c2s_failure tr s e what
  | _ => errors_counted tr = []
  end.
Proof.
  intros H. exe H; try reflexivity.
  all: lazymatch goal with |- exists what, errors_counted ?t = _ /\ _ =>
    match t with context [EvCount _ [_; _; str ?w]] => exists w end end;
    (split; [reflexivity|]).
  all: lazymatch goal with
    | |- c2s_failure _ _ _ "StartSingleServingServer" => apply cf_listen; cbn [In]; auto
    | |- c2s_failure _ _ _ "TestPrepare" => apply cf_prepare; wf 0%nat
    | |- c2s_failure _ _ _ "ServeOnce" => eapply cf_serve; cbn [In]; eauto
    | |- c2s_failure _ _ _ "TestStart" => apply cf_start; [wf 1%nat|discriminate]
    | |- c2s_failure _ _ _ "TestMsg" => apply cf_msg; wf 2%nat
    | |- c2s_failure _ _ _ "TestFinalize" => apply cf_final; wf 3%nat
    | |- c2s_failure _ _ _ "Drain" => eapply cf_drain; [eexists; cbn [In]; eauto 20|lia|reflexivity]
    | |- c2s_failure _ _ _ "EarlyExit" =>
        eapply cf_early; [eexists; cbn [In]; eauto 20|lia|do 2 eexists; repeat split; reflexivity|assumption|reflexivity]
    end.
Qed.

(** ** S2C *)

(** All the runs of the end of the test, with the step that failed. *)
Lemma s2c_finish_steps g m w s tr s' r : run (s2c_finish g m w s) tr (s', r) -> s' = s /\
  let l1 := metric_lines (w_view w) [] in
  let l2 := metric_lines (d_view g s) (str "NDTResult.S2C.") in
  let bad f e what := [EvWrite f (Some e); EvCount (str "ClientTestErrors") [label g; str "s2c"; str what]] in
  (r = Ok None /\ tr = map (line_ok m) (l1 ++ l2) ++ [EvWrite (frame_of m TestFinalize []) None]) \/
  (exists e, r = Ok (Some e) /\
     tr = map (line_ok m) (l1 ++ l2) ++ bad (frame_of m TestFinalize []) e "TestFinalize"%string) \/
  (exists a l b e, l1 = a ++ l :: b /\ r = Ok (Some e) /\
     tr = map (line_ok m) a ++ bad (frame_of m TestMsg l) e "SendMetricsLegacy"%string) \/
  (exists a l b e, l2 = a ++ l :: b /\ r = Ok (Some e) /\
     tr = map (line_ok m) (l1 ++ a) ++ bad (frame_of m TestMsg l) e "SendMetricsArchival"%string).
Proof.
  intros H. unfold s2c_finish in H.
  set (l1 := metric_lines (w_view w) []) in *.
  apply run_stage in H. destruct H as (t1 & s1 & x1 & t2 & -> & H1 & H).
  apply send_lines_runs in H1. destruct H1 as (-> & [(-> & ->)|(a & l & b & e & E & -> & ->)]).
  - apply run_stage in H. destruct H as (t3 & s3 & d & t4 & -> & H3 & H).
    apply run_get in H3. destruct H3 as [-> H3]. injection H3 as -> ->.
    set (l2 := metric_lines (d_view g s) (str "NDTResult.S2C.")) in *.
    apply run_stage in H. destruct H as (t5 & s5 & e5 & t6 & -> & H5 & H).
    apply send_lines_runs in H5. destruct H5 as (-> & [(-> & ->)|(a & l & b & e & E & -> & ->)]).
    + exe H; (split; [reflexivity|]); cbn zeta.
      * right. left. exists e. split; [reflexivity|]. cbn [app]. rewrite map_app, <- app_assoc. reflexivity.
      * left. split; [reflexivity|]. cbn [app]. rewrite map_app, <- app_assoc. reflexivity.
    + exe H. split; [reflexivity|]. cbn zeta. do 3 right. exists a, l, b, e.
      split; [exact E|]. split; [reflexivity|]. cbn [app]. rewrite map_app, <- !app_assoc. reflexivity.
  - exe H. split; [reflexivity|]. cbn zeta. do 2 right. left. exists a, l, b, e.
    split; [exact E|]. split; [reflexivity|]. rewrite <- !app_assoc. reflexivity.
Qed.

Ltac s2c_steps H :=
  apply s2c_manage_split in H; destruct H as (? & H & ?); subst;
  exe H;
  try (apply s2c_finish_steps in H; destruct H as (-> & H); cbn zeta in H;
       destruct H as [(-> & ->)|[(?e & -> & ->)|[(?a & ?l & ?b' & ?e & ?EL & -> & ->)|(?a & ?l & ?b' & ?e & ?EL & -> & ->)]]]).

Lemma counted_lines n m l t : counted n (map (line_ok m) l ++ t) = counted n t.
Proof. apply flat_map_lines. reflexivity. Qed.
Lemma measured_lines m l t : measured (map (line_ok m) l ++ t) = measured t.
Proof. apply flat_map_lines. reflexivity. Qed.
Lemma lines_number fs prefix : List.length (metric_lines fs prefix) = List.length (leaves fs).
Proof. rewrite metric_lines_spec. apply map_length. Qed.
Lemma statistics_number w : List.length (leaves (w_view w)) = stat_lines w.
Proof. rewrite leaves_statistics. reflexivity. Qed.
Lemma fields_number g d : List.length (leaves (d_view g d)) = record_lines g d.
Proof. rewrite leaves_fields. reflexivity. Qed.
Lemma record_lines_error g e d : record_lines g (d_set_error e d) = record_lines g d.
Proof. reflexivity. Qed.

Ltac stats := unfold measured; cbn [flat_map app]; rewrite flat_map_lines by reflexivity; reflexivity.

Lemma s2c_failures g m tr s r : run (s2c_manage g m s2c_empty) tr (s, r) ->
  match r with
  | Ok (Some e) => exists what, errors_counted tr = [[label g; str "s2c"; str what]] /\ s2c_failure g m tr s e what
  | _ => errors_counted tr = []
  end.
Proof.
  intros H. s2c_steps H; unfold errors_counted; cbn [counted flat_map app];
    try change (flat_map (fun e => match e with EvCount n l => if beqb n (str "ClientTestErrors") then [l] else [] | _ => [] end))
      with (counted (str "ClientTestErrors"));
    rewrite ?counted_lines; try reflexivity.
  all: lazymatch goal with |- exists what, _ = _ /\ s2c_failure _ _ ?t _ _ _ =>
    match t with context [EvCount _ [_; _; str ?w]] => exists w end end;
    (split; [reflexivity|]).
  all: lazymatch goal with
    | |- s2c_failure _ _ _ _ _ "StartSingleServingServer" => apply df_listen; cbn [In]; auto
    | |- s2c_failure _ _ _ _ _ "TestPrepare" => apply df_prepare; wf 0%nat
    | |- s2c_failure _ _ _ _ ErrNilConn "ServeOnce" => eapply df_none; cbn [In]; eauto
    | |- s2c_failure _ _ _ _ _ "ServeOnce" => eapply df_serve; cbn [In]; eauto
    | |- s2c_failure _ _ _ _ _ "TestStart" => apply df_start; [wf 1%nat|discriminate]
    | |- s2c_failure _ _ _ _ _ "web100Metrics" => eapply df_stats; cbn [In]; eauto 20
    | |- s2c_failure _ _ _ _ _ "TestMsgSend" => apply df_result; wf 2%nat
    | |- s2c_failure _ _ _ _ _ "TestMsgRcv" => 
        match goal with A : fst (receive_of ?mm ?x _) = None, B : option_map _ _ = Some _ |- _ =>
          let D := fresh in destruct (receive_of mm x TestMsg) as [?o [?x'|]] eqn:D; cbn [fst snd option_map] in A, B;
          [subst; injection B as <-; eapply df_client; [reflexivity|exact D|reflexivity|reflexivity]|discriminate]
        end
    | |- s2c_failure _ _ ?t ?d _ "TestFinalize" => eapply df_final; [stats|]; rewrite record_lines_error
    | |- s2c_failure _ _ _ _ _ "SendMetricsLegacy" => 
        match goal with E : _ = ?a ++ _ :: _ |- _ => eapply (df_legacy _ _ _ _ _ _ _ (List.length a)) end; [stats| |]
    | |- s2c_failure _ _ _ _ _ "SendMetricsArchival" =>
        match goal with E : _ = ?a ++ _ :: _ |- _ => eapply (df_archival _ _ _ _ _ _ _ (List.length a)) end; [stats| |]
    end.
  all: lazymatch goal with
    | E : ?x = _ ++ _ :: _ |- (_ < ?n)%nat => apply (f_equal (@List.length bytes)) in E;
        rewrite lines_number, ?statistics_number, ?fields_number, app_length in E; cbn [List.length] in E;
        rewrite ?record_lines_error; lia
    | |- write_failed _ _ _ => idtac
    end.
  all: unfold write_failed; cbn [writes flat_map app];
    try change (flat_map (fun e => match e with EvWrite f x => [(f, x)] | _ => [] end)) with writes;
    rewrite writes_lines; cbn [writes flat_map app]; eexists (_ :: _ :: _ :: _), _; cbn [app];
    (split; [reflexivity|]); cbn [List.length]; rewrite map_length, ?app_length, ?lines_number,
    ?statistics_number, ?fields_number, ?record_lines_error; lia.
Qed.

(** ** META *)

Lemma quiet_counted n : forall tr, forallb quiet tr = true -> counted n tr = [].
Proof.
  induction tr as [|e tr IH]; cbn [forallb]; intros H; [reflexivity|].
  apply andb_prop in H. destruct H as [He H]. destruct e; try discriminate He; exact (IH H).
Qed.
Lemma deadline_app a b : deadline_checks (a ++ b) = deadline_checks a ++ deadline_checks b.
Proof. apply flat_map_app. Qed.

Lemma loop_error m f tr l e d : loop_trace m f tr l (Some e) d ->
  exists a x x', reads tr = a ++ [x] /\ heard m x = inr x' /\ e = ErrRecv x' /\
    Forall (fun y => exists t, heard m y = inl t) a.
Proof.
  intros H. apply loop_trace_facts in H. destruct H as (_ & _ & _ & _ & (xs & ys & E & Hx & _ & Hy) & _).
  destruct ys as [|y ys]; [destruct Hy as [(_ & Hy)|(_ & Hy & _)]; discriminate|].
  destruct Hy as (-> & _ & x' & Hy & ->). exists xs, y, x'. repeat split; auto.
  apply Forall_forall. intros z Hz. apply (in_map (heard m)) in Hz. rewrite Hx in Hz.
  apply in_map_iff in Hz. destruct Hz as (t & Ht & _). exists t. symmetry. exact Ht.
Qed.

Lemma meta_failures g m tr s x : run (meta_manage g m tt) tr (s, x) ->
  exists l e, x = Ok (l, e) /\
  match e with
  | Some e => l = [] /\ exists what, errors_counted tr = [[label g; str "meta"; str what]] /\ meta_failure m tr e what
  | None => errors_counted tr = []
  end.
Proof.
  intros H. unfold meta_manage in H.
  apply run_send in H. destruct H as (b & t & -> & H). destruct b as [e|].
  { exe H. do 2 eexists. split; [reflexivity|]. split; [reflexivity|].
    exists "TestPrepare"%string. split; [reflexivity|]. apply mf_prepare. wf 0%nat. }
  apply run_send in H. destruct H as (b & t' & -> & H). destruct b as [e|].
  { exe H. do 2 eexists. split; [reflexivity|]. split; [reflexivity|].
    exists "TestStart"%string. split; [reflexivity|]. apply mf_start. wf 1%nat. }
  apply run_stage in H. destruct H as (t1 & s1 & x1 & t2 & -> & H1 & H).
  apply meta_loop_runs in H1. destruct H1 as (-> & l & e & d & Hl & ->).
  pose proof (loop_trace_facts _ _ _ _ _ _ Hl) as (Hq & _).
  pose proof (quiet_counted (str "ClientTestErrors") _ Hq) as Hc.
  pose proof (quiet_facts _ Hq) as (_ & _ & _ & _ & _ & Hw & _).
  assert (Cn : forall u, errors_counted (EvWrite (frame_of m TestPrepare []) None ::
             EvWrite (frame_of m TestStart []) None :: t1 ++ u) = errors_counted u).
  { intros u. unfold errors_counted. change (counted ?n (EvWrite ?a ?b :: EvWrite ?c ?d :: ?v)) with (counted n v).
    rewrite counted_app, Hc. reflexivity. }
  assert (Wn : forall u, writes (EvWrite (frame_of m TestPrepare []) None ::
             EvWrite (frame_of m TestStart []) None :: t1 ++ u) =
             (frame_of m TestPrepare [], None) :: (frame_of m TestStart [], None) :: writes u).
  { intros u. unfold writes in *. cbn [flat_map app]. rewrite flat_map_app, Hw. reflexivity. }
  assert (Dn : forall u, deadline_checks (EvWrite (frame_of m TestPrepare []) None ::
             EvWrite (frame_of m TestStart []) None :: t1 ++ u) = deadline_checks t1 ++ deadline_checks u).
  { intros u. apply deadline_app. }
  assert (Rn : forall u, reads (EvWrite (frame_of m TestPrepare []) None ::
             EvWrite (frame_of m TestStart []) None :: t1 ++ u) = reads t1 ++ reads u).
  { intros u. apply reads_app. }
  exe H; do 2 eexists; (split; [reflexivity|]); rewrite ?Cn; try reflexivity.
  - split; [reflexivity|]. exists "context"%string. split; [reflexivity|].
    eapply mf_context; [rewrite Dn; reflexivity|reflexivity|rewrite Wn; reflexivity].
  - split; [reflexivity|]. exists "ReceiveMessage"%string. split; [reflexivity|].
    apply loop_error in Hl. destruct Hl as (a & y & x' & E & Hy & -> & _).
    eapply mf_receive; [rewrite Rn, E, app_nil_r; reflexivity|exact Hy|reflexivity|rewrite Dn; reflexivity|rewrite Wn; reflexivity].
  - split; [reflexivity|]. exists "TestFinalize"%string. split; [reflexivity|].
    apply mf_final. unfold write_failed. rewrite Wn. eexists [_; _], _. split; reflexivity.
Qed.

(** ** Whole connections *)

Lemma errors_app a b : errors_counted (a ++ b) = errors_counted a ++ errors_counted b.
Proof. apply counted_app. Qed.

Definition words_of (l : bytes) (x : res bytes unit) : list (list bytes) :=
  match x with Ok _ => [] | Panic p => [[l; panic_msg_to_err_type p]] end.

Lemma run_c2s_errors g m r t r' x : run (run_c2s g m r) t (r', x) ->
  match x with
  | Ok _ => errors_counted t = []
  | Panic p => panic_msg_to_err_type p = str "panic" /\ errors_counted t = [] \/
      panic_msg_to_err_type p = str "C2S" /\ exists what, errors_counted t = [[label g; str "c2s"; what]]
  end.
Proof.
  intros H. unfold run_c2s in H. apply run_stage in H. destruct H as (t1 & s1 & x1 & t2 & -> & H1 & H).
  apply run_call in H1. destruct H1 as (-> & d & y & H1 & ->).
  pose proof (c2s_failures _ _ _ _ _ H1) as F. rewrite errors_app.
  destruct y as [[e|]|p].
  - destruct F as (what & -> & _). destruct (f_is_zero (u_mean d)) eqn:Z; exe H; try congruence.
    all: right; split; [|exists (str what); reflexivity];
      change (panic_msg_to_err_type (panic_text g (str "C2S - Could not run c2s test") e) = str "C2S");
      label_word (str "C2S") (str "- Could not run c2s test"); reflexivity.
  - rewrite F. destruct (f_is_zero (u_mean d)) eqn:Z; exe H; try congruence; reflexivity.
  - destruct H as (-> & -> & ->). left. rewrite F.
    apply c2s_outcome in H1; [|reflexivity]. destruct H1 as [-> _]. auto.
Qed.

Lemma run_s2c_errors g m r t r' x : run (run_s2c g m r) t (r', x) ->
  match x with
  | Ok _ => errors_counted t = []
  | Panic p =>
      panic_msg_to_err_type p = str "S2C" /\ exists what, errors_counted t = [[label g; str "s2c"; what]]
  end.
Proof.
  intros H. unfold run_s2c in H. apply run_stage in H. destruct H as (t1 & s1 & x1 & t2 & -> & H1 & H).
  apply run_call in H1. destruct H1 as (-> & d & y & H1 & ->).
  pose proof (s2c_failures _ _ _ _ _ H1) as F. rewrite errors_app.
  destruct (s2c_outcome _ _ s2c_empty _ _ _ eq_refl H1) as (e & -> & _).
  destruct e as [e|].
  - destruct F as (what & -> & _). destruct (f_is_zero (d_mean d)) eqn:Z; exe H; try congruence.
    all: split; [|exists (str what); reflexivity];
      change (panic_msg_to_err_type (panic_text g (str "S2C - Could not run s2c test") e) = str "S2C");
      label_word (str "S2C") (str "- Could not run s2c test"); reflexivity.
  - rewrite F. destruct (f_is_zero (d_mean d)) eqn:Z; exe H; try congruence; reflexivity.
Qed.

Lemma run_meta_errors g m r t r' x : run (run_meta g m r) t (r', x) ->
  match x with
  | Ok _ => errors_counted t = []
  | Panic p =>
      panic_msg_to_err_type p = str "META" /\ exists what, errors_counted t = [[label g; str "meta"; what]]
  end.
Proof.
  intros H. unfold run_meta in H. apply run_stage in H. destruct H as (t1 & s1 & x1 & t2 & -> & H1 & H).
  apply run_call in H1. destruct H1 as (-> & d & y & H1 & ->).
  pose proof (meta_failures _ _ _ _ _ H1) as (l & e & -> & F). rewrite errors_app.
  destruct e as [e|].
  - destruct F as (_ & what & -> & _). exe H.
    split; [|exists (str what); reflexivity].
    change (panic_msg_to_err_type (panic_text g (str "META - Could not run meta test") e) = str "META").
    label_word (str "META") (str "- Could not run meta test"). reflexivity.
  - rewrite F. exe H. reflexivity.
Qed.

Lemma converse_errors g m c2s s2c meta r tr r' x : m <> Unknown ->
  run (converse g m c2s s2c meta r) tr (r', x) ->
  counters_agree (label g) (words_of (label g) x) (errors_counted tr) /\
  (x = Ok tt -> errors_counted tr = []).
Proof.
  intros Hm H. apply and_comm. split.
  { intros ->. apply converse_split in H; [|exact Hm]. cbn zeta in H.
    destruct H as [(e & _ & _ & H)|[(e & _ & _ & H)|[(e & _ & _ & H)|H]]]; try discriminate.
    destruct H as (tc & rc & xc & t1 & -> & H1 & H).
    destruct xc as [vc|p]; [|destruct H as (_ & _ & H); discriminate].
    destruct H as (ts & rs & xs & t2 & -> & H2 & H).
    destruct xs as [vs|p]; [|destruct H as (_ & _ & H); discriminate].
    destruct H as (tm & xm & t3 & -> & H3 & H).
    destruct xm as [um|p]; [|destruct H as (_ & H); discriminate].
    rewrite !errors_app.
    replace (errors_counted tc) with (@nil (list bytes)).
    2:{ destruct c2s; cbn [stage] in H1; [apply run_c2s_errors in H1; auto|destruct H1 as (-> & _); reflexivity]. }
    replace (errors_counted ts) with (@nil (list bytes)).
    2:{ destruct s2c; cbn [stage] in H2; [apply run_s2c_errors in H2; auto|destruct H2 as (-> & _); reflexivity]. }
    replace (errors_counted tm) with (@nil (list bytes)).
    2:{ destruct meta; cbn [stage] in H3; [apply run_meta_errors in H3; auto|destruct H3 as (-> & _); reflexivity]. }
    destruct H as [(e & _ & H)|[(e & _ & H)|(-> & _)]]; try discriminate. reflexivity. }
  apply converse_split in H; [|exact Hm]. cbn zeta in H.
  assert (O : forall w t, In w ["SrvQueue"; "MsgLoginVersion"; "MsgLoginTests"; "MsgResults"; "MsgLogout"; "panic"]%string ->
     errors_counted t = [] -> forall p, panic_msg_to_err_type p = str w ->
     counters_agree (label g) (words_of (label g) (Panic p)) (errors_counted t)).
  { intros w t Hw -> p Hp. cbn [words_of]. rewrite Hp. apply ca_other. exact Hw. }
  destruct H as [(e & -> & _ & ->)|[(e & -> & _ & ->)|[(e & -> & _ & ->)|H]]].
  - apply (O "SrvQueue"%string); [cbn; tauto|reflexivity|].
    label_word (str "SrvQueue") (str "- Could not send SrvQueue"). reflexivity.
  - apply (O "MsgLoginVersion"%string); [cbn; tauto|reflexivity|].
    label_word (str "MsgLoginVersion") (str "- Could not send MsgLogin with version"). reflexivity.
  - apply (O "MsgLoginTests"%string); [cbn; tauto|reflexivity|].
    label_word (str "MsgLoginTests") (str "- Could not send MsgLogin with the tests"). reflexivity.
  - destruct H as (tc & rc & xc & t1 & -> & H1 & H).
    assert (A : match xc with
      | Ok _ => errors_counted tc = []
      | Panic p => panic_msg_to_err_type p = str "panic" /\ errors_counted tc = [] \/
          panic_msg_to_err_type p = str "C2S" /\ exists what, errors_counted tc = [[label g; str "c2s"; what]]
      end).
    { destruct c2s; cbn [stage] in H1; [eapply run_c2s_errors; exact H1|].
      destruct H1 as (-> & _ & ->). reflexivity. }
    change (errors_counted ([EvWrite ?a None; EvWrite ?b None; EvWrite ?c None] ++ ?t)) with (errors_counted t).
    rewrite errors_app.
    destruct xc as [vc|p].
    2:{ destruct H as (-> & _ & ->). rewrite app_nil_r. destruct A as [(A & ->)|(A & what & ->)]; cbn [words_of]; rewrite A.
        - apply (ca_other _ "panic"%string). cbn. tauto.
        - apply (ca_test _ "c2s"%string "C2S"%string). cbn. tauto. }
    rewrite A. cbn [app]. clear A H1.
    destruct H as (ts & rs & xs & t2 & -> & H1 & H). rewrite errors_app.
    assert (A : match xs with
      | Ok _ => errors_counted ts = []
      | Panic p => 
          panic_msg_to_err_type p = str "S2C" /\ exists what, errors_counted ts = [[label g; str "s2c"; what]]
      end).
    { destruct s2c; cbn [stage] in H1; [eapply run_s2c_errors; exact H1|].
      destruct H1 as (-> & _ & ->). reflexivity. }
    destruct xs as [vs|p].
    2:{ destruct H as (-> & _ & ->). rewrite app_nil_r. destruct A as (A & what & ->); cbn [words_of]; rewrite A.
        apply (ca_test _ "s2c"%string "S2C"%string). cbn. tauto. }
    rewrite A. cbn [app]. clear A H1.
    destruct H as (tm & xm & t3 & -> & H1 & H). rewrite errors_app.
    assert (A : match xm with
      | Ok _ => errors_counted tm = []
      | Panic p => 
          panic_msg_to_err_type p = str "META" /\ exists what, errors_counted tm = [[label g; str "meta"; what]]
      end).
    { destruct meta; cbn [stage] in H1; [eapply run_meta_errors; exact H1|].
      destruct H1 as (-> & _ & ->). reflexivity. }
    destruct xm as [um|p].
    2:{ destruct H as (-> & ->). rewrite app_nil_r. destruct A as (A & what & ->); cbn [words_of]; rewrite A.
        apply (ca_test _ "meta"%string "META"%string). cbn. tauto. }
    rewrite A. cbn [app]. unfold ending in H. cbn zeta in H.
    destruct H as [(e & -> & ->)|[(e & -> & ->)|(-> & ->)]].
    + apply (O "MsgResults"%string); [cbn; tauto|reflexivity|].
      label_word (str "MsgResults") (str "- Could not send test results message"). reflexivity.
    + apply (O "MsgLogout"%string); [cbn; tauto|reflexivity|].
      label_word (str "MsgLogout") (str "- Could not send MsgLogout"). reflexivity.
    + apply ca_fine.
Qed.

Lemma connection_errors g tr s x : run (handle_control_channel g tt) tr (s, x) ->
  counters_agree (label g) (counted (str "ControlPanicCount") tr) (errors_counted tr).
Proof.
  intros H. apply handle_runs in H. destruct H as (_ & _ & t0 & body & r1 & t1 & y & -> & H).
  pose proof (body_part _ _ _ _ _ H) as (ib & rs & Hio & He & _).
  apply test_event_facts in He. destruct He as (_ & _ & _ & _ & Cp & _).
  match goal with |- counters_agree _ (counted _ ?t) _ => set (tr := t) in * end.
  assert (P : counted (str "ControlPanicCount") tr = words_of (label g) y).
  { unfold tr. rewrite !counted_app. rewrite Cp. destruct y; reflexivity. }
  assert (Q : errors_counted tr = errors_counted body).
  { unfold tr. rewrite !errors_app. destruct y; cbn; rewrite !app_nil_r; reflexivity. }
  rewrite P, Q. apply control_body_runs in H. destruct H as (inbuff & t & -> & H).
  change (errors_counted (EvRead inbuff :: t)) with (errors_counted t).
  destruct (login_of (c_kind g) inbuff) as [[tests| |] m] eqn:L.
  - apply serve_tests_runs in H. destruct (wants_status tests).
    + destruct H as (t2 & -> & H). apply converse_errors in H; [|eapply login_ok_enc; eauto].
      destruct H as [H _]. rewrite errors_app.
      replace (errors_counted (requested g tests)) with (@nil (list bytes)); [exact H|].
      unfold requested. destruct (wants tests 1), (wants tests 2), (wants tests 4), (wants tests 8), (wants tests 32); reflexivity.
    + destruct H as (-> & -> & ->). apply ca_status.
  - destruct H as (-> & -> & e & ->). cbn [words_of].
    label_word (str "Login") (str "- error reading JSON message"). apply ca_login.
  - destruct H as (-> & -> & ->). cbn [words_of].
    apply (ca_other _ "panic"%string). cbn. tauto.
Qed.

(** ** When tests succeed *)

Ltac down H := repeat match type of H with
  | Forall _ (_ :: _) => let A := fresh "A" in pose proof (Forall_inv H) as A; apply Forall_inv_tail in H; cbn [succeeds succeeds_but_drain] in A
  end.
Ltac up := repeat first [apply Forall_nil | apply Forall_cons; [cbn [succeeds succeeds_but_drain]; first [reflexivity|exact I|eexists; reflexivity|discriminate]|]].
Ltac absurd_event := match goal with
  | H : exists n, inr _ = inl _ |- _ => destruct H; discriminate
  | H : exists c, _ = (Some c, None) |- _ => destruct H; discriminate
  | H : Some _ = None |- _ => discriminate
  | H : ?x <> ?x |- _ => destruct (H eq_refl)
  | H : true = false |- _ => discriminate
  end.

Lemma c2s_success g m tr s r : run (c2s_manage g m c2s_empty) tr (s, r) ->
  (r = Ok None <-> Forall succeeds_but_drain tr /\ upload_lasted tr s).
Proof.
  intros H. exe H; split; intros R; try discriminate R; try reflexivity.
  all: lazymatch type of R with
    | _ /\ _ => destruct R as [R L]; down R; try absurd_event; exfalso;
        match type of L with upload_lasted ?t _ => match t with context [EvDrain ?c (DrainError ?e)] =>
          match t with context [EvStopMeasuring c (Some ?w)] =>
            assert (upload_broke t e w) as U by (exists c; split; cbn [In]; auto 20);
            destruct (L e w _ U (ex_intro _ _ (ex_intro _ _ (conj eq_refl (conj eq_refl eq_refl))))) as [L1 L2]
          end end end; first [lia|apply L2; assumption]
    | _ = _ => split; [up|]
    end.
  all: intros e0 w0 ns (c & Hd & Hs) (t0' & t1' & E0 & E1 & ->).
  all: cbn [u_start u_end u_set_mean u_set_end u_set_start] in E0, E1; injection E0 as <-; injection E1 as <-;
    cbn [In] in Hd, Hs.
  - exfalso. repeat destruct Hd as [Hd|Hd]; try discriminate Hd. destruct Hd.
  - repeat destruct Hs as [Hs|Hs]; try discriminate Hs; [|destruct Hs].
    injection Hs as _ <-. split; [lia|]. unfold under_nine_seconds. congruence.
Qed.

Lemma down_lines m l t : Forall succeeds (map (line_ok m) l ++ t) <-> Forall succeeds t.
Proof.
  rewrite Forall_app. split; [tauto|]. intros H. split; [|exact H].
  apply Forall_map, Forall_forall. intros x _. reflexivity.
Qed.

Lemma s2c_success g m tr s r : run (s2c_manage g m s2c_empty) tr (s, r) ->
  (r = Ok None <-> Forall succeeds tr /\ Forall (usable m) (reads tr)).
Proof.
  intros H. s2c_steps H; split; intros R; try discriminate R; try reflexivity.
  all: lazymatch type of R with
    | _ /\ _ => destruct R as [R L]; down R; rewrite ?down_lines in R; down R; try absurd_event; exfalso
    | _ = _ => split; [up; rewrite ?down_lines; up|]
    end.
  all: unfold reads in *; cbn [flat_map app] in *; rewrite ?flat_map_lines in * by reflexivity; cbn [flat_map app] in *.
  all: lazymatch goal with
    | |- False => apply Forall_inv in L;
        match goal with A : fst (receive_of ?mm ?x _) = None, B : option_map _ _ = Some _ |- _ =>
          let D := fresh in destruct (receive_of mm x TestMsg) as [?o [?x'|]] eqn:D; cbn [fst snd option_map] in A, B;
          [subst; exact (L _ D)|discriminate]
        end
    | |- Forall _ _ => apply Forall_cons; [|apply Forall_nil]; intros ex Ex; rewrite Ex in *;
        cbn [fst snd option_map] in *; discriminate
    end.
Qed.

Lemma meta_success g m tr s l e : run (meta_manage g m tt) tr (s, Ok (l, e)) ->
  stays_done (deadline_checks tr) ->
  (e = None <-> Forall succeeds tr /\ Forall (acceptable m) (reads tr)).
Proof.
  intros H D. apply meta_manage_runs in H. destruct H as (x & E & H). injection E as <-.
  assert (Q : forall t, forallb quiet t = true -> ~ In true (deadline_checks t) -> Forall succeeds t).
  { induction t as [|y t IH]; cbn [forallb]; intros Hq Hn; [constructor|].
    apply andb_prop in Hq. destruct Hq as [Hy Hq].
    destruct y; try discriminate Hy; (constructor; [|apply IH; [exact Hq|]]); try exact I; try exact Hn.
    - destruct b; [exfalso; apply Hn; left; reflexivity|reflexivity].
    - intros Hi. apply Hn. right. exact Hi. }
  assert (A : forall f t l d, loop_trace m f t l None d -> Forall (acceptable m) (reads t)).
  { intros f t l0 d Hl. apply loop_trace_facts in Hl. destruct Hl as (_ & _ & _ & _ & _ & _ & Hl).
    apply Forall_forall. intros y Hy. unfold acceptable. destruct (heard m y) as [z|z] eqn:Ez; [eauto|].
    exfalso. apply (proj2 Hl); [eauto|reflexivity]. }
  inversion H; subst; (split; [intros R; try discriminate R|intros [R L]; try reflexivity; exfalso]).
  - down R. absurd_event.
  - down R. absurd_event.
  - down R. apply Forall_app in R. destruct R as [_ R]. down R. absurd_event.
  - match goal with Hl : loop_trace _ _ _ _ _ _ |- _ => apply loop_error in Hl;
      destruct Hl as (a & x0 & x' & E & Hx & _) end.
    unfold reads in *. cbn [flat_map app] in L. rewrite flat_map_app, E, app_nil_r in L.
    apply Forall_app in L. destruct L as [_ L]. apply Forall_inv in L. destruct L as [t L]. congruence.
  - down R. apply Forall_app in R. destruct R as [_ R]. down R. absurd_event.
  - match goal with Hl : loop_trace _ _ _ _ _ _ |- _ => rename Hl into HL end.
    pose proof (loop_trace_facts _ _ _ _ _ _ HL) as (Hq & _ & _ & _ & _ & Hd & _).
    split.
    + up. apply Forall_app. split; [|up]. apply Q; [exact Hq|]. intros Hi.
      apply in_split in Hi. destruct Hi as (a & b & E).
      apply (D a (b ++ [false])); [|apply in_or_app; right; left; reflexivity].
      change (deadline_checks (EvWrite ?p ?q :: EvWrite ?p' ?q' :: ?t)) with (deadline_checks t).
      rewrite deadline_app, E, <- app_assoc. reflexivity.
    + unfold reads in *. cbn [flat_map app]. rewrite flat_map_app, app_nil_r. eapply A. exact HL.
Qed.

(** ** Connections on which nothing goes wrong *)

Lemma succeeds_weaker tr : Forall succeeds tr -> Forall succeeds_but_drain tr.
Proof. apply Forall_impl. intros e. destruct e; cbn; auto. Qed.
Lemma succeeds_lasted tr d : Forall succeeds tr -> upload_lasted tr d.
Proof.
  intros H e w ns (c & Hc & _). rewrite Forall_forall in H. apply H in Hc. discriminate.
Qed.
Lemma acceptable_usable m x : acceptable m x -> usable m x.
Proof.
  intros [t H] e E. unfold heard, receive_of in *. destruct m; rewrite E in H; discriminate.
Qed.

Lemma run_c2s_fine g m r t r' x : run (run_c2s g m r) t (r', x) -> Forall succeeds t ->
  exists d v, r' = set_c2s d r /\ x = Ok v /\ u_error d = None.
Proof.
  intros H S. apply run_c2s_runs in H. destruct H as (t1 & d & y & tl & H & -> & _ & Hy).
  apply Forall_app in S. destruct S as [S _].
  pose proof (c2s_success _ _ _ _ _ H) as [_ R].
  rewrite (R (conj (succeeds_weaker _ S) (succeeds_lasted _ _ S))) in *.
  destruct Hy as (-> & _ & ->). apply c2s_outcome in H; [|reflexivity]. eauto.
Qed.
Lemma run_s2c_fine g m r t r' x : run (run_s2c g m r) t (r', x) -> Forall succeeds t ->
  Forall (acceptable m) (reads t) -> exists d v, r' = set_s2c d r /\ x = Ok v /\ d_error d = None.
Proof.
  intros H S A. apply run_s2c_runs in H. destruct H as (t1 & d & y & tl & H & -> & _ & -> & _ & Hy).
  apply Forall_app in S. destruct S as [S _]. rewrite reads_app in A. apply Forall_app in A. destruct A as [A _].
  pose proof (s2c_success _ _ _ _ _ H) as [_ R].
  assert (E : Ok (P:=bytes) y = Ok None).
  { apply R. split; [exact S|]. revert A. apply Forall_impl, acceptable_usable. }
  injection E as ->. destruct (s2c_outcome _ _ s2c_empty _ _ _ eq_refl H) as (e & E & He). injection E as <-.
  eauto.
Qed.
Lemma succeeds_checks t : Forall succeeds t -> ~ In true (deadline_checks t).
Proof.
  induction 1 as [|e t He H IH]; [intros []|]. destruct e; cbn; try exact IH.
  cbn in He. subst. intros [?|?]; [discriminate|auto].
Qed.
Lemma run_meta_fine g m r t r' x : run (run_meta g m r) t (r', x) -> Forall succeeds t ->
  Forall (acceptable m) (reads t) -> exists l, r' = set_meta l r /\ x = Ok tt.
Proof.
  intros H S A. unfold run_meta in H.
  apply run_stage in H. destruct H as (t1 & s1 & x1 & t2 & -> & H1 & H).
  apply run_call in H1. destruct H1 as (-> & d & y & H1 & ->).
  pose proof (meta_failures _ _ _ _ _ H1) as (l & e & -> & _).
  apply Forall_app in S. destruct S as [S _]. rewrite reads_app in A. apply Forall_app in A. destruct A as [A _].
  pose proof (meta_success _ _ _ _ _ _ H1) as R.
  assert (D : stays_done (deadline_checks t1)).
  { intros a b E. exfalso. apply (succeeds_checks _ S). rewrite E. apply in_or_app. right. left. reflexivity. }
  destruct (R D) as [_ R']. rewrite (R' (conj S A)) in *. exe H. eauto.
Qed.

Lemma converse_fine g m c2s s2c meta r tr r' x : m <> Unknown -> r_c2s r = None -> r_s2c r = None ->
  run (converse g m c2s s2c meta r) tr (r', x) -> Forall succeeds tr -> Forall (acceptable m) (reads tr) ->
  x = Ok tt /\ c2s_fine c2s r' /\ s2c_fine s2c r'.
Proof.
  intros Hm N1 N2 H S A. apply converse_split in H; [|exact Hm]. cbn zeta in H.
  destruct H as [(e & -> & _)|[(e & -> & _)|[(e & -> & _)|H]]]; try (down S; absurd_event).
  destruct H as (tc & rc & xc & t1 & -> & H1 & H).
  rewrite !reads_app in A. apply Forall_app in S, A. destruct S as [_ S], A as [_ A].
  apply Forall_app in S, A. destruct S as [S1 S], A as [A1 A].
  assert (C : exists v, xc = Ok v /\ c2s_fine c2s rc /\ r_s2c rc = None).
  { unfold c2s_fine. destruct c2s; cbn [stage] in H1.
    - destruct (run_c2s_fine _ _ _ _ _ _ H1 S1) as (d & v & -> & -> & E). exists v. cbn. auto.
    - destruct H1 as (-> & -> & ->). eexists. cbn. rewrite N1. auto. }
  destruct C as (vc & -> & C1 & C2).
  destruct H as (ts & rs & xs & t2 & -> & H2 & H).
  rewrite !reads_app in A. apply Forall_app in S, A. destruct S as [S2 S], A as [A2 A].
  assert (C : exists v, xs = Ok v /\ s2c_fine s2c rs /\ r_c2s rs = r_c2s rc).
  { unfold s2c_fine. destruct s2c; cbn [stage] in H2.
    - destruct (run_s2c_fine _ _ _ _ _ _ H2 S2 A2) as (d & v & -> & -> & E). exists v. cbn. auto.
    - destruct H2 as (-> & -> & ->). eexists. rewrite C2. auto. }
  destruct C as (vs & -> & C3 & C4).
  destruct H as (tm & xm & t3 & -> & H3 & H).
  rewrite !reads_app in A. apply Forall_app in S, A. destruct S as [S3 S], A as [A3 A].
  assert (C : xm = Ok tt /\ r_c2s r' = r_c2s rs /\ r_s2c r' = r_s2c rs).
  { destruct meta; cbn [stage] in H3.
    - destruct (run_meta_fine _ _ _ _ _ _ H3 S3 A3) as (l & -> & ->). auto.
    - destruct H3 as (-> & -> & ->). auto. }
  destruct C as (-> & C5 & C6).
  unfold ending in H. cbn zeta in H.
  destruct H as [(e & -> & _)|[(e & -> & _)|(-> & ->)]]; try (down S; absurd_event).
  split; [reflexivity|]. unfold c2s_fine, s2c_fine in *. rewrite C5, C6, C4. auto.
Qed.

Lemma completes g tr s x inbuff rest tests :
  run (handle_control_channel g tt) tr (s, x) -> reads tr = inbuff :: rest ->
  request g inbuff = Some tests ->
  Forall succeeds tr -> Forall (acceptable (snd (login_of (c_kind g) inbuff))) rest ->
  counted (str "ControlCount") tr = [[label g; str "okay"]] /\
  counted (str "ControlPanicCount") tr = [] /\ errors_counted tr = [] /\
  exists r, saved tr = [r] /\ c2s_fine (wants_c2s tests) r /\ s2c_fine (wants_s2c tests) r.
Proof.
  intros H Hr Hq S A. pose proof (connection_errors _ _ _ _ H) as Ca.
  pose proof (c14 _ _ _ _ H) as (_ & _ & C14).
  apply handle_runs in H. destruct H as (_ & _ & t0 & body & r1 & t1 & y & -> & H).
  pose proof (body_part _ _ _ _ _ H) as (ib & rs & Hio & He & _).
  apply test_event_facts in He. destruct He as (Sv & _ & _ & _ & Cp & _).
  pose proof (handle_io g t0 body t1 (set_end t1 r1) y) as (_ & _ & _ & _ & _ & _ & Er & _).
  cbn zeta in Er.
  match goal with |- context [saved ?t] => set (tr := t) in * end.
  assert (Hs : saved tr = [set_end t1 r1]).
  { unfold tr, saved in *. rewrite !flat_map_app, Sv. destruct y; reflexivity. }
  rewrite Er in Hr. unfold tr in S. apply Forall_app in S. destruct S as [_ S]. apply Forall_app in S. destruct S as [S _].
  pose proof H as H0.
  apply control_body_runs in H. destruct H as (inbuff' & t & -> & H).
  change (reads (EvRead inbuff' :: t)) with (inbuff' :: reads t) in Hr. injection Hr as -> <-.
  unfold request in Hq. destruct (login_of (c_kind g) inbuff) as [[tests'| |] m] eqn:L; try discriminate.
  apply serve_tests_runs in H. destruct (wants_status tests') eqn:WS; [|discriminate]. injection Hq as ->.
  destruct H as (t2 & -> & H). cbn [snd] in A. rewrite reads_app in A. apply Forall_app in A. destruct A as [_ A].
  apply Forall_inv_tail in S. apply Forall_app in S. destruct S as [_ S].
  pose proof (converse_errors _ _ _ _ _ _ _ _ _ (login_ok_enc _ _ _ _ L) H) as [_ Ce].
  apply converse_fine in H; try assumption; [|eapply login_ok_enc; eauto|reflexivity|reflexivity].
  destruct H as (-> & F1 & F2).
  assert (P : counted (str "ControlPanicCount") tr = []).
  { unfold tr. rewrite !counted_app. rewrite Cp. reflexivity. }
  assert (K : counted (str "ControlCount") tr = [[label g; str "okay"]]).
  { destruct C14 as [(C14 & _)|(_ & w & C14)]; [exact C14|]. rewrite P in C14. discriminate. }
  split; [exact K|]. split; [exact P|]. split.
  - unfold tr. rewrite !errors_app.
    change (errors_counted (EvRead inbuff :: requested g tests ++ t2)) with (errors_counted (requested g tests ++ t2)).
    rewrite errors_app, (Ce eq_refl).
    replace (errors_counted (requested g tests)) with (@nil (list bytes)); [reflexivity|].
    unfold requested. destruct (wants tests 1), (wants tests 2), (wants tests 4), (wants tests 8), (wants tests 32); reflexivity.
  - exists (set_end t1 r1). split; [exact Hs|]. split; [exact F1|exact F2].
Qed.
