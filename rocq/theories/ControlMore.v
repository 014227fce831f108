(** More lemmas about control connections: ports, metric lines, results, counters. *)
From Coq Require Import String ZArith List Bool Lia.
From Coq Require Import ZifyBool ZifyNat.
From Verif Require Import Base BaseFacts WireModel MessagerModel MessagerSpec MessagerProofs GoFloat GoStrings
  Web100Model Effect ControlModel ControlSpec ControlProofs MetaProofs HandleProofs ControlFacts TestFacts.
Import ListNotations.
Open Scope Z_scope.

(** ** Ports *)

Lemma c2s_port g m tr s r f e : run (c2s_manage g m c2s_empty) tr (s, r) ->
  nth_error (writes tr) 0 = Some (f, e) ->
  exists port, ports tr = [port] /\ f = message m TestPrepare (itoa port).
Proof.
  intros H. exe H; unfold writes; cbn [flat_map app nth_error];
  intros E; first [discriminate E | injection E as <- <-; eexists; split; reflexivity].
Qed.

Lemma s2c_port g m tr s r f e : run (s2c_manage g m s2c_empty) tr (s, r) ->
  nth_error (writes tr) 0 = Some (f, e) ->
  exists port, ports tr = [port] /\ f = message m TestPrepare (itoa port).
Proof.
  intros H. s2c_exec H; unfold writes, ports; cbn [flat_map app nth_error];
  intros E; first [discriminate E | injection E as <- <-];
  rewrite ?flat_map_lines by reflexivity; eexists; split; reflexivity.
Qed.

(** ** Metric lines *)

Lemma metric_lines_spec fs prefix : metric_lines fs prefix = map (metric_line prefix) (leaves fs).
Proof.
  unfold metric_lines.
  assert (E : send_metrics (fun _ _ => true) (MPtr (Some (MStruct fs))) prefix =
              (map (metric_line prefix) (leaves fs), SmOk)).
  { apply (send_metrics_ok _ _ fs); [repeat constructor|]. auto. }
  rewrite E. reflexivity.
Qed.

(** The fields that are printed. *)
Lemma leaves_statistics w : leaves (w_view w) = statistics w.
Proof.
  unfold leaves, w_view, statistics. cbn [flat_map map leaves_of fst snd app]. rewrite !app_nil_r.
  do 21 f_equal. unfold leaves.
  induction (ti_fields (w_tcp_info w)) as [|f r IH]; [reflexivity|].
  cbn [flat_map]. rewrite !map_app, IH. f_equal. rewrite !map_map. reflexivity.
Qed.
Lemma leaves_fields g d : leaves (d_view g d) = s2c_fields g d.
Proof. unfold leaves, d_view, s2c_fields. cbn [flat_map map leaves_of fst snd app]. reflexivity. Qed.

Lemma writes_lines m lines t : writes (map (line_ok m) lines ++ t) =
  map (fun l => (message m TestMsg l, None)) lines ++ writes t.
Proof.
  unfold writes. rewrite flat_map_app. f_equal. induction lines as [|l r IH]; cbn; [reflexivity|].
  rewrite IH. reflexivity.
Qed.

Lemma no_error_set e d : s2c_without_error (d_set_error e d) = s2c_without_error d.
Proof. reflexivity. Qed.
Lemma no_error_client x d : s2c_without_error (d_set_client x d) = d_set_client x (s2c_without_error d).
Proof. reflexivity. Qed.
Lemma no_error_stats w x d : s2c_without_error (d_set_stats w x d) = d_set_stats w x (s2c_without_error d).
Proof. reflexivity. Qed.
Lemma no_error_end x d : s2c_without_error (d_set_end x d) = d_set_end x (s2c_without_error d).
Proof. reflexivity. Qed.
Lemma no_error_start x d : s2c_without_error (d_set_start x d) = d_set_start x (s2c_without_error d).
Proof. reflexivity. Qed.
Lemma no_error_conn x d : s2c_without_error (d_set_conn x d) = d_set_conn x (s2c_without_error d).
Proof. reflexivity. Qed.
Lemma no_error_empty : s2c_without_error s2c_empty = s2c_empty.
Proof. reflexivity. Qed.

(** The three ways in which the last part of the test can go. *)
Lemma tail_whole m l : 
  exists n, map fst (writes (map (line_ok m) l ++ [EvWrite (frame_of m TestFinalize []) None])) =
            firstn n (map (message m TestMsg) l ++ [message m TestFinalize []]) /\
    (@Ok bytes (option err) None = Ok None ->
     writes (map (line_ok m) l ++ [EvWrite (frame_of m TestFinalize []) None]) =
     map (fun f => (f, None)) (map (message m TestMsg) l ++ [message m TestFinalize []])).
Proof.
  rewrite writes_lines. unfold writes; cbn [flat_map app].
  exists (List.length (map (message m TestMsg) l ++ [message m TestFinalize []])). rewrite firstn_all.
  rewrite !map_app, !map_map. cbn [map fst]. split; reflexivity.
Qed.
Lemma tail_last m l e n0 ls : 
  exists n, map fst (writes (map (line_ok m) l ++ [EvWrite (frame_of m TestFinalize []) (Some e); EvCount n0 ls])) =
            firstn n (map (message m TestMsg) l ++ [message m TestFinalize []]).
Proof.
  rewrite writes_lines. unfold writes; cbn [flat_map app].
  exists (List.length (map (message m TestMsg) l ++ [message m TestFinalize []])). rewrite firstn_all.
  rewrite !map_app, !map_map. reflexivity.
Qed.
Lemma tail_line m L a l b e n0 ls : L = a ++ l :: b ->
  exists n, map fst (writes (map (line_ok m) a ++ [EvWrite (frame_of m TestMsg l) (Some e); EvCount n0 ls])) =
            firstn n (map (message m TestMsg) L ++ [message m TestFinalize []]).
Proof.
  intros ->. rewrite writes_lines. unfold writes; cbn [flat_map app].
  exists (List.length (map (message m TestMsg) a) + 1)%nat.
  rewrite !map_app, !map_map, <- app_assoc, firstn_app_2. reflexivity.
Qed.

Lemma s2c_lines g m tr s r c w : run (s2c_manage g m s2c_empty) tr (s, r) ->
  measured tr = [(c, w)] ->
  exists n, map fst (skipn 3 (writes tr)) = firstn n (s2c_tail g m w s) /\
    (r = Ok None -> skipn 3 (writes tr) = map (fun f => (f, None)) (s2c_tail g m w s)).
Proof.
  intros H. unfold s2c_tail. rewrite <- leaves_statistics, <- leaves_fields, <- !metric_lines_spec.
  s2c_exec H; unfold measured; cbn [flat_map app]; rewrite ?flat_map_lines by reflexivity;
  intros E; try discriminate E; injection E as <- <-;
  (let g0 := fresh in
   unfold writes; cbn [flat_map app skipn]; fold (writes);
   try change (flat_map (fun e => match e with EvWrite f x => [(f, x)] | _ => [] end)) with writes).
  all: try (exists 0%nat; split; [reflexivity|discriminate]).
  all: rewrite ?no_error_set, ?no_error_client, ?no_error_stats, ?no_error_end, ?no_error_start,
    ?no_error_conn, ?no_error_empty.
  all: first [ apply tail_whole
    | edestruct tail_last as (n & En); exists n; split; [exact En|discriminate]
    | edestruct tail_line as (n & En); [eassumption|]; exists n; split; [exact En|discriminate] ].
Qed.

(** ** Rates, counters and the results message *)

(** What is counted and observed, and the results frames. *)
Record summary := { s_results : list (list bytes); s_rates : list (list bytes * f64);
  s_tests : list (list bytes); s_suites : list (list bytes); s_frames : list bytes }.
Definition sum_of (tr : list event) : summary :=
  {| s_results := counted (str "ClientTestResults") tr;
     s_rates := observed (str "TestRate") tr;
     s_tests := counted (str "ClientRequestedTests") tr;
     s_suites := counted (str "ClientRequestedTestSuites") tr;
     s_frames := filter (fun f => hd 0 f =? 8) (map fst (writes tr)) |}.
Definition plus (a b : summary) : summary :=
  {| s_results := s_results a ++ s_results b; s_rates := s_rates a ++ s_rates b;
     s_tests := s_tests a ++ s_tests b; s_suites := s_suites a ++ s_suites b;
     s_frames := s_frames a ++ s_frames b |}.
Definition none : summary :=
  {| s_results := []; s_rates := []; s_tests := []; s_suites := []; s_frames := [] |}.

Lemma observed_app n a b : observed n (a ++ b) = observed n a ++ observed n b.
Proof. apply flat_map_app. Qed.
Lemma sum_app a b : sum_of (a ++ b) = plus (sum_of a) (sum_of b).
Proof.
  unfold sum_of, plus. cbn [s_results s_rates s_tests s_suites s_frames].
  rewrite !counted_app, observed_app, writes_app, map_app, filter_app. reflexivity.
Qed.
Lemma sum_cons e a : sum_of (e :: a) = plus (sum_of [e]) (sum_of a).
Proof. apply (sum_app [e] a). Qed.
Lemma plus_none_l a : plus none a = a.
Proof. destruct a; reflexivity. Qed.
Lemma plus_none_r a : plus a none = a.
Proof. destruct a. unfold plus. cbn. rewrite !app_nil_r. reflexivity. Qed.

Definition silent_event (e : event) : Prop := sum_of [e] = none.
Lemma sum_silent a : Forall silent_event a -> sum_of a = none.
Proof.
  induction 1 as [|e a He Ha IH]; [reflexivity|]. rewrite sum_cons, He, IH. reflexivity.
Qed.
Lemma frame_hd m k c : hd 0 (frame_of m k c) = k.
Proof. destruct m; reflexivity. Qed.
Lemma silent_write f e : hd 0 f <> 8 -> silent_event (EvWrite f e).
Proof.
  intros H. unfold silent_event, sum_of. cbn.
  destruct (hd 0 f =? 8) eqn:E; [apply Z.eqb_eq in E; contradiction|reflexivity].
Qed.
Lemma silent_lines m l : sum_of (map (line_ok m) l) = none.
Proof.
  apply sum_silent, Forall_map, Forall_forall. intros x _. apply silent_write. rewrite frame_hd. discriminate.
Qed.

Ltac hush1 := lazymatch goal with
  | |- silent_event (EvWrite (frame_of _ _ _) _) => apply silent_write; rewrite frame_hd; discriminate
  | |- silent_event (EvWrite _ _) =>
      apply silent_write; match goal with x : encoding |- _ => destruct x; discriminate end
  | _ => reflexivity
  end.
Ltac hush := repeat first [ apply Forall_nil | apply Forall_cons; [hush1|] ].

Lemma c2s_silent g m tr s r : run (c2s_manage g m c2s_empty) tr (s, r) -> sum_of tr = none.
Proof. intros H. exe H; apply sum_silent; hush. Qed.

Lemma s2c_silent g m tr s r : run (s2c_manage g m s2c_empty) tr (s, r) -> sum_of tr = none.
Proof.
  intros H. s2c_exec H; first [ solve [apply sum_silent; hush] |
   apply sum_silent; hush; apply Forall_app; split; [|hush];
   apply Forall_map, Forall_forall; intros ? _; apply silent_write; rewrite frame_hd; discriminate ].
Qed.

Lemma meta_silent g m tr x : meta_runs g m tr x -> sum_of tr = none.
Proof.
  intros H. destruct H as [e what|e what|tr l e d what Hl|tr l e d what Hl|tr l d e what Hl|tr l d Hl];
  apply sum_silent; hush;
  (apply Forall_app; split; [|hush]);
  apply loop_trace_facts in Hl; destruct Hl as (Hq & _);
  rewrite forallb_forall in Hq; apply Forall_forall; intros y Hy; apply Hq in Hy;
  destruct y; try discriminate; reflexivity.
Qed.

(** What one test adds. *)
Definition one_test (g : config) (dir : bytes) (failed : bool) (mean : f64) : summary :=
  {| s_results := [[label g; dir; result_words failed mean]];
     s_rates := if f_is_zero mean then [] else [([label g; dir; c_is_mon g], mean)];
     s_tests := []; s_suites := []; s_frames := [] |}.

Lemma result_label_words b m : result_label b m = result_words b m.
Proof. unfold result_label, result_words. destruct b, (f_is_zero m); reflexivity. Qed.

Lemma run_c2s_sum : forall g m r tr r' x, run (run_c2s g m r) tr (r', x) ->
  (exists d, r' = set_c2s d r /\ sum_of tr = one_test g (str "c2s") (has_error (u_error d)) (u_mean d) /\
     (forall v, x = Ok v -> v = if f_is_zero (u_mean d) then f_zero else u_mean d)) \/
  (r' = r /\ sum_of tr = none /\ okb x = false).
Proof.
  intros g m r tr r' x H. unfold run_c2s in H.
  apply run_bind in H. destruct H as [(t1 & s1 & [d e] & t2 & -> & H1 & H)|(p & -> & H)].
  - apply run_call in H1. destruct H1 as (-> & d1 & y & H1 & E).
    destruct y as [e1|p]; [|discriminate]. injection E as -> ->.
    pose proof (c17_outcome _ _ _ _ _ H1) as (_ & Ee). specialize (Ee _ eq_refl).
    apply c2s_silent in H1. left. exists d1. rewrite sum_app, H1, plus_none_l, Ee.
    destruct e1, (f_is_zero (u_mean d1)) eqn:Z; exe H;
      (split; [reflexivity|]); rewrite result_label_words; cbn [is_some has_error];
      (split; [unfold one_test; rewrite Z; reflexivity|]);
      first [discriminate | intros v Ev; injection Ev as <-; reflexivity].
  - apply run_call in H. destruct H as (-> & d1 & y & H1 & E).
    destruct y as [e1|p']; [discriminate|]. injection E as ->.
    right. apply c2s_silent in H1. auto.
Qed.

Lemma run_s2c_sum : forall g m r tr r' x, run (run_s2c g m r) tr (r', x) ->
  exists d, r' = set_s2c d r /\ sum_of tr = one_test g (str "s2c") (has_error (d_error d)) (d_mean d) /\
     (forall v, x = Ok v -> v = if f_is_zero (d_mean d) then f_zero else d_mean d).
Proof.
  intros g m r tr r' x H. unfold run_s2c in H.
  apply run_bind in H. destruct H as [(t1 & s1 & [d e] & t2 & -> & H1 & H)|(p & -> & H)].
  - apply run_call in H1. destruct H1 as (-> & d1 & y & H1 & E).
    destruct y as [e1|p]; [|discriminate]. injection E as -> ->.
    destruct (s2c_outcome _ _ s2c_empty _ _ _ eq_refl H1) as (e & E1 & Ee). injection E1 as <-.
    apply s2c_silent in H1. exists d1. rewrite sum_app, H1, plus_none_l, Ee.
    destruct e1, (f_is_zero (d_mean d1)) eqn:Z; exe H;
      (split; [reflexivity|]); rewrite result_label_words; cbn [is_some has_error];
      (split; [unfold one_test; rewrite Z; reflexivity|]);
      first [discriminate | intros v Ev; injection Ev as <-; reflexivity].
  - exfalso. apply run_call in H. destruct H as (-> & d1 & y & H1 & E).
    destruct (s2c_outcome _ _ s2c_empty _ _ _ eq_refl H1) as (e & -> & _). discriminate.
Qed.

Definition tests_sum (g : config) (r : record) (frames : list bytes) : summary :=
  {| s_results := test_counts (label g) r; s_rates := rate_values (label g) (c_is_mon g) r;
     s_tests := []; s_suites := []; s_frames := frames |}.

Lemma converse_sum g m c2s s2c meta r tr r' x : m <> Unknown ->
  r_c2s r = None -> r_s2c r = None ->
  run (converse g m c2s s2c meta r) tr (r', x) ->
  exists frames, sum_of tr = tests_sum g r' frames /\
    (frames = [] \/ frames = [message m MsgResults (results_text r')]).
Proof.
  intros Hm R1 R2 H. apply converse_split in H; [|exact Hm]. cbn zeta in H.
  assert (N : forall r, r_c2s r = None -> r_s2c r = None -> tests_sum g r [] = none).
  { intros r0 E1 E2. unfold tests_sum, test_counts, rate_values. rewrite E1, E2. reflexivity. }
  destruct H as [(e & -> & -> & ->)|[(e & -> & -> & ->)|[(e & -> & -> & ->)|H]]].
  1-3: exists []; rewrite N by assumption; split; [apply sum_silent; hush|auto].
  destruct H as (tc & rc & xc & t1 & -> & H1 & H).
  rewrite sum_app.
  match goal with |- context [plus (sum_of ?h) _] => replace (sum_of h) with none by (symmetry; apply sum_silent; hush) end.
  rewrite plus_none_l, sum_app.
  set (r0 := set_protocol _ _) in *.
  assert (A : r_s2c rc = None /\ sum_of tc = tests_sum g rc [] /\
              forall v, xc = Ok v -> v = (if f_is_zero (c2s_rate rc) then f_zero else c2s_rate rc)).
  { destruct c2s; cbn [stage] in H1.
    - apply run_c2s_sum in H1. destruct H1 as [(d & -> & -> & Hv)|(-> & -> & Hx)].
      + split; [exact R2|]. split; [|exact Hv].
        unfold tests_sum, test_counts, rate_values. cbn [set_c2s r_c2s r_s2c r0 set_protocol]. rewrite R2, !app_nil_r.
        reflexivity.
      + split; [exact R2|]. split; [symmetry; apply N; assumption|]. intros v ->. discriminate.
    - destruct H1 as (-> & -> & ->). split; [exact R2|].
      split; [symmetry; apply N; assumption|]. intros v E. injection E as <-.
      unfold c2s_rate. cbn [r0 set_protocol r_c2s]. rewrite R1. reflexivity. }
  destruct A as (A1 & -> & A2).
  destruct xc as [vc|p].
  2:{ destruct H as (-> & -> & ->). exists []. rewrite plus_none_r. auto. }
  destruct H as (ts & rs & xs & t2 & -> & H2 & H). rewrite sum_app. specialize (A2 _ eq_refl).
  assert (B : r_c2s rs = r_c2s rc /\ plus (tests_sum g rc []) (sum_of ts) = tests_sum g rs [] /\
              forall v, xs = Ok v -> v = (if f_is_zero (s2c_rate rs) then f_zero else s2c_rate rs)).
  { destruct s2c; cbn [stage] in H2.
    - apply run_s2c_sum in H2. destruct H2 as (d & -> & -> & Hv).
      split; [reflexivity|]. split; [|exact Hv].
      unfold tests_sum, plus, test_counts, rate_values. cbn [set_s2c r_c2s r_s2c s_results s_rates s_tests s_suites s_frames one_test app].
      rewrite A1, !app_nil_r. reflexivity.
    - destruct H2 as (-> & -> & ->). split; [reflexivity|].
      split; [apply plus_none_r|]. intros v E. injection E as <-. unfold s2c_rate. rewrite A1. reflexivity. }
  destruct B as (B1 & B2 & B3).
  assert (D : forall a b c, plus a (plus b c) = plus (plus a b) c)
    by (intros; unfold plus; cbn; rewrite !app_assoc; reflexivity).
  rewrite D, B2.
  destruct xs as [vs|p].
  2:{ destruct H as (-> & -> & ->). exists []. rewrite plus_none_r. auto. }
  specialize (B3 _ eq_refl).
  destruct H as (tm & xm & t3 & -> & H3 & H). rewrite sum_app.
  assert (C : tests_sum g r' [] = tests_sum g rs [] /\ r_c2s r' = r_c2s rs /\ r_s2c r' = r_s2c rs /\ sum_of tm = none).
  { destruct meta; cbn [stage] in H3.
    - apply run_meta_runs in H3. destruct H3 as (l & e & H3 & -> & _).
      apply meta_silent in H3. repeat split. exact H3.
    - destruct H3 as (-> & -> & _). repeat split. }
  destruct C as (C1 & C2 & C3 & ->). rewrite plus_none_l, <- C1.
  destruct xm as [um|p]; [|destruct H as (-> & ->); exists []; rewrite plus_none_r; auto].
  exists [message m MsgResults (results_text r')]. split; [|auto].
  assert (Z : speed_msg vc vs = results_text r').
  { unfold speed_msg, results_text, c2s_rate, s2c_rate in *. rewrite C2, C3, B1, A2, B3. reflexivity. }
  unfold ending in H. cbn zeta in H. rewrite Z in H.
  assert (S1 : forall e, sum_of [EvWrite (frame_of m MsgResults (results_text r')) e] =
               {| s_results := []; s_rates := []; s_tests := []; s_suites := [];
                  s_frames := [message m MsgResults (results_text r')] |}).
  { intros e. unfold sum_of. cbn [writes flat_map app map fst filter]. rewrite frame_hd. reflexivity. }
  destruct H as [(e & -> & _)|[(e & -> & _)|(-> & _)]].
  - rewrite S1. unfold plus, tests_sum. cbn. rewrite !app_nil_r. reflexivity.
  - rewrite sum_cons, S1, (sum_silent [EvWrite (frame_of m MsgLogout []) (Some e)]) by hush.
    unfold plus, tests_sum. cbn. rewrite !app_nil_r. reflexivity.
  - rewrite sum_cons, S1, (sum_silent [EvWrite (frame_of m MsgLogout []) None]) by hush.
    unfold plus, tests_sum. cbn. rewrite !app_nil_r. reflexivity.
Qed.

Lemma requested_sum g tests : sum_of (requested g tests) =
  {| s_results := []; s_rates := [];
     s_tests := map (fun n => [label g; n]) (asked_tests tests);
     s_suites := [[label g; join (str "-") (str "status" :: asked_tests tests)]]; s_frames := [] |}.
Proof.
  unfold asked_tests.
  rewrite <- (wants_bit tests 0), <- (wants_bit tests 1), <- (wants_bit tests 2), <- (wants_bit tests 3),
    <- (wants_bit tests 5) by lia.
  change (2 ^ 0) with 1. change (2 ^ 1) with 2. change (2 ^ 2) with 4. change (2 ^ 3) with 8. change (2 ^ 5) with 32.
  unfold requested.
  destruct (wants tests 1), (wants tests 2), (wants tests 4), (wants tests 8), (wants tests 32); reflexivity.
Qed.

Lemma numbers g tr s x : run (handle_control_channel g tt) tr (s, x) ->
  exists r inbuff rest, saved tr = [r] /\ reads tr = inbuff :: rest /\
  counted (str "ClientTestResults") tr = test_counts (label g) r /\
  observed (str "TestRate") tr = rate_values (label g) (c_is_mon g) r /\
  counted (str "ClientRequestedTests") tr =
    match request g inbuff with Some tests => map (fun n => [label g; n]) (asked_tests tests) | None => [] end /\
  counted (str "ClientRequestedTestSuites") tr =
    match request g inbuff with
    | Some tests => [[label g; join (str "-") (str "status" :: asked_tests tests)]]
    | None => []
    end /\
  forall f, In f (map fst (writes tr)) -> hd 0 f = 8 ->
    f = message (snd (login_of (c_kind g) inbuff)) MsgResults (results_text r).
Proof.
  intros H. apply handle_runs in H. destruct H as (_ & _ & t0 & body & r1 & t1 & y & -> & H).
  pose proof (body_part _ _ _ _ _ H) as (ib & rs & Hio & He & _).
  apply test_event_facts in He. destruct He as (Sv & _ & _ & Ct & _).
  pose proof (handle_io g t0 body t1 (set_end t1 r1) y) as (Eio & _ & _ & _ & _ & _ & Er & _).
  cbn zeta in Eio, Er.
  match goal with |- context [saved ?t] => set (tr := t) in * end.
  assert (Hs : saved tr = [set_end t1 r1]).
  { unfold tr, saved in *. rewrite !flat_map_app, Sv. destruct y; reflexivity. }
  assert (Hb : sum_of tr = sum_of body).
  { unfold tr. rewrite !sum_app.
    replace (sum_of [EvGauge _ _ _; EvNow t0]) with none by reflexivity.
    replace (sum_of [EvNow t1; _; EvClose]) with none by reflexivity.
    replace (sum_of (outcome_counts g y)) with none by (destruct y; reflexivity).
    replace (sum_of [EvObserve _ _ _; _]) with none by reflexivity.
    rewrite !plus_none_l, !plus_none_r. reflexivity. }
  exists (set_end t1 r1).
  apply control_body_runs in H. destruct H as (inbuff & t & -> & H).
  exists inbuff. eexists. split; [exact Hs|]. split; [rewrite Er; reflexivity|].
  assert (Hb' : sum_of tr = sum_of t) by (rewrite Hb, sum_cons; apply plus_none_l).
  assert (K : exists frames, sum_of tr =
    match request g inbuff with
    | Some tests => plus (sum_of (requested g tests)) (tests_sum g r1 frames)
    | None => tests_sum g r1 frames
    end /\ (frames = [] \/ frames = [message (snd (login_of (c_kind g) inbuff)) MsgResults (results_text r1)])).
  { rewrite Hb'. unfold request. destruct (login_of (c_kind g) inbuff) as [[tests| |] m] eqn:L; cbn [snd].
    - apply serve_tests_runs in H. destruct (wants_status tests) eqn:WS.
      + destruct H as (t2 & -> & H). 
        apply converse_sum in H; [|eapply login_ok_enc; eauto|reflexivity|reflexivity].
        destruct H as (frames & E & F). exists frames. rewrite sum_app, E. auto.
      + destruct H as (-> & -> & ->). exists []. split; [reflexivity|auto].
    - destruct H as (-> & -> & _). exists []. split; [reflexivity|auto].
    - destruct H as (-> & -> & _). exists []. split; [reflexivity|auto]. }
  destruct K as (frames & K & F).
  assert (G : forall f, In f (map fst (writes tr)) -> hd 0 f = 8 -> In f (s_frames (sum_of tr))).
  { intros f Hf H8. unfold sum_of. cbn [s_frames]. apply filter_In. rewrite H8. auto. }
  change (counted (str "ClientTestResults") tr) with (s_results (sum_of tr)).
  change (observed (str "TestRate") tr) with (s_rates (sum_of tr)).
  change (counted (str "ClientRequestedTests") tr) with (s_tests (sum_of tr)).
  change (counted (str "ClientRequestedTestSuites") tr) with (s_suites (sum_of tr)).
  revert G. rewrite K.
  destruct (request g inbuff) as [tests|].
  - rewrite requested_sum. unfold plus. cbn [s_results s_rates s_tests s_suites s_frames tests_sum app].
    rewrite !app_nil_r. intros G. do 4 (split; [reflexivity|]). intros f Hf H8.
    specialize (G f Hf H8). destruct F as [F|F]; rewrite F in G; [destruct G|].
    destruct G as [G|[]]; symmetry; exact G.
  - unfold plus. cbn [s_results s_rates s_tests s_suites s_frames tests_sum].
    intros G. do 4 (split; [reflexivity|]). intros f Hf H8.
    specialize (G f Hf H8). destruct F as [F|F]; rewrite F in G; [destruct G|].
    destruct G as [G|[]]; symmetry; exact G.
Qed.
