(** The properties of control connections, as lemmas. *)
From Coq Require Import String ZArith List Bool Lia.
From Coq Require Import ZifyBool ZifyNat.
From Verif Require Import Base BaseFacts WireModel MessagerModel MessagerSpec MessagerProofs GoFloat GoStrings
  StringsProofs Web100Model Effect ControlModel ControlSpec ControlProofs MetaProofs HandleProofs.
Import ListNotations.
Open Scope Z_scope.

Lemma login_by_kind k first n m : bytes_ok (match first with Some b => b | None => [] end) ->
  (login_of k first = (LoginOk n, m) <-> logs_in k first n m).
Proof.
  intros OK. unfold logs_in. destruct k; cbn [login_of].
  1, 2: pose proof (login_ws_ok first n OK) as W;
    (split; [intros H; injection H as H <-; left; split; [reflexivity|apply W, H]
            |intros [(-> & H)|(_ & H & _)]; [|discriminate H]; f_equal; apply W, H]).
  split.
  - intros H. destruct (login_plain_encoding _ _ _ H) as [-> | ->].
    + left. split; [reflexivity|]. apply login_plain_json; assumption.
    + right. repeat split. apply login_plain_tlv; assumption.
  - intros [(-> & H)|(-> & _ & H)]; [apply login_plain_json|apply login_plain_tlv]; assumption.
Qed.
Lemma login_ok_enc k x tests m : login_of k x = (LoginOk tests, m) -> m <> Unknown.
Proof.
  destruct k; cbn [login_of]; intros H; try congruence.
  apply login_plain_encoding in H. destruct H; congruence.
Qed.

(** ** The shape of a whole run *)

Lemma body_part g r tr r' y : run (control_body g r) tr (r', y) ->
  exists x rest, io tr = EvRead x :: rest /\ forallb test_event tr = true /\
    closed tr = served tr /\ stopped tr /\
    match login_of (c_kind g) x with
    | (LoginOk tests, m) =>
        if wants_status tests then
          exists w, conversation m (wants_c2s tests) (wants_s2c tests) (wants_meta tests) w /\
                    follows rest w (okb y)
        else rest = [] /\ y = Ok tt /\ started tr = []
    | _ => rest = [] /\ okb y = false /\ started tr = []
    end.
Proof.
  intros H. apply control_body_runs in H. destruct H as (x & t & -> & H). exists x, (io t).
  split; [reflexivity|].
  destruct (login_of (c_kind g) x) as [[tests| |] m] eqn:L.
  - apply serve_tests_runs in H. destruct (wants_status tests).
    + destruct H as (t2 & -> & H). apply converse_part in H; [|eapply login_ok_enc; eauto].
      pose proof (metric_tail _ (requested_metrics g tests)) as (M1 & M2 & M3 & M4 & M5 & M6 & _).
      destruct H as [E (w & W & F) C S].
      split; [cbn [forallb test_event andb]; rewrite forallb_app, M2, E; reflexivity|].
      split; [|split].
      * unfold closed, served in *. cbn [flat_map app]. rewrite !flat_map_app, M3, M4, C. reflexivity.
      * change (EvRead x :: requested g tests ++ t2) with ((EvRead x :: requested g tests) ++ t2).
        apply stopped_app; [|exact S]. unfold started, waited in *. cbn [flat_map app]. congruence.
      * exists w. split; [exact W|]. rewrite io_app, M1. exact F.
    + destruct H as (-> & -> & ->). repeat split; try reflexivity. left. reflexivity.
  - destruct H as (-> & -> & e & ->). repeat split; try reflexivity. left. reflexivity.
  - destruct H as (-> & -> & ->). repeat split; try reflexivity. left. reflexivity.
Qed.

(** Projections of the whole run in terms of the body. *)
Lemma handle_io g t0 body t1 r y :
  let tr := [EvGauge (str "ActiveTests") [label g] 1; EvNow t0] ++ body ++
         [EvNow t1; EvSave r; EvClose] ++ outcome_counts g y ++
         [EvObserve (str "ControlChannelDuration") [label g] f_zero;
          EvGauge (str "ActiveTests") [label g] (-1)] in
  io tr = io body /\ closed tr = closed body /\ served tr = served body /\
  started tr = started body /\ waited tr = waited body /\ listened tr = listened body /\
  reads tr = reads body /\ writes tr = writes body /\ served_with_error tr = served_with_error body.
Proof.
  cbn zeta. unfold io, closed, served, started, waited, listened, reads, writes, served_with_error.
  rewrite !filter_app, !flat_map_app.
  destruct y; cbn; rewrite ?app_nil_r; auto 10.
Qed.

Lemma test_event_facts tr : forallb test_event tr = true ->
  saved tr = [] /\ filter is_close tr = [] /\ gauge_change (str "ActiveTests") tr = 0 /\
  counted (str "ControlCount") tr = [] /\ counted (str "ControlPanicCount") tr = [] /\
  filter (fun e => match e with EvSave _ | EvClose => true | _ => false end) tr = [].
Proof.
  induction tr as [|e tr IH]; cbn [forallb]; intros H; [cbn; auto 10|].
  apply andb_prop in H. destruct H as [He H]. apply IH in H. clear IH.
  destruct H as (H1 & H2 & H3 & H4 & H5 & H6).
  destruct e; try discriminate He;
    try (repeat split; assumption).
  cbn [test_event] in He. apply andb_prop in He. destruct He as [Ha Hb].
  apply negb_true_iff in Ha, Hb.
  unfold counted in *. cbn [flat_map]. rewrite Ha, Hb. repeat split; assumption.
Qed.

Lemma gauge_app n a b : gauge_change n (a ++ b) = gauge_change n a + gauge_change n b.
Proof.
  unfold gauge_change. rewrite flat_map_app, fold_right_app.
  set (l := flat_map _ a). set (z := fold_right Z.add 0 (flat_map _ b)).
  induction l as [|x l IH]; cbn; lia.
Qed.

(** ** C12: the conversation *)

Lemma c12_grammar g tr s x : run (handle_control_channel g tt) tr (s, x) ->
  exists inbuff rest, io tr = EvRead inbuff :: rest /\
  match login_of (c_kind g) inbuff with
  | (LoginOk tests, m) =>
      if wants_status tests then
        exists w complete,
          conversation m (wants_c2s tests) (wants_s2c tests) (wants_meta tests) w /\
          follows rest w complete /\
          counted (str "ControlCount") tr = [[label g; if complete then str "okay" else str "panic"]]
      else rest = [] /\ counted (str "ControlCount") tr = [[label g; str "okay"]]
  | _ => rest = [] /\ counted (str "ControlCount") tr = [[label g; str "panic"]]
  end.
Proof.
  intros H. apply handle_runs in H. destruct H as (_ & _ & t0 & body & r1 & t1 & y & -> & H).
  apply body_part in H. destruct H as (inbuff & rest & Hio & He & _ & _ & H).
  exists inbuff, rest.
  pose proof (handle_io g t0 body t1 (set_end t1 r1) y) as (Eio & _). cbn zeta in Eio. rewrite Eio.
  split; [exact Hio|].
  assert (C : forall z, okb y = z -> counted (str "ControlCount")
     ([EvGauge (str "ActiveTests") [label g] 1; EvNow t0] ++ body ++
         [EvNow t1; EvSave (set_end t1 r1); EvClose] ++ outcome_counts g y ++
         [EvObserve (str "ControlChannelDuration") [label g] f_zero;
          EvGauge (str "ActiveTests") [label g] (-1)]) =
     [[label g; if z then str "okay" else str "panic"]]).
  { intros z <-. apply test_event_facts in He. destruct He as (_ & _ & _ & E & _).
    rewrite !counted_app, E. destruct y; reflexivity. }
  destruct (login_of (c_kind g) inbuff) as [[tests| |] m].
  - destruct (wants_status tests).
    + destruct H as (w & W & F). exists w, (okb y). auto.
    + destruct H as (-> & -> & _). split; [reflexivity|]. exact (C true eq_refl).
  - destruct H as (-> & Hy & _). split; [reflexivity|]. exact (C false Hy).
  - destruct H as (-> & Hy & _). split; [reflexivity|]. exact (C false Hy).
Qed.

(** ** C11 *)

Lemma c2s_listened g m s tr s' r : run (c2s_manage g m s) tr (s', r) -> listened tr = [str "c2s"].
Proof. intros H. exe H; reflexivity. Qed.

Lemma s2c_listened g m s tr s' r : run (s2c_manage g m s) tr (s', r) -> listened tr = [str "s2c"].
Proof.
  intros H. s2c_exec H; unfold listened; cbn [flat_map app]; rewrite ?flat_map_lines by reflexivity;
  reflexivity.
Qed.

Lemma quiet_listened : forall tr, forallb quiet tr = true -> listened tr = [].
Proof.
  induction tr as [|e tr IH]; cbn [forallb]; intros H; [reflexivity|].
  apply andb_prop in H. destruct H as [He H]. apply IH in H.
  destruct e; try discriminate He; exact H.
Qed.
Lemma meta_listened g m tr x : meta_runs g m tr x -> listened tr = [].
Proof.
  intros H. destruct H; try reflexivity;
  match goal with H : loop_trace _ _ _ _ _ _ |- _ =>
    apply loop_trace_facts in H; destruct H as (Hq & _); apply quiet_listened in Hq end;
  unfold listened in *; cbn [flat_map app]; rewrite flat_map_app, Hq; reflexivity.
Qed.

Lemma metric_listened : forall tr, forallb plain_metric tr = true -> listened tr = [].
Proof.
  induction tr as [|e tr IH]; cbn [forallb]; intros H; [reflexivity|].
  apply andb_prop in H. destruct H as [He H]. apply IH in H.
  destruct e; try discriminate He; exact H.
Qed.

Lemma listened_app a b : listened (a ++ b) = listened a ++ listened b.
Proof. apply flat_map_app. Qed.

Lemma converse_listened g m c2s s2c meta r tr r' x : m <> Unknown ->
  run (converse g m c2s s2c meta r) tr (r', x) ->
  exists rest, listened tr ++ rest =
    (if c2s then [str "c2s"] else []) ++ (if s2c then [str "s2c"] else []) /\
    (okb x = true -> rest = []).
Proof.
  intros Hm H. apply converse_split in H; [|exact Hm]. cbn zeta in H.
  destruct H as [(e & -> & _ & ->)|[(e & -> & _ & ->)|[(e & -> & _ & ->)|H]]].
  1-3: eexists; split; [reflexivity|discriminate].
  destruct H as (tc & rc & xc & t1 & -> & H1 & H).
  assert (L1 : listened tc = if c2s then [str "c2s"] else []).
  { destruct c2s; cbn [stage] in H1.
    - apply run_c2s_runs in H1. destruct H1 as (t & d & y & tl & H1 & -> & Hm' & _).
      rewrite listened_app, (metric_listened _ Hm'), app_nil_r. eapply c2s_listened; eauto.
    - destruct H1 as (-> & _). reflexivity. }
  rewrite !listened_app. cbn [listened flat_map app]. fold (listened tc) (listened t1). rewrite L1.
  destruct xc as [vc|p].
  2:{ destruct H as (-> & _ & ->). exists (if s2c then [str "s2c"] else []). split; [|discriminate].
      change (listened []) with (@nil bytes). rewrite app_nil_r. reflexivity. }
  destruct H as (ts & rs & xs & t2 & -> & H2 & H).
  assert (L2 : listened ts = if s2c then [str "s2c"] else []).
  { destruct s2c; cbn [stage] in H2.
    - apply run_s2c_runs in H2. destruct H2 as (t & d & y & tl & H2 & -> & Hm' & _).
      rewrite listened_app, (metric_listened _ Hm'), app_nil_r. eapply s2c_listened; eauto.
    - destruct H2 as (-> & _). reflexivity. }
  exists []. split; [|reflexivity]. rewrite listened_app, L2, app_nil_r. 
  replace (listened t2) with (@nil bytes); [rewrite app_nil_r; reflexivity|].
  destruct xs as [vs|p]; [|destruct H as (-> & _); reflexivity].
  destruct H as (tm & xm & t3 & -> & H3 & H). rewrite listened_app.
  assert (L3 : listened tm = []).
  { destruct meta; cbn [stage] in H3.
    - apply run_meta_runs in H3. destruct H3 as (l & e & H3 & _). eapply meta_listened; eauto.
    - destruct H3 as (-> & _). reflexivity. }
  rewrite L3. destruct xm; [|destruct H as (-> & _); reflexivity].
  destruct H as [(e & -> & _)|[(e & -> & _)|(-> & _)]]; reflexivity.
Qed.

Lemma c11_tests g tr s x inbuff rest tests m :
  run (handle_control_channel g tt) tr (s, x) -> reads tr = inbuff :: rest ->
  login_of (c_kind g) inbuff = (LoginOk tests, m) ->
  if wants_status tests then
    exists rest, listened tr ++ rest =
      (if wants_c2s tests then [str "c2s"] else []) ++ (if wants_s2c tests then [str "s2c"] else []) /\
      (counted (str "ControlCount") tr = [[label g; str "okay"]] -> rest = [])
  else io tr = [EvRead inbuff] /\ listened tr = [].
Proof.
  intros H R L. apply handle_runs in H. destruct H as (_ & _ & t0 & body & r1 & t1 & y & -> & H).
  pose proof (handle_io g t0 body t1 (set_end t1 r1) y) as (Eio & _ & _ & _ & _ & El & Er & _).
  cbn zeta in Eio, El, Er. rewrite Er in R. rewrite Eio, El.
  pose proof (body_part _ _ _ _ _ H) as (ib & rs & Hio & He & _).
  apply control_body_runs in H. destruct H as (ib' & t & -> & H).
  cbn in R. injection R as -> _. rewrite L in H. apply serve_tests_runs in H.
  destruct (wants_status tests).
  - destruct H as (t2 & -> & H). apply converse_listened in H; [|eapply login_ok_enc; eauto].
    destruct H as (rest' & E & Hr). exists rest'. split.
    + unfold listened in *. cbn [flat_map app]. rewrite flat_map_app.
      pose proof (metric_listened _ (requested_metrics g tests)) as M. unfold listened in M.
      rewrite M. exact E.
    + intros C. apply Hr. apply test_event_facts in He. destruct He as (_ & _ & _ & E' & _).
      rewrite !counted_app, E' in C. destruct y; [reflexivity|discriminate C].
  - destruct H as (-> & _). split; reflexivity.
Qed.

(** Other bits change nothing but metrics. *)
Lemma without_metrics_app a b : without_metrics (a ++ b) = without_metrics a ++ without_metrics b.
Proof. apply filter_app. Qed.

Lemma c11_other_bits g m tests tests' r tr r' x :
  wants_c2s tests = wants_c2s tests' -> wants_s2c tests = wants_s2c tests' ->
  wants_status tests = wants_status tests' -> wants_meta tests = wants_meta tests' ->
  run (serve_tests g m tests r) tr (r', x) ->
  exists tr', run (serve_tests g m tests' r) tr' (r', x) /\ without_metrics tr' = without_metrics tr.
Proof.
  intros E1 E2 E3 E4 H. apply serve_tests_runs in H. rewrite E1, E2, E3, E4 in H.
  destruct (wants_status tests') eqn:W.
  - destruct H as (t & -> & H). exists (requested g tests' ++ t). split.
    + apply serve_tests_runs. rewrite W. eauto.
    + rewrite !without_metrics_app.
      pose proof (metric_tail _ (requested_metrics g tests)) as (_ & _ & _ & _ & _ & _ & _ & _ & M1).
      pose proof (metric_tail _ (requested_metrics g tests')) as (_ & _ & _ & _ & _ & _ & _ & _ & M2).
      rewrite M1, M2. reflexivity.
  - exists tr. split; [|reflexivity]. apply serve_tests_runs. rewrite W. exact H.
Qed.

(** ** C13, C14 *)

Lemma c13 g tr s x : run (handle_control_channel g tt) tr (s, x) ->
  exists r, filter (fun e => match e with EvSave _ | EvClose => true | _ => false end) tr =
            [EvSave r; EvClose].
Proof.
  intros H. apply handle_runs in H. destruct H as (_ & _ & t0 & body & r1 & t1 & y & -> & H).
  apply body_part in H. destruct H as (inbuff & rest & _ & He & _).
  apply test_event_facts in He. destruct He as (_ & _ & _ & _ & _ & E).
  exists (set_end t1 r1). rewrite !filter_app, E. destruct y; reflexivity.
Qed.

Lemma c14 g tr s x : run (handle_control_channel g tt) tr (s, x) ->
  x = Ok tt /\ gauge_change (str "ActiveTests") tr = 0 /\
  ((counted (str "ControlCount") tr = [[label g; str "okay"]] /\
    counted (str "ControlPanicCount") tr = []) \/
   (counted (str "ControlCount") tr = [[label g; str "panic"]] /\
    exists word, counted (str "ControlPanicCount") tr = [[label g; word]])).
Proof.
  intros H. apply handle_runs in H. destruct H as (_ & -> & t0 & body & r1 & t1 & y & -> & H).
  apply body_part in H. destruct H as (inbuff & rest & _ & He & _).
  apply test_event_facts in He. destruct He as (_ & _ & G & C & P & _).
  split; [reflexivity|]. rewrite !gauge_app, !counted_app, G, C, P.
  destruct y as [[]|p].
  - split; [reflexivity|]. left. split; reflexivity.
  - split; [reflexivity|]. right. split; [reflexivity|]. eexists. reflexivity.
Qed.

(** ** C15 *)

Lemma c15_cause g tr s x lbl word : run (handle_control_channel g tt) tr (s, x) ->
  In [lbl; word] (counted (str "ControlPanicCount") tr) ->
  lbl = label g /\
  exists inbuff rest, reads tr = inbuff :: rest /\
    cause (c_kind g) (snd (login_of (c_kind g) inbuff)) word tr.
Proof.
  intros H I. apply handle_runs in H. destruct H as (_ & -> & t0 & body & r1 & t1 & y & -> & H).
  pose proof (body_part _ _ _ _ _ H) as (ib & rs & Hio & He & _).
  apply test_event_facts in He. destruct He as (_ & _ & _ & _ & P & _).
  rewrite !counted_app, P in I.
  destruct y as [[]|p]; [cbn in I; contradiction|].
  assert (E : [lbl; word] = [label g; panic_msg_to_err_type p]).
  { cbn in I. destruct I as [I|[]]. symmetry. exact I. }
  injection E as -> ->. clear I. split; [reflexivity|].
  pose proof (handle_io g t0 body t1 (set_end t1 r1) (Panic p)) as (Eio & _ & _ & _ & _ & _ & Er & _).
  cbn zeta in Eio, Er. rewrite Er.
  apply control_body_runs in H. destruct H as (inbuff & t & -> & H).
  exists inbuff, (reads t). split; [reflexivity|].
  destruct (login_of (c_kind g) inbuff) as [[tests| |] m] eqn:L; cbn [snd].
  - apply serve_tests_runs in H. destruct (wants_status tests).
    2:{ destruct H as (_ & _ & H). discriminate. }
    destruct H as (t2 & -> & H).
    pose proof (metric_tail _ (requested_metrics g tests)) as (M & _).
    set (pre := [EvGauge (str "ActiveTests") [label g] 1; EvNow t0; EvRead inbuff] ++ requested g tests).
    eapply (converse_cause _ _ _ _ _ _ _ _ _ pre inbuff) in H.
    + unfold pre in H. rewrite <- !app_assoc in H. cbn [app] in H |- *. rewrite <- app_assoc. exact H.
    + eapply login_ok_enc; eauto.
    + unfold pre. rewrite io_app, M. reflexivity.
    + reflexivity.
  - destruct H as (-> & -> & e & E). injection E as ->.
    left. label_word (str "Login") (str "- error reading JSON message").
    split; [reflexivity|]. exists inbuff. rewrite L. split; [|reflexivity].
    reflexivity.
  - destruct H as (-> & -> & E). injection E as ->.
    change (panic_msg_to_err_type nil_deref) with (str "panic").
    do 9 right. split; [reflexivity|]. left. exists inbuff. rewrite L. split; [|reflexivity].
    reflexivity.
Qed.

(** ** C18, C19 *)

Lemma c18 g tr s x : run (handle_control_channel g tt) tr (s, x) -> closed tr = served tr.
Proof.
  intros H. apply handle_runs in H. destruct H as (_ & _ & t0 & body & r1 & t1 & y & -> & H).
  pose proof (handle_io g t0 body t1 (set_end t1 r1) y) as (_ & Ec & Es & _).
  cbn zeta in Ec, Es. rewrite Ec, Es.
  apply body_part in H. destruct H as (inbuff & rest & _ & _ & H & _). exact H.
Qed.

Lemma c19 g tr s x : run (handle_control_channel g tt) tr (s, x) ->
  started tr = waited tr \/
  exists a d port f e b, tr = a ++ EvListen d (inl port) :: EvWrite f (Some e) :: b /\
    started tr = waited tr ++ [d] /\ writes b = [].
Proof.
  intros H. pose proof (c12_grammar _ _ _ _ H) as G.
  apply handle_runs in H. destruct H as (_ & _ & t0 & body & r1 & t1 & y & -> & H).
  pose proof (handle_io g t0 body t1 (set_end t1 r1) y) as (Eio & _ & _ & Es & Ew & _ & _ & Ewr & _).
  cbn zeta in *. rewrite Es, Ew. rewrite Eio in G.
  apply body_part in H. destruct H as (inbuff & rest & Hio & _ & _ & S & H).
  destruct S as [S|(a & d & p & f & e & b & -> & A & B & C)]; [left; exact S|right].
  match goal with |- context [_ ++ (a ++ ?l) ++ ?post] => set (pst := post) in * end.
  set (pre := [EvGauge (str "ActiveTests") [label g] 1; EvNow t0]) in *.
  exists (pre ++ a), d, p, f, e, (b ++ pst).
  split; [rewrite <- !app_assoc; reflexivity|].
  split.
  { rewrite started_app, waited_app. cbn [started waited flat_map app].
    fold (started b) (waited b). rewrite A, B, C, app_nil_r. reflexivity. }
  assert (F : exists w c, follows rest w c).
  { destruct (login_of _ _) as [[tests| |] m].
    - destruct (wants_status tests); [destruct H as (w & _ & F); eauto|].
      destruct H as (-> & _). exists [], true. constructor.
    - destruct H as (-> & _). exists [], true. constructor.
    - destruct H as (-> & _). exists [], true. constructor. }
  destruct F as (w & c & F). rewrite io_app in Hio.
  assert (Hlast : forall t w c, follows t w c -> forall u v, t = u ++ EvWrite f (Some e) :: v -> v = []).
  { clear. induction 1; intros u v E.
    - destruct u; discriminate.
    - destruct u; discriminate.
    - destruct u as [|? [|? ?]]; try discriminate. injection E as _ _ <-. reflexivity.
    - destruct u; [discriminate|]. injection E as _ E. eauto.
    - destruct u; [discriminate|]. injection E as _ E. eauto. }
  assert (Hb : io b = []).
  { cbn [io filter is_io] in Hio. fold (io b) in Hio.
    destruct (io a) as [|e0 ia]; [discriminate Hio|].
    injection Hio as _ E. eapply Hlast; [exact F|symmetry; exact E]. }
  rewrite writes_app, <- (writes_io b), Hb. cbn [writes flat_map app].
  assert (Z : forall y, writes ([EvNow t1; EvSave (set_end t1 r1); EvClose] ++ outcome_counts g y ++
         [EvObserve (str "ControlChannelDuration") [label g] f_zero;
          EvGauge (str "ActiveTests") [label g] (-1)]) = []) by (intros []; reflexivity).
  apply Z.
Qed.
