(** Lemmas about the model of NDT5 control connections. *)
From Coq Require Import String ZArith List Bool Lia.
From Coq Require Import ZifyBool ZifyNat.
From Verif Require Import Base BaseFacts WireModel MessagerModel MessagerSpec MessagerProofs
  GoFloat GoStrings Web100Model Effect ControlModel ControlSpec.
Import ListNotations.
Open Scope Z_scope.

(** ** Symbolic execution of programs *)

Ltac red_in H :=
  cbn [run bind pbind op tell ret panic get modify defer finally call fst snd
       write send send_s2c receive drain now test_error panic_on_error
       c2s_manage c2s_transfer c2s_report s2c_body s2c_transfer s2c_report
       option_map is_some] in H.
Lemma pair_inv {A B} (a c : A) (b d : B) : (a, b) = (c, d) -> a = c /\ b = d.
Proof. intros H. split; congruence. Qed.

(** Case analysis on what the program looks at next. *)
Ltac on_head p :=
  lazymatch p with
  | pbind ?q _ => on_head q
  | bind ?q _ _ => on_head q
  | match ?x with _ => _ end _ => destruct x eqn:?
  | match ?x with _ => _ end => destruct x eqn:?
  end.
(** All the ways a run can go: one goal per combination of answers.  Stops at loops. *)
Ltac exe H :=
  red_in H;
  lazymatch type of H with
  | exists _, _ => let b := fresh "b" in let t := fresh "t" in
                   destruct H as (b & t & -> & H); exe H
  | _ = _ /\ _ => destruct H as [-> H]; apply pair_inv in H; destruct H; subst
  | run ?p _ _ => tryif on_head p then exe H else idtac
  | match ?x with _ => _ end => destruct x eqn:?; exe H
  | _ => idtac
  end.

(** ** Following a conversation *)

Lemma io_app : forall a b, io (a ++ b) = io a ++ io b.
Proof. intros. apply filter_app. Qed.

Lemma follows_app : forall t1 w1 b1, follows t1 w1 b1 -> b1 = true ->
  forall t2 w2 b, follows t2 w2 b -> follows (t1 ++ t2) (w1 ++ w2) b.
Proof.
  induction 1; intros Hb t2 w2 b2 H2; cbn; try discriminate; try exact H2.
  - apply fol_say. auto.
  - apply fol_hear. auto.
Qed.

Lemma follows_more : forall t w b, follows t w b -> b = false -> forall w2, follows t (w ++ w2) false.
Proof.
  induction 1; intros Hb w2; try discriminate; cbn; subst.
  - apply fol_stop.
  - apply fol_fail.
  - apply fol_say. auto.
  - apply fol_hear. auto.
Qed.

Ltac fol := unfold say, say_result, frame_of, frame_of_s2c in *;
  repeat first [ apply fol_end | apply fol_say | apply fol_hear | apply fol_fail | apply fol_stop ].

(** Completion of a test: it returned without error. *)
Definition fine {P} (r : res P (option err)) : bool :=
  match r with Ok None => true | _ => false end.

(** ** C2S *)

Lemma c2s_follows : forall g m s tr s' r,
  run (c2s_manage g m s) tr (s', r) ->
  exists w, c2s_word m w /\ follows (io tr) w (fine r).
Proof.
  intros g m s tr s' r H. exe H; cbn [io filter is_io fine];
  eexists; (split; [eexists _, _; reflexivity|]); fol.
  Unshelve. all: exact 0.
Qed.

(** Events that belong to a test: they neither archive nor close the control
    connection, and touch neither the gauge nor the control counters. *)
Definition test_event (e : event) : bool :=
  match e with
  | EvClose | EvSave _ | EvGauge _ _ _ => false
  | EvCount n _ => negb (beqb n (str "ControlCount")) && negb (beqb n (str "ControlPanicCount"))
  | _ => true
  end.

Lemma c2s_events : forall g m s tr s' r,
  run (c2s_manage g m s) tr (s', r) -> forallb test_event tr = true /\
  closed tr = served tr /\
  (started tr = waited tr \/
   exists d port f e, tr = EvListen d (inl port) :: EvWrite f (Some e) :: skipn 2 tr /\
     started tr = [d] /\ waited tr = [] /\ writes tr = [(f, Some e)]).
Proof.
  intros g m s tr s' r H. exe H; (split; [reflexivity|]); (split; [reflexivity|]);
  first [left; reflexivity | right; do 4 eexists; repeat split; reflexivity].
Qed.

Lemma c2s_outcome : forall g m s tr s' r, u_error s = None ->
  run (c2s_manage g m s) tr (s', r) ->
  match r with
  | Ok e => u_error s' = e
  | Panic p => p = nil_deref /\
      ((exists c, In (EvStopMeasuring c None) tr) \/ (exists d, In (EvServe d (None, None)) tr))
  end.
Proof.
  intros g m s tr s' r He H. destruct s; cbn in He; subst.
  exe H; try reflexivity; try discriminate.
  all: split; [reflexivity|]; cbn [In]; eauto 20.
Qed.

(** ** S2C *)

Definition line_ok (m : encoding) (l : bytes) : event := EvWrite (frame_of m TestMsg l) None.

Lemma send_lines_runs {S} m lines : forall (s s' : S) tr r,
  run (send_lines m lines s) tr (s', r) ->
  s' = s /\
  (r = Ok None /\ tr = map (line_ok m) lines \/
   exists a l b e, lines = a ++ l :: b /\ r = Ok (Some e) /\
     tr = map (line_ok m) a ++ [EvWrite (frame_of m TestMsg l) (Some e)]).
Proof.
  induction lines as [|l lines IH]; intros s s' tr r H; cbn [send_lines] in H.
  - exe H. auto.
  - exe H.
    + split; [reflexivity|]. right. exists [], l, lines, e. auto.
    + match type of H with run ?p _ _ => change p with (@send_lines S m lines s) in H end.
      apply IH in H. destruct H as (-> & [(-> & ->)|(a & x & b' & e & -> & -> & ->)]).
      * split; [reflexivity|]. left. auto.
      * split; [reflexivity|]. right. exists (l :: a), x, b', e. auto.
Qed.

Lemma follows_lines : forall m lines t w b, follows t w b ->
  follows (map (line_ok m) lines ++ t) (map (say m TestMsg) lines ++ w) b.
Proof.
  induction lines as [|l lines IH]; intros t w b H; cbn [map app]; [exact H|].
  unfold say at 1, line_ok at 1, frame_of. apply fol_say. auto.
Qed.

Lemma io_lines : forall m lines, io (map (line_ok m) lines) = map (line_ok m) lines.
Proof. induction lines as [|l r IH]; cbn; [reflexivity|]. unfold io in IH. rewrite IH. reflexivity. Qed.

(** All the runs of the end of the test. *)
Lemma s2c_finish_runs : forall g m w s tr s' r,
  run (s2c_finish g m w s) tr (s', r) -> s' = s /\
  let l1 := metric_lines (w_view w) [] in
  let l2 := metric_lines (d_view g s) (str "NDTResult.S2C.") in
  (r = Ok None /\ tr = map (line_ok m) (l1 ++ l2) ++ [EvWrite (frame_of m TestFinalize []) None]) \/
  (exists e what, r = Ok (Some e) /\
     tr = map (line_ok m) (l1 ++ l2) ++
          [EvWrite (frame_of m TestFinalize []) (Some e);
           EvCount (str "ClientTestErrors") [label g; str "s2c"; what]]) \/
  (exists a l b e what, l1 ++ l2 = a ++ l :: b /\ r = Ok (Some e) /\
     tr = map (line_ok m) a ++
          [EvWrite (frame_of m TestMsg l) (Some e);
           EvCount (str "ClientTestErrors") [label g; str "s2c"; what]]).
Proof.
  intros g m w s tr s' r H. unfold s2c_finish in H.
  set (l1 := metric_lines (w_view w) []) in *.
  apply run_bind in H. destruct H as [(t1 & s1 & e1 & t2 & -> & H1 & H) | (p & -> & H)].
  2:{ apply send_lines_runs in H. destruct H as (_ & [(H & _)|(a & l & b & e & _ & H & _)]); discriminate. }
  apply send_lines_runs in H1. destruct H1 as (-> & H1).
  destruct H1 as [(H1 & ->)|(a & l & b & e & E & H1 & ->)]; injection H1 as ->.
  - apply run_bind in H. destruct H as [(t3 & s3 & d & t4 & -> & H3 & H) | (p & -> & H)].
    2:{ apply run_get in H. destruct H as [_ H]. discriminate. }
    apply run_get in H3. destruct H3 as [-> H3]. injection H3 as -> ->.
    set (l2 := metric_lines (d_view g s) (str "NDTResult.S2C.")) in *.
    apply run_bind in H. destruct H as [(t5 & s5 & e5 & t6 & -> & H5 & H) | (p & -> & H)].
    2:{ apply send_lines_runs in H. destruct H as (_ & [(H & _)|(a & l & b & e & _ & H & _)]); discriminate. }
    apply send_lines_runs in H5. destruct H5 as (-> & H5).
    destruct H5 as [(H5 & ->)|(a & l & b & e & E & H5 & ->)]; injection H5 as ->.
    + exe H; (split; [reflexivity|]); cbn zeta.
      * right. left. exists e, (str "TestFinalize"). split; [reflexivity|].
        rewrite map_app, <- app_assoc. reflexivity.
      * left. split; [reflexivity|]. rewrite map_app, <- app_assoc. reflexivity.
    + exe H. split; [reflexivity|]. cbn zeta. right. right.
      exists (l1 ++ a), l, b, e, (str "SendMetricsArchival").
      split; [rewrite E, app_assoc; reflexivity|]. split; [reflexivity|].
      rewrite map_app, <- !app_assoc. reflexivity.
  - exe H. split; [reflexivity|]. cbn zeta. right. right.
    exists a, l, (b ++ metric_lines (d_view g s) (str "NDTResult.S2C.")), e, (str "SendMetricsLegacy").
    split; [rewrite E, <- app_assoc; reflexivity|]. split; [reflexivity|].
    rewrite <- !app_assoc. reflexivity.
Qed.

Lemma s2c_manage_split : forall g m s tr s' r,
  run (s2c_manage g m s) tr (s', r) ->
  exists s1, run (s2c_body g m s) tr (s1, r) /\
  s' = match r with Ok (Some e) => d_set_error e s1 | _ => s1 end.
Proof.
  intros g m s tr s' r H. unfold s2c_manage in *.
  apply run_defer in H. destruct H as (t1 & s1 & r1 & t2 & y & -> & H1 & H2 & ->).
  exists s1. destruct r1 as [[e|]|p]; exe H2; rewrite app_nil_r; auto.
Qed.

(** Execution up to the metric lines. *)
Ltac s2c_exec H :=
  apply s2c_manage_split in H; destruct H as (? & H & ?); subst;
  exe H;
  try (apply s2c_finish_runs in H; destruct H as (-> & H); cbn zeta in H;
       destruct H as [(-> & ->)|[(?e & ?what & -> & ->)|(?a & ?l & ?b' & ?e & ?what & ?EL & -> & ->)]]).

Lemma io_lines_app : forall m lines t, io (map (line_ok m) lines ++ t) = map (line_ok m) lines ++ io t.
Proof. intros. rewrite io_app, io_lines. reflexivity. Qed.

Ltac s2c_word_of x :=
  eexists; split; [do 3 eexists; exists x; reflexivity|].

Lemma s2c_follows : forall g m s tr s' r,
  run (s2c_manage g m s) tr (s', r) ->
  exists w, s2c_word m w /\ follows (io tr) w (fine r).
Proof.
  intros g m s tr s' r H. s2c_exec H; cbn [io filter is_io fine]; try change (filter is_io) with io;
  rewrite ?io_lines_app; cbn [io filter is_io];
  lazymatch goal with
    | E : _ = ?a ++ ?l :: ?b |- context [map (line_ok m) ?a] =>
        s2c_word_of (a ++ l :: b); cbn [app]; fol; rewrite map_app, <- app_assoc;
        apply (follows_lines m a); cbn [map app]; fol
    | |- context [map (line_ok m) ?x] =>
        s2c_word_of x; cbn [app]; fol; apply (follows_lines m x); fol
    | _ => s2c_word_of (@nil bytes); cbn [app]; fol
    end.
  Unshelve. all: exact 0.
Qed.

Lemma forallb_lines : forall (P : event -> bool) m lines, (forall l, P (line_ok m l) = true) ->
  forallb P (map (line_ok m) lines) = true.
Proof. intros P m lines HP. induction lines; cbn; [reflexivity|]. rewrite HP. auto. Qed.

Lemma flat_map_lines : forall {A} (f : event -> list A) m lines t, (forall l, f (line_ok m l) = []) ->
  flat_map f (map (line_ok m) lines ++ t) = flat_map f t.
Proof. intros A f m lines t Hf. induction lines; cbn; [reflexivity|]. rewrite Hf. auto. Qed.

Lemma s2c_events : forall g m s tr s' r,
  run (s2c_manage g m s) tr (s', r) -> forallb test_event tr = true /\
  closed tr = served tr /\
  (started tr = waited tr \/
   exists d port f e, tr = EvListen d (inl port) :: EvWrite f (Some e) :: skipn 2 tr /\
     started tr = [d] /\ waited tr = [] /\ writes tr = [(f, Some e)]).
Proof.
  intros g m s tr s' r H. s2c_exec H;
  cbn [forallb test_event andb]; rewrite ?forallb_app, ?forallb_lines by reflexivity;
  (split; [reflexivity|]);
  unfold closed, served, started, waited; cbn [flat_map app];
  rewrite ?flat_map_lines by reflexivity; (split; [reflexivity|]);
  first [left; reflexivity | right; do 4 eexists; repeat split; reflexivity].
Qed.

Lemma s2c_outcome : forall g m s tr s' r, d_error s = None ->
  run (s2c_manage g m s) tr (s', r) -> exists e, r = Ok e /\ d_error s' = e.
Proof.
  intros g m s tr s' r He H. destruct s; cbn in He; subst.
  s2c_exec H; eexists; split; reflexivity.
Qed.
