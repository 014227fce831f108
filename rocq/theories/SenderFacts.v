(** Consequences of the shape of the ndt7 senders. *)
From Coq Require Import String ZArith List Bool Lia.
From Coq Require Import ZifyBool ZifyNat ZifyN.
From Verif Require Import Base BaseFacts Effect QueryModel Web100Model Ndt7Model Ndt7Spec SenderProofs.
Import ListNotations.
Open Scope Z_scope.
Ltac Zify.zify_post_hook ::= Z.div_mod_to_equations.

(** ** From the loop to the sender *)

Lemma shape_frames k limit proto a a' tr r : sender_shape k limit proto a a' tr r ->
  exists o, dialogue k limit (frames tr) o /\ returns o r /\ sender_errors tr = counts proto k o /\
    a_server a' = a_server a ++ delivered tr /\
    (In (ETake Closed) tr <-> o = Finished (str "measurer-closed")).
Proof.
  intros [(e & -> & -> & -> & ->)|[(e & t0 & -> & -> & ->)|(t0 & t1 & lt & last & -> & a1 & F & Hl)]].
  - exists (Failed (str "make-prepared-message")). cbn -[str].
    split; [constructor; reflexivity|]. split; [eauto|]. split; [reflexivity|]. split; [symmetry; apply app_nil_r|].
    split; [intuition discriminate|discriminate].
  - exists (Failed (str "set-write-deadline")). destruct k; cbn -[str].
    all: split; [constructor|]; split; [eauto|]; split; [reflexivity|]; split; [symmetry; apply app_nil_r|].
    all: split; [intuition discriminate|discriminate].
  - destruct F as (o & D & R & C & A & L & K). exists o.
    assert (Hf : frames (EMeasurerStart :: match k with Download => [EPrepare 8192 None] | Upload => [] end ++
      [ENow t0; EWriteDeadline (t0 + 15000000000) None; ENow t1] ++ lt ++ last) = frames lt).
    { destruct k; cbn; rewrite frames_app; destruct Hl as [(_ & -> & _)|(x & t2 & _ & -> & _)]; cbn; apply app_nil_r. }
    unfold delivered. rewrite Hf. split; [exact D|]. split; [exact R|]. split.
    { unfold sender_errors, counted in *. rewrite <- C.
      destruct k; cbn; rewrite flat_map_app; destruct Hl as [(_ & -> & _)|(x & t2 & _ & -> & _)]; cbn; apply app_nil_r. }
    split.
    { destruct Hl as [(_ & _ & ->)|(x & t2 & _ & _ & ->)]; rewrite A; reflexivity. }
    rewrite <- K. destruct k; cbn [In app]; rewrite in_app_iff;
      destruct Hl as [(_ & -> & _)|(x & t2 & _ & -> & _)]; cbn; intuition discriminate.
Qed.

(** The rest of the archival data: only the two times change. *)
Lemma shape_data k limit proto a a' tr r : sender_shape k limit proto a a' tr r ->
  a_uuid a' = a_uuid a /\ a_client a' = a_client a /\
  a_client_meta a' = a_client_meta a /\ a_server_meta a' = a_server_meta a.
Proof.
  intros [(e & -> & -> & -> & ->)|[(e & t0 & -> & -> & ->)|(t0 & t1 & lt & last & -> & a1 & F & Hl)]]; auto.
  destruct F as (o & D & R & C & A & L & K).
  destruct Hl as [(_ & _ & ->)|(x & t2 & _ & _ & ->)]; rewrite A; cbn; auto.
Qed.

(** ** Positions in a list *)

Lemma app_cons_inv {A} (f1 : list A) x f2 y l : f1 ++ x :: f2 = y :: l ->
  (f1 = [] /\ x = y /\ f2 = l) \/ (exists f1', f1 = y :: f1' /\ f1' ++ x :: f2 = l).
Proof.
  destruct f1 as [|z f1]; cbn; intros H.
  - injection H as -> ->. auto.
  - injection H as -> H. right. eauto.
Qed.
Lemma app_cons_nil {A} (f1 : list A) x f2 : f1 ++ x :: f2 = [] -> False.
Proof. destruct f1; discriminate. Qed.

Ltac positions :=
  repeat match goal with
  | H : _ ++ _ :: _ = [] |- _ => destruct (app_cons_nil _ _ _ H)
  | H : ?f1 ++ ?x :: ?f2 = _ :: _ |- _ =>
      apply app_cons_inv in H; destruct H as [(? & ? & ?)|(? & ? & H)]; subst
  | H : (_, _) = (_, _) |- _ => injection H as ? ?; subst
  | H : FMeasurement _ = FMeasurement _ |- _ => injection H as ?; subst
  | H : FPing _ = FPing _ |- _ => injection H as ?; subst
  | H : FBulk _ = FBulk _ |- _ => injection H as ?; subst
  end; try discriminate; unfold closing in *; try discriminate.

Section Dialogue.
  Variables (k : kind7) (limit : option Z).

  Lemma dialogue_failure fs o : dialogue k limit fs o ->
    forall f f1 f2, fs = f1 ++ (f, false) :: f2 -> f2 = [].
  Proof.
    induction 1; intros f f1 f2 E; symmetry in E; positions; eauto.
  Qed.

  Lemma dialogue_measurement fs o : dialogue k limit fs o ->
    forall m f1 f2, fs = f1 ++ (FMeasurement m, true) :: f2 -> exists p ok f3, f2 = (FPing p, ok) :: f3.
  Proof.
    induction 1; intros mm f1 f2 E; symmetry in E; positions; eauto.
  Qed.

  Lemma dialogue_ping fs o : dialogue k limit fs o ->
    forall p ok f1 f2, fs = f1 ++ (FPing p, ok) :: f2 -> exists f0 m, f1 = f0 ++ [(FMeasurement m, true)].
  Proof.
    induction 1; intros pp ok' f1 f2 E; symmetry in E; positions; eauto.
    all: try (exists [], m; reflexivity).
    - destruct (IHdialogue _ _ _ _ eq_refl) as (f0 & m & ->). exists ((FBulk n, true) :: f0), m. reflexivity.
    - destruct (IHdialogue _ _ _ _ eq_refl) as (f0 & m' & ->).
      exists ((FMeasurement m, true) :: (FPing p, true) :: f0), m'. reflexivity.
  Qed.

  Lemma dialogue_closed fs o : dialogue k limit fs o -> forall w, o = Finished w ->
    exists f0 ok, fs = f0 ++ [(closing, ok)] /\ existsb is_close f0 = false.
  Proof.
    induction 1; intros w E; try discriminate.
    - exists [], ok. auto.
    - edestruct IHdialogue as (f0 & ok & -> & Hf); [eassumption|]. exists ((FBulk n, true) :: f0), ok. auto.
    - edestruct IHdialogue as (f0 & ok & -> & Hf); [eassumption|].
      exists ((FMeasurement m, true) :: (FPing p, true) :: f0), ok. auto.
    - exists [(FMeasurement m, true); (FPing p, true)], ok. auto.
  Qed.

  Lemma dialogue_not_closed fs o : dialogue k limit fs o -> (forall w, o <> Finished w) ->
    existsb is_close fs = false.
  Proof. induction 1; intros N; cbn; try reflexivity; try (exfalso; eapply N; reflexivity); auto. Qed.

  Lemma dialogue_upload fs o : dialogue k limit fs o -> k = Upload -> existsb is_bulk fs = false.
  Proof. induction 1; intros E; cbn; try reflexivity; try congruence; auto. Qed.

  Definition delivered_in (fs : list (frame * bool)) : list measurement :=
    flat_map (fun f => match f with (FMeasurement m, true) => [m] | _ => [] end) fs.

  (** The first measurement that reaches the limit. *)
  Lemma dialogue_limit fs o l : dialogue k limit fs o -> limit = Some l ->
    forall m ms1 ms2, delivered_in fs = ms1 ++ m :: ms2 -> acked l m ->
      ms2 = [] /\ (forall m', In m' ms1 -> ~ acked l m') /\
      exists f0 p,
        (exists ok, fs = f0 ++ [(FMeasurement m, true); (FPing p, true); (closing, ok)] /\
                    o = Finished (str "measurer-closed-early")) \/
        (fs = f0 ++ [(FMeasurement m, true); (FPing p, false)] /\ o = Failed (str "ping-send-ticks")).
  Proof.
    induction 1; intros EL mm ms1 ms2 E A; cbn in E; symmetry in E; positions.
    - edestruct IHdialogue as (-> & N & f0 & p & Hd); [try reflexivity; assumption|symmetry; eassumption|assumption|].
      split; [reflexivity|]. split; [exact N|]. exists ((FBulk n, true) :: f0), p.
      destruct Hd as [(ok & -> & ->)|(-> & ->)]; [left; exists ok|right]; auto.
    - exfalso. eapply H; [|eassumption]. try reflexivity; assumption.
    - edestruct IHdialogue as (-> & N & f0 & p' & Hd); [try reflexivity; assumption|symmetry; eassumption|assumption|].
      split; [reflexivity|]. split.
      { intros m' [<-|I]; [apply H; try reflexivity; assumption|auto]. }
      exists ((FMeasurement m, true) :: (FPing p, true) :: f0), p'.
      destruct Hd as [(ok & -> & ->)|(-> & ->)]; [left; exists ok|right]; auto.
    - split; [reflexivity|]. split; [intros ? []|]. exists [], p. left. exists ok. auto.
    - split; [reflexivity|]. split; [intros ? []|]. exists [], p. right. auto.
  Qed.

  Lemma dialogue_early fs o : dialogue k limit fs o -> o = Finished (str "measurer-closed-early") ->
    exists l m ms, limit = Some l /\ delivered_in fs = ms ++ [m] /\ acked l m.
  Proof.
    induction 1; intros E; try discriminate.
    - edestruct IHdialogue as (l & m & ms & EL & D & A); [assumption|]. exists l, m, ms. auto.
    - edestruct IHdialogue as (l & m' & ms & EL & D & A); [assumption|]. exists l, m', (m :: ms).
      split; [exact EL|]. split; [|exact A]. cbn. f_equal. exact D.
    - exists l, m, []. auto.
  Qed.
End Dialogue.

(** ** Sizes *)

Lemma ladder_step : forall l size total i s s', ladder size total l ->
  nth_error l i = Some s -> nth_error l (S i) = Some s' ->
  s' = next_size s (total + sum_first (S i) l).
Proof.
  unfold sum_first. induction l as [|x l IH]; intros size total i s s' L H1 H2; [destruct i; discriminate|].
  cbn in L. destruct L as [-> L]. destruct i as [|i].
  - cbn in H1. injection H1 as <-. cbn in H2. destruct l as [|y l]; [discriminate|]. cbn in H2.
    injection H2 as <-. cbn in L. destruct L as [-> _]. cbn. f_equal. lia.
  - cbn in H1, H2. rewrite (IH _ _ i s s' L H1 H2). cbn [firstn fold_right]. f_equal. cbn [firstn] in *. lia.
Qed.

Lemma ladder_rule l : ladder 8192 0 l -> scaling_rule l.
Proof.
  intros L. split.
  - intros s H. destruct l as [|x l]; [discriminate|]. cbn in H. injection H as <-. apply L.
  - intros i s s' H1 H2. rewrite (ladder_step _ _ _ _ _ _ L H1 H2). unfold next_size.
    rewrite Z.add_0_l. split; intros Q.
    + replace ((s <? 1048576) && (16 * s <=? sum_first (S i) l)) with true by lia. reflexivity.
    + replace ((s <? 1048576) && (16 * s <=? sum_first (S i) l)) with false by lia. reflexivity.
Qed.

Lemma ladder_powers : forall l size total e, size = 2 ^ e -> 13 <= e <= 20 -> ladder size total l ->
  Forall (fun s => exists e, 13 <= e <= 20 /\ s = 2 ^ e) l.
Proof.
  induction l as [|x l IH]; intros size total e Hs He L; [constructor|]. destruct L as [-> L].
  constructor; [exists e; auto|]. unfold next_size in L.
  destruct ((size <? 1048576) && (16 * size <=? total + size)) eqn:E.
  - apply (IH (2 * size) (total + size) (e + 1)); [|split; [lia|]|exact L].
    + rewrite Z.pow_add_r by lia. lia.
    + assert (e <> 20) by (intros ->; change (2 ^ 20) with 1048576 in Hs; lia). lia.
  - apply (IH size (total + size) e); auto.
Qed.

Lemma next_size_le s t : 0 <= s -> s <= next_size s t.
Proof. unfold next_size. destruct (_ && _); lia. Qed.

Lemma ladder_ge : forall l size total i s, 0 <= size -> ladder size total l -> nth_error l i = Some s -> size <= s.
Proof.
  induction l as [|x l IH]; intros size total i s P L H; [destruct i; discriminate|]. destruct L as [-> L].
  pose proof (next_size_le size (total + size) P) as Q. destruct i as [|i]; cbn in H.
  - injection H as <-. lia.
  - apply (IH (next_size size (total + size)) (total + size)) in H; [lia|lia|exact L].
Qed.
Lemma ladder_mono : forall l size total i j s s', 0 <= size -> ladder size total l -> (i <= j)%nat ->
  nth_error l i = Some s -> nth_error l j = Some s' -> s <= s'.
Proof.
  induction l as [|x l IH]; intros size total i j s s' P L Hij H H'; [destruct i; discriminate|].
  destruct i as [|i].
  - cbn in H. injection H as <-. pose proof L as L'. destruct L as [-> _].
    eapply ladder_ge; eauto.
  - destruct j as [|j]; [lia|]. destruct L as [-> L]. cbn in H, H'.
    pose proof (next_size_le size (total + size) P).
    apply (IH (next_size size (total + size)) (total + size) i j s s'); [lia|exact L|lia|exact H|exact H'].
Qed.
Lemma ladder_ordinal : forall l l' size total i s s', ladder size total l -> ladder size total l' ->
  nth_error l i = Some s -> nth_error l' i = Some s' -> s = s'.
Proof.
  induction l as [|x l IH]; intros l' size total i s s' L L' H H'; [destruct i; discriminate|].
  destruct l' as [|x' l']; [destruct i; discriminate|]. destruct L as [-> L], L' as [-> L'].
  destruct i as [|i]; cbn in H, H'; [congruence|]. eapply IH; eauto.
Qed.

(** The sizes of a whole run. *)
Lemma download_ladder n proto p a tr a' r :
  run (download_sender n proto p a) tr (a', r) -> ladder 8192 0 (bulk_sizes tr).
Proof.
  unfold download_sender. intros H. red7 H. destruct H as ([] & t & -> & H).
  apply stop_defer in H. destruct H as (t1 & H & Hl).
  assert (Q : ladder 8192 0 (bulk_sizes t1)).
  { exe7 H; try exact I. apply run_go_defer in H. destruct H as (t2 & s1 & r1 & H1 & H2).
    apply (download_loop_ladder _ _ _ _ _ 0) in H1; [|split; [lia|split; [left; reflexivity|lia]]].
    destruct H2 as [(_ & -> & _)|(_ & t3 & y & H2 & -> & _)]; [exact H1|].
    exe7 H2. match goal with |- context [_ ++ [ENow ?b]] => change (ladder 8192 0 (bulk_sizes (t2 ++ [ENow b]))) end.
    rewrite bulk_sizes_app. cbn. rewrite app_nil_r. exact H1. }
  destruct Hl as [(_ & ->)|(_ & ->)]; [exact Q|].
  change (ladder 8192 0 (bulk_sizes (t1 ++ [EMeasurerStop]))). rewrite bulk_sizes_app. cbn. rewrite app_nil_r. exact Q.
Qed.

(** ** Clock *)

Lemma clock_app a b : clock (a ++ b) = clock a ++ clock b.
Proof. apply flat_map_app. Qed.
Lemma ascending_app a b : ascending (a ++ b) -> ascending a /\ ascending b /\ (forall x y, In x a -> In y b -> x <= y).
Proof.
  induction a as [|x a IH]; cbn; intros H; [repeat split; auto; [constructor|tauto]|].
  inversion H as [|y l F A]; subst. destruct (IH A) as (I1 & I2 & I3). apply Forall_app in F. destruct F as [F1 F2].
  split; [constructor; assumption|]. split; [assumption|]. intros u v [<-|I] J; [|auto].
  rewrite Forall_forall in F2. auto.
Qed.
