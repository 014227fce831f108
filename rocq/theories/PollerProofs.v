(** Proofs about the poller. *)
From Coq Require Import ZArith List Bool Lia.
From Verif Require Import Base Web100Model Web100Proofs Lts PollerModel.
Import ListNotations.

(** The snapshots that could be read. *)
Definition good_reads (p : poller) : list tcp_info :=
  flat_map (fun x => match x with Some s => [s] | None => [] end) (p_reads p).

Definition p_ok (p : poller) : Prop :=
  p_snaps p = good_reads p /\ (p_late p <= 1)%nat /\
  (p_done p = false -> p_late p = 0%nat) /\
  (p_done p = true -> p_at p = PRead -> p_late p = 0%nat) /\
  match p_at p with
  | PCheck | PRead | PTick => p_buf p = None /\ p_closed p = false /\ p_taken p = false
  | PSum => p_done p = true /\ p_buf p = None /\ p_closed p = false /\ p_taken p = false
  | PClose => p_done p = true /\ p_closed p = false /\
              p_buf p = (if p_taken p then None else summarize (p_snaps p)) /\
              (p_taken p = true -> p_snaps p <> [])
  | PEnd => p_done p = true /\ p_closed p = true /\
              p_buf p = (if p_taken p then None else summarize (p_snaps p))
  end.

Lemma new_ok id d : p_ok (new_poller id d).
Proof. repeat split; auto. Qed.

Lemma poll_ok p p' : p_ok p -> poll_step p p' -> p_ok p'.
Proof.
  intros (A & B & C & D & E) St. inversion St; subst; unfold p_ok, good_reads in *;
    cbn [p_at p_done p_snaps p_buf p_closed p_reads p_late p_taken p_id] in *.
  - intuition congruence.
  - intuition congruence.
  - rewrite flat_map_app, <- A. repeat split; try apply E.
    + destruct x; cbn; [reflexivity|]. rewrite app_nil_r. reflexivity.
    + destruct d; [rewrite (D eq_refl eq_refl)|]; lia.
    + intros ->. auto.
    + discriminate.
  - intuition congruence.
  - destruct E as (-> & -> & -> & ->). destruct (summarize sn); intuition congruence.
  - destruct E as (-> & -> & -> & F). intuition congruence.
Qed.

Lemma finish_ok p : p_ok p -> p_ok (finish p).
Proof.
  intros (A & B & C & D & E). unfold p_ok, finish, good_reads in *. destruct p as [a d sn bu cl rd la tk id].
  cbn [p_at p_done p_snaps p_buf p_closed p_reads p_late p_taken p_id] in *.
  repeat match goal with |- _ /\ _ => split end; auto; try congruence.
  - intros _ ->. destruct d; auto.
  - destruct a; intuition.
Qed.

Lemma receive_ok p w p' : p_ok p -> receive_from p = Some (w, p') ->
  p_ok p' /\ w = (if p_taken p then None else summarize (good_reads p)) /\ p_taken p' = true /\ p_reads p' = p_reads p /\ p_id p' = p_id p.
Proof.
  intros (A & B & C & D & E). unfold p_ok, receive_from, good_reads in *. destruct p as [a d sn bu cl rd la tk id].
  cbn [p_at p_done p_snaps p_buf p_closed p_reads p_late p_taken p_id] in *. rewrite <- A.
  destruct bu as [w0|].
  - intros [= <- <-]. cbn [p_at p_done p_snaps p_buf p_closed p_reads p_late p_taken p_id].
    destruct a; try (intuition congruence).
    + destruct E as (? & ? & E & F). subst. destruct tk; [discriminate|]. rewrite <- E. repeat split; auto.
      intros _ Z. rewrite Z in E. discriminate.
  - destruct cl; [|discriminate]. intros [= <- <-]. cbn [p_at p_done p_snaps p_buf p_closed p_reads p_late p_taken p_id].
    destruct a; try (intuition congruence).
Qed.

Definition mc_inv (k : mconn) : Prop :=
  (forall p, k_cur k = Some p -> p_ok p) /\ Forall p_ok (k_old k) /\
  (k_user k = UStopping -> forall p, k_cur k = Some p -> p_done p = true) /\
  (forall p w, In (Some p, w) (k_stops k) -> w = (if p_taken p then None else summarize (good_reads p))) /\
  (forall w, In (None, w) (k_stops k) -> w = None).

Lemma poll_done p p' : poll_step p p' -> p_done p' = p_done p.
Proof. destruct 1; reflexivity. Qed.

Lemma mc_inv_holds k : mc_reachable k -> mc_inv k.
Proof.
  apply (invariant mc_init mc_step mc_inv).
  - intros ? ->. unfold mc_inv. cbn. assert (Forall p_ok []) by constructor. intuition congruence.
  - intros x y (H1 & H2 & H3 & H4 & H5) St. inversion St; subst; unfold mc_inv; cbn [k_cur k_old k_user k_started k_stops] in *.
    + repeat match goal with |- _ /\ _ => split end; auto; try discriminate.
      * intros p [= <-]. apply new_ok.
      * destruct c; [|exact H2]. apply Forall_app. split; [exact H2|]. constructor; [auto|constructor].
    + repeat match goal with |- _ /\ _ => split end; auto.
      * destruct c; cbn; intros p' [= <-]. apply finish_ok; auto.
      * intros _. destruct c; cbn; intros p' [= <-]. reflexivity.
    + repeat match goal with |- _ /\ _ => split end; auto; try discriminate.
      * intros p w I. apply in_app_iff in I as [I|[I|[]]]; [eauto|discriminate].
      * intros w I. apply in_app_iff in I as [I|[I|[]]]; [eauto|congruence].
    + destruct (receive_ok p w p' (H1 _ eq_refl) H) as (A & B & C & D & _).
      repeat match goal with |- _ /\ _ => split end; auto; try discriminate.
      * intros ? [= <-]. exact A.
      * intros q w' I. apply in_app_iff in I as [I|[I|[]]]; [eauto|]. injection I as <- <-. exact B.
      * intros w' I. apply in_app_iff in I as [I|[I|[]]]; [eauto|congruence].
    + repeat match goal with |- _ /\ _ => split end; auto.
      * intros ? [= <-]. eapply poll_ok; eauto.
      * intros U ? [= <-]. rewrite (poll_done _ _ H). eauto.
    + repeat match goal with |- _ /\ _ => split end; auto.
      * intros ? [= <-]. apply finish_ok; auto.
      * intros U ? [= <-]. reflexivity.
    + repeat match goal with |- _ /\ _ => split end; auto.
      apply Forall_app in H2 as [A B]. inversion B; subst. apply Forall_app. split; [exact A|]. constructor; [eapply poll_ok; eauto|assumption].
    + repeat match goal with |- _ /\ _ => split end; auto.
      apply Forall_app in H2 as [A B]. inversion B; subst. apply Forall_app. split; [exact A|]. constructor; [apply finish_ok; auto|assumption].
Qed.

(** ** StopMeasuring returns *)
Definition poll_left (p : poller) : nat :=
  match p_at p with PRead => 5 | PTick => 4 | PCheck => 3 | PSum => 2 | PClose => 1 | PEnd => 0 end.
Definition stop_left (k : mconn) : nat :=
  match k_user k, k_cur k with
  | UIdle, _ => 0
  | UStopping, None => 1
  | UStopping, Some p => 1 + poll_left p
  end.

Lemma stop_mono k t : mc_reachable k -> k_user k = UStopping -> mc_step k t -> (stop_left t <= stop_left k)%nat.
Proof.
  intros R U St. destruct (mc_inv_holds k R) as (_ & _ & D & _). inversion St; subst; cbn in *; try discriminate; subst; cbn in *; try lia; try apply le_n.
  specialize (D eq_refl _ eq_refl). inversion H; subst; unfold poll_left; cbn in *; try discriminate; lia.
Qed.

Lemma stop_progress k : mc_reachable k -> k_user k = UStopping ->
  exists t, mc_step k t /\ (stop_left t < stop_left k)%nat.
Proof.
  intros R U. destruct (mc_inv_holds k R) as (A & _ & D & _). destruct k as [[p|] o u n st]; cbn in *; subst.
  - specialize (A _ eq_refl). specialize (D eq_refl _ eq_refl). destruct A as (A1 & A2 & A3 & A4 & A5).
    destruct p as [a d sn bu cl rd la tk id]. cbn in *. subst d. destruct a.
    + eexists. split; [apply k_poll, po_over|]. cbn. lia.
    + eexists. split; [apply k_poll, (po_read None)|]. cbn. lia.
    + eexists. split; [apply k_poll, po_tick|]. cbn. lia.
    + eexists. split; [apply k_poll, po_sum|]. cbn. lia.
    + eexists. split; [apply k_poll, po_close|]. cbn. lia.
    + destruct A5 as (_ & -> & E). destruct bu as [w|].
      * eexists. split; [apply k_receive; reflexivity|]. cbn. lia.
      * eexists. split; [apply k_receive; reflexivity|]. cbn. lia.
  - eexists. split; [apply k_never|]. cbn. lia.
Qed.

(** Once its context is done and it is not in the middle of a read, a poller reads no
    more. *)
Lemma no_last p q : later poll_step p q -> p_done p = true -> p_at p <> PRead -> p_reads q = p_reads p.
Proof.
  intros L D N. enough (G : p_reads q = p_reads p /\ p_done q = true /\ p_at q <> PRead) by apply G.
  induction L as [|t u L IH St]; [auto|]. destruct IH as (A & B & C).
  inversion St; subst; cbn in *; intuition congruence.
Qed.

(** ** A second StopMeasuring *)
Lemma poll_same p p' : poll_step p p' -> p_id p' = p_id p /\ p_taken p' = p_taken p.
Proof. destruct 1; auto. Qed.

Definition from (i : nat) (x : option poller * option web100) : Prop := exists p w, x = (Some p, w) /\ p_id p = i.

Definition ids (k : mconn) : Prop :=
  (forall p, k_cur k = Some p -> S (p_id p) = k_started k) /\
  (forall i, Exists (from i) (k_stops k) -> (i < k_started k)%nat) /\
  (forall p, k_cur k = Some p -> Exists (from (p_id p)) (k_stops k) -> p_taken p = true) /\
  (forall l1 x l2 y l3 i, k_stops k = l1 ++ x :: l2 ++ y :: l3 -> from i x -> from i y -> snd y = None).

Lemma ids_hold k : mc_reachable k -> ids k.
Proof.
  assert (G : forall k, mc_reachable k -> mc_reachable k /\ ids k).
  { apply (invariant mc_init mc_step).
    - intros ? ->. split; [apply reachable_init; reflexivity|]. unfold ids. cbn. repeat match goal with |- _ /\ _ => split end; try discriminate.
      + intros i H. inversion H.
      + intros l1. destruct l1; discriminate.
    - intros x y [Rx (H1 & H2 & H3 & H4)] St. split; [eapply reachable_step; eauto|].
      destruct (mc_inv_holds x Rx) as (I1 & _ & _ & I4 & _). clear Rx.
      inversion St; subst; unfold ids; cbn [k_cur k_old k_user k_started k_stops] in *.
      + repeat match goal with |- _ /\ _ => split end; try exact H4.
        * intros p [= <-]. reflexivity.
        * intros i E. specialize (H2 i E). lia.
        * intros p [= <-] E. cbn in E. specialize (H2 n E). lia.
      + repeat match goal with |- _ /\ _ => split end; try assumption.
        * destruct c; cbn; intros p' [= <-]. cbn. auto.
        * destruct c; cbn; intros p' [= <-]. cbn. auto.
      + repeat match goal with |- _ /\ _ => split end; try discriminate.
        * intros i E. apply Exists_app in E as [E|E]; [auto|]. inversion E as [? ? (p & w & X & _)|? ? X]; subst; [discriminate|inversion X].
        * intros l1 x l2 y l3 i E F1 F2. destruct (exists_last (l := y :: l3) ltac:(discriminate)) as (l3' & z & Ez).
          rewrite Ez in E. change (x :: l2 ++ l3' ++ [z]) with ((x :: l2) ++ l3' ++ [z]) in E. rewrite !app_assoc in E.
          apply app_inj_tail in E as [E <-]. destruct l3' as [|y' l3'']; cbn in Ez.
          -- injection Ez as -> ->. destruct F2 as (? & ? & ? & ?). discriminate.
          -- injection Ez as <- ->. eapply (H4 l1 x l2 y l3'' i); [|exact F1|exact F2]. rewrite E, <- !app_assoc. reflexivity.
      + destruct (receive_ok p w p' (I1 _ eq_refl) H) as (_ & B & C & _ & D).
        repeat match goal with |- _ /\ _ => split end.
        * intros ? [= <-]. rewrite D. auto.
        * intros i E. apply Exists_app in E as [E|E]; [auto|]. inversion E as [? ? (q & w' & X & Y)|? ? X]; subst; [|inversion X].
          injection X as <- <-. specialize (H1 _ eq_refl). lia.
        * intros ? [= <-] _. exact C.
        * intros l1 x l2 y l3 i E F1 F2. destruct (exists_last (l := y :: l3) ltac:(discriminate)) as (l3' & z & Ez).
          rewrite Ez in E. change (x :: l2 ++ l3' ++ [z]) with ((x :: l2) ++ l3' ++ [z]) in E. rewrite !app_assoc in E.
          apply app_inj_tail in E as [E <-]. destruct l3' as [|y' l3'']; cbn in Ez.
          -- injection Ez as -> ->. destruct F2 as (q & w' & X & Y). injection X as <- <-. cbn [snd]. rewrite app_nil_r in E.
             rewrite B, (H3 _ eq_refl); [reflexivity|]. rewrite Y. rewrite E. apply Exists_app. right. constructor. exact F1.
          -- injection Ez as <- ->. eapply (H4 l1 x l2 y l3'' i); [|exact F1|exact F2]. rewrite E, <- !app_assoc. reflexivity.
      + destruct (poll_same _ _ H) as [A B]. repeat match goal with |- _ /\ _ => split end; try assumption.
        * intros ? [= <-]. rewrite A. auto.
        * intros ? [= <-]. rewrite A, B. auto.
      + repeat match goal with |- _ /\ _ => split end; try assumption; intros ? [= <-]; cbn; auto.
      + repeat match goal with |- _ /\ _ => split end; assumption.
      + repeat match goal with |- _ /\ _ => split end; assumption. }
  intros R. apply G, R.
Qed.

(** ** The goroutine ends *)
Lemma poll_inevitable p : p_done p = true -> inevitable poll_step (fun q => p_at q = PEnd) p.
Proof.
  remember (poll_left p) as w eqn:E. revert p E. induction w as [w IH] using lt_wf_ind. intros p -> D. constructor.
  - intros K. destruct p as [a d sn bu cl rd la tk id]. cbn in D. subst d. destruct a; cbn; try reflexivity; exfalso.
    + eapply K, po_over. + eapply K, (po_read None). + eapply K, po_tick. + eapply K, po_sum. + eapply K, po_close.
  - intros q St. eapply IH; [|reflexivity|rewrite (poll_done _ _ St); exact D].
    inversion St; subst; unfold poll_left; cbn in *; try discriminate; lia.
Qed.

(** ** Runs *)
Lemma two_stops_run s1 s2 : exists k p p', mc_reachable k /\
  k_stops k = [(Some p, summarize [s1; s2]); (Some p', None)] /\ p_reads p = [Some s1; None; Some s2].
Proof.
  eexists _, _, _. split; [|split].
  - eexists. split; [reflexivity|].
    eapply later_front; [apply (k_start false)|].
    eapply later_front; [apply k_poll, po_go|]. eapply later_front; [apply k_poll, (po_read (Some s1))|]. eapply later_front; [apply k_poll, po_tick|].
    eapply later_front; [apply k_poll, po_go|]. eapply later_front; [apply k_poll, (po_read None)|]. eapply later_front; [apply k_poll, po_tick|].
    eapply later_front; [apply k_poll, po_go|].
    eapply later_front; [apply k_stop|].
    eapply later_front; [apply k_poll, (po_read (Some s2))|]. eapply later_front; [apply k_poll, po_tick|].
    eapply later_front; [apply k_poll, po_over|]. eapply later_front; [apply k_poll, po_sum|].
    eapply later_front; [apply k_receive; reflexivity|].
    eapply later_front; [apply k_poll, po_close|].
    eapply later_front; [apply k_stop|].
    eapply later_front; [apply k_receive; reflexivity|]. constructor.
  - reflexivity.
  - reflexivity.
Qed.
