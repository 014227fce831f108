(** Proofs about the life of an ndt7 request. *)
From Coq Require Import ZArith List Bool Lia Wf_nat.
From Verif Require Import Base Web100Model Ndt7Model Lts MeasurerModel MeasurerSpec MeasurerProofs LifeModel.
Import ListNotations.
Open Scope nat_scope.

Section Proofs.
  Variables client server uuid : bytes.
  Variable kind : kind7.
  Notation mreach := (m_reachable client server uuid).
  Notation mstep := (m_step client server uuid).
  Notation env := (life_env kind).
  Notation sys := (life_sys client server uuid kind).
  Notation step := (life_step client server uuid kind).
  Notation Reach := (reachable life_init step).

  Lemma expire_reach m : mreach m -> mreach (expire m).
  Proof.
    intros R. destruct (s_expired m) eqn:E.
    - replace (expire m) with m; [exact R|]. destruct m. unfold expire. cbn in *. congruence.
    - eapply reachable_step; [exact R|]. destruct m. cbn in E. subst. apply e_expire.
  Qed.
  Lemma new_reach t d : mreach (new_measurer t d).
  Proof.
    assert (R : mreach (new_measurer t false)) by (apply reachable_init; exists t; reflexivity).
    destruct d; [|exact R]. exact (expire_reach _ R).
  Qed.
  Lemma expire_cons m : s_cons (expire m) = s_cons m. Proof. reflexivity. Qed.

  (** What the measurer is when the request is at [h]. *)
  Definition meas_ok (h : req_at) (om : option mstate) : Prop :=
    match h with
    | HData | HDo | HStart | HExit => om = None
    | HSetup | HLoop | HWrite _ => exists m, om = Some m /\ mreach m /\ s_cons m = CRead
    | HStop => exists m, om = Some m /\ mreach m
    | HRecv | HSave => exists m, om = Some m /\ mreach m /\ s_cons m = CBack
    | HCancel | HBack => om = None \/ exists m, om = Some m /\ mreach m /\ s_cons m = CBack
    end.
  (** What the receiver is, and how many results there are. *)
  Definition recv_ok (h : req_at) (r : recv_at) (om : option mstate) (n : nat) : Prop :=
    match h with
    | HData | HDo => r = RNone /\ n = 0
    | HCancel | HBack => (r = RNone /\ om = None /\ n = 0) \/ (r <> RNone /\ om <> None /\ n = 1)
    | HExit => r = RGone /\ n = 0
    | _ => r <> RNone /\ n = 0
    end.
  Definition inv (s : life) : Prop :=
    (i_closer s = KDone <-> i_open s = false) /\ (i_open s = false -> i_ctx s = true) /\
    (i_ctx s = true <-> i_late s = true \/ i_main s = HBack \/ i_main s = HExit) /\
    meas_ok (i_main s) (i_meas s) /\
    (i_ctx s = true -> forall m, i_meas s = Some m -> s_expired m = true) /\
    recv_ok (i_main s) (i_recv s) (i_meas s) (i_saved s) /\
    (i_ctx2 s = true <-> i_recv s = RGone).

  Lemma expired_stays m m' : mstep m m' -> s_expired m = true -> s_expired m' = true.
  Proof. intros St E. inversion St; subst; cbn in *; congruence. Qed.
  Lemma taken_cons m m' : mstep m m' -> s_given m' <> s_given m -> s_cons m' = CRead.
  Proof. intros St E. inversion St; subst; cbn in *; congruence. Qed.
  Lemma back_stuck m m' : mreach m -> s_cons m = CBack -> ~ mstep m m'.
  Proof. intros R B. apply (back_rest _ _ _ m R B). Qed.

  Lemma expire_meas_ok h om : meas_ok h om -> meas_ok h (option_map expire om).
  Proof.
    pose proof expire_reach as ER.
    destruct h; cbn; intros H; subst; cbn; try reflexivity.
    all: try (destruct H as [->|H]; [left; reflexivity|]; right).
    all: destruct H as (m & -> & H); exists (expire m); split; [reflexivity|].
    all: first [exact (ER _ H) | exact (conj (ER _ (proj1 H)) (proj2 H))].
  Qed.
  Lemma expire_recv_ok h r om n : recv_ok h r om n -> recv_ok h r (option_map expire om) n.
  Proof. destruct h, om; cbn; intuition congruence. Qed.

  Ltac split7 := split; [|split; [|split; [|split; [|split; [|split]]]]].
  Lemma inv_step s t : inv s -> step s t -> inv t.
  Proof.
    intros (A & B & C & D & E & F & G) [St|St].
    - destruct St; cbn [i_main i_recv i_closer i_meas i_ctx i_ctx2 i_open i_gone i_rd i_wd i_late i_saved] in *;
        unfold inv; cbn [i_main i_recv i_closer i_meas i_ctx i_ctx2 i_open i_gone i_rd i_wd i_late i_saved].
      + split7; auto.
        * intuition.
        * apply expire_meas_ok, D.
        * intros _ m' E'. destruct m; inversion E'; reflexivity.
        * apply expire_recv_ok, F.
      + split7; auto.
        * apply (expire_meas_ok h (Some m)), D.
        * intros X m' E'. inversion E'; reflexivity.
        * apply (expire_recv_ok h r (Some m)), F.
      + split7; auto.
      + split7; auto.
      + split7; auto.
      + split7; auto.
        * destruct w, h; try contradiction; intuition congruence.
        * destruct w, h; try contradiction; try exact D; destruct D as (m0 & ? & ? & ?); exists m0; auto.
        * destruct w, h; try contradiction; exact F.
      + split7; auto.
        * destruct h; cbn in *; intuition congruence.
        * split; [|intros ->; intuition congruence]. intros X. apply G in X. discriminate.
    - destruct St; cbn [i_main i_recv i_closer i_meas i_ctx i_ctx2 i_open i_gone i_rd i_wd i_late i_saved] in *;
        unfold inv; cbn [i_main i_recv i_closer i_meas i_ctx i_ctx2 i_open i_gone i_rd i_wd i_late i_saved].
      + split7; auto; intuition.
      + split7; auto; try (intuition congruence). left. exact D. left. destruct F. auto.
      + split7; auto; intuition congruence.
      + split7; auto.
        * intuition congruence.
        * cbn in *. intuition congruence.
        * cbn in F. destruct F as [-> _]. destruct H; subst r'; intuition congruence.
      + split7; auto.
        * intuition congruence.
        * eexists. split; [reflexivity|]. split; [apply new_reach|reflexivity].
        * intros -> m' E'. inversion E'. reflexivity.
      + split7; auto.
        * destruct H; subst h; intuition congruence.
        * destruct H; subst h; [exact D|]. destruct D as (m0 & -> & R & _). exists m0. auto.
        * destruct H; subst h; exact F.
      + split7; auto.
        * intuition congruence.
        * destruct D as (m0 & X & R & _). inversion X; subst m0. exists m'. split; [reflexivity|].
          split; [eapply reachable_step; eauto|]. eapply taken_cons; eauto.
        * intros X m0 Y. inversion Y; subst m0. eapply expired_stays; eauto.
      + split7; auto. intuition congruence.
      + split7; auto. intuition congruence.
      + split7; auto; [intuition congruence|]. destruct D as (m0 & -> & R & _). exists m0. auto.
      + split7; auto; [intuition congruence|]. destruct D as (m0 & -> & R & _). exists m0. auto.
      + split7; auto.
        * destruct h; cbn in *; try discriminate.
          all: try (destruct D as [D|D]; [discriminate|]; right).
          all: destruct D as (m0 & X & D); inversion X; subst m0.
          all: try (exfalso; exact (back_stuck m m' (proj1 D) (proj2 D) H)).
          all: exists m'; split; [reflexivity|].
          all: first [exact (reachable_step _ _ _ _ D H)
                     |(split; [exact (reachable_step _ _ _ _ (proj1 D) H)|destruct D; intuition congruence])].
        * intros X m0 Y. inversion Y; subst m0. eapply expired_stays; eauto.
        * destruct h; cbn in *; intuition congruence.
      + split7; auto; [intuition congruence|]. destruct D as (m0 & X & R). inversion X; subst m0. exists m. auto.
      + split7; auto. intuition congruence.
      + split7; auto.
        * intuition congruence.
        * right. exact D.
        * cbn in F. right. destruct F as [F ->]. destruct D as (m0 & -> & _). intuition congruence.
      + split7; try (split; auto); auto; try reflexivity.
        * intros _ m' X. discriminate.
        * destruct H; subst h; apply F.
      + split7; auto.
        * tauto.
        * apply (expire_meas_ok HBack), D.
        * intros _ m' X. destruct m; inversion X; reflexivity.
        * apply (expire_recv_ok HBack), F.
      + split7; auto; [destruct h; cbn in *; intuition congruence|]. intuition congruence.
      + split7; auto; [destruct h; cbn in *; intuition congruence|]. intuition congruence.
      + split7; auto; [destruct h; cbn in *; intuition congruence|]. intuition congruence.
      + split7; auto; [destruct h; cbn in *; destruct H; subst; intuition congruence|]. destruct H; subst; intuition congruence.
      + split7; auto; [destruct h; cbn in *; intuition congruence|]. intuition congruence.
  Qed.

  Lemma inv_holds s : Reach s -> inv s.
  Proof.
    apply invariant; [|apply inv_step]. intros ? ->. unfold inv; cbn. split7; try (intuition congruence).
  Qed.

  (** ** The end *)

  (** Everything is over: the goroutine of the request has returned, or the process has ended;
      the connection is closed; no goroutine is left. *)
  Definition nothing_left (s : life) : Prop :=
    (i_main s = HBack \/ i_main s = HExit) /\ i_open s = false /\ i_closer s = KDone /\
    (i_recv s = RNone \/ i_recv s = RGone) /\
    match i_meas s with Some m => at_rest m | None => True end.

  Definition main_weight (h : req_at) : nat :=
    match h with
    | HData => 230 | HDo => 220 | HStart => 210 | HSetup => 9 | HLoop => 8 | HWrite _ => 7 | HStop => 6
    | HRecv => 5 | HSave => 4 | HCancel => 3 | HBack | HExit => 0
    end.
  Definition recv_weight (r : recv_at) : nat :=
    match r with RNone => 8 | RHead => 6 | RReply => 5 | RRead => 4 | REnd => 2 | RGone => 0 end.
  Definition flag_weight (b : bool) : nat := if b then 0 else 1.
  Definition life_weight (s : life) : nat :=
    main_weight (i_main s) + recv_weight (i_recv s) + match i_closer s with KWait => 1 | KDone => 0 end +
    match i_meas s with Some m => weight m | None => 0 end +
    flag_weight (i_gone s) + flag_weight (i_rd s) + flag_weight (i_wd s).

  Lemma weight_expire m : weight (expire m) <= weight m.
  Proof. destruct m as [l ti c ts st ex g d t]. unfold weight, expire; cbn. destruct ex; lia. Qed.
  Lemma weight_new t x : weight (new_measurer t x) <= 60.
  Proof. destruct x; cbn; lia. Qed.

  Lemma sys_weight s t : inv s -> i_ctx s = true -> sys s t -> life_weight t < life_weight s.
  Proof.
    intros (A & B & C & D & E & F & G) X St.
    destruct St; unfold life_weight; cbn [i_main i_recv i_closer i_meas i_ctx i_ctx2 i_open i_gone i_rd i_wd i_late i_saved] in *;
      subst; cbn [main_weight recv_weight] in *; try discriminate.
    all: try match goal with H : mstep ?m ?m' |- _ =>
      pose proof (weight_step _ _ _ m m' H (or_intror (E eq_refl m eq_refl))) end.
    all: try (pose proof (weight_new t true)).
    all: try match goal with H : _ \/ _ |- _ => destruct H; subst end; cbn [main_weight recv_weight].
    all: try lia.
    all: try (destruct k; lia).
    destruct m as [m|]; cbn [option_map]; [pose proof (weight_expire m)|]; lia.
  Qed.
  Lemma closed_weight s t : inv s -> i_open s = false -> step s t -> life_weight t < life_weight s.
  Proof.
    intros I O [St|St]; [|apply sys_weight; [exact I| |exact St]; destruct I as (_ & B & _); auto].
    destruct I as (A & B & C & D & E & F & G).
    destruct St; unfold life_weight; cbn [i_main i_recv i_closer i_meas i_ctx i_ctx2 i_open i_gone i_rd i_wd i_late i_saved] in *;
      try discriminate; cbn; try lia.
    all: subst; try (specialize (B eq_refl); discriminate).
    rewrite (E (B eq_refl) m eq_refl) in H. discriminate.
  Qed.

  (** A measurer that has not ended can go on by itself or give a measurement. *)
  Lemma measurer_goes m : mreach m -> s_cons m = CRead -> s_expired m = true -> s_loop m <> LEnd ->
    exists m', mstep m m' /\ s_cons m' = s_cons m.
  Proof.
    intros R C X N. pose proof (shape_holds _ _ _ m R) as (H1 & H2 & H3 & H4).
    destruct m as [l ti c ts st ex g d t]. cbn [s_loop s_tick s_cons s_set s_stop s_expired] in *. subst c ex.
    destruct l; try congruence.
    - eexists. split; [apply m_begin, Z.le_refl|reflexivity].
    - destruct H1 as (-> & _). eexists. split; [apply m_made, sampling_fine|reflexivity].
    - eexists. split; [apply m_assign|reflexivity].
    - destruct ti; [destruct H1; congruence| | | |].
      + eexists. split; [apply t_over, orb_true_r|reflexivity].
      + eexists. split; [apply t_fire, Z.le_refl|reflexivity].
      + eexists. split; [apply t_drop|reflexivity].
      + eexists. split; [apply m_end|reflexivity].
    - eexists. split; [apply m_give|reflexivity].
  Qed.
  Lemma given_same m m' : mstep m m' -> s_cons m <> CRead -> s_given m' = s_given m.
  Proof. intros St N. inversion St; subst; cbn in *; congruence. Qed.
  Definition same_given_dec m m' : mstep m m' -> s_given m' = s_given m \/ s_given m' <> s_given m.
  Proof.
    intros St. inversion St; subst; cbn; try (left; reflexivity). right. intros E.
    apply (f_equal (@List.length _)) in E. rewrite app_length in E. cbn in E. lia.
  Qed.

  Lemma stuck_over s : inv s -> i_ctx s = true -> stuck sys s -> nothing_left s.
  Proof.
    intros I X K. destruct I as (A & B & C & D & E & F & G).
    destruct s as [h r k m x x2 o g rd wd l n]. unfold nothing_left.
    cbn [i_main i_recv i_closer i_meas i_ctx i_ctx2 i_open i_gone i_rd i_wd i_late i_saved] in *. subst x.
    assert (k = KDone) as -> by (destruct k; [exfalso; eapply K, ls_close|reflexivity]).
    assert (o = false) as -> by (apply A; reflexivity).
    assert (P : r = RNone \/ r = RGone).
    { destruct r; auto; exfalso.
      - eapply K, ls_head_done. reflexivity.
      - eapply K, ls_read_failed. auto.
      - eapply K, ls_replied. left. reflexivity.
      - eapply K, ls_cancel2. }
    assert (Q : h = HBack \/ h = HExit).
    { destruct h; auto; exfalso.
      - eapply K, ls_data.
      - eapply K, ls_do. left. reflexivity.
      - eapply K, (ls_start _ _ _ _ 0%Z).
      - eapply K, ls_setup. left. reflexivity.
      - destruct D as (m0 & -> & R & CR). specialize (E eq_refl m0 eq_refl).
        destruct (s_loop m0) eqn:L; try (eapply K, ls_closed; exact L).
        all: destruct (measurer_goes m0 R CR E) as (m' & St & SC); [congruence|].
        all: destruct (same_given_dec m0 m' St) as [SG|SG]; [|eapply K, ls_take; eauto].
        all: eapply K, ls_measurer; [exact St|exact SG|left; exact SC|congruence].
      - eapply K, ls_failed. auto.
      - destruct D as (m0 & -> & R). specialize (E eq_refl m0 eq_refl).
        destruct (s_cons m0) eqn:CM; try (eapply K, ls_stopped; exact CM).
        + destruct m0. cbn in CM. subst. eapply K, ls_measurer; [apply c_stop|reflexivity|right; reflexivity|cbn in *; congruence].
        + destruct (no_deadlock _ _ _ m0 R) as (m' & St & _); [congruence|].
          eapply K, ls_measurer; [exact St|eapply given_same; [exact St|congruence]|right; reflexivity|congruence].
        + destruct (no_deadlock _ _ _ m0 R) as (m' & St & _); [congruence|].
          eapply K, ls_measurer; [exact St|eapply given_same; [exact St|congruence]|right; reflexivity|congruence].
      - eapply K, ls_recv_done. reflexivity.
      - eapply K, ls_saved.
      - eapply K, ls_cancel. }
    split; [exact Q|]. split; [reflexivity|]. split; [reflexivity|]. split; [exact P|].
    destruct m as [m0|]; [|exact Logic.I].
    destruct Q; subst h; cbn in D; [|discriminate].
    destruct D as [D|(m1 & E1 & R & CB)]; [discriminate|]. inversion E1; subst m1.
    split; [exact CB|]. apply (back_rest _ _ _ m0 R CB).
  Qed.

  Lemma ctx_stays s t : inv s -> step s t -> i_ctx s = true -> i_ctx t = true.
  Proof. intros _ [St|St] X; destruct St; cbn in *; congruence. Qed.
  Lemma open_stays s t : step s t -> i_open s = false -> i_open t = false.
  Proof. intros [St|St] X; destruct St; cbn in *; congruence. Qed.

  Lemma ctx_ends s : Reach s -> i_ctx s = true -> inevitable sys nothing_left s.
  Proof.
    remember (life_weight s) as w eqn:E. revert s E. induction w as [w IH] using lt_wf_ind. intros s -> R X.
    pose proof (inv_holds s R) as I. constructor; [apply stuck_over; assumption|]. intros t St.
    eapply IH; [apply (sys_weight s t I X St)|reflexivity|eapply reachable_step; [exact R|right; exact St]|].
    eapply ctx_stays; [exact I|right; exact St|exact X].
  Qed.
  Lemma closed_ends s : Reach s -> i_open s = false -> inevitable step nothing_left s.
  Proof.
    remember (life_weight s) as w eqn:E. revert s E. induction w as [w IH] using lt_wf_ind. intros s -> R O.
    pose proof (inv_holds s R) as I. constructor.
    - intros K. apply stuck_over; [exact I|exact (proj1 (proj2 I) O)|]. intros t St. eapply K. right. exact St.
    - intros t St. eapply IH; [apply (closed_weight s t I O St)|reflexivity|eapply reachable_step; eauto|].
      eapply open_stays; eauto.
  Qed.
  Lemma ctx_later s t : Reach s -> i_ctx s = true -> later step s t -> Reach t /\ i_ctx t = true.
  Proof.
    intros R X L. induction L as [|t u L IH St]; [auto|]. destruct IH as [R' X'].
    split; [eapply reachable_step; eauto|]. eapply ctx_stays; [apply inv_holds, R'|exact St|exact X'].
  Qed.

  (** Before the connection is closed, closing it is possible from when the context is done
      until it is done, and nothing else closes it. *)
  Lemma closer_ready s : Reach s -> i_ctx s = true -> i_open s = true -> exists t, sys s t /\ i_open t = false.
  Proof.
    intros R X O. destruct (inv_holds s R) as (A & _). destruct s as [h r k m x x2 o g rd wd l n]. cbn in *. subst.
    destruct k; [|destruct A as [A _]; specialize (A eq_refl); discriminate].
    eexists. split; [apply ls_close|reflexivity].
  Qed.

  (** ** Reasons *)

  Lemma ctx_reason s : Reach s -> i_ctx s = true -> i_late s = true \/ i_main s = HBack \/ i_main s = HExit.
  Proof. intros R. destruct (inv_holds s R) as (_ & _ & C & _). apply C. Qed.
  Lemma closed_reason s : Reach s -> i_open s = false -> i_late s = true \/ i_main s = HBack \/ i_main s = HExit.
  Proof. intros R O. apply ctx_reason; [exact R|]. exact (proj1 (proj2 (inv_holds s R)) O). Qed.

  (** The results: one for each request that had data, by the time it returned. *)
  Lemma saved_once s : Reach s -> i_main s = HBack ->
    (i_recv s = RNone /\ i_saved s = 0) \/ (i_recv s <> RNone /\ i_saved s = 1).
  Proof. intros R B. destruct (inv_holds s R) as (_ & _ & _ & _ & _ & F & _). rewrite B in F. cbn in F. tauto. Qed.

  (** A write after its deadline fails, and nothing else can come of it. *)
  Lemma late_write s w : i_main s = HWrite w -> i_wd s = true ->
    (exists t, sys s t /\ i_main t = HStop) /\
    (forall t, step s t -> i_main t = HWrite w \/ i_main t = HStop).
  Proof.
    intros M W. destruct s as [h r k m x x2 o g rd wd l n]. cbn in M, W. subst. split.
    - eexists. split; [apply ls_failed; auto|reflexivity].
    - intros t [St|St]; inversion St; subst; cbn; auto; intuition discriminate.
  Qed.

  (** The receiver ends once its deadline has passed, whatever happens meanwhile. *)
  Definition recv_rank (r : recv_at) : nat :=
    match r with RNone => 4 | RReply => 3 | RHead => 3 | RRead => 2 | REnd => 1 | RGone => 0 end.
  Lemma receiver_steps s : Reach s -> i_rd s = true -> i_recv s <> RNone ->
    (i_recv s <> RGone -> exists t, sys s t /\ i_recv t <> i_recv s) /\
    (forall t, step s t -> i_rd t = true /\ i_recv t <> RNone /\
       (i_recv t = i_recv s \/ recv_rank (i_recv t) < recv_rank (i_recv s))).
  Proof.
    intros R D N. destruct (inv_holds s R) as (_ & _ & _ & _ & _ & F & _).
    destruct s as [h r k m x x2 o g rd wd l n]. cbn in D, N, F. subst. split.
    - intros M. cbn in M. destruct r; try (exfalso; congruence).
      + eexists. split; [apply ls_head_done; apply orb_true_r|cbn; discriminate].
      + eexists. split; [apply ls_read_failed; auto|cbn; discriminate].
      + eexists. split; [apply (ls_replied _ _ _ _ RRead); auto|cbn; discriminate].
      + eexists. split; [apply ls_cancel2|cbn; discriminate].
    - intros t [St|St]; inversion St; subst; cbn [i_rd i_recv] in *; try discriminate; (split; [reflexivity|]); auto.
      all: try (cbn in F; intuition congruence).
      all: repeat match goal with H : _ \/ _ |- _ => destruct H; subst end; cbn; (split; [discriminate|]); auto.
      all: destruct r; auto; right; cbn; lia.
  Qed.

  (** A client that is silent after the sender has ended. *)
  Lemma silent s : Reach s -> i_main s = HRecv -> i_recv s = RRead -> i_ctx s = false -> i_gone s = false ->
    i_rd s = false -> i_open s = true /\ stuck sys s.
  Proof.
    intros R M V X G D. destruct (inv_holds s R) as (A & B & C & DD & E & F & H).
    destruct s as [h r k m x x2 o g rd wd l n]. cbn in *. subst.
    assert (o = true) as -> by (destruct o; [reflexivity|]; specialize (B eq_refl); discriminate).
    assert (x2 = false) as -> by (destruct x2; [destruct H as [H _]; specialize (H eq_refl); discriminate|reflexivity]).
    split; [reflexivity|]. intros t St. inversion St; subst; try discriminate.
    all: try (intuition discriminate).
    destruct DD as (m1 & E1 & Rm & CB). inversion E1; subst m1. eapply back_stuck; eassumption.
  Qed.

  Lemma quiet_run : exists s, Reach s /\ i_main s = HRecv /\ i_recv s = RRead /\ i_late s = false /\ i_ctx s = false /\
    i_gone s = false /\ i_rd s = false /\ i_saved s = 0.
  Proof.
    eexists. split; [eexists; split; [reflexivity|]|].
    - eapply later_front; [right; apply ls_data|].
      eapply later_front; [right; apply (ls_do _ _ _ _ RHead); auto|].
      eapply later_front; [right; apply (ls_start _ _ _ _ 0%Z)|].
      eapply later_front; [right; apply (ls_setup _ _ _ _ HLoop); auto|].
      eapply later_front; [right; apply ls_head; reflexivity|].
      eapply later_front; [right; eapply ls_measurer; [apply m_begin, Z.le_refl|reflexivity|left; reflexivity|discriminate]|].
      eapply later_front; [right; eapply ls_measurer; [apply m_made, sampling_fine|reflexivity|left; reflexivity|discriminate]|].
      eapply later_front; [right; eapply ls_measurer; [apply m_assign|reflexivity|left; reflexivity|discriminate]|].
      eapply later_front; [left; apply le_runtime; reflexivity|]. unfold expire; cbn.
      eapply later_front; [right; eapply ls_measurer; [apply t_over; reflexivity|reflexivity|left; reflexivity|discriminate]|].
      eapply later_front; [right; eapply ls_measurer; [apply m_end|reflexivity|left; reflexivity|discriminate]|].
      eapply later_front; [right; apply ls_closed; reflexivity|].
      eapply later_front; [right; apply ls_closing|].
      eapply later_front; [right; eapply ls_measurer; [apply c_stop|reflexivity|right; reflexivity|discriminate]|].
      eapply later_front; [right; eapply ls_measurer; [apply c_ticker|reflexivity|right; reflexivity|discriminate]|].
      eapply later_front; [right; eapply ls_measurer; [apply c_back|reflexivity|right; reflexivity|discriminate]|].
      eapply later_front; [right; apply ls_stopped; reflexivity|]. constructor.
    - cbn. repeat split.
  Qed.
  Lemma silent_client : exists s, Reach s /\
    i_main s = HRecv /\ i_open s = true /\ i_recv s = RRead /\ i_late s = false /\ stuck sys s.
  Proof.
    destruct quiet_run as (s & R & M & V & L & X & G & D & _). exists s.
    destruct (silent s R M V X G D) as [O K]. auto 10.
  Qed.
  Lemma returned_run : exists s, Reach s /\ i_main s = HBack /\ i_saved s = 1 /\ i_open s = true /\ i_recv s = RRead.
  Proof.
    destruct quiet_run as (s & R & M & V & L & X & G & D & N). destruct (silent s R M V X G D) as [O _].
    destruct s as [h r k m x x2 o g rd wd l n]. cbn in *. subst.
    eexists. split.
    - eapply reachable_later; [exact R|].
      eapply later_front; [left; apply le_late|].
      eapply later_front; [right; apply ls_recv_done; reflexivity|].
      eapply later_front; [right; apply ls_saved|].
      eapply later_front; [right; apply ls_cancel|]. constructor.
    - cbn. auto.
  Qed.
End Proofs.
