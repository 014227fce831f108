(** Proofs about the measurer. *)
From Coq Require Import String ZArith List Bool Lia Sorting.Sorted.
From Verif Require Import Base Web100Model Ndt7Model Lts MeasurerModel MeasurerSpec.
Import ListNotations.
Open Scope Z_scope.
Ltac Zify.zify_post_hook ::= Z.to_euclidean_division_equations.

Section Proofs.
  Variables client server uuid : bytes.
  Notation step := (m_step client server uuid).
  Notation Reach := (m_reachable client server uuid).

  Lemma sampling_fine : sampling_ok sampling_min sampling_expected sampling_max = true.
  Proof. reflexivity. Qed.

  (** ** Shape of the reachable states *)
  Definition shape (s : mstate) : Prop :=
    match s_loop s with
    | LBoot | LBegun _ => s_tick s = TNone /\ s_set s = false /\ s_stop s = false
    | LMade _ => s_tick s <> TNone /\ s_set s = false /\ s_stop s = false
    | LRange _ | LSend _ _ => s_tick s <> TNone /\ s_set s = true
    | LEnd => s_tick s = TClosed /\ s_expired s = true
    end /\
    (s_stop s = true -> s_set s = true /\ (s_cons s = CDrain \/ s_cons s = CBack)) /\
    (s_cons s = CBack -> s_loop s = LEnd) /\
    (s_tick s = TClosed -> s_stop s = true \/ s_expired s = true).

  Lemma shape_holds s : Reach s -> shape s.
  Proof.
    apply invariant.
    - intros ? (t & ->). unfold shape; cbn. repeat split; congruence.
    - intros x y (H1 & H2 & H3 & H4) St. pose proof sampling_fine as SF.
      inversion St; subst; unfold shape in *; cbn [s_loop s_tick s_cons s_set s_stop s_expired] in *;
        try congruence; repeat split; try (intuition congruence).
      all: try (destruct H1 as (E1 & E2); try destruct E2; subst; cbn; try congruence; intuition congruence).
      all: try (destruct l; intuition congruence).
      all: try match goal with H : _ || _ = true |- _ => apply orb_prop in H; intuition congruence end.
      all: destruct l, ts, st; cbn; intuition congruence.
  Qed.

  (** ** Stop *)
  Lemma back_rest s : Reach s -> s_cons s = CBack -> all_over s /\ stuck step s.
  Proof.
    intros R B. pose proof (shape_holds s R) as (H1 & H2 & H3 & H4). specialize (H3 B). rewrite H3 in H1.
    destruct H1 as [T X]. split; [split; [exact H3|right; exact T]|].
    intros t St. inversion St; subst; cbn in *; congruence.
  Qed.

  (** ** Termination *)
  Definition weight (s : mstate) : nat :=
    match s_loop s with LBoot => 52 | LBegun _ => 51 | LMade _ => 5 | LRange _ => 2 | LSend _ _ => 3 | LEnd => 0 end +
    match s_tick s with TNone => 0 | TCheck => 10 | TWait => 30 | TOffer _ => 20 | TClosed => 0 end +
    match s_cons s with CRead => 3 | CStop => 2 | CDrain => 1 | CBack => 0 end +
    if s_expired s then 0 else 1.

  Definition over (s : mstate) : Prop := s_stop s = true \/ s_expired s = true.

  Lemma over_step s t : step s t -> over s -> over t.
  Proof. intros St H. unfold over in *. inversion St; subst; cbn in *; rewrite ?orb_true_iff; intuition congruence. Qed.

  Lemma weight_step s t : step s t -> over s -> (weight t < weight s)%nat.
  Proof.
    intros St H. unfold over in H. inversion St; subst; unfold weight; cbn [s_loop s_tick s_cons s_expired s_stop] in *;
      try (destruct ex); try (destruct l); try (destruct ti); try destruct c; try lia.
    all: intuition discriminate.
  Qed.

  (** A state in which nothing can happen is one of rest. *)
  Lemma stuck_rest s : Reach s -> stuck step s -> at_rest s.
  Proof.
    intros R K. pose proof (shape_holds s R) as (H1 & H2 & H3 & H4).
    destruct s as [l ti c ts st ex g d t]. unfold at_rest, all_over in *. cbn [s_loop s_tick s_cons s_set s_stop s_expired] in *.
    assert (EX : ex = true). { destruct ex; [reflexivity|]. exfalso. eapply K, e_expire. } subst ex.
    destruct c; [exfalso; eapply K, c_stop|exfalso; eapply K, c_ticker| |].
    - exfalso. destruct l.
      + eapply K, m_begin, Z.le_refl.
      + destruct H1 as (-> & _). eapply K, m_made, sampling_fine.
      + eapply K, m_assign.
      + destruct ti; [destruct H1; congruence| | | |].
        * eapply K, t_over. apply orb_true_r.
        * eapply K, t_fire, Z.le_refl.
        * eapply K, t_drop.
        * eapply K, m_end.
      + eapply K, m_drain.
      + eapply K, c_back.
    - rewrite (H3 eq_refl) in *. destruct H1 as [-> _]. auto.
  Qed.

  Lemma over_inevitable s : Reach s -> over s -> inevitable step at_rest s.
  Proof.
    remember (weight s) as w eqn:E. revert s E. induction w as [w IH] using lt_wf_ind. intros s -> R O.
    constructor; [apply stuck_rest, R|]. intros t St.
    eapply IH; [apply (weight_step s t St O)|reflexivity|eapply reachable_step; eauto|eapply over_step; eauto].
  Qed.

  (** Steps of the three goroutines alone: the context does not expire from outside. *)
  Definition alone (s t : mstate) : Prop :=
    step s t /\ (s_expired s = false -> s_expired t = true -> s_loop t = LEnd).

  Lemma no_deadlock s : Reach s -> s_cons s <> CBack -> exists t, alone s t.
  Proof.
    intros R B. pose proof (shape_holds s R) as (H1 & H2 & H3 & H4). unfold alone.
    destruct s as [l ti c ts st ex g d t]. cbn [s_loop s_tick s_cons s_set s_stop s_expired] in *.
    destruct c; [| | |congruence].
    - eexists. split; [apply c_stop|]. cbn. congruence.
    - eexists. split; [apply c_ticker|]. cbn. congruence.
    - destruct l.
      + eexists. split; [apply m_begin, Z.le_refl|]. cbn. congruence.
      + destruct H1 as (-> & _). eexists. split; [apply m_made, sampling_fine|]. cbn. congruence.
      + eexists. split; [apply m_assign|]. cbn. congruence.
      + destruct ti; [destruct H1; congruence| | | |].
        * destruct (st || ex) eqn:O.
          -- eexists. split; [apply t_over, O|]. cbn. congruence.
          -- apply orb_false_iff in O as [-> ->]. eexists. split; [apply t_go|]. cbn. congruence.
        * eexists. split; [apply t_fire, Z.le_refl|]. cbn. congruence.
        * eexists. split; [apply t_drop|]. cbn. congruence.
        * eexists. split; [apply m_end|]. cbn. congruence.
      + eexists. split; [apply m_drain|]. cbn. congruence.
      + eexists. split; [apply c_back|]. cbn. congruence.
  Qed.

  (** If the consumer's Stop finds m.ticker set, the end is inevitable. *)
  Lemma stop_inevitable s t : Reach s -> s_cons s = CStop -> s_set s = true ->
    step s t -> s_cons t = CDrain -> inevitable step at_rest t.
  Proof.
    intros R C S0 St D. apply over_inevitable; [eapply reachable_step; eauto|].
    left. inversion St; subst; cbn in *; try congruence. subst. reflexivity.
  Qed.

  (** ** Stop before m.ticker is set *)
  Lemma later_alone s t : later alone s t -> later step s t.
  Proof. induction 1; [constructor|]. econstructor; [eassumption|]. apply H0. Qed.

  Lemma early_stop (t0 : Z) : exists s, Reach s /\ s_cons s = CDrain /\ s_expired s = false /\
    forall n, exists t, later step s t /\ s_cons t = CDrain /\ s_expired t = false /\
      (List.length (s_drained t) = n)%nat.
  Proof.
    set (ci := ConnInfo client server uuid t0).
    exists (MS (LRange ci) TCheck CDrain true false false [] [] t0). split; [|split; [reflexivity|split; [reflexivity|]]].
    - exists (MS LBoot TNone CRead false false false [] [] t0). split; [exists t0; reflexivity|].
      eapply later_front; [apply m_begin, Z.le_refl|].
      eapply later_front; [apply c_stop|].
      eapply later_front; [apply c_ticker|].
      eapply later_front; [apply m_made, sampling_fine|].
      eapply later_front; [apply m_assign|]. constructor.
    - intros n. enough (H : exists d, (List.length d = n)%nat /\
        later step (MS (LRange ci) TCheck CDrain true false false [] [] t0) (MS (LRange ci) TCheck CDrain true false false [] d t0)).
      { destruct H as (d & L & H). eexists. split; [exact H|]. cbn. auto. }
      induction n as [|n (d & L & H)]; [exists []; split; [reflexivity|constructor]|].
      exists (d ++ [take ci t0 None None]). split; [rewrite app_length; cbn; lia|].
      eapply later_trans; [exact H|].
      eapply later_front; [apply t_go|].
      eapply later_front; [apply t_fire, Z.le_refl|].
      eapply later_front; [apply (m_tick client server uuid ci t0 None None)|].
      eapply later_front; [apply m_drain|]. constructor.
  Qed.

  (** ** The measurements *)
  Lemma take_sample start now bbr tcp : start <= now ->
    sample client server uuid start (take (ConnInfo client server uuid start) now bbr tcp).
  Proof.
    intros L. unfold take, read_info. destruct tcp as [i|]; cbn.
    - split; [reflexivity|]. split; [reflexivity|]. right. eexists _, _, _. split; [reflexivity|]. split; [reflexivity|].
      cbn. apply Z.quot_pos; lia.
    - split; [reflexivity|]. split; [reflexivity|]. left. auto.
  Qed.

  (** [timed start until ms]: samples with elapsed times in order, the last not after
      [until]. *)
  Definition timed (start until : Z) (ms : list measurement) : Prop :=
    Forall (sample client server uuid start) ms /\ StronglySorted Z.le (elapsed_times ms) /\
    Forall (fun e => 1000 * e <= until - start) (elapsed_times ms).

  Lemma sorted_snoc l x : StronglySorted Z.le l -> Forall (fun y => y <= x) l -> StronglySorted Z.le (l ++ [x]).
  Proof.
    induction 1 as [|a l S IH F]; intros G; cbn; [repeat constructor|]. inversion G; subst.
    constructor; [apply IH; assumption|]. apply Forall_app. split; [exact F|]. constructor; [assumption|constructor].
  Qed.

  Lemma timed_later start u u' ms : timed start u ms -> u <= u' -> timed start u' ms.
  Proof. intros (A & B & C) L. split; [exact A|split; [exact B|]]. eapply Forall_impl; [|exact C]. cbn. intros. lia. Qed.

  Lemma timed_take start u ms now bbr tcp : timed start u ms -> start <= now -> u <= now ->
    timed start now (ms ++ [take (ConnInfo client server uuid start) now bbr tcp]).
  Proof.
    intros (A & B & C) L1 L2. unfold timed, elapsed_times. rewrite flat_map_app.
    split; [apply Forall_app; split; [exact A|]; constructor; [apply take_sample, L1|constructor]|].
    fold (elapsed_times ms). unfold take, read_info. destruct tcp as [i|]; cbn [flat_map m_tcp app].
    - cbn [ci_start]. split.
      + apply sorted_snoc; [exact B|]. eapply Forall_impl; [|exact C]. intros e He. cbv beta in He |- *.
        apply Z.quot_le_lower_bound; lia.
      + apply Forall_app. split; [eapply Forall_impl; [|exact C]; cbn; intros; lia|]. constructor; [|constructor].
        apply Z.mul_quot_le; lia.
    - rewrite app_nil_r. split; [exact B|]. eapply Forall_impl; [|exact C]. cbn. intros. lia.
  Qed.

  (** What has been received, then the measurement being sent, then the tick being
      offered. *)
  Definition pending (l : loop_at) : list measurement := match l with LSend _ m => [m] | _ => [] end.
  Definition got (s : mstate) : list measurement := s_given s ++ s_drained s.

  Definition in_order (s : mstate) : Prop :=
    (s_drained s <> [] -> s_cons s = CDrain \/ s_cons s = CBack) /\
    match s_loop s with
    | LBoot => got s = []
    | LBegun ci => got s = [] /\ exists start, ci = ConnInfo client server uuid start /\ start <= s_clock s
    | LMade ci | LRange ci | LSend ci _ =>
        exists start u, ci = ConnInfo client server uuid start /\ start <= u <= s_clock s /\
          timed start u (got s ++ pending (s_loop s)) /\
          (forall now, s_tick s = TOffer now -> u <= now <= s_clock s)
    | LEnd => exists start u, timed start u (got s)
    end.

  Lemma timed_nil start u : timed start u [].
  Proof. repeat split; constructor. Qed.

  Lemma in_order_holds s : Reach s -> in_order s.
  Proof.
    assert (G : forall s, Reach s -> Reach s /\ in_order s).
    { apply invariant.
      - intros ? (t & ->). split; [apply reachable_init; exists t; reflexivity|]. split; [cbn; congruence|reflexivity].
      - intros x y [Rx [D H]] St. split; [eapply reachable_step; eauto|].
        pose proof (shape_holds x Rx) as (H1 & H2 & H3 & H4). pose proof sampling_fine as SF.
        inversion St; subst; unfold in_order, got in *;
          cbn [s_loop s_tick s_cons s_set s_stop s_expired s_given s_drained s_clock pending] in *; try congruence;
          (split; [intuition congruence|]).
        + split; [exact H|]. eexists. split; [reflexivity|lia].
        + destruct H as (E & start & -> & L). exists start, t. split; [reflexivity|]. split; [lia|].
          rewrite E. split; [apply timed_nil|congruence].
        + destruct H as (start & u & -> & L & T & F). exists start, u. auto.
        + destruct H as (start & u & -> & L & T & F). specialize (F now eq_refl). rewrite app_nil_r in T.
          exists start, now. split; [reflexivity|]. split; [lia|]. split; [|congruence].
          eapply timed_take; [exact T|lia|lia].
        + destruct H as (start & u & -> & L & T & F). exists start, u. split; [reflexivity|]. split; [exact L|].
          split; [|exact F]. assert (d = []) as -> by (destruct d; [reflexivity|]; exfalso; destruct D as [D|D]; congruence).
          rewrite !app_nil_r in *. exact T.
        + destruct H as (start & u & -> & L & T & F). exists start, u. split; [reflexivity|]. split; [exact L|].
          split; [|exact F]. rewrite app_nil_r. rewrite <- app_assoc in T. exact T.
        + destruct H as (start & u & -> & L & T & F). rewrite app_nil_r in T. eauto.
        + destruct l; try exact H; destruct H as (start & u & -> & L & T & F); exists start, u; repeat split; try apply T; try lia; congruence.
        + destruct l; try exact H; destruct H as (start & u & -> & L & T & F); exists start, u; repeat split; try apply T; try lia; congruence.
        + destruct l; try exact H.
          1: { destruct H as (E & start & -> & L). split; [exact E|]. exists start. split; [reflexivity|lia]. }
          all: destruct H as (start & u & -> & L & T & F); exists start, u; split; [reflexivity|]; split; [lia|]; split; [exact T|];
            intros now E; injection E as <-; lia.
        + destruct l; try exact H; destruct H as (start & u & -> & L & T & F); exists start, u; repeat split; try apply T; try lia; congruence.
        + destruct l; try exact H; destruct H as (start & u & -> & L & T & F); exists start, u; repeat split; try apply T; try lia; congruence.
        + exact H. + exact H. + exact H. + exact H. }
    intros R. apply G, R.
  Qed.

  Lemma samples s : Reach s -> exists start,
    Forall (sample client server uuid start) (s_given s ++ s_drained s) /\
    StronglySorted Z.le (elapsed_times (s_given s ++ s_drained s)).
  Proof.
    intros R. destruct (in_order_holds s R) as [_ H]. fold (got s).
    destruct (s_loop s) eqn:E.
    - rewrite H. exists 0. split; constructor.
    - destruct H as (-> & _). exists 0. split; constructor.
    - destruct H as (start & u & _ & _ & T & _). cbn in T. rewrite app_nil_r in T. exists start. split; apply T.
    - destruct H as (start & u & _ & _ & T & _). cbn in T. rewrite app_nil_r in T. exists start. split; apply T.
    - destruct H as (start & u & _ & _ & (A & B & C) & _). exists start. split.
      + apply Forall_app in A. apply A.
      + unfold elapsed_times in *. rewrite flat_map_app in B. revert B. generalize (flat_map (fun m0 => match m_tcp m0 with Some (_, e) => [e] | None => [] end) (got s)).
        intros l. generalize (flat_map (fun m0 => match m_tcp m0 with Some (_, e) => [e] | None => [] end) (pending (LSend ci m))).
        intros l' B. induction l as [|a l IH]; [constructor|]. inversion B; subst. constructor; [auto|].
        apply Forall_app in H2. apply H2.
    - destruct H as (start & u & T). exists start. split; apply T.
  Qed.
End Proofs.
