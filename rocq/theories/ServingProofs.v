(** Proofs about the single-use test servers. *)
From Coq Require Import List Bool Arith Lia.
From Verif Require Import Lts ServingModel.
Import ListNotations.

Ltac fields := cbn [v_main v_serve v_flight v_close v_parent v_cancel v_close_err v_conn v_err v_conns
                    v_closers v_stops v_accepts v_requests v_broke] in *.

(** ** WS and WSS *)

(** What ServeOnce is going to return. *)
Definition outcome (m : once_at) : option (option nat * option werr) :=
  match m with MLeaving r | MDone r => Some r | _ => None end.

Ltac by_steps P :=
  apply (invariant ws_init ws_step P);
  [intros ? ->; fields|intros x y H St; inversion St; subst; fields].

Lemma accepts_zero s : ws_reachable s -> v_accepts s = 0.
Proof. by_steps (fun s => v_accepts s = 0); auto. Qed.

Lemma stops_once s : ws_reachable s -> v_stops s = match v_close s with Fresh => 0 | _ => 1 end.
Proof. by_steps (fun s => v_stops s = match v_close s with Fresh => 0 | _ => 1 end); congruence. Qed.

Lemma done_over s : ws_reachable s -> forall r, v_main s = MDone r -> v_close s = Over.
Proof.
  by_steps (fun s => forall r, v_main s = MDone r -> v_close s = Over); intros r0 E; try congruence; eauto.
  all: try (specialize (H _ E); congruence).
  - destruct c, x0 as [[]|]; cbn in *; congruence.
  - destruct c, e; congruence.
Qed.

Lemma err_form s : ws_reachable s -> forall e, v_err s = Some e -> exists n, e = UpgradeFailed n.
Proof.
  by_steps (fun s => forall e, v_err s = Some e -> exists n, e = UpgradeFailed n); intros e0 E; try congruence; eauto.
  injection E as <-. eauto.
Qed.

Lemma members s : ws_reachable s ->
  (forall c, In (FUpgraded c) (v_flight s) -> In c (v_conns s)) /\
  (forall c, v_conn s = Some c -> In c (v_conns s)) /\
  (forall c e, outcome (v_main s) = Some (Some c, e) -> In c (v_conns s)).
Proof.
  by_steps (fun s =>
    (forall c, In (FUpgraded c) (v_flight s) -> In c (v_conns s)) /\
    (forall c, v_conn s = Some c -> In c (v_conns s)) /\
    (forall c e, outcome (v_main s) = Some (Some c, e) -> In c (v_conns s))).
  { repeat split; cbn; intros; try tauto; congruence. }
  all: destruct H as (H1 & H2 & H3).
  all: split; [|split]; intros; rewrite ?in_app_iff in *; cbn [In outcome] in *;
    try (eapply H1; rewrite ?in_app_iff; cbn [In]; intuition congruence); eauto.
  - destruct H as [H|[H|H]]; [left; apply H1; rewrite in_app_iff; auto|injection H as <-; auto|].
    left. apply H1. rewrite in_app_iff. cbn. auto.
  - destruct c, x0 as [[]|]; cbn in *; congruence.
  - destruct c, e; cbn in *; congruence.
  - injection H as -> ->. auto.
Qed.

Lemma result_real s : ws_reachable s ->
  (v_main s = MFinal -> v_conn s <> None \/ v_err s <> None) /\ outcome (v_main s) <> Some (None, None).
Proof.
  by_steps (fun s => (v_main s = MFinal -> v_conn s <> None \/ v_err s <> None) /\ outcome (v_main s) <> Some (None, None)).
  { split; cbn; congruence. }
  all: try (destruct H as (H1 & H2)).
  all: try (split; [exact H1|exact H2]).
  all: try (split; [intros E; specialize (H1 E); intuition congruence|exact H2]).
  all: try (split; cbn; congruence).
  all: try (split; [discriminate|exact H2]).
  - destruct c, x0 as [[]|]; cbn; split; congruence.
  - destruct c, e; cbn; split; try congruence; intros _; try (left; congruence); right; congruence.
  - split; [congruence|]. cbn. specialize (H1 eq_refl). intuition congruence.
Qed.

Lemma result_errors s : ws_reachable s ->
  (forall e, outcome (v_main s) = Some (None, Some e) ->
     e = NoConnection \/ e = DidNotClose \/ exists n, e = UpgradeFailed n) /\
  (forall c e, outcome (v_main s) = Some (Some c, Some e) -> exists n, e = UpgradeFailed n).
Proof.
  intros R. assert (G : forall s, ws_reachable s -> ws_reachable s /\
    ((forall e, outcome (v_main s) = Some (None, Some e) ->
       e = NoConnection \/ e = DidNotClose \/ exists n, e = UpgradeFailed n) /\
     (forall c e, outcome (v_main s) = Some (Some c, Some e) -> exists n, e = UpgradeFailed n))).
  { apply (invariant ws_init ws_step).
    - intros ? ->. split; [apply reachable_init; reflexivity|]. split; cbn; congruence.
    - intros x y [Rx H] St. split; [eapply reachable_step; eauto|]. pose proof (err_form x Rx) as EF. clear Rx R.
      inversion St; subst; fields; destruct H as [H1 H2]; try (split; [exact H1|exact H2]).
      all: try (split; cbn; congruence).
      + destruct c, x0 as [[]|]; cbn; split; intros; try congruence; injection H as <-; auto.
      + destruct c, e; cbn; split; intros; try congruence. injection H as <-; auto.
      + split; cbn; intros; inversion H; subst; eauto. }
  apply G, R.
Qed.

(** *** ServeOnce returns *)
Definition left_to_do (s : ws_state) : nat :=
  match v_main s with MWait => 6 | MWoken => 5 | MFirst _ => 4 | MSecond => 3 | MFinal => 2 | MLeaving _ => 1 | MDone _ => 0 end +
  match v_close s with Fresh => 3 | Counted => 2 | Unlistened => 1 | Over => 0 end.

Lemma left_mono s t : ws_step s t -> left_to_do t <= left_to_do s.
Proof.
  intros St. inversion St; subst; unfold left_to_do; fields; try lia.
  - destruct c, x as [[]|]; cbn; lia.
  - destruct c, e; lia.
Qed.

Lemma left_progress s : v_parent s = true \/ v_cancel s = true -> (forall r, v_main s <> MDone r) ->
  exists t, ws_step s t /\ left_to_do t < left_to_do s.
Proof.
  destruct s as [m v f cl p ca ce c e cs k st ac rq br]. fields. intros W D.
  destruct m.
  - eexists. split; [apply w_wake; destruct W as [-> | ->]; [reflexivity|apply orb_true_r]|]. unfold left_to_do; fields. lia.
  - eexists. split; [apply w_copy|]. unfold left_to_do; fields. lia.
  - eexists. split; [apply w_first|]. unfold left_to_do; fields. destruct c, err as [[]|]; cbn; lia.
  - eexists. split; [apply w_second|]. unfold left_to_do; fields. destruct c, e; lia.
  - eexists. split; [apply w_final|]. unfold left_to_do; fields. lia.
  - destruct cl.
    + eexists. split; [apply w_begin_main|]. unfold left_to_do; fields. lia.
    + eexists. split; [apply w_unlisten|]. unfold left_to_do; fields. lia.
    + eexists. split; [apply w_over|]. unfold left_to_do; fields. lia.
    + eexists. split; [apply w_done|]. unfold left_to_do; fields. lia.
  - destruct (D r eq_refl).
Qed.

(** *** One client *)
Definition single (s : ws_state) : Prop :=
  v_requests s <= 1 ->
  (v_requests s = 0 -> v_flight s = [] /\ v_conn s = None /\ v_err s = None /\ v_conns s = [] /\ v_closers s = 0) /\
  (v_requests s = 1 ->
     (v_flight s = [FStart] /\ v_conn s = None /\ v_err s = None /\ v_conns s = [] /\ v_closers s = 0) \/
     (v_flight s = [FUpgraded 0] /\ v_conn s = None /\ v_err s = None /\ v_conns s = [0] /\ v_closers s = 0) \/
     (v_flight s = [FStored] /\ v_conn s = Some 0 /\ v_err s = None /\ v_conns s = [0] /\ v_closers s = 0) \/
     (v_flight s = [] /\ v_conn s = Some 0 /\ v_err s = None /\ v_conns s = [0] /\ v_closers s = 1) \/
     (v_flight s = [] /\ v_conn s = None /\ v_err s <> None /\ v_conns s = [] /\ v_closers s = 0)).

Lemma one_middle {A} (l l' : list A) x y : l ++ x :: l' = [y] -> l = [] /\ l' = [] /\ x = y.
Proof. destruct l as [|a l]; cbn; [intros [= -> ->]; auto|]. destruct l; discriminate. Qed.
Lemma nil_middle {A} (l l' : list A) x : l ++ x :: l' = [] -> False.
Proof. destruct l; discriminate. Qed.

Ltac middles := repeat match goal with
  | H : _ ++ _ :: _ = [_] |- _ => apply one_middle in H; destruct H as (? & ? & ?); subst
  | H : _ ++ _ :: _ = [] |- _ => apply nil_middle in H; contradiction
  end.

Lemma single_holds s : ws_reachable s -> single s.
Proof.
  by_steps single.
  { unfold single; fields. intros _. split; [auto|discriminate]. }
  all: unfold single in *; fields; intros L; try (exact (H L)).
  { split; [discriminate|]. intros E. injection E as E. subst. destruct (H ltac:(lia)) as [H' _].
    destruct (H' eq_refl) as (-> & -> & -> & -> & ->). left. auto. }
  all: destruct (H L) as [G1 G2]; split; intros E;
    [destruct (G1 E) as (? & _); middles|].
  all: destruct (G2 E) as [(F & ? & ? & ? & ?)|[(F & ? & ? & ? & ?)|[(F & ? & ? & ? & ?)|[(F & ? & ? & ? & ?)|(F & ? & ? & ? & ?)]]]];
    subst; middles; try discriminate; cbn.
  all: try match goal with X : FUpgraded _ = FUpgraded _ |- _ => injection X as -> end.
  all: try (left; repeat split; congruence).
  all: try (right; left; repeat split; congruence).
  all: try (right; right; left; repeat split; congruence).
  all: try (right; right; right; left; repeat split; congruence).
  all: right; right; right; right; repeat match goal with |- _ /\ _ => split end; solve [reflexivity|discriminate].
Qed.

Definition waking (s : ws_state) : Prop :=
  v_parent s = false -> v_broke s = false ->
  (v_main s <> MWait -> 1 <= v_closers s) /\ (v_close s <> Fresh -> 1 <= v_closers s) /\
  (v_serve s <> SServe -> v_close s <> Fresh) /\ (v_cancel s = true -> v_serve s = SEnded).

Lemma waking_holds s : ws_reachable s -> waking s.
Proof.
  by_steps waking.
  { unfold waking. fields. intuition congruence. }
  all: unfold waking in *; fields; intros P B; try congruence; try (specialize (H P B)).
  all: try match type of H with _ /\ _ => destruct H as (H1 & H2 & H3 & H4) end.
  all: try ((split; [|split; [|split]]); intuition (try congruence; try lia); fail).
  - destruct cl; try discriminate B; specialize (H P B); destruct H as (H1 & H2 & H3 & H4); (split; [|split; [|split]]); try assumption; try congruence;
      intros X; specialize (H4 X); congruence.
  - rewrite P in H0. cbn in H0.
    assert (K : 1 <= k) by (apply H2, H3; rewrite (H4 H0); discriminate). (split; [|split; [|split]]); auto.
Qed.

Lemma one_client s : ws_reachable s -> v_requests s <= 1 -> v_parent s = false -> v_broke s = false ->
  forall r, outcome (v_main s) = Some r -> r = (Some 0, None) /\ v_conns s = [0].
Proof.
  intros R. assert (G : forall s, ws_reachable s -> ws_reachable s /\
    (v_requests s <= 1 -> v_parent s = false -> v_broke s = false ->
     forall r, outcome (v_main s) = Some r -> r = (Some 0, None))).
  { apply (invariant ws_init ws_step).
    - intros ? ->. split; [apply reachable_init; reflexivity|]. cbn. congruence.
    - intros x y [Rx H] St. split; [eapply reachable_step; eauto|].
      pose proof (single_holds x Rx) as Sx. pose proof (waking_holds x Rx) as Wx. clear Rx R.
      assert (K : v_main x <> MWait -> v_requests x <= 1 -> v_parent x = false -> v_broke x = false ->
        v_conn x = Some 0 /\ v_err x = None).
      { intros M L P B. destruct (Wx P B) as (W1 & _). specialize (W1 M). destruct (Sx L) as [S1 S2].
        assert (v_requests x = 0 \/ v_requests x = 1) as [E|E] by lia.
        - destruct (S1 E) as (_ & _ & _ & _ & E'). lia.
        - destruct (S2 E) as [F|[F|[F|[F|F]]]]; destruct F as (_ & ? & ? & _ & E'); try lia; auto. }
      inversion St; subst; fields; try exact H; intros L P B; try discriminate.
      + apply H; try assumption. lia.
      + apply H; try assumption. destruct cl; congruence.
      + destruct (K ltac:(discriminate) L P B) as [-> ->]. cbn. congruence.
      + destruct (K ltac:(discriminate) L P B) as [-> ->]. cbn. congruence.
      + destruct (K ltac:(discriminate) L P B) as [-> ->]. cbn. congruence. }
  intros L P B r O. split; [apply (proj2 (G s R)); assumption|].
  destruct (waking_holds s R P B) as (W1 & _). assert (M : v_main s <> MWait) by (intros M; rewrite M in O; discriminate).
  specialize (W1 M). destruct (single_holds s R L) as [S1 S2].
  assert (v_requests s = 0 \/ v_requests s = 1) as [E|E] by lia.
  - destruct (S1 E) as (_ & _ & _ & _ & E'). lia.
  - destruct (S2 E) as [F|[F|[F|[F|F]]]]; destruct F as (_ & ? & ? & ? & E'); try lia; auto.
Qed.

(** *** Wrong runs *)
Tactic Notation "go" uconstr(step) := eapply later_front; [eapply step|].

(** A refused request, then a good one: ServeOnce returns both. *)
Lemma both_run n : exists s, ws_reachable s /\ v_main s = MDone (Some 0, Some (UpgradeFailed n)) /\
  v_parent s = false /\ v_broke s = false.
Proof.
  eexists. split.
  - eexists. split; [reflexivity|].
    go (w_request); [discriminate|]. go (w_refuse _ _ [] [] n). go (w_request); [discriminate|].
    go (w_upgrade _ _ [] []). go (w_store _ _ [] []). go (w_spawn _ _ [] []).
    go w_begin. go w_unlisten. go w_over. go w_closed. go w_cancel. go w_wake; [reflexivity|]. go w_copy. go w_first. go w_second. go w_final. go w_done. constructor.
  - repeat split.
Qed.

(** Two clients: the first connection is forgotten. *)
Lemma two_run : exists s, ws_reachable s /\ v_main s = MDone (Some 1, None) /\ v_conns s = [0; 1] /\
  v_parent s = false /\ v_broke s = false /\ v_err s = None.
Proof.
  eexists. split.
  - eexists. split; [reflexivity|].
    go (w_request); [discriminate|]. go (w_request); [discriminate|].
    go (w_upgrade _ _ [] [FStart]). go (w_upgrade _ _ [FUpgraded 0] []).
    go (w_store _ _ [] [FUpgraded 1]). go (w_store _ _ [FStored] []). go (w_spawn _ _ [] [FStored]).
    go w_begin. go w_unlisten. go w_over. go w_closed. go w_cancel. go w_wake; [reflexivity|]. go w_copy. go w_first. go w_second. go w_final. go w_done. constructor.
  - repeat split.
Qed.

(** The context expires before the connection is stored. *)
Lemma late_run : exists s, ws_reachable s /\ v_main s = MDone (None, Some NoConnection) /\ v_conns s = [0] /\
  v_conn s = Some 0 /\ v_requests s = 1.
Proof.
  eexists. split.
  - eexists. split; [reflexivity|].
    go (w_request); [discriminate|]. go (w_upgrade _ _ [] []). go w_parent. go w_wake; [reflexivity|]. go w_copy. go w_first. go w_second.
    go w_begin_main. go w_unlisten. go w_over. go w_done. go (w_store _ _ [] []). constructor.
  - repeat split.
Qed.

(** The good run. *)
Lemma good_run : exists s, ws_reachable s /\ v_main s = MDone (Some 0, None) /\ v_conns s = [0] /\
  v_requests s = 1 /\ v_parent s = false /\ v_broke s = false.
Proof.
  eexists. split.
  - eexists. split; [reflexivity|].
    go (w_request); [discriminate|]. go (w_upgrade _ _ [] []). go (w_store _ _ [] []). go (w_spawn _ _ [] []).
    go w_begin. go w_unlisten. go w_over. go w_closed. go w_cancel. go w_wake; [reflexivity|]. go w_copy. go w_first. go w_second. go w_final. go w_done. constructor.
  - repeat split.
Qed.

(** ** Plain *)

Ltac pfields := cbn [q_main q_accept q_listening q_expired q_cancel q_conn q_err q_conns q_stops q_accepts] in *.

Definition poutcome (m : ponce_at) : option (option nat * option perr) :=
  match m with PLeaving r | PDone r => Some r | _ => None end.

Definition plain_inv (s : plain_state) : Prop :=
  q_accepts s = 0 /\
  (match q_main s with PDone _ => q_listening s = false /\ q_stops s = 1 | _ => q_stops s = 0 end) /\
  (match q_accept s with
   | AAccept => q_conns s = [] /\ q_conn s = None /\ q_err s = None
   | _ => (q_conns s = [0] /\ q_conn s = Some 0 /\ q_err s = None) \/
          (q_conns s = [] /\ q_conn s = None /\ exists n, q_err s = Some (AcceptFailed n))
   end) /\
  (q_cancel s = true -> q_accept s = AEnded) /\
  (q_main s <> PWait -> q_expired s = false -> q_cancel s = true) /\
  (match poutcome (q_main s) with
   | None => True
   | Some (Some c, e) => e = None /\ c = 0 /\ q_conns s = [0]
   | Some (None, Some (AcceptFailed n)) => q_conns s = [] /\ q_accept s <> AAccept
   | Some (None, Some NilConn) => q_expired s = true
   | Some (None, None) => False
   end) /\
  (q_main s = PSecond -> q_expired s = false -> q_conn s = Some 0).

Lemma plain_inv_holds s : plain_reachable s -> plain_inv s.
Proof.
  apply (invariant plain_init plain_step plain_inv).
  - intros ? ->. unfold plain_inv. pfields. cbn. repeat split; congruence.
  - intros x y (H1 & H2 & H3 & H4 & H5 & H6 & H7) St. inversion St; subst; unfold plain_inv; pfields; cbn [poutcome] in *.
    + destruct H3 as (-> & -> & ->). repeat split; try assumption; auto.
      all: try (intros X; specialize (H4 X); discriminate).
      all: destruct m; cbn in *; auto; destruct r as [[]  [[]|]]; intuition congruence.
    + destruct H3 as (-> & -> & ->). repeat split; try assumption; eauto.
      all: try (intros X; specialize (H4 X); discriminate).
      all: try (intros X Y; specialize (H5 ltac:(congruence) Y); specialize (H4 H5); discriminate).
      all: destruct m; cbn in *; auto; destruct r as [[]  [[]|]]; intuition congruence.
    + repeat split; try assumption; auto. destruct m; cbn in *; auto; destruct r as [[]  [[]|]]; intuition congruence.
    + repeat split; try assumption; auto; try congruence. destruct m; cbn in *; auto; destruct r as [[]  [[]|]]; intuition congruence.
    + repeat split; try assumption; auto; try congruence. intros _ ->. cbn in H. exact H.
    + destruct e as [pe|]; repeat split; try assumption; auto; cbn [poutcome]; try congruence;
        try (intros _ X; apply H5; [discriminate|exact X]).
      * destruct a; [destruct H3 as (_ & _ & X); discriminate| |]; destruct H3 as [(_ & _ & X)|(-> & _ & n & X)]; try discriminate;
          injection X as ->; split; congruence.
      * intros _ X. specialize (H4 (H5 ltac:(discriminate) X)). subst a.
        destruct H3 as [(_ & -> & _)|(_ & _ & n & Y)]; [reflexivity|discriminate].
    + repeat split; try assumption; auto; cbn [poutcome]; try congruence.
      * intros _ X. apply H5; [discriminate|exact X].
      * destruct c as [n|].
        -- destruct a; [destruct H3 as (_ & X & _); discriminate| |]; destruct H3 as [(-> & X & _)|(_ & X & _)]; try discriminate;
             injection X as ->; auto.
        -- destruct x0; [reflexivity|]. specialize (H7 eq_refl eq_refl). discriminate.
    + repeat split; try assumption; auto; try congruence. intros _ X. apply H5; [discriminate|exact X].
Qed.

Lemma plain_lost_run : exists s, plain_reachable s /\ q_main s = PDone (None, Some NilConn) /\ q_conns s = [0] /\ q_conn s = Some 0.
Proof.
  eexists. split.
  - eexists. split; [reflexivity|].
    go p_expire. go p_wake; [reflexivity|]. go p_first. go p_second. go p_accept. go p_done. constructor.
  - repeat split.
Qed.

Lemma plain_good_run : exists s, plain_reachable s /\ q_main s = PDone (Some 0, None) /\ q_conns s = [0] /\ q_expired s = false.
Proof.
  eexists. split.
  - eexists. split; [reflexivity|].
    go p_accept. go p_cancel. go p_wake; [reflexivity|]. go p_first. go p_second. go p_done. constructor.
  - repeat split.
Qed.
