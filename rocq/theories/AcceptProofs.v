(** Proofs about the accept loop of the plain NDT5 port. *)
From Coq Require Import ZArith List Bool Lia Wf_nat.
From Verif Require Import Lts AcceptModel.
Import ListNotations.

Notation areach := (reachable accept_init accept_step).

Ltac acase := cbn [a_ctx a_open a_queue a_closer a_loop a_handlers a_made a_failed a_late] in *.

Definition ainv (s : accepting) : Prop :=
  (a_loop s = LEnd -> a_ctx s = true) /\
  (a_open s = a_closer s) /\ (a_closer s = false -> a_ctx s = true) /\
  (a_ctx s = false -> a_late s = 0) /\ a_late s <= 1 /\ (a_late s = 1 -> a_loop s <> LAccept) /\
  (exists lost, NoDup (map fst (a_handlers s) ++ a_failed s ++ a_queue s ++ lost) /\
     (forall x, In x (map fst (a_handlers s) ++ a_failed s ++ a_queue s ++ lost) <-> x < a_made s) /\
     (a_ctx s = false -> lost = [])).

Lemma nodup_move (a b : list nat) x q r : NoDup (a ++ b ++ (x :: q) ++ r) -> NoDup ((a ++ [x]) ++ b ++ q ++ r) /\ NoDup (a ++ (b ++ [x]) ++ q ++ r).
Proof.
  intros H. split.
  - rewrite <- app_assoc. cbn [app]. rewrite app_assoc in H. cbn [app] in H.
    apply NoDup_remove in H as [H1 H2]. rewrite <- app_assoc in H1, H2.
    apply NoDup_Add with (a := x) (l := a ++ b ++ q ++ r); [|auto]. apply Add_app.
  - rewrite app_assoc in H. cbn [app] in H. apply NoDup_remove in H as [H1 H2]. rewrite <- (app_assoc b). cbn [app]. rewrite app_assoc.
    apply NoDup_Add with (a := x) (l := (a ++ b) ++ q ++ r); [apply Add_app|]. auto.
Qed.

Lemma in_move (a b : list nat) x q r y : (In y ((a ++ [x]) ++ b ++ q ++ r) <-> In y (a ++ b ++ (x :: q) ++ r)) /\ (In y (a ++ (b ++ [x]) ++ q ++ r) <-> In y (a ++ b ++ (x :: q) ++ r)).
Proof. change (x :: q) with ([x] ++ q). rewrite !in_app_iff. tauto. Qed.

Lemma ainv_holds s : areach s -> ainv s.
Proof.
  apply invariant.
  - intros a ->. unfold ainv. acase. repeat split; try discriminate; try lia. exists []. split; [constructor|]. cbn. split; [intros x; split; [contradiction|lia]|auto].
  - intros a b (A & B & C & D & E & F & lost & G & H & I) [St|St]; inversion St; subst; unfold ainv in *; acase.
    + split; [exact A|]. split; [exact B|]. split; [exact C|]. split; [exact D|]. split; [exact E|]. split; [exact F|]. exists lost.
      assert (Hx : forall x, In x (map fst h ++ f ++ (q ++ [m]) ++ lost) <-> In x (m :: map fst h ++ f ++ q ++ lost)).
      { intros x. cbn [In]. rewrite !in_app_iff. cbn [In]. tauto. }
      split; [|split; [|exact I]].
      * rewrite <- (app_assoc q). cbn [app]. rewrite !app_assoc. apply NoDup_Add with (a := m) (l := ((map fst h ++ f) ++ q) ++ lost); [apply Add_app|].
        rewrite <- !app_assoc. split; [exact G|]. intros X. apply H in X. lia.
      * intros x. rewrite Hx. cbn [In]. rewrite H. lia.
    + split; [auto|]. split; [exact B|]. split; [auto|]. split; [discriminate|]. split; [exact E|]. split; [exact F|]. exists lost. split; [exact G|]. split; [exact H|discriminate].
    + split; [discriminate|]. split; [exact B|]. split; [exact C|]. split; [exact D|]. split; [exact E|]. split; [discriminate|]. exists lost.
      split; [apply nodup_move, G|]. split; [|exact I]. intros y. rewrite (proj2 (in_move _ _ _ _ _ _)). apply H.
    + split; [discriminate|]. split; [exact B|]. split; [exact C|]. split; [exact D|]. split; [exact E|]. split; [discriminate|]. exists lost. auto.
    + split; [exact A|]. split; [exact B|]. split; [exact C|]. split; [exact D|]. split; [exact E|]. split; [exact F|]. exists lost.
      assert (M : map fst (h1 ++ (x, y) :: h2) = map fst (h1 ++ (x, HRun) :: h2)) by (rewrite !map_app; reflexivity). rewrite M. auto.
    + split; [exact A|]. split; [reflexivity|]. split; [reflexivity|]. split; [discriminate|]. split; [exact E|]. split; [exact F|]. exists (q ++ lost).
      cbn [app]. split; [exact G|]. split; [exact H|discriminate].
    + split; [discriminate|]. split; [exact B|]. split; [exact C|]. split; [exact D|]. split; [exact E|]. split; [rewrite D by reflexivity; lia|]. exists lost. auto.
    + split; [reflexivity|]. split; [exact B|]. split; [exact C|]. split; [exact D|]. split; [exact E|]. split; [discriminate|]. exists lost. auto.
    + split; [discriminate|]. split; [exact B|]. split; [exact C|]. split; [intros ->; apply D; reflexivity|].
      split; [destruct c; [|exact E]; assert (n <> 1) by (intros ->; apply F; reflexivity); lia|]. split; [discriminate|]. exists lost.
      rewrite map_app. cbn [map fst]. split; [apply nodup_move, G|]. split; [|exact I]. intros y. rewrite (proj1 (in_move _ _ _ _ _ _)). apply H.
    + split; [discriminate|]. split; [exact B|]. split; [exact C|]. split; [exact D|]. split; [exact E|]. split; [discriminate|]. exists lost. auto.
Qed.

Definition loop_left (s : accepting) : nat :=
  2 * length (a_queue s) + (if a_closer s then 3 else 0) + match a_loop s with LCheck => 1 | LAccept => 2 | LEnd => 0 end.

(** The work of the two goroutines: with the context not done ... *)
Definition live_left (s : accepting) : nat :=
  2 * length (a_queue s) + match a_loop s with LCheck => 1 | _ => 0 end.

Lemma live_accepts : forall s, areach s -> a_ctx s = false ->
  inevitable accept_sys (fun t => a_loop t = LAccept /\ a_queue t = [] /\ a_ctx t = false /\
    a_handlers t = a_handlers s ++ map (fun x => (x, HRun)) (a_queue s)) s.
Proof.
  intros s R L. remember (live_left s) as n eqn:N. revert s R L N. induction n as [n IH] using lt_wf_ind. intros s R L ->.
  pose proof (ainv_holds s R) as (A & B & C & _). constructor.
  - intros K. destruct s as [c o q k l h m f n]. acase. subst c.
    destruct o; [|symmetry in B; apply C in B; discriminate]. destruct l.
    + exfalso. eapply K, as_go.
    + destruct q as [|x q]; [|exfalso; eapply K, as_accept]. cbn [map]. rewrite app_nil_r. auto.
    + specialize (A eq_refl). discriminate.
  - intros t St. assert (R' : areach t) by (eapply reachable_step; [exact R|right; exact St]).
    assert (L' : a_ctx t = false) by (inversion St; subst; acase; congruence).
    assert (H : (live_left t < live_left s)%nat) by (inversion St; subst; unfold live_left; acase; cbn [length]; try discriminate; try lia; subst; exfalso; specialize (C eq_refl); discriminate).
    specialize (IH _ H t R' L' eq_refl).
    assert (E : a_handlers t ++ map (fun x => (x, HRun)) (a_queue t) = a_handlers s ++ map (fun x => (x, HRun)) (a_queue s)).
    { inversion St; subst; acase; try discriminate; try reflexivity. cbn [map]. rewrite <- app_assoc. reflexivity. }
    rewrite E in IH. exact IH.
Qed.

Lemma done_stops : forall s, areach s -> a_ctx s = true -> inevitable accept_sys (fun t => a_loop t = LEnd /\ a_open t = false) s.
Proof.
  intros s R L. remember (loop_left s) as n eqn:N. revert s R L N. induction n as [n IH] using lt_wf_ind. intros s R L ->.
  pose proof (ainv_holds s R) as (A & B & C & _). constructor.
  - intros K. destruct s as [c o q k l h m f n]. acase. subst c o. destruct k.
    + exfalso. eapply K, as_close.
    + split; [|reflexivity]. destruct l; [exfalso; eapply K, as_end|exfalso; eapply K, as_closed|reflexivity].
  - intros t St. assert (R' : areach t) by (eapply reachable_step; [exact R|right; exact St]).
    assert (L' : a_ctx t = true) by (inversion St; subst; acase; congruence).
    eapply IH; [|exact R'|exact L'|reflexivity]. inversion St; subst; unfold loop_left; acase; cbn [length]; try discriminate; lia.
Qed.

Lemma done_later s t : areach s -> a_ctx s = true -> later accept_step s t -> areach t /\ a_ctx t = true.
Proof.
  intros R O L. induction L as [|a b L IH E]; [auto|]. destruct IH as [R' O']. split; [eapply reachable_step; eassumption|].
  destruct E as [E|E]; inversion E; subst; acase; auto.
Qed.

Lemma late_bound s t : areach s -> a_ctx s = true -> later accept_step s t ->
  length (a_handlers t) + a_late s = length (a_handlers s) + a_late t.
Proof.
  intros R O L. induction L as [|a b L IH E]; [reflexivity|]. destruct (done_later s a R O L) as [_ Oa].
  destruct E as [E|E]; inversion E; subst; acase; rewrite ?app_length in *; cbn [length] in *; subst; try discriminate; lia.
Qed.

Lemma nodup_front (l r : list nat) : NoDup (l ++ r) -> NoDup l.
Proof.
  induction l as [|a l IH]; intros H; [constructor|]. inversion H; subst. constructor; [|auto]. intros X. apply H2, in_or_app. auto.
Qed.
