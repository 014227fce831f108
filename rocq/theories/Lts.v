(** Transition systems: reachability, invariants, termination. *)
From Coq Require Import List.
Import ListNotations.

Section Lts.
  Context {S : Type}.
  Variable init : S -> Prop.
  Variable step : S -> S -> Prop.

  (** [later s t]: some schedule leads from [s] to [t]. *)
  Inductive later (s : S) : S -> Prop :=
  | later_here : later s s
  | later_step t u : later s t -> step t u -> later s u.

  Definition reachable (t : S) : Prop := exists s, init s /\ later s t.

  Lemma later_trans s t u : later s t -> later t u -> later s u.
  Proof. intros H1 H2. induction H2; [exact H1|econstructor; eauto]. Qed.

  Lemma later_front s t u : step s t -> later t u -> later s u.
  Proof. intros H1 H2. eapply later_trans; [econstructor; [constructor|exact H1]|exact H2]. Qed.

  Lemma reachable_init s : init s -> reachable s.
  Proof. intros H. exists s. split; [exact H|constructor]. Qed.

  Lemma reachable_step s t : reachable s -> step s t -> reachable t.
  Proof. intros (i & I & L) H. exists i. split; [exact I|econstructor; eauto]. Qed.

  Lemma reachable_later s t : reachable s -> later s t -> reachable t.
  Proof. intros R L. induction L; [exact R|eapply reachable_step; eauto]. Qed.

  (** A property of the initial states that every step keeps holds always. *)
  Lemma invariant (P : S -> Prop) :
    (forall s, init s -> P s) -> (forall s t, P s -> step s t -> P t) -> forall s, reachable s -> P s.
  Proof. intros H1 H2 s (i & I & L). induction L; eauto. Qed.

  Lemma later_invariant (P : S -> Prop) :
    (forall s t, P s -> step s t -> P t) -> forall s t, later s t -> P s -> P t.
  Proof. intros H s t L. induction L; eauto. Qed.

  (** [ends s]: every schedule from [s] is finite. *)
  Inductive ends (s : S) : Prop := ends_intro : (forall t, step s t -> ends t) -> ends s.

  (** [inevitable P s]: every schedule from [s] is finite, and where it cannot go on, P
      holds. *)
  Definition stuck (s : S) : Prop := forall t, ~ step s t.
  Inductive inevitable (P : S -> Prop) (s : S) : Prop :=
  | inevitable_intro : (stuck s -> P s) -> (forall t, step s t -> inevitable P t) -> inevitable P s.
End Lts.
