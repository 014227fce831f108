(** Programs that interact with the outside world.

    A program is a tree: it returns, or it performs an interaction whose answer [b]
    is chosen by the outside world and which is recorded as an event.  A run follows
    one answer at every interaction, so a statement about every run is a statement
    about every behaviour of the outside world. *)
From Coq Require Import List.
Import ListNotations.

Section Prog.
  Context {E : Type}.

  Inductive prog (A : Type) : Type :=
  | Ret (a : A)
  | Do (B : Type) (ev : B -> E) (k : B -> prog A).
  Arguments Ret {A}.
  Arguments Do {A B}.

  (** [run p tr a]: some choice of answers makes [p] produce the events [tr] and
      return [a]. *)
  Fixpoint run {A} (p : prog A) (tr : list E) (a : A) : Prop :=
    match p with
    | Ret x => tr = [] /\ a = x
    | Do ev k => exists b tr', tr = ev b :: tr' /\ run (k b) tr' a
    end.

  (** [starts p tr]: some run of [p] begins with the events [tr] (used for crash
      points). *)
  Fixpoint starts {A} (p : prog A) (tr : list E) : Prop :=
    match p with
    | Ret _ => tr = []
    | Do ev k => tr = [] \/ exists b tr', tr = ev b :: tr' /\ starts (k b) tr'
    end.

  Fixpoint pbind {A B} (p : prog A) (f : A -> prog B) : prog B :=
    match p with
    | Ret a => f a
    | Do ev k => Do ev (fun b => pbind (k b) f)
    end.
End Prog.
Arguments prog E A : clear implicits.
Arguments Ret {E A}.
Arguments Do {E A B}.

(** ** Go functions with mutable local state and panics

    [S] is the state of the mutable variables that outlive a panic (a record reached
    through a pointer, for example). *)

Inductive res (P A : Type) : Type := Ok (a : A) | Panic (m : P).
Arguments Ok {P A}.
Arguments Panic {P A}.

Section M.
  Context {E P : Type}.

  Definition M (S A : Type) := S -> prog E (S * res P A).

  Definition ret {S A} (a : A) : M S A := fun s => Ret (s, Ok a).
  Definition panic {S A} (m : P) : M S A := fun s => Ret (s, Panic m).
  Definition bind {S A B} (m : M S A) (f : A -> M S B) : M S B := fun s =>
    pbind (m s) (fun x => match x with
                          | (s', Ok a) => f a s'
                          | (s', Panic t) => Ret (s', Panic t)
                          end).

  (** One interaction. *)
  Definition op {S B} (ev : B -> E) : M S B := fun s => Do ev (fun b => Ret (s, Ok b)).
  (** An interaction without an answer. *)
  Definition tell {S} (e : E) : M S unit := op (fun _ : unit => e).

  Definition get {S} : M S S := fun s => Ret (s, Ok s).
  Definition modify {S} (f : S -> S) : M S unit := fun s => Ret (f s, Ok tt).

  (** [defer cleanup body]: cleanup runs after body, whether it panics or not; it sees
      the outcome of body (named results) and may change it.  A panic in cleanup
      replaces the outcome. *)
  Definition defer {S A} (cleanup : res P A -> M S (res P A)) (body : M S A) : M S A := fun s =>
    pbind (body s) (fun x =>
      pbind (cleanup (snd x) (fst x)) (fun y =>
        match y with
        | (s', Ok r) => Ret (s', r)
        | (s', Panic t) => Ret (s', Panic t)
        end)).
  (** The usual case: cleanup does not look at the outcome. *)
  Definition finally {S A} (cleanup : M S unit) (body : M S A) : M S A :=
    defer (fun r => bind cleanup (fun _ => ret r)) body.

  (** A call of a function with its own local variables, initially [t0]; they are lost
      if it panics. *)
  Definition call {S T A} (t0 : T) (m : M T A) : M S (T * A) := fun s =>
    pbind (m t0) (fun x => match x with
                           | (t, Ok a) => Ret (s, Ok (t, a))
                           | (_, Panic p) => Ret (s, Panic p)
                           end).
End M.
Arguments M E P S A : clear implicits.

Declare Scope eff_scope.
Delimit Scope eff_scope with eff.
Notation "x <- m ;; f" := (bind m (fun x => f))
  (at level 100, m at next level, right associativity) : eff_scope.
Notation "m ;;; f" := (bind m (fun _ => f))
  (at level 100, right associativity) : eff_scope.

(** ** Facts about runs *)

Lemma run_pbind {E A B} (p : prog E A) (f : A -> prog E B) : forall tr b,
  run (pbind p f) tr b <->
  exists t1 a t2, tr = t1 ++ t2 /\ run p t1 a /\ run (f a) t2 b.
Proof.
  induction p as [x|B' ev k IH]; intros tr b; cbn [pbind run].
  - split.
    + intros H. exists [], x, tr. auto.
    + intros (t1 & a & t2 & -> & [-> ->] & H). exact H.
  - split.
    + intros (c & tr' & -> & H). apply IH in H. destruct H as (t1 & a & t2 & -> & H1 & H2).
      exists (ev c :: t1), a, t2. split; [reflexivity|]. split; [|exact H2].
      exists c, t1. auto.
    + intros (t1 & a & t2 & -> & (c & t1' & -> & H1) & H2).
      exists c, (t1' ++ t2). split; [reflexivity|]. apply IH. eauto 6.
Qed.

Lemma run_ret {E P S A} (a : A) (s : S) tr x :
  run (@ret E P S A a s) tr x <-> tr = [] /\ x = (s, Ok a).
Proof. reflexivity. Qed.

Lemma run_panic {E P S A} (m : P) (s : S) tr x :
  run (@panic E P S A m s) tr x <-> tr = [] /\ x = (s, Panic m).
Proof. reflexivity. Qed.

Lemma run_bind {E P S A B} (m : M E P S A) (f : A -> M E P S B) s tr s' r :
  run (bind m f s) tr (s', r) <->
  (exists t1 s1 a t2, tr = t1 ++ t2 /\ run (m s) t1 (s1, Ok a) /\ run (f a s1) t2 (s', r)) \/
  (exists p, r = Panic p /\ run (m s) tr (s', Panic p)).
Proof.
  unfold bind. rewrite run_pbind. split.
  - intros (t1 & [s1 [a|p]] & t2 & -> & H1 & H2).
    + left. eauto 10.
    + cbn in H2. destruct H2 as [-> H2]. injection H2 as -> ->. right. exists p.
      rewrite app_nil_r. auto.
  - intros [(t1 & s1 & a & t2 & -> & H1 & H2) | (p & -> & H)].
    + exists t1, (s1, Ok a), t2. auto.
    + exists tr, (s', Panic p), []. rewrite app_nil_r. cbn. auto.
Qed.

Lemma run_op {E P S B} (ev : B -> E) (s : S) tr x :
  run (@op E P S B ev s) tr x <-> exists b, tr = [ev b] /\ x = (s, Ok b).
Proof.
  unfold op. cbn. split.
  - intros (b & tr' & -> & -> & ->). eauto.
  - intros (b & -> & ->). eauto 6.
Qed.

Lemma run_tell {E P S} (e : E) (s : S) tr x :
  run (@tell E P S e s) tr x <-> tr = [e] /\ x = (s, Ok tt).
Proof.
  unfold tell. rewrite run_op. split.
  - intros ([] & -> & ->). auto.
  - intros [-> ->]. exists tt. auto.
Qed.

Lemma run_get {E P S} (s : S) tr x :
  run (@get E P S s) tr x <-> tr = [] /\ x = (s, Ok s).
Proof. reflexivity. Qed.

Lemma run_modify {E P S} f (s : S) tr x :
  run (@modify E P S f s) tr x <-> tr = [] /\ x = (f s, Ok tt).
Proof. reflexivity. Qed.

Lemma run_defer {E P S A} (c : res P A -> M E P S (res P A)) (m : M E P S A) s tr s' r :
  run (defer c m s) tr (s', r) <->
  exists t1 s1 r1 t2 y, tr = t1 ++ t2 /\ run (m s) t1 (s1, r1) /\ run (c r1 s1) t2 (s', y) /\
    r = match y with Ok r' => r' | Panic p => Panic p end.
Proof.
  unfold defer. rewrite run_pbind. split.
  - intros (t1 & [s1 r1] & t2 & -> & H1 & H2). cbn [fst snd] in H2. rewrite run_pbind in H2.
    destruct H2 as (t3 & [s2 y] & t4 & -> & H3 & H4).
    destruct y as [r2|p]; cbn in H4; destruct H4 as [-> H4]; injection H4 as -> ->;
      rewrite app_nil_r.
    + exists t1, s1, r1, t3, (Ok r2). auto.
    + exists t1, s1, r1, t3, (Panic p). auto.
  - intros (t1 & s1 & r1 & t2 & y & -> & H1 & H2 & ->).
    exists t1, (s1, r1), t2. split; [reflexivity|]. split; [exact H1|].
    cbn [fst snd]. rewrite run_pbind. exists t2, (s', y), [].
    rewrite app_nil_r. split; [reflexivity|]. split; [exact H2|].
    destruct y; cbn; auto.
Qed.

Lemma run_finally {E P S A} (c : M E P S unit) (m : M E P S A) s tr s' r :
  run (finally c m s) tr (s', r) <->
  exists t1 s1 r1 t2 y, tr = t1 ++ t2 /\ run (m s) t1 (s1, r1) /\ run (c s1) t2 (s', y) /\
    r = match y with Ok _ => r1 | Panic p => Panic p end.
Proof.
  unfold finally. rewrite run_defer. split.
  - intros (t1 & s1 & r1 & t2 & y & -> & H1 & H2 & ->).
    apply run_bind in H2. destruct H2 as [(t3 & s3 & [] & t4 & -> & H3 & H4)|(p & -> & H)].
    + apply run_ret in H4. destruct H4 as [-> H4]. injection H4 as -> ->. rewrite app_nil_r.
      exists t1, s1, r1, t3, (Ok tt). auto.
    + exists t1, s1, r1, t2, (Panic p). auto.
  - intros (t1 & s1 & r1 & t2 & y & -> & H1 & H2 & ->).
    exists t1, s1, r1, t2, (match y with Ok _ => Ok r1 | Panic p => Panic p end).
    split; [reflexivity|]. split; [exact H1|]. split; [|destruct y; reflexivity].
    apply run_bind. destruct y as [[]|p].
    + left. exists t2, s', tt, []. rewrite app_nil_r. cbn. auto.
    + right. eauto.
Qed.

Lemma run_call {E P S T A} (t0 : T) (m : M E P T A) (s : S) tr s' r :
  run (call t0 m s) tr (s', r) <->
  s' = s /\ exists t1 r1, run (m t0) tr (t1, r1) /\
    r = match r1 with Ok a => Ok (t1, a) | Panic p => Panic p end.
Proof.
  unfold call. rewrite run_pbind. split.
  - intros (t1 & [x [a|p]] & t2 & -> & H1 & H2); cbn in H2; destruct H2 as [-> H2];
      injection H2 as -> ->; rewrite app_nil_r; eauto 10.
  - intros (-> & t1 & r1 & H & ->). exists tr, (t1, r1), []. rewrite app_nil_r.
    split; [reflexivity|]. split; [exact H|]. destruct r1; cbn; auto.
Qed.

(** Every program has a run if every interaction has a possible answer; prefixes of
    runs are possible beginnings. *)
Lemma starts_nil {E A} (p : prog E A) : starts p [].
Proof. destruct p; cbn; auto. Qed.

Lemma run_starts {E A} (p : prog E A) : forall t1 t2 a, run p (t1 ++ t2) a -> starts p t1.
Proof.
  induction p as [x|B ev k IH]; intros t1 t2 a H; cbn [run starts] in *.
  - destruct H as [H _]. apply app_eq_nil in H. tauto.
  - destruct H as (b & tr' & Htr & H). destruct t1 as [|e t1]; [auto|].
    right. cbn in Htr. injection Htr as -> <-. eauto.
Qed.
