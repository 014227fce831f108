(** How often a control connection is read from and written to. *)
From Coq Require Import String ZArith List Bool Lia.
From Verif Require Import Base BaseFacts WireModel MessagerModel MessagerSpec GoFloat GoStrings Web100Model
  Effect ControlModel ControlSpec HandleProofs ControlMore OutcomeSpec OutcomeProofs.
Import ListNotations.
Open Scope Z_scope.
Open Scope nat_scope.

(** In the runs with events of Q the weights add up to n at most. *)
Definition within {E P S A} (Q : E -> Prop) (w : E -> nat) (m : M E P S A) (n : nat) : Prop :=
  forall s tr x, run (m s) tr x -> Forall Q tr -> list_sum (map w tr) <= n.

Section Within.
  Context {E P : Type} (Q : E -> Prop) (w : E -> nat).

  Lemma within_le {S A} (m : M E P S A) n n' : within Q w m n -> n <= n' -> within Q w m n'.
  Proof. intros H L s tr x R F. specialize (H s tr x R F). lia. Qed.
  Lemma within_ret {S A} (a : A) n : within Q w (@ret E P S A a) n.
  Proof. intros s tr x H _. apply run_ret in H. destruct H as [-> _]. cbn. lia. Qed.
  Lemma within_panic {S A} (p : P) n : within Q w (@panic E P S A p) n.
  Proof. intros s tr x H _. apply run_panic in H. destruct H as [-> _]. cbn. lia. Qed.
  Lemma within_get {S} n : within Q w (@get E P S) n.
  Proof. intros s tr x H _. apply run_get in H. destruct H as [-> _]. cbn. lia. Qed.
  Lemma within_modify {S} (f : S -> S) n : within Q w (@modify E P S f) n.
  Proof. intros s tr x H _. apply run_modify in H. destruct H as [-> _]. cbn. lia. Qed.
  Lemma within_op {S B} (ev : B -> E) n : (forall b, w (ev b) <= n) -> within Q w (@op E P S B ev) n.
  Proof. intros H s tr x R _. apply run_op in R. destruct R as (b & -> & _). cbn. specialize (H b). lia. Qed.
  Lemma within_tell {S} (e : E) n : w e <= n -> within Q w (@tell E P S e) n.
  Proof. intros H. apply within_op. intros _. exact H. Qed.
  Lemma within_bind {S A B} (m : M E P S A) (f : A -> M E P S B) a b :
    within Q w m a -> (forall x, within Q w (f x) b) -> within Q w (bind m f) (a + b).
  Proof.
    intros Hm Hf s tr [s' r] H F. apply run_bind in H.
    destruct H as [(t1 & s1 & y & t2 & -> & H1 & H2)|(p & -> & H)].
    - apply Forall_app in F as [F1 F2]. rewrite map_app, list_sum_app.
      specialize (Hm _ _ _ H1 F1). specialize (Hf _ _ _ _ H2 F2). lia.
    - specialize (Hm _ _ _ H F). lia.
  Qed.
  Lemma within_bind0 {S A B} (m : M E P S A) (f : A -> M E P S B) n :
    within Q w m 0 -> (forall x, within Q w (f x) n) -> within Q w (bind m f) n.
  Proof. intros H1 H2. exact (within_bind m f 0 n H1 H2). Qed.
  Lemma within_bind1 {S A B} (m : M E P S A) (f : A -> M E P S B) n :
    within Q w m 1 -> (forall x, within Q w (f x) n) -> within Q w (bind m f) (1 + n).
  Proof. exact (within_bind m f 1 n). Qed.
  Lemma within_ask {S B C} (ev : B -> E) (f : B -> M E P S C) n :
    (forall b, w (ev b) = 0) -> (forall b, Q (ev b) -> within Q w (f b) n) -> within Q w (bind (@op E P S B ev) f) n.
  Proof.
    intros W Hf s tr [s' r] H F. apply run_bind in H.
    destruct H as [(t1 & s1 & y & t2 & -> & H1 & H2)|(p & -> & H)].
    - apply run_op in H1. destruct H1 as (b & -> & E2). injection E2 as -> ->. apply Forall_app in F as [F1 F2].
      inversion F1; subst. cbn [app map list_sum fold_right]. rewrite W. exact (Hf b ltac:(assumption) _ _ _ H2 F2).
    - apply run_op in H. destruct H as (b & _ & E2). discriminate.
  Qed.
  Lemma within_defer {S A} (c : res P A -> M E P S (res P A)) (m : M E P S A) a :
    within Q w m a -> (forall r, within Q w (c r) 0) -> within Q w (defer c m) a.
  Proof.
    intros Hm Hc s tr [s' r] H F. apply run_defer in H.
    destruct H as (t1 & s1 & r1 & t2 & y & -> & H1 & H2 & ->). apply Forall_app in F as [F1 F2].
    rewrite map_app, list_sum_app. specialize (Hm _ _ _ H1 F1). specialize (Hc _ _ _ _ H2 F2). lia.
  Qed.
  Lemma within_finally {S A} (c : M E P S unit) (m : M E P S A) a :
    within Q w m a -> within Q w c 0 -> within Q w (finally c m) a.
  Proof.
    intros Hm Hc. unfold finally. apply within_defer; [exact Hm|]. intros r.
    apply within_bind0; [exact Hc|]. intros _. apply within_ret.
  Qed.
  Lemma within_call {S T A} (t0 : T) (m : M E P T A) n : within Q w m n -> within Q w (@call E P S T A t0 m) n.
  Proof.
    intros Hm s tr [s' r] H F. apply run_call in H. destruct H as (_ & t1 & r1 & H & _).
    exact (Hm _ _ _ H F).
  Qed.
End Within.

Definition is_read (e : event) : nat := match e with EvRead _ => 1 | _ => 0 end.
Definition is_write (e : event) : nat := match e with EvWrite _ _ => 1 | _ => 0 end.
Lemma reads_sum tr : List.length (reads tr) = list_sum (map is_read tr).
Proof. induction tr as [|e tr IH]; [reflexivity|]. destruct e; (exact IH || exact (f_equal S IH)). Qed.
Lemma writes_sum tr : List.length (writes tr) = list_sum (map is_write tr).
Proof. induction tr as [|e tr IH]; [reflexivity|]. destruct e; (exact IH || exact (f_equal S IH)). Qed.

(** The statistics have k lines at most. *)
Definition few (k : nat) (e : event) : Prop :=
  match e with EvStopMeasuring _ (Some w) => List.length (leaves (w_view w)) <= k | _ => True end.

Ltac w_step :=
  match goal with
  | |- within _ _ (ret _) _ => apply within_ret
  | |- within _ _ (panic _) _ => apply within_panic
  | |- within _ _ get _ => apply within_get
  | |- within _ _ (modify _) _ => apply within_modify
  | |- within _ _ (tell _) _ => apply within_tell; apply Nat.le_0_l
  | |- within _ _ (op _) _ => apply within_op; intros ?; apply Nat.le_0_l
  | |- within _ _ now _ => apply within_op; intros ?; apply Nat.le_0_l
  | |- within _ _ (test_error _ _ _) _ => apply within_tell; apply Nat.le_0_l
  | |- within _ _ (panic_on_error _ ?e _) _ => unfold panic_on_error; destruct e
  | |- within _ _ (count_if _ ?b _) _ => unfold count_if; destruct b
  | |- within _ _ (finally _ _) _ => apply within_finally
  | |- within _ _ (defer _ _) _ => apply within_defer; [|intros ?]
  | |- within _ _ (call _ _) _ => apply within_call
  | |- within _ _ (match ?x with _ => _ end) _ => destruct x
  | |- within _ _ (let '(_, _) := ?x in _) _ => destruct x
  | |- within _ _ (bind (tell _) _) _ => apply within_bind0; [|intros ?]
  | |- within _ _ (bind (modify _) _) _ => apply within_bind0; [|intros ?]
  | |- within _ _ (bind get _) _ => apply within_bind0; [|intros ?]
  | |- within _ _ (bind now _) _ => apply within_bind0; [|intros ?]
  | |- within _ _ (bind (test_error _ _ _) _) _ => apply within_bind0; [|intros ?]
  | |- within _ _ (bind (panic_on_error _ _ _) _) _ => apply within_bind0; [|intros ?]
  | |- within _ _ (bind (count_if _ _ _) _) _ => apply within_bind0; [|intros ?]
  end.

Section Writes.
  Variables (g : config) (k : nat).
  Notation W := (within (few k) is_write).

  Lemma w_send {S} m a b : W (@send S m a b) 1.
  Proof. apply within_op. intros ?. apply le_n. Qed.
  Lemma w_send_s2c {S} m a b c : W (@send_s2c S m a b c) 1.
  Proof. apply within_op. intros ?. apply le_n. Qed.
  Lemma w_receive {S} m a : W (@receive S m a) 0.
  Proof. unfold receive. apply within_bind0; [w_step|intros ?; w_step]. Qed.
  Lemma w_lines {S} m l : W (@send_lines S m l) (List.length l).
  Proof.
    induction l as [|x l IH]; cbn [send_lines List.length]; [apply within_ret|].
    apply within_bind1; [apply w_send|]. intros [e|]; [apply within_ret|exact IH].
  Qed.
  Ltac send := match goal with
    | |- within _ _ (bind (send _ _ _) _) _ => apply within_bind1; [apply w_send|intros [?|]]
    | |- within _ _ (bind (send_s2c _ _ _ _) _) _ => apply within_bind1; [apply w_send_s2c|intros [?|]]
    | |- within _ _ (bind (receive _ _) _) _ => apply within_bind0; [apply w_receive|intros ?]
    | |- within _ _ (bind (op _) _) _ => apply within_ask; [reflexivity|intros ? ?]
    end.
  Ltac go := repeat (first [w_step | send]).

  Lemma w_drain {S} c : W (@drain S c) 0.
  Proof. unfold drain. go. Qed.
  Lemma w_c2s_report m x d : W (c2s_report g m x d) 2.
  Proof. unfold c2s_report. cbv zeta. go. Qed.
  Lemma w_c2s_transfer m c : W (c2s_transfer g m c) 3.
  Proof.
    unfold c2s_transfer. cbv zeta. go. apply within_bind0; [apply w_drain|intros ?].
    repeat (first [w_step | apply w_c2s_report]).
  Qed.
  Lemma w_c2s m : W (c2s_manage g m) 4.
  Proof. unfold c2s_manage. repeat (first [w_step | send | apply w_c2s_transfer]). Qed.

  Lemma few_leaves w d : List.length (leaves (w_view w)) <= k ->
    W (s2c_finish g d w) (k + 13).
  Proof.
    intros L. unfold s2c_finish. apply within_bind.
    - eapply within_le; [apply w_lines|]. rewrite lines_number. exact L.
    - intros [x|]; [go|]. apply within_bind0; [w_step|intros s]. change 13 with (12 + 1).
      apply within_bind.
      + eapply within_le; [apply w_lines|]. rewrite lines_number, fields_number. apply le_n.
      + intros [x|]; go.
  Qed.
  Lemma w_s2c_report m w d : List.length (leaves (w_view w)) <= k -> W (s2c_report g m w d) (1 + (k + 13)).
  Proof.
    intros L. unfold s2c_report. cbv zeta. repeat (first [w_step | send]); try (apply few_leaves, L);
      (apply within_bind0; [go|intros ?; apply few_leaves, L]).
  Qed.
  Lemma w_s2c_transfer m c : W (s2c_transfer g m c) (1 + (1 + (k + 13))).
  Proof.
    unfold s2c_transfer. apply within_bind0; [w_step|intros ?]. send; [go|].
    do 6 (apply within_bind0; [w_step|intros ?]). apply within_ask; [reflexivity|]. intros [w|] F; [|go].
    apply within_bind0; [w_step|intros ?]. apply w_s2c_report, F.
  Qed.
  Lemma w_s2c m : W (s2c_manage g m) (1 + (1 + (1 + (k + 13)))).
  Proof. unfold s2c_manage, s2c_body. repeat (first [w_step | send | apply w_s2c_transfer]). Qed.

  Lemma w_meta_loop {S} m : forall fuel n l, W (@meta_loop S fuel m n l) 0.
  Proof.
    induction fuel as [|f IH]; intros n l; cbn [meta_loop]; [apply within_ret|].
    repeat (first [w_step | send | apply IH]).
  Qed.
  Lemma w_meta m : W (meta_manage g m) 3.
  Proof.
    unfold meta_manage. repeat (first [w_step | send]). apply within_bind0; [apply w_meta_loop|intros ?]. go.
  Qed.

  Lemma w_run_c2s m : W (run_c2s g m) (4 + 0).
  Proof. unfold run_c2s. apply within_bind; [apply within_call, w_c2s|intros ?]. go. all: apply within_bind0; [go|intros ?]; go. Qed.
  Lemma w_run_s2c m : W (run_s2c g m) (1 + (1 + (1 + (k + 13))) + 0).
  Proof. unfold run_s2c. apply within_bind; [apply within_call, w_s2c|intros ?]. go. all: apply within_bind0; [go|intros ?]; go. Qed.
  Lemma w_run_meta m : W (run_meta g m) (3 + 0).
  Proof. unfold run_meta. apply within_bind; [apply within_call, w_meta|intros ?]. go. Qed.

  Lemma w_converse m (a b c : bool) : W (converse g m a b c)
    (1 + (1 + (1 + ((if a then 4 else 0) + ((if b then k + 16 else 0) + ((if c then 3 else 0) + (1 + (1 + 0)))))))).
  Proof.
    unfold converse. apply within_bind0; [go|intros ?]. apply within_bind0; [w_step|intros ?].
    do 3 (apply within_bind1; [apply w_send|intros ?]; apply within_bind0; [go|intros ?]).
    apply within_bind; [destruct a; [eapply within_le; [apply w_run_c2s|lia]|w_step]|intros ?].
    apply within_bind; [destruct b; [eapply within_le; [apply w_run_s2c|lia]|w_step]|intros ?].
    apply within_bind; [destruct c; [eapply within_le; [apply w_run_meta|lia]|w_step]|intros ?].
    do 1 (apply within_bind1; [apply w_send|intros ?]; apply within_bind0; [go|intros ?]).
    apply within_bind1; [apply w_send|intros ?]. go.
  Qed.
  Lemma w_serve m tests : W (serve_tests g m tests) (k + 28).
  Proof.
    unfold serve_tests. destruct (Z.land tests 16 =? 0)%Z; [w_step|]. cbv zeta.
    do 6 (apply within_bind0; [go|intros _]). eapply within_le; [apply w_converse|].
    destruct (wants tests 2), (wants tests 4), (wants tests 32); lia.
  Qed.
  Lemma w_body : W (control_body g) (k + 28).
  Proof.
    unfold control_body. apply within_ask; [reflexivity|]. intros inbuff _.
    destruct (login_of (c_kind g) inbuff) as [[tests| |] m]; [apply w_serve| |]; go.
  Qed.
  Lemma w_handle : W (handle_control_channel g) (k + 28).
  Proof.
    unfold handle_control_channel. apply within_bind0; [w_step|intros _]. do 2 (apply within_finally; [|w_step]).
    apply within_defer; [|intros [?|?]; go]. unfold handle_inner.
    match goal with |- within _ _ (fun s => ?m s) _ => change (W m (k + 28)) end.
    apply within_finally; [|w_step]. apply within_bind0; [w_step|intros ?]. cbv zeta.
    replace (k + 28) with ((k + 28) + 0) by lia. apply within_bind; [|intros ?; w_step].
    apply within_call, within_finally; [apply w_body|go].
  Qed.
End Writes.

Section Reads.
  Variable g : config.
  Notation R := (within (fun _ => True) is_read).

  Lemma r_send {S} m a b : R (@send S m a b) 0.
  Proof. apply within_op. intros ?. apply le_n. Qed.
  Lemma r_send_s2c {S} m a b c : R (@send_s2c S m a b c) 0.
  Proof. apply within_op. intros ?. apply le_n. Qed.
  Lemma r_receive {S} m a : R (@receive S m a) 1.
  Proof. unfold receive. change 1 with (1 + 0). apply within_bind; [apply within_op; intros ?; apply le_n|intros ?; w_step]. Qed.
  Lemma r_lines {S} m l : R (@send_lines S m l) 0.
  Proof.
    induction l as [|x l IH]; cbn [send_lines]; [apply within_ret|].
    apply within_bind0; [apply r_send|]. intros [e|]; [apply within_ret|exact IH].
  Qed.
  Ltac send := match goal with
    | |- within _ _ (send _ _ _) _ => apply r_send
    | |- within _ _ (bind (send _ _ _) _) _ => apply within_bind0; [apply r_send|intros [?|]]
    | |- within _ _ (bind (send_lines _ _) _) _ => apply within_bind0; [apply r_lines|intros [?|]]
    | |- within _ _ (bind (send_s2c _ _ _ _) _) _ => apply within_bind0; [apply r_send_s2c|intros [?|]]
    | |- within _ _ (bind (op _) _) _ => apply within_ask; [reflexivity|intros ? _]
    end.
  Ltac go := repeat (first [w_step | send]).

  Lemma r_drain {S} c : R (@drain S c) 0.
  Proof. unfold drain. go. Qed.
  Lemma r_c2s_report m x d : R (c2s_report g m x d) 0.
  Proof. unfold c2s_report. cbv zeta. go. Qed.
  Lemma r_c2s_transfer m c : R (c2s_transfer g m c) 0.
  Proof.
    unfold c2s_transfer. cbv zeta. go. apply within_bind0; [apply r_drain|intros ?].
    repeat (first [w_step | apply r_c2s_report]).
  Qed.
  Lemma r_c2s m : R (c2s_manage g m) 0.
  Proof. unfold c2s_manage. repeat (first [w_step | send | apply r_c2s_transfer]). Qed.
  Lemma r_s2c_finish m w : R (s2c_finish g m w) 0.
  Proof. unfold s2c_finish. go. Qed.
  Lemma r_s2c_report m w d : R (s2c_report g m w d) (1 + 0).
  Proof.
    unfold s2c_report. cbv zeta. apply within_bind0; [w_step|intros ?]. send; [go|].
    apply within_bind1; [apply r_receive|intros ?].
    repeat (first [w_step | send | apply r_s2c_finish]);
      (apply within_bind0; [go|intros ?; apply r_s2c_finish]).
  Qed.
  Lemma r_s2c m : R (s2c_manage g m) (1 + 0).
  Proof. unfold s2c_manage, s2c_body, s2c_transfer. repeat (first [w_step | send | apply r_s2c_report]). Qed.
  Lemma r_meta_loop {S} m : forall fuel n l, R (@meta_loop S fuel m n l) fuel.
  Proof.
    induction fuel as [|f IH]; intros n l; cbn [meta_loop]; [apply within_ret|].
    apply within_ask; [reflexivity|]. intros [|] _; [w_step|].
    change (Datatypes.S f) with (1 + f). apply within_bind1; [apply r_receive|intros ?].
    repeat (first [w_step | apply IH]).
  Qed.
  Lemma r_meta m : R (meta_manage g m) (20 + 0).
  Proof.
    unfold meta_manage. send; [go|]. send; [go|].
    apply within_bind; [exact (r_meta_loop m 20 _ _)|intros ?]. go.
  Qed.
  Lemma r_run_c2s m : R (run_c2s g m) 0.
  Proof. unfold run_c2s. apply within_bind0; [apply within_call, r_c2s|intros ?]. go. all: apply within_bind0; [go|intros ?]; go. Qed.
  Lemma r_run_s2c m : R (run_s2c g m) (1 + 0 + 0).
  Proof. unfold run_s2c. apply within_bind; [apply within_call, r_s2c|intros ?]. go. all: apply within_bind0; [go|intros ?]; go. Qed.
  Lemma r_run_meta m : R (run_meta g m) (20 + 0 + 0).
  Proof. unfold run_meta. apply within_bind; [apply within_call, r_meta|intros ?]. go. Qed.
  Lemma r_converse m (a b c : bool) : R (converse g m a b c) ((if b then 1 else 0) + ((if c then 20 else 0) + 0)).
  Proof.
    unfold converse. apply within_bind0; [go|intros ?]. apply within_bind0; [w_step|intros ?].
    do 3 (apply within_bind0; [apply r_send|intros ?]; apply within_bind0; [go|intros ?]).
    apply within_bind0; [destruct a; [apply r_run_c2s|w_step]|intros ?].
    apply within_bind; [destruct b; [exact (r_run_s2c m)|w_step]|intros ?].
    apply within_bind; [destruct c; [exact (r_run_meta m)|w_step]|intros ?].
    do 1 (apply within_bind0; [apply r_send|intros ?]; apply within_bind0; [go|intros ?]).
    apply within_bind0; [apply r_send|intros ?]. go.
  Qed.
  Lemma r_serve m tests : R (serve_tests g m tests) 21.
  Proof.
    unfold serve_tests. destruct (Z.land tests 16 =? 0)%Z; [w_step|]. cbv zeta.
    do 6 (apply within_bind0; [go|intros _]). eapply within_le; [apply r_converse|].
    destruct (wants tests 2), (wants tests 4), (wants tests 32); lia.
  Qed.
  Lemma r_body : R (control_body g) (1 + 21).
  Proof.
    unfold control_body. apply within_bind1; [apply within_op; intros ?; apply le_n|]. intros inbuff.
    destruct (login_of (c_kind g) inbuff) as [[tests| |] m]; [apply r_serve| |]; go.
  Qed.
  Lemma r_handle : R (handle_control_channel g) 22.
  Proof.
    unfold handle_control_channel. apply within_bind0; [w_step|intros _]. do 2 (apply within_finally; [|w_step]).
    apply within_defer; [|intros [?|?]; go]. unfold handle_inner.
    match goal with |- within _ _ (fun s => ?m s) _ => change (R m 22) end.
    apply within_finally; [|w_step]. apply within_bind0; [w_step|intros ?]. cbv zeta.
    change 22 with (22 + 0). apply within_bind; [|intros ?; w_step].
    apply within_call, within_finally; [exact r_body|go].
  Qed.
End Reads.

Lemma few_measured n tr : Forall (fun cw => stat_lines (snd cw) <= n) (measured tr) -> Forall (few n) tr.
Proof.
  induction tr as [|e tr IH]; intros F; [constructor|]. unfold measured in F. cbn [flat_map] in F. fold (measured tr) in F.
  apply Forall_app in F as [F1 F2]. constructor; [|exact (IH F2)].
  destruct e; try exact I. destruct w as [w|]; [|exact I]. cbn [few]. rewrite statistics_number.
  inversion F1; subst. assumption.
Qed.
Lemma control_writes g n tr s x : run (handle_control_channel g tt) tr (s, x) ->
  Forall (fun cw => stat_lines (snd cw) <= n) (measured tr) ->
  List.length (writes tr) <= n + 28.
Proof. intros H F. rewrite writes_sum. exact (w_handle g n tt tr _ H (few_measured n tr F)). Qed.

(** ** The bounds are reached *)

(** A run with r reads and n writes in which every statistic is that of [w], with a result
    in Q. *)
Definition good_stat (w : web100) (e : event) : Prop :=
  match e with EvStopMeasuring _ (Some w') => w' = w | _ => True end.
Definition can {S A} (w : web100) (m : M event bytes S A) (Q : A -> Prop) (r n : nat) : Prop :=
  forall s, exists tr s' a, run (m s) tr (s', Ok a) /\ Q a /\ list_sum (map is_read tr) = r /\
    list_sum (map is_write tr) = n /\ Forall (good_stat w) tr.

Section Reach.
  Variables (g : config) (w : web100).

  Lemma can_ret {S A} (a : A) (Q : A -> Prop) : Q a -> can w (@ret event bytes S A a) Q 0 0.
  Proof. intros H s. exists [], s, a. cbn. auto 6. Qed.
  Lemma can_get {S} : can w (@get event bytes S) (fun _ => True) 0 0.
  Proof. intros s. exists [], s, s. cbn. auto 6. Qed.
  Lemma can_modify {S} (f : S -> S) : can w (@modify event bytes S f) (fun _ => True) 0 0.
  Proof. intros s. exists [], (f s), tt. cbn. auto 6. Qed.
  Lemma can_op {S B} (ev : B -> event) (b : B) : good_stat w (ev b) ->
    can w (@op event bytes S B ev) (fun x => x = b) (is_read (ev b)) (is_write (ev b)).
  Proof.
    intros G s. exists [ev b], s, b. split; [apply run_op; exists b; auto|]. split; [reflexivity|].
    cbn. split; [lia|]. split; [lia|]. repeat constructor. exact G.
  Qed.
  Lemma can_bind {S A B} (m : M event bytes S A) (f : A -> M event bytes S B) P Q r n r' n' :
    can w m P r n -> (forall a, P a -> can w (f a) Q r' n') -> can w (bind m f) Q (r + r') (n + n').
  Proof.
    intros Hm Hf s. destruct (Hm s) as (t1 & s1 & a & R1 & HP & E1 & E1' & F1).
    destruct (Hf a HP s1) as (t2 & s2 & b & R2 & HQ & E2 & E2' & F2).
    exists (t1 ++ t2), s2, b. split; [apply run_bind; left; exists t1, s1, a, t2; auto|].
    split; [exact HQ|]. rewrite !map_app, !list_sum_app. split; [lia|]. split; [lia|]. apply Forall_app. auto.
  Qed.
  Lemma can_bind0 {S A B} (m : M event bytes S A) (f : A -> M event bytes S B) P Q r n :
    can w m P 0 0 -> (forall a, P a -> can w (f a) Q r n) -> can w (bind m f) Q r n.
  Proof. intros A1 A2. exact (can_bind m f P Q 0 0 r n A1 A2). Qed.
  Lemma can_eq {S A} (m : M event bytes S A) Q r n r' n' : can w m Q r n -> r = r' -> n = n' -> can w m Q r' n'.
  Proof. intros H -> ->. exact H. Qed.
  Lemma can_weak {S A} (m : M event bytes S A) (P Q : A -> Prop) r n : can w m P r n -> (forall a, P a -> Q a) -> can w m Q r n.
  Proof. intros H PQ s. destruct (H s) as (tr & s' & a & R & HP & X). exists tr, s', a. auto. Qed.
  Lemma can_tell {S} e : good_stat w e -> can w (@tell event bytes S e) (fun _ => True) (is_read e) (is_write e).
  Proof. intros G. eapply can_weak; [apply (can_op (fun _ : unit => e) tt G)|auto]. Qed.
  Lemma can_call {S T A} (t0 : T) (m : M event bytes T A) (Q : A -> Prop) r n : can w m Q r n ->
    can w (@call event bytes S T A t0 m) (fun x => Q (snd x)) r n.
  Proof.
    intros H s. destruct (H t0) as (tr & t1 & a & R & HQ & X). exists tr, s, (t1, a).
    split; [apply run_call; split; [reflexivity|]; exists t1, (Ok a); auto|]. auto.
  Qed.
  Lemma can_finally {S A} (c : M event bytes S unit) (m : M event bytes S A) Q r n :
    can w m Q r n -> can w c (fun _ => True) 0 0 -> can w (finally c m) Q r n.
  Proof.
    intros Hm Hc s. destruct (Hm s) as (t1 & s1 & a & R1 & HQ & E1 & E1' & F1).
    destruct (Hc s1) as (t2 & s2 & b & R2 & _ & E2 & E2' & F2).
    exists (t1 ++ t2), s2, a. split; [apply run_finally; exists t1, s1, (Ok a), t2, (Ok b); auto 6|].
    split; [exact HQ|]. rewrite !map_app, !list_sum_app. split; [lia|]. split; [lia|]. apply Forall_app. auto.
  Qed.
  Lemma can_defer {S A} (c : res bytes A -> M event bytes S (res bytes A)) (m : M event bytes S A) (Q : A -> Prop) r n :
    can w m Q r n -> (forall a, Q a -> can w (c (Ok a)) (fun y => y = Ok a) 0 0) -> can w (defer c m) Q r n.
  Proof.
    intros Hm Hc s. destruct (Hm s) as (t1 & s1 & a & R1 & HQ & E1 & E1' & F1).
    destruct (Hc a HQ s1) as (t2 & s2 & b & R2 & -> & E2 & E2' & F2).
    exists (t1 ++ t2), s2, a. split; [apply run_defer; exists t1, s1, (Ok a), t2, (Ok (Ok a)); auto 6|].
    split; [exact HQ|]. rewrite !map_app, !list_sum_app. split; [lia|]. split; [lia|]. apply Forall_app. auto.
  Qed.

  Lemma can_send {S} m a b : can w (@send S m a b) (fun e => e = None) 0 1.
  Proof. exact (can_op (fun e => EvWrite (frame_of m a b) e) None I). Qed.
  Lemma can_send_s2c {S} m a b c : can w (@send_s2c S m a b c) (fun e => e = None) 0 1.
  Proof. exact (can_op (fun e => EvWrite (frame_of_s2c m a b c) e) None I). Qed.
  Lemma can_receive {S} : can w (@receive S TLV TestMsg) (fun x => x = (Some (str "a:b"), None)) 1 0.
  Proof.
    unfold receive. apply (can_bind (op EvRead) _ _ _ 1 0 0 0 (can_op EvRead (Some [5; 0; 3; 97; 58; 98]%Z) I)).
    intros ? ->. apply can_ret. reflexivity.
  Qed.
  Lemma can_lines {S} m l : can w (@send_lines S m l) (fun e => e = None) 0 (List.length l).
  Proof.
    induction l as [|x l IH]; cbn [send_lines List.length]; [apply can_ret; reflexivity|].
    apply (can_bind _ _ _ _ 0 1 0 (List.length l) (can_send m _ _)). intros ? ->. exact IH.
  Qed.

  Ltac c_step := match goal with
    | |- can _ (bind (send _ _ _) _) _ 0 (S _) => eapply (can_bind _ _ _ _ 0 1 0); [apply can_send|intros ? ->; cbv iota beta]
    | |- can _ (bind (send_s2c _ _ _ _) _) _ _ (S _) => eapply (can_bind _ _ _ _ 0 1); [apply can_send_s2c|intros ? ->; cbv iota beta]
    | |- can _ (bind (send _ _ _) _) _ _ (S _) => eapply (can_bind _ _ _ _ 0 1); [apply can_send|intros ? ->; cbv iota beta]
    | |- can _ (bind (modify _) _) _ _ _ => eapply can_bind0; [apply can_modify|intros ? _]
    | |- can _ (bind (tell _) _) _ _ _ => eapply can_bind0; [apply can_tell; exact I|intros ? _]
    | |- can _ (bind now _) _ _ _ => eapply can_bind0; [exact (can_op EvNow 0%Z I)|intros ? ->]
    | |- can _ (bind get _) _ _ _ => eapply can_bind0; [apply can_get|intros ? _]
    | |- can _ (ret _) _ _ _ => apply can_ret; try reflexivity; try exact I
    | |- can _ (panic_on_error _ None _) _ _ _ => unfold panic_on_error
    | |- can _ (bind (panic_on_error _ None _) _) _ _ _ => unfold panic_on_error at 1; apply can_bind0 with (P := fun _ => True); [apply can_ret; exact I|intros ? _]
    end.

  Lemma can_c2s m : can w (c2s_manage g m) (fun e => e = None) 0 4.
  Proof.
    unfold c2s_manage. apply can_defer; [|intros ? ->; apply can_ret; reflexivity].
    eapply can_bind0; [exact (can_op (EvListen (str "c2s")) (inl 0%Z) I)|intros ? ->]. cbv iota beta. c_step.
    eapply can_bind0; [exact (can_op (EvServe (str "c2s")) (Some (TConn 0 [] [] 0 [] 0), None) I)|intros ? ->]. cbv iota beta.
    apply can_finally; [|apply can_tell; exact I]. unfold c2s_transfer. repeat c_step. unfold drain.
    eapply can_bind0 with (P := fun x => x = (Some w, None)).
    { repeat c_step.
      eapply can_bind0; [exact (can_op (EvDrain _) DrainTimeout I)|intros ? ->].
      eapply can_bind0; [exact (can_op (EvStopMeasuring _) (Some w) eq_refl)|intros ? ->]. cbv iota beta. repeat c_step. }
    intros ? ->. cbv iota beta. repeat c_step. cbv zeta. unfold c2s_report. cbv zeta. repeat c_step.
  Qed.

  Lemma can_s2c : can w (s2c_manage g TLV) (fun e => e = None) 1 (stat_lines w + 16).
  Proof.
    eapply can_eq with (r := 1) (n := S (S (S (stat_lines w + (12 + 1))))); [|reflexivity|lia].
    unfold s2c_manage. apply can_defer; [|intros ? ->; apply can_ret; reflexivity]. unfold s2c_body.
    eapply can_bind0; [exact (can_op (EvListen (str "s2c")) (inl 0%Z) I)|intros ? ->]. cbv iota beta. c_step.
    eapply can_bind0; [exact (can_op (EvServe (str "s2c")) (Some (TConn 0 [] [] 0 [] 0), None) I)|intros ? ->]. cbv iota beta.
    unfold s2c_transfer. repeat c_step.
    eapply can_bind0; [exact (can_op (EvStopMeasuring _) (Some w) eq_refl)|intros ? ->]. cbv iota beta. c_step.
    unfold s2c_report. cbv zeta. repeat c_step.
    eapply (can_bind _ _ _ _ 1 0 0); [apply can_receive|intros ? ->]. cbv iota beta.
    eapply can_bind0; [destruct (parse_float _); [apply can_modify|apply can_ret; exact I]|intros ? _].
    unfold s2c_finish. eapply (can_bind _ _ _ _ 0 (stat_lines w) 0).
    { eapply can_eq; [apply can_lines|reflexivity|]. rewrite lines_number, statistics_number. reflexivity. }
    intros ? ->. c_step. eapply (can_bind _ _ _ _ 0 12 0 1).
    { eapply can_eq; [apply can_lines|reflexivity|]. rewrite lines_number, fields_number. reflexivity. }
    intros ? ->. repeat c_step.
  Qed.

  Lemma can_meta_loop {S} : forall fuel n l, can w (@meta_loop S fuel TLV n l) (fun x => snd x = None) fuel 0.
  Proof.
    induction fuel as [|f IH]; intros n l; cbn [meta_loop]; [apply can_ret; reflexivity|].
    eapply can_bind0; [exact (can_op EvCtxDone false I)|intros ? ->].
    eapply (can_bind _ _ _ _ 1 0); [apply can_receive|intros ? ->]. apply IH.
  Qed.
  Lemma can_meta : can w (meta_manage g TLV) (fun x => snd x = None) 20 3.
  Proof.
    unfold meta_manage. repeat c_step.
    eapply (can_bind _ _ _ _ 20 0 0); [exact (can_meta_loop 20 _ _)|]. intros [[c l] e] E. cbn [snd] in E. subst e.
    cbv iota beta. eapply can_bind0; [exact (can_op EvCtxDone false I)|intros ? ->]. cbv iota beta. repeat c_step.
  Qed.
  Lemma can_run_c2s m : can w (run_c2s g m) (fun _ => True) 0 4.
  Proof.
    unfold run_c2s. eapply (can_bind _ _ _ _ 0 4 0 0); [apply can_call, can_c2s|]. intros [d e] E. cbn [snd] in E. subst e.
    cbv iota beta. c_step. eapply can_bind0 with (P := fun _ => True); [destruct (f_is_zero _); [apply can_ret; exact I|apply can_tell; exact I]|intros ? _].
    repeat c_step.
  Qed.
  Lemma can_run_s2c : can w (run_s2c g TLV) (fun _ => True) 1 (stat_lines w + 16).
  Proof.
    unfold run_s2c. eapply can_eq with (r := 1 + 0) (n := (stat_lines w + 16) + 0); [|reflexivity|lia].
    eapply can_bind; [apply can_call, can_s2c|]. intros [d e] E. cbn [snd] in E. subst e.
    cbv iota beta. c_step. eapply can_bind0 with (P := fun _ => True); [destruct (f_is_zero _); [apply can_ret; exact I|apply can_tell; exact I]|intros ? _].
    repeat c_step.
  Qed.
  Lemma can_run_meta : can w (run_meta g TLV) (fun _ => True) 20 3.
  Proof.
    unfold run_meta. eapply (can_bind _ _ _ _ 20 3 0 0); [apply can_call, can_meta|]. intros [x [l e]] E. cbn [snd] in E. subst e.
    cbv iota beta. repeat c_step.
  Qed.
  Lemma can_converse : can w (converse g TLV true true true) (fun _ => True) 21 (stat_lines w + 28).
  Proof.
    eapply can_eq with (r := 0 + (1 + (20 + 0))) (n := S (S (S (4 + ((stat_lines w + 16) + (3 + 2)))))); [|reflexivity|lia].
    unfold converse. apply can_bind0 with (P := fun _ => True); [apply can_ret; exact I|intros ? _]. repeat c_step.
    apply (can_bind _ _ (fun _ => True) _ 0 4 21 ((stat_lines w + 16) + (3 + 2)) (can_run_c2s TLV)); intros ? _.
    apply (can_bind _ _ (fun _ => True) _ 1 (stat_lines w + 16) 20 (3 + 2) can_run_s2c); intros ? _.
    apply (can_bind _ _ (fun _ => True) _ 20 3 0 2 can_run_meta); intros ? _. repeat c_step.
  Qed.
  Lemma can_count {S} b n : can w (@count_if S g b n) (fun _ => True) 0 0.
  Proof. unfold count_if. destruct b; [apply can_tell; exact I|apply can_ret; exact I]. Qed.
  Lemma can_handle : c_kind g = KPlain -> can w (handle_control_channel g) (fun _ => True) 22 (stat_lines w + 28).
  Proof.
    intros K. unfold handle_control_channel. eapply can_bind0; [apply can_tell; exact I|intros ? _].
    do 2 (apply can_finally; [|apply can_tell; exact I]).
    apply can_defer; [|intros [] _; eapply can_bind0; [apply can_tell; exact I|intros ? _]; c_step].
    unfold handle_inner. match goal with |- can _ (fun s => ?m s) _ _ _ => change (can w m (fun _ => True) 22 (stat_lines w + 28)) end.
    apply can_finally; [|apply can_tell; exact I]. c_step. cbv zeta.
    eapply can_eq with (r := 22 + 0) (n := (stat_lines w + 28) + 0); [|reflexivity|lia].
    eapply can_bind with (P := fun _ => True); [|intros ? _; c_step].
    eapply can_weak; [apply can_call with (Q := fun _ => True)|auto].
    apply can_finally; [|repeat c_step; apply can_tell; exact I].
    unfold control_body. eapply (can_bind _ _ _ _ 1 0 21); [exact (can_op EvRead (Some [2; 0; 1; 54]%Z) I)|]. intros ? ->.
    rewrite K. change (login_of KPlain (Some [2; 0; 1; 54]%Z)) with (LoginOk 54, TLV). cbv iota beta. unfold serve_tests.
    change (Z.land 54 16 =? 0)%Z with false. cbv iota zeta.
    do 5 (eapply can_bind0; [apply can_count|intros ? _]). eapply can_bind0; [apply can_tell; exact I|intros ? _].
    exact can_converse.
  Qed.
End Reach.

Lemma stat_measured w tr : Forall (good_stat w) tr -> Forall (fun cw => snd cw = w) (measured tr).
Proof.
  induction 1 as [|e tr G F IH]; [constructor|]. unfold measured. cbn [flat_map]. fold (measured tr). apply Forall_app. split; [|exact IH].
  destruct e; try constructor. destruct w0; repeat constructor. exact G.
Qed.
Lemma bounds_reached g w : c_kind g = KPlain -> exists tr s,
  run (handle_control_channel g tt) tr (s, Ok tt) /\ Forall (fun cw => snd cw = w) (measured tr) /\
  List.length (reads tr) = 22 /\ List.length (writes tr) = stat_lines w + 28.
Proof.
  intros K. destruct (can_handle g w K tt) as (tr & s & [] & R & _ & E1 & E2 & F).
  exists tr, s. rewrite reads_sum, writes_sum. split; [exact R|]. split; [apply stat_measured, F|]. auto.
Qed.
