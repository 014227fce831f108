(** Proofs about the data phase of the NDT5 tests. *)
From Coq Require Import ZArith List Bool Lia Wf_nat.
From Verif Require Import Base Web100Model Web100Proofs Lts PollerModel PollerProofs ControlModel TransferModel.
Import ListNotations.
Open Scope Z_scope.

Notation ureach := (reachable upload_init upload_step).
Notation freach := (reachable fill_init fill_step).

(** ** Upload *)
Definition poll_known (p : poller) (ctx : bool) : Prop := p_ok p /\ (ctx = true -> p_done p = true).

Definition uinv (s : upload) : Prop :=
  0 <= u_sent s /\
  (u_open s = false <-> u_close s = CDone) /\
  (match u_drain s with
   | DIdle => u_errs s = None
   | DRead => u_errs s = None
   | DGot e => u_errs s = None /\ (u_fail s = Some e \/ u_open s = false)
   | DEnd => u_fail s <> None \/ u_open s = false
   end) /\
  (forall e, u_errs s = Some e -> u_drain s = DEnd /\ (u_fail s = Some e \/ u_open s = false)) /\
  (match u_wait s with
   | WInit => u_drain s = DIdle /\ u_poll s = None /\ u_close s = CNone
   | WSkip => u_drain s = DIdle /\ u_poll s = None /\ u_close s <> CNone
   | WSelect => u_drain s <> DIdle /\ u_close s = CNone /\ (u_drain s = DEnd -> u_errs s <> None) /\
       exists p, u_poll s = Some p /\ poll_known p (u_ctx s) /\ p_taken p = false
   | WStop y => u_drain s <> DIdle /\ u_close s = CNone /\
       (exists p, u_poll s = Some p /\ p_ok p /\ p_done p = true /\ p_taken p = false) /\
       (match y with DrainTimeout => u_ctx s = true | DrainError e => u_fail s = Some e end)
   | WBack w e => u_drain s <> DIdle /\ u_ctx s = true /\
       (exists p, u_poll s = Some p /\ p_ok p /\ p_done p = true /\ p_taken p = true /\ w = summarize (good_reads p)) /\
       exists y, e = wait_result y w /\ (forall x, y = DrainError x -> u_fail s = Some x)
   end).

Lemma taken_still p q : p_ok p -> p_taken p = true -> poll_step p q -> good_reads q = good_reads p.
Proof.
  intros (_ & _ & _ & _ & E) T St. inversion St; subst; cbn in *; try reflexivity. destruct E as (_ & _ & E). congruence.
Qed.

Ltac ucase := cbn [u_sent u_fail u_open u_drain u_errs u_ctx u_poll u_wait u_close u_read option_map] in *.

Lemma uinv_init s : upload_init s -> uinv s.
Proof. intros ->. unfold uinv; ucase. repeat split; try lia; try congruence. Qed.

Lemma uinv_env s t : uinv s -> upload_env s t -> uinv t.
Proof.
  intros (A & B & C & D & E) St. inversion St; subst; unfold uinv in *; ucase.
  - split; [lia|]. split; [exact B|]. split; [exact C|]. split; [exact D|exact E].
  - split; [exact A|]. split; [exact B|]. split.
    { destruct d; auto; [destruct C as [C1 [C2|C2]]; [discriminate|auto]|destruct C; auto; left; discriminate]. }
    split.
    { intros x0 Hx. destruct (D x0 Hx) as [D1 [D2|D2]]; [discriminate|auto]. }
    destruct w; auto.
    + destruct E as (E1 & E2 & E3 & E4). destruct d0; [auto|discriminate].
    + destruct E as (E1 & E2 & E3 & y & E4 & E5). split; [exact E1|]. split; [exact E2|]. split; [exact E3|]. exists y. split; [exact E4|]. intros z Hz. specialize (E5 z Hz). discriminate.
  - split; [exact A|]. split; [exact B|]. split; [exact C|]. split; [exact D|]. destruct w; auto.
    + destruct E as (E1 & -> & E3). auto.
    + destruct E as (E1 & -> & E3). auto.
    + destruct E as (E1 & E2 & E3 & p0 & -> & [E5 E6] & E7). split; [exact E1|]. split; [exact E2|]. split; [exact E3|]. exists (finish p0).
      split; [reflexivity|]. split; [split; [apply finish_ok, E5|reflexivity]|exact E7].
    + destruct E as (E1 & E2 & (p0 & -> & E4 & E5 & E6) & E7). split; [exact E1|]. split; [exact E2|]. split; [|destruct d0; [reflexivity|exact E7]].
      exists (finish p0). split; [reflexivity|]. split; [apply finish_ok, E4|]. split; [reflexivity|exact E6].
    + destruct E as (_ & E & _). discriminate.
Qed.

Lemma uinv_work s t : uinv s -> upload_work s t -> uinv t.
Proof.
  intros (A & B & C & D & E) St. inversion St; subst; unfold uinv in *; ucase.
  - (* start *) split; [exact A|]. split; [exact B|]. split; [exact C|]. split; [intros e He; congruence|].
    destruct E as (_ & _ & E). split; [discriminate|]. split; [exact E|]. split; [discriminate|]. exists (new_poller 0 k). split; [reflexivity|].
    split; [split; [apply new_ok|intros ->; reflexivity]|reflexivity].
  - (* read *) split; [lia|]. auto.
  - split; [exact A|]. split; [exact B|]. split; [auto|]. split; [intros x0 Hx; congruence|].
    destruct w; auto.
    + destruct E as (E & _). discriminate. + destruct E as (E & _). discriminate.
    + destruct E as (E1 & E2 & E3 & E4). split; [discriminate|]. split; [exact E2|]. split; [discriminate|exact E4].
    + destruct E as (E1 & E2 & E3). split; [discriminate|]. auto.
    + destruct E as (E1 & E2 & E3). split; [discriminate|]. auto.
  - split; [exact A|]. split; [exact B|]. split; [auto|]. split; [intros x0 Hx; congruence|].
    destruct w; auto.
    + destruct E as (E & _). discriminate. + destruct E as (E & _). discriminate.
    + destruct E as (E1 & E2 & E3 & E4). split; [discriminate|]. split; [exact E2|]. split; [discriminate|exact E4].
    + destruct E as (E1 & E2 & E3). split; [discriminate|]. auto.
    + destruct E as (E1 & E2 & E3). split; [discriminate|]. auto.
  - (* send *) destruct C as [_ C]. split; [exact A|]. split; [exact B|]. split; [destruct C as [-> |C]; [left; discriminate|auto]|].
    split; [intros x0 [= ->]; auto|]. destruct w; auto.
    + destruct E as (E & _). discriminate. + destruct E as (E & _). discriminate.
    + destruct E as (E1 & E2 & E3 & E4). split; [discriminate|]. split; [exact E2|]. split; [intros _; discriminate|exact E4].
    + destruct E as (E1 & E2 & E3). split; [discriminate|]. auto.
    + destruct E as (E1 & E2 & E3). split; [discriminate|]. auto.
  - (* timeout *) split; [exact A|]. split; [exact B|]. split; [exact C|]. split; [exact D|].
    destruct E as (E1 & E2 & E3 & p0 & -> & [E5 E6] & E7). split; [exact E1|]. split; [exact E2|]. split; [|reflexivity].
    exists (finish p0). split; [reflexivity|]. split; [apply finish_ok, E5|]. split; [reflexivity|exact E7].
  - (* error *) destruct (D e eq_refl) as [-> D2]. destruct E as (E1 & E2 & E3 & p0 & -> & [E5 E6] & E7).
    assert (O : o = true) by (destruct o; [reflexivity|]; destruct B as [B _]; specialize (B eq_refl); congruence).
    split; [exact A|]. split; [exact B|]. split; [exact C|]. split; [discriminate|]. split; [exact E1|]. split; [exact E2|]. split; [|destruct D2; [assumption|congruence]].
    exists (finish p0). split; [reflexivity|]. split; [apply finish_ok, E5|]. split; [reflexivity|exact E7].
  - (* stopped *) destruct E as (E1 & E2 & (p0 & [= <-] & E4 & E5 & E6) & E7). destruct (receive_ok _ _ _ E4 H) as (F1 & F2 & F3 & F4 & _).
    split; [exact A|]. split; [exact B|]. split; [exact C|]. split; [exact D|]. split; [exact E1|]. split; [reflexivity|]. split.
    + exists (finish p'). split; [reflexivity|]. split; [apply finish_ok, F1|]. split; [reflexivity|]. split; [exact F3|]. rewrite E6 in F2. rewrite F2.
      unfold good_reads. cbn [finish p_reads]. rewrite F4. reflexivity.
    + exists y. split; [reflexivity|]. intros x0 ->. exact E7.
  - (* close *) split; [exact A|]. split; [tauto|]. split; [destruct d; auto; tauto|]. split; [intros e He; destruct (D e He); auto|].
    destruct w; auto.
    + destruct E as (_ & _ & E). discriminate. + destruct E as (E1 & E2 & E3). split; [exact E1|]. split; [exact E2|discriminate].
    + destruct E as (_ & E & _). discriminate. + destruct E as (_ & E & _). discriminate.
Qed.

Lemma uinv_sys s t : uinv s -> upload_sys s t -> uinv t.
Proof.
  intros I St. destruct St as [s t W|p p' x f o d c k w cl r P]; [eapply uinv_work; eauto|].
  destruct I as (A & B & C & D & E). unfold uinv in *; ucase. split; [exact A|]. split; [exact B|]. split; [exact C|]. split; [exact D|].
  destruct (poll_same _ _ P) as [_ T]. pose proof (poll_done _ _ P) as Dn. destruct w.
  - destruct E as (_ & E & _). discriminate. - destruct E as (_ & E & _). discriminate.
  - destruct E as (E1 & E2 & E3 & p0 & [= <-] & [E5 E6] & E7). split; [exact E1|]. split; [exact E2|]. split; [exact E3|].
    exists p'. split; [reflexivity|]. split; [split; [eapply poll_ok; eauto|rewrite Dn; exact E6]|congruence].
  - destruct E as (E1 & E2 & (p0 & [= <-] & E4 & E5 & E6) & E7). split; [exact E1|]. split; [exact E2|]. split; [|exact E7].
    exists p'. split; [reflexivity|]. split; [eapply poll_ok; eauto|]. split; congruence.
  - destruct E as (E1 & E2 & (p0 & [= <-] & E4 & E5 & E6 & E8) & E7). split; [exact E1|]. split; [exact E2|]. split; [|exact E7].
    exists p'. split; [reflexivity|]. split; [eapply poll_ok; eauto|]. split; [congruence|]. split; [congruence|]. rewrite (taken_still p p'); assumption.
Qed.

Lemma uinv_return s t : uinv s -> upload_return s t -> uinv t.
Proof.
  intros (A & B & C & D & E) St. inversion St; subst; unfold uinv in *; ucase.
  - split; [exact A|]. split; [split; intros Q; [apply B in Q; discriminate|discriminate]|]. split; [exact C|]. split; [exact D|exact E].
  - split; [exact A|]. split; [split; intros Q; [apply B in Q; discriminate|discriminate]|]. split; [exact C|]. split; [exact D|]. split; [reflexivity|]. split; [reflexivity|discriminate].
Qed.

Lemma uinv_holds s : ureach s -> uinv s.
Proof.
  apply invariant; [apply uinv_init|]. intros a b I [St|[St|St]]; [eapply uinv_env|eapply uinv_sys|eapply uinv_return]; eauto.
Qed.

Definition returned (s : upload) : Prop := u_wait s = WSkip \/ exists w e, u_wait s = WBack w e.

(** The measurement is over: the poller's context is done, or will be when it starts. *)
Definition over (s : upload) : Prop := u_ctx s = true \/ exists d, u_wait s = WStop d.

Lemma over_stays s t : uinv s -> over s -> upload_step s t -> over t.
Proof.
  intros I O [St|[St|St]]; [inversion St; subst|inversion St as [s0 t0 W|]; subst; [inversion W; subst|]|inversion St; subst]; unfold over in *; ucase; auto;
    try (right; eexists; reflexivity); destruct O as [O|[d0 O]]; auto; try discriminate; right; eexists; reflexivity.
Qed.

Lemma over_done s p : uinv s -> over s -> u_poll s = Some p -> p_done p = true.
Proof.
  intros (_ & _ & _ & _ & E) O P. destruct (u_wait s) eqn:W.
  - destruct E as (_ & E & _). congruence. - destruct E as (_ & E & _). congruence.
  - destruct E as (_ & _ & _ & p0 & E1 & [_ E2] & _). destruct O as [O|[d O]]; [|congruence]. rewrite P in E1. injection E1 as ->. auto.
  - destruct E as (_ & _ & (p0 & E1 & _ & E2 & _) & _). congruence.
  - destruct E as (_ & _ & (p0 & E1 & _ & E2 & _) & _). congruence.
Qed.

Definition wait_left (w : wait_at) : nat := match w with WInit => 30 | WSelect => 20 | WStop _ => 10 | _ => 0 end.
Definition drain_left (d : drain_at) : nat := match d with DIdle => 3 | DRead => 2 | DGot _ => 1 | DEnd => 0 end.
Definition work_left (s : upload) : nat :=
  wait_left (u_wait s) + drain_left (u_drain s) + Z.to_nat (u_sent s) + (match u_close s with CSleep => 1 | _ => 0 end).
Definition sys_left (s : upload) : nat :=
  work_left s + match u_poll s with Some p => poll_left p | None => 0 end.

Lemma poll_left_finish p : poll_left (finish p) = poll_left p.
Proof. destruct p; reflexivity. Qed.

Lemma poll_left_receive p w p' : receive_from p = Some (w, p') -> poll_left p' = poll_left p.
Proof. unfold receive_from. destruct (p_buf p); [intros [= <- <-]; reflexivity|]. destruct (p_closed p); [intros [= <- <-]; reflexivity|discriminate]. Qed.

Lemma poll_left_new k : (poll_left (new_poller 0 k) <= 8)%nat.
Proof. destruct k; cbn; lia. Qed.

Lemma work_less s t : uinv s -> upload_work s t -> (work_left t < work_left s)%nat /\
  ((match u_poll t with Some p => poll_left p | None => 0 end) <= 8 + (match u_poll s with Some p => poll_left p | None => 0 end))%nat /\
  (u_wait s <> WInit -> (match u_poll t with Some p => poll_left p | None => 0 end = match u_poll s with Some p => poll_left p | None => 0 end)%nat).
Proof.
  intros I W. assert (P : 0 <= u_sent s) by apply I.
  inversion W; subst; unfold work_left; ucase; cbn [wait_left drain_left];
    try (destruct p as [p|]; ucase); rewrite ?poll_left_finish;
    try match goal with R : receive_from _ = _ |- _ => rewrite (poll_left_receive _ _ _ R) end;
    try (pose proof (poll_left_new k)); split; try lia; split; try lia; try congruence.
Qed.

Lemma sys_less s t : uinv s -> over s -> upload_sys s t -> (sys_left t < sys_left s)%nat.
Proof.
  intros I O St. destruct St as [s t W|p p' x f o d c k w cl r P].
  - destruct (work_less s t I W) as (A & B & C). unfold sys_left. destruct (u_wait s) eqn:Q; try (rewrite C by discriminate; lia).
    inversion W; subst; ucase; try discriminate.
    + unfold work_left in *. ucase. cbn [wait_left drain_left] in *. lia.
    + destruct I as (_ & _ & _ & _ & E). ucase. subst. destruct E as (E & _). discriminate.
    + destruct I as (_ & _ & _ & _ & E). ucase. subst. destruct E as (E & _). discriminate.
    + destruct I as (_ & _ & _ & _ & E). ucase. subst. destruct E as (E & _). discriminate.
    + destruct I as (_ & _ & _ & _ & E). ucase. subst. destruct E as (E & _). discriminate.
    + destruct I as (_ & _ & _ & _ & E). ucase. subst. destruct E as (_ & _ & E). discriminate.
  - pose proof (over_done _ p I O eq_refl) as Dn. unfold sys_left, work_left. ucase.
    enough (poll_left p' < poll_left p)%nat by lia. inversion P; subst; unfold poll_left; cbn in *; try discriminate; lia.
Qed.

Lemma poll_not_stuck p : p_done p = true -> p_at p = PEnd \/ exists q, poll_step p q.
Proof.
  destruct p as [a d sn bu cl rd la tk id]. cbn. intros ->. destruct a; auto; right; eexists.
  - apply po_over. - apply (po_read None). - apply po_tick. - apply po_sum. - apply po_close.
Qed.

Lemma stuck_returned s : uinv s -> over s -> stuck upload_sys s -> returned s.
Proof.
  intros I O K. pose proof (fun p P => over_done s p I O P) as Dn. destruct I as (A & B & C & D & E).
  destruct s as [x f o d c k p w cl r]. ucase. unfold returned. ucase. destruct w.
  - exfalso. destruct E as (-> & -> & ->). eapply K, s_work, s_start.
  - auto.
  - exfalso. destruct O as [O|[d0 O]]; ucase; [|discriminate]. subst k. eapply K, s_work, s_timeout.
  - exfalso. destruct E as (_ & _ & (p0 & -> & E4 & E5 & E6) & _).
    destruct (poll_not_stuck p0 E5) as [Q|[q Q]]; [|eapply K, s_poll, Q].
    destruct E4 as (_ & _ & _ & _ & E4). rewrite Q in E4. destruct E4 as (_ & E4 & _).
    destruct (receive_from p0) as [[w p']|] eqn:R; [eapply K, s_work, s_stopped, R|]. unfold receive_from in R. rewrite E4 in R. destruct (p_buf p0); discriminate.
  - right. eauto.
Qed.

Lemma timeout_returns : forall s, ureach s -> over s -> inevitable upload_sys returned s.
Proof.
  intros s R O. remember (sys_left s) as n eqn:N. revert s R O N. induction n as [n IH] using lt_wf_ind. intros s R O ->.
  pose proof (uinv_holds s R) as I. constructor; [apply stuck_returned; assumption|]. intros t St.
  apply (IH (sys_left t)); [apply sys_less; assumption|eapply reachable_step; [exact R|right; left; exact St]|eapply over_stays; [exact I|exact O|right; left; exact St]|reflexivity].
Qed.

Lemma over_later s t : ureach s -> over s -> later upload_step s t -> ureach t /\ over t.
Proof.
  intros R O L. induction L as [|a b L IH E]; [auto|]. destruct IH as [R' O']. split; [eapply reachable_step; eassumption|].
  eapply over_stays; [apply uinv_holds, R'|exact O'|exact E].
Qed.

Definition stopping (s : upload) : Prop := (exists d, u_wait s = WStop d) \/ returned s.

Lemma client_gone : forall s, ureach s -> u_fail s <> None -> inevitable upload_work stopping s.
Proof.
  intros s R F. remember (work_left s) as n eqn:N. revert s R F N. induction n as [n IH] using lt_wf_ind. intros s R F ->.
  pose proof (uinv_holds s R) as I. constructor.
  - intros K. destruct I as (A & B & C & D & E). destruct s as [x f o d c k p w cl r]. unfold stopping, returned. ucase. destruct w; eauto.
    + exfalso. destruct E as (-> & -> & ->). eapply K, s_start.
    + exfalso. destruct E as (E1 & -> & E3 & E4). destruct f as [e|]; [|contradiction].
      destruct o; [|destruct B as [B _]; specialize (B eq_refl); discriminate].
      destruct d; [congruence|eapply K, s_read_fail|destruct C as [-> _]; eapply K, s_send|]. destruct c; [eapply K, s_error|apply E3; reflexivity].
  - intros t St. apply (IH (work_left t)); [apply work_less; assumption|eapply reachable_step; [exact R|right; left; apply s_work, St]| |reflexivity].
    inversion St; subst; ucase; assumption.
Qed.

Definition all_ended (s : upload) : Prop :=
  u_open s = false /\ (u_drain s = DIdle \/ u_drain s = DEnd) /\ u_close s = CDone /\
  match u_poll s with Some p => p_at p = PEnd | None => True end.

Lemma stuck_ended s : uinv s -> u_close s <> CNone -> stuck upload_sys s -> all_ended s.
Proof.
  intros (A & B & C & D & E) N K. destruct s as [x f o d c k p w cl r]. unfold all_ended. ucase.
  destruct cl; [contradiction|exfalso; eapply K, s_work, s_close|]. assert (O : o = false) by tauto. subst o.
  split; [reflexivity|]. split.
  { destruct d; auto; exfalso; [eapply K, s_work, s_read_closed|]. destruct C as [-> _]. eapply K, s_work, s_send. }
  split; [reflexivity|]. destruct p as [p|]; [|exact Logic.I].
  destruct w.
  - destruct E as (_ & E & _). discriminate. - destruct E as (_ & E & _). discriminate.
  - destruct E as (_ & E & _). discriminate. - destruct E as (_ & E & _). discriminate.
  - destruct E as (_ & _ & (p0 & [= <-] & _ & E2 & _) & _). destruct (poll_not_stuck p E2) as [Q|[q Q]]; [exact Q|]. exfalso. eapply K, s_poll, Q.
Qed.

Lemma close_stays s t : u_close s <> CNone -> upload_step s t -> u_close t <> CNone.
Proof. intros N [St|[St|St]]; [inversion St; subst|inversion St as [s0 t0 W|]; subst; [inversion W; subst|]|inversion St; subst]; ucase; auto; discriminate. Qed.

Lemma sys_less_closing s t : uinv s -> u_close s <> CNone -> upload_sys s t -> (sys_left t < sys_left s)%nat.
Proof.
  intros I N St. destruct (u_wait s) eqn:W.
  - destruct I as (_ & _ & _ & _ & E). rewrite W in E. destruct E as (_ & _ & E). contradiction.
  - (* no poller *) pose proof I as (A & B & C & D & E). rewrite W in E. destruct E as (E1 & E2 & E3).
    destruct St as [s t Wk|p p' x f o d c k w cl r P]; [|discriminate].
    destruct (work_less s t I Wk) as (Q & _ & Q2). unfold sys_left. rewrite Q2 by congruence. lia.
  - destruct I as (_ & _ & _ & _ & E). rewrite W in E. destruct E as (_ & E & _). contradiction.
  - destruct I as (_ & _ & _ & _ & E). rewrite W in E. destruct E as (_ & E & _). contradiction.
  - apply sys_less; [exact I| |exact St]. destruct I as (_ & _ & _ & _ & E). rewrite W in E. left. apply E.
Qed.

Lemma closing_ends : forall s, ureach s -> u_close s <> CNone -> inevitable upload_sys all_ended s.
Proof.
  intros s R O. remember (sys_left s) as n eqn:N. revert s R O N. induction n as [n IH] using lt_wf_ind. intros s R O ->.
  pose proof (uinv_holds s R) as I. constructor; [apply stuck_ended; assumption|]. intros t St.
  apply (IH (sys_left t)); [apply sys_less_closing; assumption|eapply reachable_step; [exact R|right; left; exact St]|eapply close_stays; [exact O|right; left; exact St]|reflexivity].
Qed.

Lemma closing_later s t : ureach s -> u_close s <> CNone -> later upload_step s t -> ureach t /\ u_close t <> CNone.
Proof.
  intros R O L. induction L as [|a b L IH E]; [auto|]. destruct IH as [R' O']. split; [eapply reachable_step; eassumption|eapply close_stays; eassumption].
Qed.

Lemma wait_outcome s w e : ureach s -> u_wait s = WBack w e ->
  exists p, u_poll s = Some p /\ w = summarize (good_reads p) /\
  ((e = None /\ w <> None) \/ (e = Some ErrNoStats /\ w = None) \/ (e <> None /\ u_fail s = e)).
Proof.
  intros R W. destruct (uinv_holds s R) as (_ & _ & _ & _ & E). rewrite W in E.
  destruct E as (_ & _ & (p & E1 & _ & _ & _ & E2) & y & E3 & E4). exists p. split; [exact E1|]. split; [exact E2|].
  destruct y as [|x]; cbn [wait_result] in E3.
  - destruct w; [left; split; [exact E3|discriminate]|right; left; auto].
  - right. right. rewrite E3. split; [discriminate|]. apply E4. reflexivity.
Qed.

Lemma stop_reason s y : ureach s -> u_wait s = WStop y ->
  match y with DrainTimeout => u_ctx s = true | DrainError e => u_fail s = Some e end.
Proof. intros R W. destruct (uinv_holds s R) as (_ & _ & _ & _ & E). rewrite W in E. apply E. Qed.

Lemma keeps_draining s : ureach s -> u_wait s <> WInit -> u_wait s <> WSkip -> u_open s = true -> u_fail s = None ->
  u_drain s = DRead /\ (0 < u_sent s -> exists t, upload_work s t /\ u_sent t = 0 /\ u_read t = u_read s + u_sent s).
Proof.
  intros R W1 W2 O F. destruct (uinv_holds s R) as (A & B & C & D & E).
  assert (Q : u_drain s = DRead).
  { destruct (u_drain s) eqn:Q; [|reflexivity| |].
    - exfalso. destruct (u_wait s) eqn:W; try contradiction; destruct E as (E & _); congruence.
    - destruct C as [_ [C|C]]; congruence. - destruct C as [C|C]; congruence. }
  split; [exact Q|]. intros P. destruct s as [x f o d c k p w cl r]. ucase. subst. eexists. split; [apply (s_read x); lia|]. ucase. lia.
Qed.

Lemma closed_late s : ureach s -> (u_open s = false <-> u_close s = CDone) /\ (u_close s <> CNone -> returned s).
Proof.
  intros R. destruct (uinv_holds s R) as (A & B & C & D & E). split; [exact B|]. intros N. unfold returned.
  destruct (u_wait s); eauto; exfalso; apply N; tauto.
Qed.

(** ** Download *)
Definition finv (s : fill) : Prop :=
  0 < f_size s /\ 0 <= f_room s /\
  (exists k, f_count s = k * f_size s) /\
  match f_at s with
  | FBack n e => n = f_count s /\ (e = None -> f_taken s = n /\ f_past s = true) /\
      (e <> None -> f_gone s = e /\ n <= f_taken s < n + f_size s)
  | _ => f_taken s = f_count s
  end.

Ltac fcase := cbn [f_plain f_size f_room f_gone f_past f_ctx f_at f_count f_taken] in *.

Lemma finv_holds s : freach s -> finv s.
Proof.
  apply invariant.
  - intros a (pl & sz & rm & P & Q & ->). unfold finv. fcase. repeat split; auto. exists 0. lia.
  - intros a b (A & B & (k & C) & D) [St|St]; inversion St; subst; unfold finv in *; fcase.
    + split; [exact A|]. split; [lia|]. split; [exists k; exact C|]. exact D.
    + split; [exact A|]. split; [exact B|]. split; [exists k; exact C|]. destruct at_; auto. destruct D as (D1 & D2 & D3). split; [exact D1|]. split; [exact D2|]. intros N. destruct (D3 N) as [D4 _]. congruence.
    + split; [exact A|]. split; [exact B|]. split; [exists k; exact C|]. destruct at_; auto. destruct D as (D1 & D2 & D3). split; [exact D1|]. split; [intros N; split; [apply D2, N|reflexivity]|exact D3].
    + split; [exact A|]. split; [exact B|]. split; [exists k; exact C|]. destruct at_; auto.
    + split; [exact A|]. split; [exact B|]. split; [exists k; exact C|]. exact D.
    + split; [exact A|]. split; [exact B|]. split; [exists k; exact C|]. split; [reflexivity|]. split; [auto|congruence].
    + split; [exact A|]. split; [lia|]. split; [exists (k + 1); lia|]. lia.
    + split; [exact A|]. split; [lia|]. split; [exists k; exact C|]. split; [reflexivity|]. split; [discriminate|]. intros _. split; [reflexivity|lia].
Qed.

(** Waiting for a client that does not read. *)
Definition blocked (s : fill) : Prop := f_at s = FWrite /\ f_gone s = None /\ f_room s < f_size s.

Lemma fill_ends s : freach s -> f_past s = true ->
  inevitable fill_sys (fun t => (exists n e, f_at t = FBack n e) \/ blocked t) s.
Proof.
  intros R P. remember (match f_at s with FCheck => 1 | FWrite => 2 | _ => 0 end)%nat as n eqn:N. revert s R P N.
  induction n as [n IH] using lt_wf_ind. intros s R P ->. pose proof (finv_holds s R) as (A & B & _). constructor.
  - intros K. destruct s as [pl sz rm go pa cx at_ co ta]. unfold blocked. fcase. subst pa. destruct at_; eauto.
    + exfalso. eapply K, f_over.
    + right. split; [reflexivity|]. destruct go as [e|].
      * exfalso. eapply K, (f_failed 0); lia.
      * split; [reflexivity|]. destruct (Z.lt_ge_cases rm sz); [assumption|]. exfalso. eapply K, f_wrote. lia.
  - intros t St. assert (R' : freach t) by (eapply reachable_step; [exact R|right; exact St]).
    inversion St; subst; fcase; try discriminate; (eapply IH; [|exact R'|fcase; first [exact P|reflexivity]|reflexivity]); fcase; lia.
Qed.

Lemma blocked_stuck s : blocked s -> stuck fill_sys s.
Proof. intros (A & B & C) t St. inversion St; subst; fcase; try discriminate. lia. Qed.

Lemma blocked_run : exists s, freach s /\ f_past s = true /\ f_ctx s = true /\ blocked s.
Proof.
  eexists. split.
  - eapply reachable_step; [eapply reachable_step; [eapply reachable_step; [apply reachable_init; exists true, 8192, 100; split; [lia|split; [lia|reflexivity]]|right; apply f_go]|left; apply f_time]|left; apply f_expires].
  - unfold blocked. fcase. repeat split; lia.
Qed.

Lemma blocked_silent s t : blocked s -> fill_env s t -> f_room t = f_room s -> f_gone t = f_gone s -> blocked t.
Proof. unfold blocked. intros (A & B & C) St. inversion St; subst; fcase; intros; subst; try discriminate; repeat split; auto; try lia. Qed.
