(** Proofs about the two goroutines of a subtest. *)
From Coq Require Import String ZArith List Bool Lia.
From Verif Require Import Base Effect Lts ControlModel Ndt7Model Ndt7Spec DoModel.
Import ListNotations.

(** [gets p tr q]: after the events [tr] of [p] it remains to do [q]. *)
Inductive gets {E A} (p : prog E A) : list E -> prog E A -> Prop :=
| gets_nil : gets p [] p
| gets_snoc tr q e q' : gets p tr q -> does q e q' -> gets p (tr ++ [e]) q'.

Lemma does_run {E A} (p : prog E A) e p' tr a : does p e p' -> run p' tr a -> run p (e :: tr) a.
Proof. intros H R. destruct H. cbn. eauto. Qed.

Lemma gets_run {E A} (p : prog E A) tr q : gets p tr q -> forall tr' a, run q tr' a -> run p (tr ++ tr') a.
Proof.
  induction 1 as [|tr q e q' G IH D]; intros tr' a R; [exact R|].
  rewrite <- app_assoc. apply IH. eapply does_run; eauto.
Qed.

Lemma gets_ret {E A} (p : prog E A) tr a : gets p tr (Ret a) -> run p tr a.
Proof. intros G. rewrite <- (app_nil_r tr). eapply gets_run; [exact G|]. cbn. auto. Qed.

(** At most [n] measurements are stored before the next time the context is found not to
    be done. *)
Fixpoint budget {A} (n : nat) (p : prog event7 A) : Prop :=
  match p with
  | Ret _ => True
  | Do ev k => forall b,
      match ev b with
      | EStore _ => exists n', n = S n' /\ budget n' (k b)
      | ECtxErr false => budget 1 (k b)
      | _ => budget n (k b)
      end
  end.

Lemma budget_more {A} (p : prog event7 A) : forall n n', (n <= n')%nat -> budget n p -> budget n' p.
Proof.
  induction p as [a|B ev k IH]; intros n n' L H; [exact I|]. cbn in *. intros b. specialize (H b).
  destruct (ev b) as [ | | | | | | | | | | | | | | | | | | | | | | | | | [|] | | | ]; eauto.
  destruct H as (n1 & -> & H). destruct n' as [|n'']; [lia|]. exists n''. split; [reflexivity|].
  eapply IH; [|exact H]. lia.
Qed.

Section Receiver.
  Variable decode : bytes -> option measurement.

  Lemma pong_budget proto k payload (f : bool -> Go7 unit unit) s n :
    (forall b s, budget n (f b s)) -> budget n (bind (pong_handler proto k payload) f s).
  Proof.
    intros H. unfold pong_handler. destruct (json_int64 payload); cbn; intros; apply H.
  Qed.

  Lemma receive_budget fuel proto k : forall p s,
    budget (match p with AtHead => 0 | _ => 1 end) (receive_loop decode fuel proto k p s).
  Proof.
    induction fuel as [|fuel IH]; intros p s; [exact I|]. destruct p; cbn [receive_loop].
    - unfold bind, op. cbn. intros [|]; [cbn; auto|]. apply (IH InNextReader).
    - unfold bind at 1, op. cbn [pbind budget]. intros [| |payload|].
      + apply (IH InReadAll).
      + destruct k; [cbn; auto|]. eapply budget_more; [|apply (IH AtHead)]. lia.
      + apply pong_budget. intros [|] s'; [cbn; auto|apply (IH InNextReader)].
      + cbn. auto.
    - unfold bind at 1, op. cbn [pbind budget]. intros [d|payload|].
      + destruct (decode d); [|cbn; auto]. cbn. intros _. exists 0%nat. split; [reflexivity|]. apply (IH AtHead).
      + apply pong_budget. intros [|] s'; [cbn; auto|apply (IH InReadAll)].
      + cbn. auto.
  Qed.

  Lemma receiver_budget fuel proto k s : budget 1 (receiver decode fuel proto k s).
  Proof.
    unfold receiver, bind, tell, op, now7. cbn. intros _ t [e|]; [cbn; auto|].
    eapply budget_more; [|apply (receive_budget fuel proto k AtHead)]. lia.
  Qed.
End Receiver.

Section Do.
  Variable sender0 : prog event7 (archival * res stop (option error)).
  Variable recv0 : prog event7 (unit * res stop unit).
  Notation Reach := (reachable (sub_init sender0 recv0) sub_step).

  (** Each goroutine follows its program, and the client measurements are those the
      receiver has stored. *)
  Lemma traces s : Reach s ->
    gets sender0 (d_strace s) (d_sender s) /\ gets recv0 (d_rtrace s) (d_recv s) /\
    d_client s = stored (d_rtrace s).
  Proof.
    apply (invariant (sub_init sender0 recv0) sub_step (fun s =>
      gets sender0 (d_strace s) (d_sender s) /\ gets recv0 (d_rtrace s) (d_recv s) /\
      d_client s = stored (d_rtrace s))).
    - intros ? ->. cbn. repeat split; constructor.
    - intros x y (H1 & H2 & H3) St. inversion St; subst; cbn [d_strace d_rtrace d_sender d_recv d_client] in *;
        (split; [|split]); try assumption.
      + econstructor; eassumption.
      + econstructor; eassumption.
      + unfold stored in *. rewrite flat_map_app, H3. reflexivity.
  Qed.

  (** Once ctx2 is cancelled the receiver has returned. *)
  Lemma cancelled_done s : Reach s -> d_cancel2 s = true -> exists x, d_recv s = Ret (x, Ok tt).
  Proof.
    apply (invariant (sub_init sender0 recv0) sub_step (fun s => d_cancel2 s = true -> exists x, d_recv s = Ret (x, Ok tt))).
    - intros ? ->. discriminate.
    - intros x y H St. inversion St; subst; cbn [d_cancel2 d_recv] in *; try assumption.
      + intros E. destruct (H E) as [u ->]. match goal with D : does (Ret _) _ _ |- _ => inversion D end.
      + eauto.
  Qed.

  (** If the context of the request was not done when Do returned, the client
      measurements stay as they were. *)
  Lemma quiet s snap : Reach s -> d_returned s = Some (snap, false) ->
    d_client s = snap /\ exists x, d_recv s = Ret (x, Ok tt).
  Proof.
    intros R. pose proof (fun s R => cancelled_done s R) as C.
    revert s R. assert (G : forall s, Reach s -> Reach s /\
      (d_returned s = Some (snap, false) -> d_client s = snap /\ exists x, d_recv s = Ret (x, Ok tt))).
    { apply (invariant (sub_init sender0 recv0) sub_step).
      - intros s I. split; [apply reachable_init, I|]. rewrite I. discriminate.
      - intros x y [Rx H] St. split; [eapply reachable_step; eauto|]. inversion St; subst; cbn [d_returned d_client d_recv] in *.
        + exact H.
        + intros E. destruct (H E) as (_ & u & ->). match goal with D : does (Ret _) _ _ |- _ => inversion D end.
        + exact H.
        + exact H.
        + intros E. injection E as -> ->. split; [reflexivity|]. cbn [orb] in *.
          subst. destruct (C _ Rx eq_refl) as [u Hu]. eauto. }
    intros s R. apply G, R.
  Qed.

  (** In any case at most one measurement is added after the return. *)
  Lemma at_most_one : budget 1 recv0 -> forall s snap pa, Reach s -> d_returned s = Some (snap, pa) ->
    exists extra, d_client s = snap ++ extra /\ (List.length extra <= 1)%nat.
  Proof.
    intros B0 s snap pa R. pose proof quiet as Q.
    assert (G : forall s, Reach s -> Reach s /\ (exists n, (n <= 1)%nat /\ budget n (d_recv s) /\
       forall snap, d_returned s = Some (snap, true) -> d_parent s = true /\
         exists extra, d_client s = snap ++ extra /\ (List.length extra + n <= 1)%nat)).
    { apply (invariant (sub_init sender0 recv0) sub_step).
      - intros s0 I. split; [apply reachable_init, I|]. rewrite I. exists 1%nat. split; [lia|]. split; [exact B0|]. discriminate.
      - intros x y [Rx (n & Ln & Bn & H)] St. split; [eapply reachable_step; eauto|].
        inversion St as [p e p' r st rt c pa0 ca re D|p r e r' st rt c pa0 ca re D Ctx|p u st rt c pa0 re|p r st rt c ca re|a e r st rt c pa0 ca Hor];
          subst; cbn [d_returned d_client d_recv d_parent] in *.
        + exists n. auto.
        + destruct D as [B ev k b]. cbn in Bn. specialize (Bn b).
          assert (Other : budget n (k b) -> stored [ev b] = [] -> exists n0 : nat,
            (n0 <= 1)%nat /\ budget n0 (k b) /\
            (forall snap0, re = Some (snap0, true) -> pa0 = true /\
               exists extra, c ++ stored [ev b] = snap0 ++ extra /\ (List.length extra + n0 <= 1)%nat)).
          { intros Bk ->. exists n. rewrite app_nil_r. auto. }
          destruct (ev b) as [ | | | | | | | | | | | | | | | | | | | | | | | | | [|] | | | m]; try (apply Other; [exact Bn|reflexivity]).
          * exists 1%nat. split; [lia|]. split; [exact Bn|]. intros sn E. destruct (H sn E) as (-> & _).
            specialize (Ctx eq_refl). discriminate.
          * destruct Bn as (n' & -> & Bn). exists n'. split; [lia|]. split; [exact Bn|].
            intros sn E. destruct (H sn E) as (-> & extra & -> & L). split; [reflexivity|].
            exists (extra ++ [m]). cbn. rewrite app_assoc. split; [reflexivity|]. rewrite app_length. cbn. lia.
        + exists n. auto.
        + exists n. split; [exact Ln|]. split; [exact Bn|]. intros sn E. destruct (H sn E) as (X & _). discriminate.
        + exists n. split; [exact Ln|]. split; [exact Bn|]. intros sn E. injection E as -> ->.
          split; [reflexivity|]. exists []. rewrite app_nil_r. split; [reflexivity|]. cbn. lia. }
    intros E. destruct pa.
    - destruct (G s R) as (_ & n & Ln & _ & H). destruct (H snap E) as (_ & extra & Hc & L). exists extra. split; [exact Hc|lia].
    - destruct (Q s snap R E) as [-> _]. exists []. rewrite app_nil_r. split; [reflexivity|cbn; lia].
  Qed.

  (** When Do returns and the context of the request is not done, both goroutines have
      run to the end. *)
  Lemma complete s snap : Reach s -> d_returned s = Some (snap, false) ->
    exists x, run recv0 (d_rtrace s) (x, Ok tt) /\ snap = stored (d_rtrace s).
  Proof.
    intros R E. destruct (traces s R) as (_ & G & C). destruct (quiet s snap R E) as (Q & x & Er).
    rewrite Er in G. exists x. split; [apply gets_ret, G|congruence].
  Qed.

  Lemma sender_done s snap pa : Reach s -> d_returned s = Some (snap, pa) ->
    exists a e, run sender0 (d_strace s) (a, Ok e).
  Proof.
    intros R. revert snap pa.
    assert (G : forall s, Reach s -> d_returned s <> None -> exists a e, d_sender s = Ret (a, Ok e)).
    { apply (invariant (sub_init sender0 recv0) sub_step (fun s => d_returned s <> None -> exists a e, d_sender s = Ret (a, Ok e))).
      - intros ? ->. cbn. congruence.
      - intros x y H St. inversion St; subst; cbn [d_returned d_sender] in *; try assumption.
        + intros E. destruct (H E) as (a & e0 & ->). match goal with D : does (Ret _) _ _ |- _ => inversion D end.
        + eauto. }
    intros snap pa E. destruct (G s R ltac:(congruence)) as (a & e & Es).
    destruct (traces s R) as (Gs & _). rewrite Es in Gs. exists a, e. apply gets_ret, Gs.
  Qed.
End Do.

(** ** A run in which the context of the request expires at the wrong time *)

Lemma gets_front {E A} (p : prog E A) e p' tr q : does p e p' -> gets p' tr q -> gets p (e :: tr) q.
Proof.
  intros D G. induction G as [|tr q e' q' G IH D'].
  - exact (gets_snoc p [] p e p' (gets_nil p) D).
  - exact (gets_snoc p (e :: tr) q e' q' IH D').
Qed.

Lemma later_send p tr q : gets p tr q -> forall r st rt c pa ca re,
  later sub_step (Sub p r st rt c pa ca re) (Sub q r (st ++ tr) rt c pa ca re).
Proof.
  induction 1 as [|tr q e q' G IH D]; intros.
  - rewrite app_nil_r. constructor.
  - rewrite app_assoc. econstructor; [apply IH|]. constructor. exact D.
Qed.

Lemma later_recv r tr q : gets r tr q -> forall p st rt c ca re,
  later sub_step (Sub p r st rt c false ca re) (Sub p q st (rt ++ tr) (c ++ stored tr) false ca re).
Proof.
  induction 1 as [|tr q e q' G IH D]; intros.
  - cbn. rewrite !app_nil_r. constructor.
  - unfold stored. rewrite flat_map_app, !app_assoc. econstructor; [apply IH|]. constructor; [exact D|reflexivity].
Qed.

Ltac hop v :=
  match goal with |- gets ?p ?tr ?q => let p' := eval hnf in p in change (gets p' tr q) end;
  match goal with
  | |- gets (Do ?ev ?k) _ _ => eapply (gets_front _ (ev v) _ _ _ (does_ev _ ev k v))
  end.

Lemma run_gets {E A} (p : prog E A) : forall tr a, run p tr a -> gets p tr (Ret a).
Proof.
  induction p as [x|B ev k IH]; intros tr a H.
  - destruct H as [-> ->]. constructor.
  - destruct H as (b & tr' & -> & H). eapply gets_front; [apply does_ev|]. apply IH, H.
Qed.

(** Whatever the sender, the message and the measurement in it: the receiver reads the
    message; the context expires; Do returns; the receiver stores the measurement. *)
Lemma late_store sender0 st a e decode d m n proto k :
  run sender0 st (a, Ok e) -> decode d = Some m ->
  exists s, reachable (sub_init sender0 (receiver decode (3 + n) proto k tt)) sub_step s /\
    d_returned s = Some ([], true) /\ d_client s = [m].
Proof.
  intros Rs Dm. eexists. split.
  - eexists. split; [reflexivity|].
    eapply later_trans; [apply later_send, run_gets, Rs|].
    eapply later_trans.
    { apply (later_recv (receiver decode (3 + n) proto k tt)
               [EReadLimit (2 ^ 24); ENow 0; EReadDeadline (0 + max_runtime) None; ECtxErr false; EFrame InText; EBody (BodyText d)]
               (Do (fun _ : unit => EStore m) (fun _ => receive_loop decode n proto k AtHead tt))).
      change (3 + n)%nat with (S (S (S n))).
      hop tt. hop 0%Z. hop (@None error). hop false. hop InText. hop (BodyText d). cbn [pbind]. rewrite Dm. constructor. }
    cbn -[max_runtime].
    eapply later_trans; [econstructor; [constructor|apply st_parent]|].
    eapply later_trans; [econstructor; [constructor|apply st_return; reflexivity]|].
    econstructor; [constructor|]. eapply (st_recv _ _ (EStore m)); [|discriminate].
    apply (does_ev unit (fun _ => EStore m) _ tt).
  - split; reflexivity.
Qed.
