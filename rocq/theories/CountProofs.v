(** Proofs about the counters of test servers. *)
From Coq Require Import List Bool Arith Lia.
From Verif Require Import Lts ServingModel ServingProofs ControlModel CountModel CountSpec.
Import ListNotations.

Definition b2n (b : bool) : nat := if b then 1 else 0.

Lemma many_app p l l' : many p (l ++ l') = many p l + many p l'.
Proof. unfold many. rewrite filter_app, app_length. reflexivity. Qed.

Lemma many_cons p x l : many p (x :: l) = b2n (p x) + many p l.
Proof. unfold many. cbn [filter]. destruct (p x); reflexivity. Qed.

Lemma many_nil p : many p [] = 0. Proof. reflexivity. Qed.

Lemma kind_eqb_sym j k : kind_eqb j k = kind_eqb k j.
Proof. destruct j, k; reflexivity. Qed.

Lemma bump_val c k n j : bump c k n j = c j + (if kind_eqb k j then n else 0).
Proof. unfold bump. rewrite (kind_eqb_sym k j). destruct (kind_eqb j k); lia. Qed.

Definition closing (k : server_kind) (m : mserver) : bool := of_kind k m && stopping m.

Definition good (m : mserver) : Prop :=
  match m with WsRun _ s => ws_reachable s | PlainRun s => plain_reachable s | _ => True end.

Lemma stops_ws k s : ws_reachable s -> b2n (stopping (WsRun k s)) = v_stops s.
Proof. intros R. rewrite (stops_once s R). cbn. destruct (v_close s); reflexivity. Qed.

Lemma stops_plain s : plain_reachable s -> b2n (stopping (PlainRun s)) = q_stops s.
Proof. intros R. destruct (plain_inv_holds s R) as (_ & H & _). cbn. destruct (q_main s); cbn; lia. Qed.

Lemma ws_stops_grow s t : ws_step s t -> v_stops s <= v_stops t.
Proof. intros St. inversion St; subst; cbn; lia. Qed.

Lemma plain_stops_grow s t : plain_step s t -> q_stops s <= q_stops t.
Proof. intros St. inversion St; subst; cbn; lia. Qed.

Definition meter_inv (s : metering) : Prop :=
  Forall good (mt_servers s) /\
  forall k, mt_start s k = many (of_kind k) (mt_servers s) /\ mt_stop s k = many (closing k) (mt_servers s).

Lemma meter_holds z : meter_reachable z -> meter_inv z.
Proof.
  apply (invariant meter_init meter_step meter_inv).
  - intros ? ->. split; [constructor|]. intros k. split; reflexivity.
  - intros x y (G & H) St. inversion St; subst; cbn [mt_servers mt_start mt_stop] in *; unfold meter_inv; cbn [mt_servers mt_start mt_stop].
    + split; [apply Forall_app; split; [exact G|repeat constructor]|]. intros j. destruct (H j) as [A B].
      rewrite bump_val, !many_app, !many_cons, !many_nil, A, B. unfold closing, of_kind. cbn [kind_of stopping].
      rewrite andb_false_r. destruct (kind_eqb k j); cbn; lia.
    + split; [apply Forall_app; split; [exact G|repeat constructor]|]. intros j. destruct (H j) as [A B].
      rewrite bump_val, !many_app, !many_cons, !many_nil, A, B. unfold closing, of_kind. cbn [kind_of stopping].
      rewrite andb_false_r. destruct (kind_eqb k j); cbn; lia.
    + apply Forall_app in G as [G1 G2]. inversion G2; subst.
      assert (R : ws_reachable s) by (apply reachable_init; assumption).
      split; [apply Forall_app; split; [exact G1|constructor; [exact R|assumption]]|]. intros j. destruct (H j) as [A B].
      rewrite A, B, !many_app, !many_cons. unfold closing, of_kind. cbn [kind_of].
      match goal with I : ws_init s |- _ => rewrite I end. split; [reflexivity|]. cbn. destruct (kind_eqb k j); reflexivity.
    + apply Forall_app in G as [G1 G2]. inversion G2; subst.
      assert (R : plain_reachable s) by (apply reachable_init; assumption).
      split; [apply Forall_app; split; [exact G1|constructor; [exact R|assumption]]|]. intros j. destruct (H j) as [A B].
      rewrite A, B, !many_app, !many_cons. unfold closing, of_kind. cbn [kind_of].
      match goal with I : plain_init s |- _ => rewrite I end. split; [reflexivity|]. cbn. destruct j; reflexivity.
    + apply Forall_app in G as [G1 G2]. inversion G2; subst. rename H0 into W.
      match goal with X : good (WsRun k s) |- _ => rename X into R end. cbn in R.
      assert (R' : ws_reachable t) by (eapply reachable_step; eassumption).
      split; [apply Forall_app; split; [exact G1|constructor; [exact R'|assumption]]|]. intros j. destruct (H j) as [A B].
      rewrite bump_val, A, B, !many_app, !many_cons. pose proof (stops_ws k s R) as S1. pose proof (stops_ws k t R') as S2.
      pose proof (ws_stops_grow s t W) as L. unfold closing, of_kind. cbn [kind_of]. split; [reflexivity|].
      destruct (kind_eqb k j); cbn [andb]; [|cbn; lia]. rewrite S1, S2. lia.
    + apply Forall_app in G as [G1 G2]. inversion G2; subst. rename H0 into W.
      match goal with X : good (PlainRun s) |- _ => rename X into R end. cbn in R.
      assert (R' : plain_reachable t) by (eapply reachable_step; eassumption).
      split; [apply Forall_app; split; [exact G1|constructor; [exact R'|assumption]]|]. intros j. destruct (H j) as [A B].
      rewrite bump_val, A, B, !many_app, !many_cons. pose proof (stops_plain s R) as S1. pose proof (stops_plain t R') as S2.
      pose proof (plain_stops_grow s t W) as L. unfold closing, of_kind. cbn [kind_of]. split; [reflexivity|].
      destruct (kind_eqb KPlain j); cbn [andb]; [|cbn; lia]. rewrite S1, S2. lia.
Qed.

(** Counting by cases. *)
Lemma many_split p q l : many p l = many (fun m => p m && q m) l + many (fun m => p m && negb (q m)) l.
Proof.
  induction l as [|x l IH]; [reflexivity|]. rewrite !many_cons, IH. destruct (p x), (q x); cbn; lia.
Qed.

Lemma many_ext p q l : (forall m, In m l -> p m = q m) -> many p l = many q l.
Proof.
  induction l as [|x l IH]; [reflexivity|]. intros H. rewrite !many_cons, IH by (intros; apply H; right; assumption).
  rewrite (H x) by (left; reflexivity). reflexivity.
Qed.

Lemma start_stop s k : meter_reachable s ->
  mt_start s k = many (of_kind k) (mt_servers s) /\
  mt_start s k = mt_stop s k + many (fun m => of_kind k m && failed m) (mt_servers s) +
    many (fun m => of_kind k m && negb (failed m) && negb (stopping m)) (mt_servers s).
Proof.
  intros R. destruct (meter_holds s R) as [_ H]. destruct (H k) as [A B]. split; [exact A|].
  rewrite A, B, (many_split (of_kind k) stopping). unfold closing. rewrite <- Nat.add_assoc. f_equal.
  rewrite (many_split (fun m => of_kind k m && negb (stopping m)) failed). f_equal; apply many_ext; intros m _.
  - destruct m; cbn; rewrite ?andb_true_r, ?andb_false_r; reflexivity.
  - destruct (of_kind k m), (failed m), (stopping m); reflexivity.
Qed.

Lemma rest_stop m : good m -> resting m -> stopping m = negb (failed m) && negb (idle m).
Proof.
  destruct m as [k|k|k s|s]; cbn [good resting]; try reflexivity.
  - intros R [r E]. cbn. rewrite (done_over s R r E). reflexivity.
  - intros R [r E]. cbn. rewrite E. reflexivity.
Qed.

Lemma rest_closed m : good m -> resting m -> listening m = idle m.
Proof.
  destruct m as [k|k|k s|s]; cbn [good resting]; try reflexivity.
  - intros R [r E]. cbn. rewrite (done_over s R r E). reflexivity.
  - intros R [r E]. cbn. destruct (plain_inv_holds s R) as (_ & H & _). rewrite E in H. apply H.
Qed.

Lemma rest_counts s k : meter_reachable s -> Forall resting (mt_servers s) ->
  mt_start s k = mt_stop s k + many (fun m => of_kind k m && failed m) (mt_servers s) +
    many (fun m => of_kind k m && listening m) (mt_servers s).
Proof.
  intros R F. destruct (start_stop s k R) as [_ E]. rewrite E. f_equal. apply many_ext. intros m I.
  destruct (meter_holds s R) as [G _]. rewrite Forall_forall in F, G.
  rewrite (rest_closed m (G m I) (F m I)), (rest_stop m (G m I) (F m I)). destruct m; cbn; rewrite ?andb_true_r, ?andb_false_r; reflexivity.
Qed.

(** ** Runs *)
Lemma lift_ws k s t l l' a b : later ws_step s t ->
  exists b', later meter_step (Metering (l ++ WsRun k s :: l') a b) (Metering (l ++ WsRun k t :: l') a b').
Proof.
  induction 1 as [|t u L [b' IH] St]; [eexists; constructor|].
  eexists. econstructor; [exact IH|]. apply mt_ws, St.
Qed.

(** A port that could not be had, a server nobody waits for, and one that served a client. *)
Lemma three_servers : exists z s, meter_reachable z /\
  mt_servers z = [Unbound KWss; Idle KWss; WsRun KWss s] /\ v_main s = MDone (Some 0, None) /\ mt_start z KWss = 3.
Proof.
  destruct good_run as (s & (i & I & L) & E & _).
  destruct (lift_ws KWss i s [Unbound KWss; Idle KWss] [] (bump (bump (bump (fun _ => 0) KWss 1) KWss 1) KWss 1) (fun _ => 0) L) as [b' L'].
  eexists _, s. split; [|split; [|split]].
  - eexists. split; [reflexivity|]. eapply later_front; [apply (mt_fails KWss)|]. eapply later_front; [apply (mt_listen KWss)|].
    eapply later_front; [apply (mt_listen KWss)|].
    eapply later_front; [apply (mt_serve_ws KWss i [Unbound KWss; Idle KWss] []); [discriminate|exact I]|]. exact L'.
  - reflexivity.
  - exact E.
  - reflexivity.
Qed.

(** A port that could not be had never listens. *)
Lemma unbound_stays x y : later meter_step x y -> forall l k l', mt_servers x = l ++ Unbound k :: l' ->
  exists r r', mt_servers y = r ++ Unbound k :: r' /\ List.length r = List.length l.
Proof.
  induction 1 as [|y z L IH St]; intros l k l' E; [eauto|].
  destruct (IH l k l' E) as (r & r' & E' & Len). clear IH E L. rewrite <- Len. clear Len l l'.
  assert (Q : forall p q (m m' : mserver), p ++ m :: q = r ++ Unbound k :: r' -> m <> Unbound k ->
    exists u u', p ++ m' :: q = u ++ Unbound k :: u' /\ List.length u = List.length r).
  { clear E' St y z. intros p. revert r. induction p as [|w p IH]; intros [|y r] q m m' H N; cbn in H; injection H as H1 H2; subst; try congruence.
    - exists (m' :: r), r'. split; reflexivity.
    - exists [], (p ++ m' :: q). split; reflexivity.
    - destruct (IH r q m m' H2 N) as (u & u' & W1 & W). exists (y :: u), u'. split; [cbn [app]; f_equal; exact W1|]. cbn. rewrite W. reflexivity. }
  inversion St; clear St; subst; cbn [mt_servers] in *; try rewrite E'.
  1, 2: eexists r, _; split; [rewrite <- app_assoc; reflexivity|reflexivity].
  all: eapply Q; [eassumption|discriminate].
Qed.
