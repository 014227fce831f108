(** What the receiver has stored when a subtest returns because its context is done. *)
From Coq Require Import String ZArith List Bool Lia.
From Verif Require Import Base Effect Lts ControlModel Ndt7Model Ndt7Spec DoModel DoProofs CodecModel CodecSpec CodecProps.
Import ListNotations.

(** Events in which the client says nothing. *)
Definition calm (e : event7) : Prop :=
  match e with EFrame (InPong _) | EBody (BodyPong _) | EBody (BodyText _) => False | _ => True end.

(** Wherever the program is, it can come to its end without hearing from the client. *)
Definition ends {A} (p : prog event7 A) : Prop := exists tr a, run p tr a /\ Forall calm tr.
Fixpoint can_end {A} (p : prog event7 A) : Prop :=
  ends p /\ match p with Ret _ => True | Do ev k => forall b, can_end (k b) end.

Lemma can_end_ends {A} (p : prog event7 A) : can_end p -> ends p.
Proof. destruct p; cbn; tauto. Qed.

Lemma ends_ret {A} (a : A) : can_end (Ret a : prog event7 A).
Proof. split; [|exact I]. exists [], a. split; [split; reflexivity|constructor]. Qed.

Lemma ends_do {A B} (ev : B -> event7) (k : B -> prog event7 A) b : calm (ev b) -> (forall b, can_end (k b)) -> can_end (Do ev k).
Proof.
  intros C H. split; [|exact H]. destruct (can_end_ends _ (H b)) as (tr & a & R & F).
  exists (ev b :: tr), a. split; [exists b, tr; auto|constructor; assumption].
Qed.

Lemma gets_ends {A} (p : prog event7 A) tr q : gets p tr q -> can_end p -> can_end q.
Proof. induction 1 as [|tr q e q' G IH D]; intros H; [exact H|]. destruct D as [B ev k b]. destruct (IH H) as [_ X]. apply X. Qed.

Section Receiver.
  Variable decode : bytes -> option measurement.

  Lemma counted_ends {S} proto k w (s : S) : can_end (count_recv proto k w s).
  Proof. unfold count_recv, tell, op. cbn [pbind]. apply (ends_do _ _ tt); [exact I|intros; apply ends_ret]. Qed.

  Lemma pong_ends proto k payload (f : bool -> Go7 unit unit) s :
    (forall b s, can_end (f b s)) -> can_end (bind (pong_handler proto k payload) f s).
  Proof.
    intros H. unfold pong_handler, bind, now7, count_recv, tell, op, ret. destruct (json_int64 payload); cbn [pbind].
    - apply (ends_do _ _ 0%Z); [exact I|]. intros b. apply H.
    - apply (ends_do _ _ tt); [exact I|]. intros b. apply H.
  Qed.

  Lemma receive_ends fuel proto k : forall p s, can_end (receive_loop decode fuel proto k p s).
  Proof.
    induction fuel as [|fuel IH]; intros p s; [apply ends_ret|]. destruct p; cbn [receive_loop].
    - unfold bind at 1, op. cbn [pbind]. apply (ends_do _ _ true); [exact I|]. intros [|]; [apply counted_ends|apply IH].
    - unfold bind at 1, op. cbn [pbind]. apply (ends_do _ _ InError); [exact I|]. intros [| |payload|].
      + apply IH.
      + destruct k; [apply counted_ends|apply IH].
      + apply pong_ends. intros [|] s'; [apply counted_ends|apply IH].
      + apply counted_ends.
    - unfold bind at 1, op. cbn [pbind]. apply (ends_do _ _ BodyError); [exact I|]. intros [d|payload|].
      + destruct (decode d); [|apply counted_ends]. unfold bind, tell, op. cbn [pbind]. apply (ends_do _ _ tt); [exact I|]. intros []. apply IH.
      + apply pong_ends. intros [|] s'; [apply counted_ends|apply IH].
      + apply counted_ends.
  Qed.

  Lemma receiver_ends fuel proto k s : can_end (receiver decode fuel proto k s).
  Proof.
    unfold receiver, bind, tell, op, now7. cbn [pbind]. apply (ends_do _ _ tt); [exact I|]. intros [].
    apply (ends_do _ _ 0%Z); [exact I|]. intros t. apply (ends_do _ _ None); [exact I|]. intros [e|]; [apply counted_ends|].
    apply receive_ends.
  Qed.
End Receiver.

Lemma calm_inputs tr : Forall calm tr -> texts_of (inputs tr) = [] /\ forall p, ~ In (IPong p) (inputs tr).
Proof.
  induction 1 as [|e l C F [IH1 IH2]]; [split; [reflexivity|intros p []]|].
  unfold inputs, texts_of in *. cbn [flat_map]. rewrite flat_map_app, IH1. split.
  - destruct e; cbn in *; try reflexivity; repeat match goal with x : frame_in |- _ => destruct x | x : body_in |- _ => destruct x | x : bool |- _ => destruct x end; cbn in *; try reflexivity; contradiction.
  - intros p I. apply in_app_or in I as [I|I]; [|exact (IH2 p I)].
    destruct e; cbn in *; try contradiction; repeat match goal with x : frame_in |- _ => destruct x | x : body_in |- _ => destruct x | x : bool |- _ => destruct x end; cbn in *;
      try contradiction; repeat (destruct I as [I|I]; try discriminate; try contradiction).
Qed.

Lemma snapshot_texts sender c fuel proto k s snap pa : codec_ok c ->
  reachable (sub_init sender (receiver (decode_measurement c) fuel proto k tt)) sub_step s ->
  d_returned s = Some (snap, pa) ->
  (forall p, In (IPong p) (inputs (d_rtrace s)) -> bytes_ok p) ->
  (forall t, In (IText t) (inputs (d_rtrace s)) -> bytes_ok t) ->
  exists texts rest, texts_of (inputs (d_rtrace s)) = texts ++ rest /\ Forall2 (measurement_text c) texts snap.
Proof.
  intros K R E P B. destruct (traces _ _ s R) as (_ & G & C).
  destruct (at_most_one _ _ (receiver_budget _ _ _ _ _) s snap pa R E) as (extra & X & _).
  destruct (can_end_ends _ (gets_ends _ _ _ G (receiver_ends _ _ _ _ _))) as (tr' & [s' r] & R' & F).
  destruct (calm_inputs tr' F) as [T N].
  assert (Ei : inputs (d_rtrace s ++ tr') = inputs (d_rtrace s) ++ inputs tr') by (unfold inputs; apply flat_map_app).
  destruct (C69_receiver c fuel proto k tt (d_rtrace s ++ tr') s' r K (gets_run _ _ _ G _ _ R')) as (texts & bad & Et & F2 & _).
  - intros p I. rewrite Ei in I. apply in_app_or in I as [I|I]; [auto|]. exfalso. exact (N p I).
  - intros t I. rewrite Ei in I. apply in_app_or in I as [I|I]; [auto|]. exfalso.
    assert (J : In t (texts_of (inputs tr'))) by (unfold texts_of; apply in_flat_map; exists (IText t); split; [exact I|left; reflexivity]).
    rewrite T in J. exact J.
  - rewrite Ei in Et. unfold texts_of in Et, T. rewrite flat_map_app, T, app_nil_r in Et.
    unfold stored in F2. rewrite flat_map_app in F2. fold (stored (d_rtrace s)) in F2. rewrite <- C, X, <- app_assoc in F2.
    apply Forall2_app_inv_r in F2 as (t1 & t2 & F1 & _ & ->). exists t1, (t2 ++ bad). split; [|exact F1].
    unfold texts_of. rewrite Et, app_assoc. reflexivity.
Qed.
