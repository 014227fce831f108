(** The ndt7 receiver and the ping payload. *)
From Coq Require Import String ZArith List Bool Lia.
From Coq Require Import ZifyBool ZifyNat ZifyN.
From Verif Require Import Base BaseFacts JsonSpec GoJSON JsonProofs Effect QueryModel Web100Model Ndt7Model
  Ndt7Spec SenderProofs.
Import ListNotations.
Open Scope Z_scope.
Ltac Zify.zify_post_hook ::= Z.div_mod_to_equations.

(** ** Integers in JSON *)

Lemma digit_not_ws b : digit b -> ~ ws_char b.
Proof. unfold digit, ws_char. lia. Qed.

Lemma json_int64_spec s n : bytes_ok s -> (json_int64 s = Some n <-> int64_text s n).
Proof.
  intros OK. unfold json_int64, int64_text. split.
  - destruct (json_parse s) as [[]|] eqn:P; try discriminate; apply (json_parse_spec _ _ OK) in P.
    + intros H. injection H as <-. auto.
    + intros H. right. destruct P as (w1 & x & w2 & -> & W1 & W2 & V). inversion V; subst.
      eexists w1, _, w2. eauto.
  - intros [[-> P]|(w1 & x & w2 & -> & W1 & W2 & J & H)].
    + apply (json_parse_spec _ _ OK) in P. rewrite P. reflexivity.
    + assert (P : json_text (w1 ++ x ++ w2) (JNum x)) by (exists w1, x, w2; auto using jv_num).
      apply (json_parse_spec _ _ OK) in P. rewrite P. exact H.
Qed.

Lemma dec_jnumber n : 0 <= n -> exists ds, dec_nonneg n = ds /\
  (ds = [48] \/ exists d r, ds = d :: r /\ 49 <= d <= 57 /\ digits r).
Proof.
  intros H. eexists. split; [reflexivity|].
  destruct (dec_nonneg_spec n H) as (_ & D & N). pose proof (dec_nonneg_no_lead0 n H) as L.
  destruct (dec_nonneg n) as [|d r] eqn:E; [congruence|]. inversion D; subst.
  destruct (Z.eq_dec d 48) as [->|Nd].
  - left. rewrite (L eq_refl) in E. rewrite <- E. reflexivity.
  - right. exists d, r. split; [reflexivity|]. split; [lia|assumption].
Qed.

Lemma itoa_jnumber n : jnumber (itoa n).
Proof.
  unfold itoa. destruct (n <? 0) eqn:E.
  - destruct (dec_jnumber (- n) ltac:(lia)) as (ds & -> & H).
    exists [45], ds, [], []. cbn. rewrite app_nil_r. auto 6.
  - destruct (dec_jnumber n ltac:(lia)) as (ds & -> & H).
    exists [], ds, [], []. cbn. rewrite app_nil_r. auto 6.
Qed.

Lemma parse_own_ticks t0 : int64_ok t0 -> json_int64 (itoa t0) = Some t0.
Proof.
  intros H. apply json_int64_spec; [apply itoa_bytes_ok|]. right. exists [], (itoa t0), [].
  rewrite app_nil_r. repeat split; try constructor. 
  - apply itoa_jnumber.
  - apply atoi_itoa, H.
Qed.

Lemma int64_text_fun s n n' : bytes_ok s -> int64_text s n -> int64_text s n' -> n = n'.
Proof. intros OK H H'. apply (json_int64_spec _ _ OK) in H, H'. congruence. Qed.

(** ** The receiver *)

Section Receiver.
  Variable decode : bytes -> option measurement.

  Lemma inputs_app a b : inputs (a ++ b) = inputs a ++ inputs b.
  Proof. apply flat_map_app. Qed.

  (** Everything about a run of the loop. *)
  Definition receive_facts (proto : bytes) (k : kind7) (tr : list event7) (r : res stop unit) : Prop :=
    stored tr = measurements_of decode (inputs tr) /\
    ((r = Panic Running /\ Forall (fun i => ~ fatal decode k i) (inputs tr) /\ receiver_errors tr = []) \/
     (r = Ok tt /\ exists l i ws, inputs tr = l ++ [i] /\ Forall (fun i => ~ fatal decode k i) l /\
        fatal decode k i /\ reasons i ws /\ receiver_errors tr = receiver_labels proto k ws)).

  (** The pongs are byte strings. *)
  Definition pongs_ok (tr : list event7) : Prop := forall p, In (IPong p) (inputs tr) -> bytes_ok p.

  (** Events before the rest of the loop. *)
  Lemma receive_more proto k tr r i es :
    inputs es = i -> stored es = measurements_of decode i -> receiver_errors es = [] ->
    Forall (fun i => ~ fatal decode k i) i ->
    receive_facts proto k tr r -> receive_facts proto k (es ++ tr) r.
  Proof.
    intros Hi Hs He Hf (S & H). split.
    - unfold stored, measurements_of in *. rewrite flat_map_app, inputs_app, flat_map_app, Hi, S, Hs. reflexivity.
    - rewrite inputs_app, Hi. unfold receiver_errors, counted in *. rewrite flat_map_app, He. cbn [app].
      destruct H as [(-> & F & E)|(-> & l & x & ws & -> & F & X & R & E)].
      + left. split; [reflexivity|]. split; [apply Forall_app; auto|exact E].
      + right. split; [reflexivity|]. exists (i ++ l), x, ws. rewrite app_assoc.
        split; [reflexivity|]. split; [apply Forall_app; auto|]. auto.
  Qed.
  Lemma receive_end proto k tr i ws u :
    inputs tr = [i] -> stored tr = measurements_of decode [i] -> fatal decode k i -> reasons i ws ->
    receiver_errors tr = receiver_labels proto k ws -> receive_facts proto k tr (Ok u).
  Proof.
    destruct u. intros Hi Hs Hf Hr He. split; [congruence|]. right. split; [reflexivity|]. exists [], i, ws.
    rewrite Hi. repeat split; auto.
  Qed.

  Lemma pongs_tail es tr : pongs_ok (es ++ tr) -> pongs_ok tr.
  Proof. intros H p I. apply H. rewrite inputs_app. apply in_or_app. auto. Qed.

  Lemma receive_loop_facts proto k : forall n pos s tr s' r,
    run (receive_loop decode n proto k pos s) tr (s', r) -> pongs_ok tr -> receive_facts proto k tr r.
  Proof.
    induction n as [|n IH]; intros pos s tr s' r H OK; cbn [receive_loop] in H.
    { exe7 H. split; [reflexivity|]. left. repeat split. constructor. }
    destruct pos.
    - exe7 H.
      + eapply receive_end with (i := IExpired); reflexivity || exact I.
      + apply IH in H; [|exact OK]. refine (receive_more _ _ _ _ [] [ECtxErr false] _ _ _ _ H); try reflexivity. constructor.
    - red7 H. destruct H as (f & t & -> & H). destruct f as [| |p|].
      + apply IH in H; [|exact OK]. refine (receive_more _ _ _ _ [] [EFrame InText] _ _ _ _ H); try reflexivity. constructor.
      + destruct k.
        * exe7 H. eapply receive_end with (i := IBinary); reflexivity.
        * apply IH in H; [|exact (pongs_tail [EFrame InBinary] _ OK)].
          refine (receive_more _ _ _ _ [IBinary] [EFrame InBinary] _ _ _ _ H); try reflexivity.
          repeat constructor. discriminate.
      + assert (OKp : bytes_ok p) by (apply OK; left; reflexivity). unfold pong_handler in H.
        destruct (json_int64 p) as [v|] eqn:J.
        * exe7 H. apply IH in H; [|exact (pongs_tail [EFrame (InPong p); ENow b] _ OK)].
          refine (receive_more _ _ _ _ [IPong p] [EFrame (InPong p); ENow b] _ _ _ _ H); try reflexivity.
          repeat constructor. intros N. apply (json_int64_spec _ _ OKp) in J. eapply N, J.
        * exe7 H. apply (receive_end _ _ _ (IPong p) [str "ping-parse-ticks"; str "read-message-type"]); try reflexivity.
          { intros v V. apply (json_int64_spec _ _ OKp) in V. congruence. }
          left. reflexivity.
      + exe7 H. eapply receive_end with (i := INoMessage); reflexivity || exact I.
    - red7 H. destruct H as (f & t & -> & H). destruct f as [d|p|].
      + destruct (decode d) as [m|] eqn:D.
        * exe7 H. apply IH in H; [|exact (pongs_tail [EBody (BodyText d); EStore m] _ OK)].
          refine (receive_more _ _ _ _ [IText d] [EBody (BodyText d); EStore m] _ _ _ _ H); try reflexivity.
          -- cbn. rewrite D. reflexivity.
          -- repeat constructor. cbn. congruence.
        * exe7 H. eapply receive_end with (i := IText d); try reflexivity; [|exact D].
          cbn. rewrite D. reflexivity.
      + assert (OKp : bytes_ok p) by (apply OK; left; reflexivity). unfold pong_handler in H.
        destruct (json_int64 p) as [v|] eqn:J.
        * exe7 H. apply IH in H; [|exact (pongs_tail [EBody (BodyPong p); ENow b] _ OK)].
          refine (receive_more _ _ _ _ [IPong p] [EBody (BodyPong p); ENow b] _ _ _ _ H); try reflexivity.
          repeat constructor. intros N. apply (json_int64_spec _ _ OKp) in J. eapply N, J.
        * exe7 H. apply (receive_end _ _ _ (IPong p) [str "ping-parse-ticks"; str "read-message"]); try reflexivity.
          { intros v V. apply (json_int64_spec _ _ OKp) in V. congruence. }
          right. reflexivity.
      + exe7 H. eapply receive_end with (i := INoBody); reflexivity || exact I.
  Qed.

  (** The whole receiver. *)
  Lemma receiver_facts n proto k s tr s' r :
    run (receiver decode n proto k s) tr (s', r) -> pongs_ok tr ->
    exists t0 e rest,
      tr = EReadLimit 16777216 :: ENow t0 :: EReadDeadline (t0 + 15000000000) e :: rest /\
      ((e <> None /\ r = Ok tt /\ rest = [ECount (str "ndt7_client_receiver_errors_total")
          [proto; match k with Download => str "0" | Upload => str "1" end; str "set-read-deadline"]]) \/
       (e = None /\ receive_facts proto k rest r)).
  Proof.
    unfold receiver. intros H OK. red7 H. destruct H as ([] & t1 & -> & t0 & t2 & -> & e & t3 & -> & H).
    exists t0, e, t3. split; [reflexivity|]. destruct e as [e|].
    - left. exe7 H. repeat split; [discriminate|]. match goal with |- Ok ?u = _ => destruct u end. reflexivity.
    - right. split; [reflexivity|]. eapply receive_loop_facts; [exact H|].
      exact (pongs_tail [EReadLimit _; ENow _; EReadDeadline _ _] _ OK).
  Qed.
End Receiver.
