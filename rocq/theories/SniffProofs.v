(** Proofs about the plain NDT5 port. *)
From Coq Require Import String ZArith List Bool Lia.
From Verif Require Import Base BaseFacts WireModel WireProofs Lts SniffModel.
Import ListNotations.
Open Scope Z_scope.

(** ** Peeking *)

Lemma tcp_read_progress n t d e t' : tcp_wf t -> 0 < n -> tcp_read n t = (d, e, t') ->
  tcp_wf t' /\ (e = true -> t = [] /\ d = []) /\ (e = false -> 0 < len d) /\ len d <= n.
Proof.
  intros W N H. unfold tcp_read in H. destruct (Z.leb_spec n 0); [lia|]. destruct t as [|s r].
  - injection H as <- <- <-. repeat split; auto; try discriminate. cbn. lia.
  - inversion W as [|x l W1 W2]; subst. assert (0 < len s) by (destruct s; [contradiction|rewrite len_cons; pose proof (len_nonneg s); lia]).
    destruct (Z.leb_spec (len s) n) as [L|L]; injection H as <- <- <-.
    + repeat split; auto; try discriminate.
    + repeat split; try discriminate.
      * constructor; [|exact W2]. intros E. assert (X : len (drop n s) = 0) by (rewrite E; reflexivity). rewrite len_drop in X by lia. lia.
      * intros _. rewrite len_take by lia. lia.
      * rewrite len_take by lia. lia.
Qed.

Lemma peek_fill_spec fuel n : forall b, tcp_wf (bf_rd b) -> n <= 4096 ->
  n - len (bf_buf b) < Z.of_nat fuel \/ bf_err b = true -> (bf_err b = true -> bf_rd b = []) ->
  n <= len (bf_buf (peek_fill fuel n b)) \/ bf_rd (peek_fill fuel n b) = [].
Proof.
  induction fuel as [|f IH]; intros b W N F E; cbn [peek_fill].
  - destruct F as [F|F]; [left; lia|right; apply E, F].
  - destruct ((len (bf_buf b) <? n) && negb (bf_err b)) eqn:C.
    + apply andb_true_iff in C. destruct C as [C1 C2]. apply Z.ltb_lt in C1. apply negb_true_iff in C2.
      destruct F as [F|F]; [|congruence].
      destruct (tcp_read (bufio_size - len (bf_buf b)) (bf_rd b)) as [[d e] t] eqn:R.
      assert (P0 : 0 < bufio_size - len (bf_buf b)) by (unfold bufio_size; lia).
      pose proof (tcp_read_progress _ _ _ _ _ W P0 R) as (W' & R1 & R2 & R3).
      apply IH; cbn [bf_rd bf_buf bf_err]; [exact W'|exact N| |].
      * destruct e; [right; reflexivity|]. left. rewrite len_app. specialize (R2 eq_refl). lia.
      * intros ->. destruct (R1 eq_refl) as [R4 _]. rewrite R4 in R. unfold tcp_read in R. destruct (_ <=? 0); injection R as <- ?; congruence.
    + apply andb_false_iff in C. destruct C as [C|C]; [apply Z.ltb_ge in C; left; lia|].
      apply negb_false_iff in C. right. apply E, C.
Qed.

(** The decision of the sniffer is that of the first three bytes of the stream, and it
    loses nothing. *)
Lemma sniff_spec t : tcp_wf t ->
  fst (sniff (bufio_new t)) = (if len (tcp_data t) <? 3 then None else Some (beqb (take 3 (tcp_data t)) (str "GET"))) /\
  bufio_data (snd (sniff (bufio_new t))) = tcp_data t.
Proof.
  intros W. unfold sniff, bufio_peek. set (b' := peek_fill (S (Z.to_nat 3)) 3 (bufio_new t)).
  pose proof (peek_fill_data (S (Z.to_nat 3)) 3 (bufio_new t)) as D. fold b' in D. unfold bufio_data in D at 2. cbn [bufio_new bf_buf bf_rd app] in D.
  pose proof (peek_fill_spec (S (Z.to_nat 3)) 3 (bufio_new t) W ltac:(lia) ltac:(left; cbn; lia) ltac:(discriminate)) as P. fold b' in P.
  assert (L : len (tcp_data t) = len (bf_buf b') + len (tcp_data (bf_rd b'))) by (rewrite <- D; unfold bufio_data; apply len_app).
  pose proof (len_nonneg (tcp_data (bf_rd b'))).
  destruct (Z.ltb_spec (len (bf_buf b')) 3) as [S3|S3]; cbn [fst snd].
  - destruct P as [P|P]; [lia|]. rewrite P in L. change (tcp_data []) with (@nil Z) in L. rewrite len_nil in L.
    destruct (Z.ltb_spec (len (tcp_data t)) 3); [|lia]. split; [reflexivity|]. unfold bufio_data in *. cbn [bf_buf bf_rd]. exact D.
  - destruct (Z.ltb_spec (len (tcp_data t)) 3); [lia|]. split; [|exact D]. f_equal. f_equal.
    rewrite <- D. unfold bufio_data. rewrite take_app_le by lia. reflexivity.
Qed.

(** ** The transition system *)

Definition reach := reachable (fun s => s = start) step.

(** Forwarding was started. *)
Definition forwarding (s : state) : Prop := cp1 s <> NotStarted.

Definition is_get (l : bytes) : Prop := 3 <= len l /\ take 3 l = str "GET".
Definition not_get (l : bytes) : Prop := 3 <= len l /\ take 3 l <> str "GET".

Lemma is_get_app l d : is_get l -> is_get (l ++ d).
Proof. unfold is_get. intros [L E]. rewrite len_app, take_app_le by lia. pose proof (len_nonneg d). split; [lia|exact E]. Qed.
Lemma not_get_app l d : not_get l -> not_get (l ++ d).
Proof. unfold not_get. intros [L E]. rewrite len_app, take_app_le by lia. pose proof (len_nonneg d). split; [lia|exact E]. Qed.
Lemma is_not_get l : is_get l -> not_get l -> False.
Proof. intros [_ A] [_ B]. apply B, A. Qed.

(** Nothing is forwarded. *)
Definition quiet (s : state) : Prop :=
  fwd s = NotDialed /\ tob s = [] /\ cp1 s = NotStarted /\ cp2 s = NotStarted /\ waiter s = NotStarted /\
  bsent s = [] /\ barrived s = [] /\ beof s = false /\ timeouts s = 0%nat.

Definition greeting (s : state) : Prop :=
  exists n rest, toc s = take n kickoff ++ rest /\ 0 <= n <= len kickoff /\ (n < len kickoff -> ceof s = true).

(** The connection is one of these. *)
Inductive inv (s : state) : Prop :=
| inv_peek : main s = MPeek -> quiet s -> conn_open s = true -> toc s = [] -> ctl s = [] -> csent s = arrived s ->
    proxied s = 0%nat -> (ctx s = Cancelled -> shutdown s = true) -> inv s
| inv_dial : main s = MDial -> quiet s -> conn_open s = true -> toc s = [] -> ctl s = [] -> csent s = arrived s ->
    proxied s = 1%nat -> is_get (csent s) -> (ctx s = Cancelled -> shutdown s = true) -> inv s
| inv_plain : main s = MPlain -> quiet s -> conn_open s = true -> csent s = ctl s ++ arrived s -> proxied s = 0%nat ->
    not_get (csent s) -> greeting s -> (ctx s = Cancelled -> shutdown s = true) -> inv s
(* not forwarded, on the way out *)
| inv_out : (main s = MReturn /\ conn_open s = true \/ main s = MDone /\ conn_open s = false /\ ctx s <> Live) ->
    quiet s -> csent s = ctl s ++ arrived s ->
    (toc s = [] /\ ctl s = [] /\ proxied s = 0%nat /\ ceof s = true /\ len (csent s) < 3 \/
     toc s = [] /\ ctl s = [] /\ proxied s = 1%nat /\ is_get (csent s) \/
     proxied s = 0%nat /\ not_get (csent s) /\ greeting s) -> inv s
| inv_forward : cp1 s <> NotStarted -> cp2 s <> NotStarted -> waiter s <> NotStarted -> is_get (csent s) ->
    csent s = tob s ++ arrived s -> bsent s = toc s ++ barrived s -> ctl s = [] -> proxied s = 1%nat ->
    (main s = MWait /\ fwd s = FwdOpen /\ conn_open s = true /\ timeouts s = 0%nat \/
     main s = MReturn /\ fwd s = FwdClosed /\ conn_open s = true /\ ctx s <> Live /\
       timeouts s = (match ctx s with Expired => 1 | _ => 0 end)%nat \/
     main s = MDone /\ fwd s = FwdClosed /\ conn_open s = false /\ ctx s <> Live /\
       timeouts s = (match ctx s with Expired => 1 | _ => 0 end)%nat) ->
    (cp1 s = Ended -> tob s = csent s /\ ceof s = true \/ beof s = true \/ ctx s = Expired \/ shutdown s = true) ->
    (cp2 s = Ended -> toc s = bsent s /\ beof s = true \/ ceof s = true \/ ctx s = Expired \/ shutdown s = true) ->
    (waiter s = Ended -> cp1 s = Ended /\ cp2 s = Ended) ->
    (ctx s = Cancelled -> shutdown s = true \/ waiter s = Ended) ->
    (waiter s = Ended -> ctx s <> Live) -> inv s.

Lemma cancelled_not_live c : cancelled c <> Live.
Proof. destruct c; discriminate. Qed.
Lemma cancelled_done c : c <> Live -> cancelled c = c.
Proof. destruct c; [congruence|reflexivity|reflexivity]. Qed.

Ltac fields := cbn [arrived ceof csent barrived beof bsent tob toc ctl conn_open fwd cp1 cp2 waiter ctx shutdown main proxied timeouts] in *.


Lemma greeting_mono s t : greeting s -> (exists r, toc t = toc s ++ r) -> (ceof s = true -> ceof t = true) -> greeting t.
Proof.
  intros (n & r & A & B & C) (r' & T) E. exists n, (r ++ r'). split; [rewrite T, A, app_assoc; reflexivity|].
  split; [exact B|]. intros L. apply E, C, L.
Qed.

(* close a goal of the invariant's *)
Ltac fin := fields; first
  [ assumption
  | eapply is_get_app; eassumption
  | eapply not_get_app; eassumption
  | eapply greeting_mono; [eassumption|fields; exists []; rewrite app_nil_r; reflexivity|fields; congruence]
  | eapply greeting_mono; [eassumption|fields; eexists; reflexivity|fields; congruence]
  | match goal with H : csent _ = _ |- _ => rewrite H, ?app_assoc; reflexivity end
  | match goal with H : bsent _ = _ |- _ => rewrite H, ?app_assoc; reflexivity end
  | intuition congruence ].

Lemma inv_env s t : inv s -> env s t -> inv t.
Proof.
  intros I E. pose proof (cancelled_not_live (ctx s)) as CN. pose proof (cancelled_done (ctx s)) as CD.
  destruct I; [| | | |].
  - unfold quiet in *. inversion E; subst t; fields; first [exfalso; intuition congruence | apply inv_peek; unfold quiet; fin].
  - unfold quiet in *. inversion E; subst t; fields; first [exfalso; intuition congruence | apply inv_dial; unfold quiet; fin].
  - unfold quiet in *. inversion E; subst t; fields; first [exfalso; intuition congruence | apply inv_plain; unfold quiet; fin].
  - unfold quiet in *. inversion E; subst t; fields; first [exfalso; intuition congruence | apply inv_out; unfold quiet; try fin].
    + destruct H2 as [H2|[H2|(H2 & G1 & G2)]]; [intuition congruence|right; left; destruct H2 as (X1 & X2 & X3 & X4); split; [exact X1|split; [exact X2|split; [exact X3|apply is_get_app, X4]]]|right; right].
      split; [exact H2|]. split; fin.
    + destruct H2 as [H2|[H2|(H2 & G1 & G2)]]; [left; intuition congruence|right; left; intuition congruence|right; right].
      split; [exact H2|]. split; fin.
  - inversion E; subst t; fields; apply inv_forward; try fin.
    destruct H7 as [H7|[H7|H7]]; [left; exact H7|right; left|right; right]; rewrite CD by tauto; tauto.
Qed.

Lemma drop_all_app n (a l : bytes) : (a ++ take n l) ++ drop n l = a ++ l.
Proof. rewrite <- app_assoc, take_drop. reflexivity. Qed.

Lemma closed_reason s : fwd s = FwdClosed -> cp1 s = Running \/ cp2 s = Running ->
  (main s = MWait /\ fwd s = FwdOpen /\ conn_open s = true /\ timeouts s = 0%nat \/
     main s = MReturn /\ fwd s = FwdClosed /\ conn_open s = true /\ ctx s <> Live /\
       timeouts s = (match ctx s with Expired => 1 | _ => 0 end)%nat \/
     main s = MDone /\ fwd s = FwdClosed /\ conn_open s = false /\ ctx s <> Live /\
       timeouts s = (match ctx s with Expired => 1 | _ => 0 end)%nat) ->
  (waiter s = Ended -> cp1 s = Ended /\ cp2 s = Ended) -> (ctx s = Cancelled -> shutdown s = true \/ waiter s = Ended) ->
  ctx s = Expired \/ shutdown s = true.
Proof. intros F R M W C. destruct (ctx s) eqn:X; [intuition congruence|right|left; reflexivity]. intuition congruence. Qed.

Lemma inv_sys s t : inv s -> sys s t -> inv t.
Proof.
  intros I E. pose proof (cancelled_not_live (ctx s)) as CN. pose proof (cancelled_done (ctx s)) as CD.
  destruct I; [| | | |].
  - unfold quiet in *. inversion E; subst t; fields; try (exfalso; intuition congruence).
    + apply inv_dial; unfold quiet; try fin. split; fin.
    + apply inv_plain; unfold quiet; try fin.
      * fields. rewrite H3. exact H4.
      * split; fin.
      * exists n, []. fields. rewrite app_nil_r, H2. split; [reflexivity|split; assumption].
    + apply inv_out; unfold quiet; try fin.
      fields. rewrite H3. exact H4.
  - unfold quiet in *. inversion E; subst t; fields; try (exfalso; intuition congruence).
    + destruct H0 as (A1 & A2 & A3 & A4 & A5 & A6 & A7 & A8 & A9). apply inv_forward; try fin.
      * fields. rewrite A2. exact H4.
      * fields. rewrite A6, H2, A7. reflexivity.
    + apply inv_out; unfold quiet; try fin. fields. rewrite H3. exact H4.
  - unfold quiet in *. inversion E; subst t; fields; exfalso; intuition congruence.
  - unfold quiet in *. inversion E; subst t; fields; try (exfalso; intuition congruence).
    apply inv_out; unfold quiet; fin.
  - inversion E; subst t; fields; try (exfalso; intuition congruence); apply inv_forward; try fin.
    + fields. rewrite drop_all_app. exact H3.
    + fields. intros _. destruct H14 as [[A B]|[A|[A [B|B]]]]; [left|right; right|right; right|right; left; exact B].
      * split; [rewrite H3, A, app_nil_r; reflexivity|exact B].
      * assert (F : fwd s = FwdClosed) by (intuition congruence). apply (closed_reason s); tauto.
      * apply (closed_reason s); tauto.
    + fields. rewrite drop_all_app. exact H4.
    + fields. intros _. destruct H14 as [[A B]|[A|[A [B|B]]]]; [left|right; right|right; right|right; left; exact B].
      * split; [rewrite H4, A, app_nil_r; reflexivity|exact B].
      * apply (closed_reason s); tauto.
      * assert (F : fwd s = FwdClosed) by (intuition congruence). apply (closed_reason s); tauto.
    + fields. destruct H7 as [H7|[H7|H7]]; [left; exact H7|right; left|right; right]; rewrite CD by tauto; tauto.
    + fields. right; left. assert (T : timeouts s = 0%nat) by (intuition congruence). rewrite T.
      split; [reflexivity|]. split; [reflexivity|]. split; [intuition congruence|]. split; [assumption|]. destruct (ctx s); reflexivity.
    + fields. right; right. assert (L : ctx s <> Live) by (intuition congruence). rewrite (CD L). intuition congruence.
    + fields. assert (L : ctx s <> Live) by (intuition congruence). rewrite (CD L). assumption.
Qed.

Lemma inv_control s t : inv s -> control s t -> inv t.
Proof.
  intros I E. assert (M : main s = MPlain) by (inversion E; assumption).
  destruct I; try (exfalso; intuition congruence). unfold quiet in *. inversion E; subst t; fields.
  - apply inv_plain; unfold quiet; try fin. fields. rewrite drop_all_app. assumption.
  - apply inv_plain; unfold quiet; try fin.
  - apply inv_out; unfold quiet; try fin.
Qed.

Lemma reach_inv s : reach s -> inv s.
Proof.
  apply invariant.
  - intros t ->. apply inv_peek; try reflexivity; [unfold quiet; repeat split; reflexivity|discriminate].
  - intros a b I [E|[E|E]]; [eapply inv_env|eapply inv_sys|eapply inv_control]; eassumption.
Qed.

(** ** Teardown *)

(** Nothing of the connection is left. *)
Definition down (s : state) : Prop :=
  main s = MDone /\ conn_open s = false /\ fwd s <> FwdOpen /\ cp1 s <> Running /\ cp2 s <> Running /\ waiter s <> Running.

(** What makes a forwarded connection go down. *)
Definition going (s : state) : Prop := proxied s = 1%nat /\ (ctx s <> Live \/ (ceof s = true /\ beof s = true)).

Definition gorank (g : gostate) : nat := match g with Running => 1 | _ => 0 end.
Definition mainrank (m : main_state) : nat := match m with MPeek => 9 | MDial => 8 | MPlain => 7 | MWait => 2 | MReturn => 1 | MDone => 0 end.
Definition weight (s : state) : nat :=
  List.length (arrived s) + List.length (barrived s) + gorank (cp1 s) + gorank (cp2 s) + gorank (waiter s) + mainrank (main s).

Lemma drop_shorter n (l : bytes) : 0 < n <= len l -> (List.length (drop n l) < List.length l)%nat.
Proof. intros H. pose proof (len_drop n l ltac:(lia)) as L. unfold len in *. lia. Qed.

Lemma going_not_plain s : inv s -> going s -> main s <> MPeek /\ main s <> MPlain.
Proof. intros I [G _]. destruct I; intuition congruence. Qed.

Lemma going_step s t : inv s -> going s -> sys s t -> going t /\ (weight t < weight s)%nat.
Proof.
  intros I G E. pose proof (going_not_plain s I G) as [N1 N2]. destruct G as [G1 G2].
  assert (CN : ctx s <> Live -> cancelled (ctx s) <> Live) by (intros X; apply cancelled_not_live).
  inversion E; subst t; try contradiction; unfold going, weight; fields.
  - split; [tauto|]. rewrite H. destruct I; try (intuition congruence). match goal with Q : quiet s |- _ => destruct Q as (_ & _ & A & B & C & _) end. rewrite A, B, C. cbn. lia.
  - split; [tauto|]. rewrite H. cbn. lia.
  - split; [tauto|]. pose proof (drop_shorter n (arrived s) H1). lia.
  - split; [tauto|]. rewrite H. cbn. lia.
  - split; [tauto|]. pose proof (drop_shorter n (barrived s) H2). lia.
  - split; [tauto|]. rewrite H. cbn. lia.
  - split; [pose proof (cancelled_not_live (ctx s)); tauto|]. rewrite H. cbn. lia.
  - split; [tauto|]. rewrite H. cbn. lia.
  - split; [pose proof (cancelled_not_live (ctx s)); tauto|]. rewrite H. cbn. lia.
Qed.

Lemma going_stuck s : inv s -> going s -> stuck sys s -> down s.
Proof.
  intros I G K. pose proof (going_not_plain s I G) as [N1 N2]. destruct G as [G1 G2]. unfold stuck in K.
  destruct (main s) eqn:M; try contradiction.
  - exfalso. eapply K, s_dial_ok, M.
  - destruct I; try (intuition congruence).
    destruct (ctx s) eqn:C; [|exfalso; eapply K, s_done; [exact M|congruence]|exfalso; eapply K, s_done; [exact M|congruence]].
    destruct G2 as [G2|[G2 G3]]; [congruence|].
    assert (F : fwd s = FwdOpen /\ conn_open s = true) by (intuition congruence). destruct F as [F O].
    destruct (cp1 s) eqn:C1; [congruence| |].
    { exfalso. destruct (arrived s) as [|x r] eqn:A.
      - eapply K, s_copy1_end; [exact C1|left; split; assumption].
      - eapply K, (s_copy1_data s 1 C1 F). rewrite A, len_cons. pose proof (len_nonneg r). lia. }
    destruct (cp2 s) eqn:C2; [congruence| |].
    { exfalso. destruct (barrived s) as [|x r] eqn:A.
      - eapply K, s_copy2_end; [exact C2|left; split; assumption].
      - eapply K, (s_copy2_data s 1 C2 F O). rewrite A, len_cons. pose proof (len_nonneg r). lia. }
    destruct (waiter s) eqn:W; [congruence| |].
    + exfalso. eapply K, s_wait; assumption.
    + exfalso. intuition congruence.
  - exfalso. eapply K, s_return, M.
  - destruct I; try (intuition congruence).
    + unfold down, quiet in *. intuition congruence.
    + assert (F : fwd s = FwdClosed /\ conn_open s = false) by (intuition congruence). destruct F as [F O].
      destruct (cp1 s) eqn:C1; [congruence|exfalso; eapply K, s_copy1_end; [exact C1|right; left; exact O]|].
      destruct (cp2 s) eqn:C2; [congruence|exfalso; eapply K, s_copy2_end; [exact C2|right; left; exact F]|].
      destruct (waiter s) eqn:W; [congruence|exfalso; eapply K, s_wait; assumption|].
      unfold down. rewrite C1, C2, W, F. repeat split; try assumption; discriminate.
Qed.

Lemma going_down n : forall s, (weight s < n)%nat -> inv s -> going s -> inevitable sys down s.
Proof.
  induction n as [|n IH]; intros s L I G; [lia|]. constructor.
  - apply going_stuck; assumption.
  - intros t E. destruct (going_step s t I G E) as [G' L']. apply IH; [lia|eapply inv_sys; eassumption|exact G'].
Qed.

Lemma teardown s : reach s -> going s -> inevitable sys down s.
Proof. intros R G. apply (going_down (S (weight s))); [lia|apply reach_inv, R|exact G]. Qed.

(** Once a connection is going, it stays so whatever the environment does. *)
Lemma going_stays s t : inv s -> going s -> step s t -> going t.
Proof.
  intros I G [E|[E|E]]; [|eapply going_step; eassumption|exfalso; apply (going_not_plain s I G); inversion E; assumption].
  destruct G as [G1 G2]. pose proof (cancelled_not_live (ctx s)). inversion E; subst t; unfold going; fields; intuition congruence.
Qed.

(** ** What is delivered *)

Lemma delivered s : reach s ->
  csent s = tob s ++ ctl s ++ arrived s /\
  (tob s <> [] \/ proxied s <> 0%nat \/ fwd s <> NotDialed \/ bsent s <> [] -> is_get (csent s) /\ ctl s = [] /\ bsent s = toc s ++ barrived s) /\
  (ctl s <> [] \/ main s = MPlain \/ (toc s <> [] /\ fwd s = NotDialed) ->
    not_get (csent s) /\ tob s = [] /\ proxied s = 0%nat /\ fwd s = NotDialed /\ greeting s).
Proof.
  intros R. destruct (reach_inv s R); unfold quiet in *.
  1-4: destruct H0 as (A1 & A2 & A3 & A4 & A5 & A6 & A7 & A8 & A9).
  - rewrite A2, H3. split; [exact H4|]. split; intuition congruence.
  - rewrite A2, H3. split; [exact H4|]. split; [|intuition congruence]. intros _. split; [exact H6|]. split; [reflexivity|]. rewrite A6, H2, A7. reflexivity.
  - rewrite A2. split; [exact H2|]. split; [intuition congruence|]. intros _. tauto.
  - rewrite A2. split; [exact H1|]. destruct H2 as [H2|[H2|H2]].
    + split; intuition congruence.
    + split; [|intuition congruence]. intros _. split; [tauto|]. split; [tauto|]. rewrite A6, A7. replace (toc s) with (@nil Z) by (symmetry; tauto). reflexivity.
    + split; [intuition congruence|]. intros _. tauto.
  - rewrite H5. split; [exact H3|]. split; [intros _; tauto|]. intuition congruence.
Qed.

Lemma peek_step s : reach s -> main s = MPeek -> 3 <= len (csent s) ->
  (exists t, sys s t) /\ (forall t, sys s t -> (is_get (csent s) -> main t = MDial) /\ (not_get (csent s) -> main t = MPlain)).
Proof.
  intros R M L. destruct (reach_inv s R); try (intuition congruence). rewrite H4 in *. split.
  - destruct (list_eq_dec Z.eq_dec (take 3 (arrived s)) (str "GET")) as [E|E].
    + eexists. apply s_peek_get; assumption.
    + eexists. apply (s_peek_plain s (len kickoff)); try assumption; [pose proof (len_nonneg kickoff); lia|lia].
  - unfold quiet in *. intros t E. unfold is_get, not_get. inversion E; subst t; fields; try (exfalso; intuition congruence); try lia; tauto.
Qed.

Lemma complete s : reach s -> ctx s <> Expired -> shutdown s = false ->
  (cp1 s = Ended -> tob s = csent s /\ ceof s = true \/ beof s = true) /\
  (cp2 s = Ended -> toc s = bsent s /\ beof s = true \/ ceof s = true) /\
  (fwd s = FwdClosed -> cp1 s = Ended /\ cp2 s = Ended).
Proof. intros R X D. destruct (reach_inv s R); unfold quiet in *; try (intuition congruence).
  split; [intuition congruence|]. split; [intuition congruence|]. intros F. apply H10.
  assert (C : ctx s = Cancelled). { destruct (ctx s); [intuition congruence|reflexivity|congruence]. } apply H11 in C. intuition congruence.
Qed.

Lemma timeouts_exact s : reach s ->
  timeouts s = (match fwd s, ctx s with FwdClosed, Expired => 1 | _, _ => 0 end)%nat.
Proof.
  intros R. destruct (reach_inv s R); unfold quiet in *.
  1-4: destruct H0 as (A1 & A2 & A3 & A4 & A5 & A6 & A7 & A8 & A9); rewrite A1, A9; reflexivity.
  destruct H7 as [(A & B & C & D)|[(A & B & C & D & E)|(A & B & C & D & E)]]; rewrite B; [rewrite D; reflexivity|rewrite E; reflexivity|rewrite E; reflexivity].
Qed.

(** The connections that outlive their context. *)
Lemma outlive s : reach s -> ctx s <> Live -> stuck sys s -> down s \/ (main s = MPeek /\ len (csent s) < 3 /\ ceof s = false) \/ main s = MPlain.
Proof.
  intros R C K. pose proof (reach_inv s R) as I. destruct (main s) eqn:M.
  - right. left. split; [reflexivity|]. destruct (Z.ltb_spec (len (csent s)) 3) as [L|L].
    + split; [exact L|]. destruct (ceof s) eqn:E; [|reflexivity]. exfalso. eapply K, s_peek_fail; try assumption.
      destruct I; intuition congruence.
    + exfalso. destruct (peek_step s R M L) as [[t T] _]. eapply K, T.
  - exfalso. eapply K, s_dial_ok, M.
  - exfalso. eapply K, s_done; assumption.
  - right. right. reflexivity.
  - exfalso. eapply K, s_return, M.
  - left. destruct I; unfold down, quiet in *; try (intuition congruence).
    apply going_stuck; [apply reach_inv, R|split; [assumption|left; exact C]|exact K].
Qed.

(** ** Examples *)


(** A client asks for a page, gets an answer and leaves; the websocket server does not. *)
Definition one_sided : state :=
  St [] true (str "GET /") [] false (str "HTTP") (str "GET /") (str "HTTP") [] true FwdOpen Ended Running Running Live false MWait 1 0.

Lemma one_sided_reach : reach one_sided.
Proof.
  unfold one_sided. unfold reach.
  eapply reachable_step; [|right; left; apply (s_copy1_end (St [] true (str "GET /") [] false (str "HTTP") (str "GET /") (str "HTTP") [] true FwdOpen Running Running Running Live false MWait 1 0)); [reflexivity|left; split; reflexivity]].
  eapply reachable_step; [|left; apply (e_client_close (St [] false (str "GET /") [] false (str "HTTP") (str "GET /") (str "HTTP") [] true FwdOpen Running Running Running Live false MWait 1 0))].
  eapply reachable_step; [|right; left; apply (s_copy2_data (St [] false (str "GET /") (str "HTTP") false (str "HTTP") (str "GET /") [] [] true FwdOpen Running Running Running Live false MWait 1 0) 4); try reflexivity; cbn; lia].
  eapply reachable_step; [|left; apply (e_backend_send (St [] false (str "GET /") [] false [] (str "GET /") [] [] true FwdOpen Running Running Running Live false MWait 1 0) (str "HTTP")); discriminate || reflexivity].
  eapply reachable_step; [|right; left; apply (s_copy1_data (St (str "GET /") false (str "GET /") [] false [] [] [] [] true FwdOpen Running Running Running Live false MWait 1 0) 5); try reflexivity; cbn; lia].
  eapply reachable_step; [|right; left; apply (s_dial_ok (St (str "GET /") false (str "GET /") [] false [] [] [] [] true NotDialed NotStarted NotStarted NotStarted Live false MDial 1 0)); reflexivity].
  eapply reachable_step; [|right; left; apply (s_peek_get (St (str "GET /") false (str "GET /") [] false [] [] [] [] true NotDialed NotStarted NotStarted NotStarted Live false MPeek 0 0)); try reflexivity; cbn; lia].
  eapply reachable_step; [|left; apply (e_client_send start (str "GET /")); [discriminate|reflexivity]].
  apply reachable_init. reflexivity.
Qed.

Lemma one_sided_stuck : stuck sys one_sided.
Proof. intros t E. inversion E; subst; cbn in *; try congruence; try lia; intuition congruence. Qed.

(** The same with the roles exchanged. *)
Definition one_sided' : state :=
  St [] false (str "GET /") [] true (str "HTTP") (str "GET /") (str "HTTP") [] true FwdOpen Running Ended Running Live false MWait 1 0.

Lemma one_sided_reach' : reach one_sided'.
Proof.
  unfold one_sided', reach.
  eapply reachable_step; [|right; left; apply (s_copy2_end (St [] false (str "GET /") [] true (str "HTTP") (str "GET /") (str "HTTP") [] true FwdOpen Running Running Running Live false MWait 1 0)); [reflexivity|left; split; reflexivity]].
  eapply reachable_step; [|left; apply (e_backend_close (St [] false (str "GET /") [] false (str "HTTP") (str "GET /") (str "HTTP") [] true FwdOpen Running Running Running Live false MWait 1 0)); discriminate].
  eapply reachable_step; [|right; left; apply (s_copy2_data (St [] false (str "GET /") (str "HTTP") false (str "HTTP") (str "GET /") [] [] true FwdOpen Running Running Running Live false MWait 1 0) 4); try reflexivity; cbn; lia].
  eapply reachable_step; [|left; apply (e_backend_send (St [] false (str "GET /") [] false [] (str "GET /") [] [] true FwdOpen Running Running Running Live false MWait 1 0) (str "HTTP")); discriminate || reflexivity].
  eapply reachable_step; [|right; left; apply (s_copy1_data (St (str "GET /") false (str "GET /") [] false [] [] [] [] true FwdOpen Running Running Running Live false MWait 1 0) 5); try reflexivity; cbn; lia].
  eapply reachable_step; [|right; left; apply (s_dial_ok (St (str "GET /") false (str "GET /") [] false [] [] [] [] true NotDialed NotStarted NotStarted NotStarted Live false MDial 1 0)); reflexivity].
  eapply reachable_step; [|right; left; apply (s_peek_get (St (str "GET /") false (str "GET /") [] false [] [] [] [] true NotDialed NotStarted NotStarted NotStarted Live false MPeek 0 0)); try reflexivity; cbn; lia].
  eapply reachable_step; [|left; apply (e_client_send start (str "GET /")); [discriminate|reflexivity]].
  apply reachable_init. reflexivity.
Qed.

Lemma one_sided_stuck' : stuck sys one_sided'.
Proof. intros t E. inversion E; subst; cbn in *; try congruence; try lia; intuition congruence. Qed.

(** A client that connects and says nothing. *)
Definition silent : state :=
  St [] false [] [] false [] [] [] [] true NotDialed NotStarted NotStarted NotStarted Expired false MPeek 0 0.

Lemma silent_reach : reach silent.
Proof.
  eapply reachable_step; [|left; apply (e_expire start); reflexivity]. apply reachable_init. reflexivity.
Qed.

Lemma silent_stuck : stuck sys silent.
Proof. intros t E. inversion E; subst; cbn in *; try congruence; try lia; intuition congruence. Qed.
