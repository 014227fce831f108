(** The ndt7 senders. *)
From Coq Require Import String ZArith List Bool Lia.
From Coq Require Import ZifyBool ZifyNat ZifyN.
From Verif Require Import Base BaseFacts Effect QueryModel Web100Model Ndt7Model Ndt7Spec.
Import ListNotations.
Open Scope Z_scope.
Ltac Zify.zify_post_hook ::= Z.div_mod_to_equations.

Lemma pair_inv7 {A B} (a c : A) (b d : B) : (a, b) = (c, d) -> a = c /\ b = d.
Proof. intros H. split; congruence. Qed.

(** ** Symbolic execution *)

Ltac red7 H :=
  cbn [run bind pbind op tell ret panic get modify call fst snd
       now7 send_ticks start_closing count_send count_recv count_conn count_result
       take_blocking must write_result is_some] in H.
Ltac head7 p :=
  lazymatch p with
  | pbind ?q _ => head7 q
  | bind ?q _ _ => head7 q
  | match ?x with _ => _ end _ => destruct x eqn:?
  | match ?x with _ => _ end => destruct x eqn:?
  end.
Ltac exe7 H :=
  red7 H;
  lazymatch type of H with
  | exists _, _ => let b := fresh "b" in let t := fresh "t" in
                   destruct H as (b & t & -> & H); exe7 H
  | _ = _ /\ _ => destruct H as [-> H]; apply pair_inv7 in H; destruct H; subst
  | run ?p _ _ => tryif head7 p then exe7 H else idtac
  | match ?x with _ => _ end => destruct x eqn:?; exe7 H
  | _ => idtac
  end.

Lemma frames_app a b : frames (a ++ b) = frames a ++ frames b.
Proof. unfold frames. apply flat_map_app. Qed.

(** ** Invariants of the loops *)

(** Without the wrap-around of the byte counter. *)
Definition next_size (size total : Z) : Z :=
  if (size <? 1048576) && (16 * size <=? total) then 2 * size else size.
Fixpoint ladder (size total : Z) (l : list Z) : Prop :=
  match l with
  | [] => True
  | s :: r => s = size /\ ladder (next_size size (total + size)) (total + size) r
  end.
Definition sane (size total counter : Z) : Prop :=
  0 <= total /\ In size [8192; 16384; 32768; 65536; 131072; 262144; 524288; 1048576] /\
  (size < 1048576 -> counter = total /\ total < 17 * size) .

Definition with_server (ms : list measurement) (a : archival) : archival :=
  Archival (a_uuid a) (a_start a) (a_end a) (a_server a ++ ms) (a_client a) (a_client_meta a) (a_server_meta a).
Lemma with_server_nil a : with_server [] a = a.
Proof. destruct a. unfold with_server. cbn. rewrite app_nil_r. reflexivity. Qed.
Lemma with_server_add m ms a : with_server ms (add_server m a) = with_server (m :: ms) a.
Proof. unfold with_server, add_server. cbn. rewrite <- app_assoc. reflexivity. Qed.

Lemma delivered_app a b : delivered (a ++ b) = delivered a ++ delivered b.
Proof. unfold delivered. rewrite frames_app. apply flat_map_app. Qed.
Lemma bulk_sizes_app a b : bulk_sizes (a ++ b) = bulk_sizes a ++ bulk_sizes b.
Proof. unfold bulk_sizes. rewrite frames_app. apply flat_map_app. Qed.

(** The events of a loop, and their clock readings: every ping carries the reading before
    it and the deadline; every close frame has a deadline one second after the reading
    before it. *)
Inductive loop_trace (deadline : Z) : list event7 -> Prop :=
| lt_nil : loop_trace deadline []
| lt_take x r : loop_trace deadline r -> loop_trace deadline (ETake x :: r)
| lt_meas m e r : loop_trace deadline r -> loop_trace deadline (ESendMeasurement m e :: r)
| lt_bulk n e r : loop_trace deadline r -> loop_trace deadline (ESendBulk n e :: r)
| lt_prep n e r : loop_trace deadline r -> loop_trace deadline (EPrepare n e :: r)
| lt_count ls r : loop_trace deadline r ->
    loop_trace deadline (ECount (str "ndt7_client_sender_errors_total") ls :: r)
| lt_ping t e r : loop_trace deadline r -> loop_trace deadline (ENow t :: ESendPing (itoa t) deadline e :: r)
| lt_close t c s e r : loop_trace deadline r ->
    loop_trace deadline (ENow t :: ESendClose c s (t + 10 ^ 9) e :: r).

(** Everything about a run of a loop. *)
Definition loop_facts k limit proto deadline (a a' : archival) tr r : Prop :=
  exists o, dialogue k limit (frames tr) o /\ returns o r /\
    sender_errors tr = counts proto k o /\
    a' = with_server (delivered tr) a /\ loop_trace deadline tr /\
    (In (ETake Closed) tr <-> o = Finished (str "measurer-closed")).

Lemma limit_reached p m :
  p_early p && match m_tcp m with Some (t, _) => p_max_bytes p <=? ti_bytes_acked t | None => false end = true ->
  limit_of p = Some (p_max_bytes p) /\ acked (p_max_bytes p) m.
Proof.
  unfold limit_of, acked. destruct (p_early p); [|discriminate]. cbn [andb].
  destruct (m_tcp m) as [[t e]|]; [|discriminate]. intros H. split; [reflexivity|]. exists t, e. split; [reflexivity|lia].
Qed.
Lemma limit_not_reached p m :
  p_early p && match m_tcp m with Some (t, _) => p_max_bytes p <=? ti_bytes_acked t | None => false end = false ->
  forall l, limit_of p = Some l -> ~ acked l m.
Proof.
  unfold limit_of, acked. destruct (p_early p); [|discriminate]. cbn [andb].
  intros H l E (t & e & T & L). injection E as <-. rewrite T in H. lia.
Qed.

Lemma in_skip {A} (x y : A) l : x <> y -> (In x (y :: l) <-> In x l).
Proof. cbn. intuition congruence. Qed.
Lemma in_skip2 {A} (x y z : A) l : x <> y -> x <> z -> (In x (y :: z :: l) <-> In x l).
Proof. cbn. intuition congruence. Qed.

(** A step before the rest of the loop. *)
Lemma facts_bulk limit proto dl a a' n tr r :
  loop_facts Download limit proto dl a a' tr r ->
  loop_facts Download limit proto dl a a' (ETake NotReady :: ESendBulk n None :: tr) r.
Proof.
  intros (o & D & R & C & A & L & K). exists o. split; [cbn; constructor; auto|]. split; [exact R|].
  split; [exact C|]. split; [exact A|]. split; [constructor; constructor; exact L|].
  rewrite <- K. apply in_skip2; discriminate.
Qed.
Lemma facts_prep k limit proto dl a a' n tr r :
  loop_facts k limit proto dl a a' tr r ->
  loop_facts k limit proto dl a a' (EPrepare n None :: tr) r.
Proof.
  intros (o & D & R & C & A & L & K). exists o. split; [exact D|]. split; [exact R|]. split; [exact C|].
  split; [exact A|]. split; [constructor; exact L|]. rewrite <- K. apply in_skip; discriminate.
Qed.
Lemma facts_meas k limit proto dl a a' m t tr r :
  (forall l, limit = Some l -> ~ acked l m) ->
  loop_facts k limit proto dl (add_server m a) a' tr r ->
  loop_facts k limit proto dl a a'
    (ETake (Got m) :: ESendMeasurement m None :: ENow t :: ESendPing (itoa t) dl None :: tr) r.
Proof.
  intros N (o & D & R & C & A & L & K). exists o. split; [cbn; constructor; auto|]. split; [exact R|].
  split; [exact C|]. split; [rewrite A; apply with_server_add|]. split; [repeat constructor; exact L|].
  rewrite <- K. rewrite in_skip2 by discriminate. apply in_skip2; discriminate.
Qed.

Lemma facts_intro k limit proto dl a tr r o :
  dialogue k limit (frames tr) o -> returns o r -> sender_errors tr = counts proto k o ->
  loop_trace dl tr -> (In (ETake Closed) tr <-> o = Finished (str "measurer-closed")) ->
  loop_facts k limit proto dl a (with_server (delivered tr) a) tr r.
Proof. intros D R C L K. exists o. repeat (split; [assumption || reflexivity|]). exact K. Qed.
Lemma with_server_one m a : add_server m a = with_server [m] a.
Proof. rewrite <- with_server_add, with_server_nil. reflexivity. Qed.

Ltac conclude o c :=
  lazymatch goal with
  | |- loop_facts ?k ?l ?proto ?dl ?a (add_server ?m ?a) ?tr ?r => rewrite with_server_one
  | |- loop_facts ?k ?l ?proto ?dl ?a ?a ?tr ?r => rewrite <- (with_server_nil a) at 2
  end;
  lazymatch goal with
  | |- loop_facts ?k ?l ?proto ?dl ?a _ ?tr ?r => apply (facts_intro k l proto dl a tr r o)
  end;
  [cbn [frames flat_map frame_of_event app negb is_some]; c; eauto | cbn; eauto | reflexivity | repeat constructor
  | cbn [In]; split; [intros Hin; intuition discriminate|try discriminate; auto]].

Lemma download_loop_facts proto p dl : forall n msg size counter a tr a' r,
  run (download_loop n proto p dl msg size counter a) tr (a', r) ->
  loop_facts Download (limit_of p) proto dl a a' tr r.
Proof.
  induction n as [|n IH]; intros msg size counter a tr a' r H; cbn [download_loop] in H.
  - exe7 H. conclude Unfinished ltac:(apply dl_at_work).
  - exe7 H.
    all: try (apply IH in H).
    + conclude (Finished (str "measurer-closed")) ltac:(eapply dl_close).
    + conclude (Failed (str "write-json")) ltac:(eapply dl_measurement_fails).
    + conclude (Failed (str "ping-send-ticks")) ltac:(eapply dl_ping_fails).
    + match goal with E : _ && _ = true |- _ => apply limit_reached in E; destruct E end.
      conclude (Finished (str "measurer-closed-early")) ltac:(eapply dl_early).
    + match goal with E : _ && _ = false |- _ => pose proof (limit_not_reached _ _ E) end.
      apply facts_meas; assumption.
    + conclude (Failed (str "write-prepared-message")) ltac:(eapply dl_bulk_fails).
    + apply facts_bulk; assumption.
    + apply facts_bulk; assumption.
    + conclude (Failed (str "make-prepared-message")) ltac:(apply dl_bulk; [|apply dl_no_buffer]).
    + apply facts_bulk, facts_prep; assumption.
Qed.

Lemma upload_loop_facts proto dl : forall n a tr a' r,
  run (upload_loop n proto dl a) tr (a', r) ->
  loop_facts Upload None proto dl a a' tr r.
Proof.
  induction n as [|n IH]; intros a tr a' r H; cbn [upload_loop] in H.
  - exe7 H. conclude Unfinished ltac:(apply dl_at_work).
  - exe7 H.
    all: try (apply IH in H).
    + conclude (Failed (str "write-json")) ltac:(eapply dl_measurement_fails).
    + conclude (Failed (str "ping-send-ticks")) ltac:(eapply dl_ping_fails).
    + apply facts_meas; [discriminate|assumption].
    + conclude (Finished (str "measurer-closed")) ltac:(eapply dl_close).
Qed.

(** ** The sizes of binary messages *)

Lemma download_loop_ladder proto p dl : forall n size total counter a tr a' r,
  sane size total counter ->
  run (download_loop n proto p dl size size counter a) tr (a', r) -> ladder size total (bulk_sizes tr).
Proof.
  induction n as [|n IH]; intros size total counter a tr a' r (Ht & Hin & Hc) H; cbn [download_loop] in H.
  - exe7 H. exact I.
  - assert (Hsz : 8192 <= size <= 1048576) by (cbn in Hin; lia).
    exe7 H.
    all: try exact I; try (split; [reflexivity|exact I]).
    + apply (IH _ total) in H; [exact H|]. repeat split; auto; lia.
    + apply (IH _ (total + size)) in H; [|repeat split; auto; lia].
      split; [reflexivity|]. unfold next_size. replace (size <? 1048576) with false by lia. exact H.
    + assert (counter = total /\ total < 17 * size) as [-> Hb'] by (apply Hc; lia).
      assert (W : wrap64 (total + size) = total + size) by (apply wrap64_id; unfold int64_ok, min_int64, max_int64; lia).
      rewrite W in *. rewrite Z.quot_div_nonneg in * by lia.
      apply (IH _ (total + size)) in H; [|repeat split; auto; lia].
      split; [reflexivity|]. unfold next_size.
      replace ((size <? 1048576) && (16 * size <=? total + size)) with false by lia. exact H.
    + assert (counter = total /\ total < 17 * size) as [-> Hb'] by (apply Hc; lia).
      assert (W : wrap64 (total + size) = total + size) by (apply wrap64_id; unfold int64_ok, min_int64, max_int64; lia).
      assert (W2 : wrap64 (size * 2) = 2 * size)
        by (rewrite wrap64_id by (unfold int64_ok, min_int64, max_int64; lia); lia).
      rewrite W, W2 in *. rewrite Z.quot_div_nonneg in * by lia.
      apply (IH _ (total + size)) in H; [|repeat split; [lia|cbn [In] in Hin |- *; lia|lia]].
      split; [reflexivity|]. unfold next_size.
      replace ((size <? 1048576) && (16 * size <=? total + size)) with true by lia. exact H.
Qed.

(** ** Deferred functions *)

Definition skips {A} (r : res stop A) : bool :=
  match r with Panic Exited | Panic Running => true | _ => false end.

Lemma run_go_defer {S A} (c : Go7 S unit) (m : Go7 S A) s tr s' r :
  run (go_defer c m s) tr (s', r) <->
  exists t1 s1 r1, run (m s) t1 (s1, r1) /\
    (skips r1 = true /\ tr = t1 /\ s' = s1 /\ r = r1 \/
     skips r1 = false /\ exists t2 y, run (c s1) t2 (s', y) /\ tr = t1 ++ t2 /\
       r = match y with Ok _ => r1 | Panic p => Panic p end).
Proof.
  unfold go_defer. rewrite run_defer. split.
  - intros (t1 & s1 & r1 & t2 & y & -> & H1 & H2 & ->). exists t1, s1, r1. split; [exact H1|].
    destruct (skips r1) eqn:E.
    + left. destruct r1 as [a|[u| |]]; try discriminate; apply run_ret in H2; destruct H2 as [-> H2];
        injection H2 as -> ->; rewrite app_nil_r; auto.
    + right. split; [reflexivity|].
      assert (H3 : run (bind c (fun _ => ret r1) s1) t2 (s', y))
        by (destruct r1 as [a|[u| |]]; try discriminate; exact H2).
      apply run_bind in H3. destruct H3 as [(t3 & s3 & [] & t4 & -> & H3 & H4)|(p & -> & H3)].
      * apply run_ret in H4. destruct H4 as [-> H4]. injection H4 as -> ->. rewrite app_nil_r.
        exists t3, (Ok tt). auto.
      * exists t2, (Panic p). auto.
  - intros (t1 & s1 & r1 & H1 & [(E & -> & -> & ->)|(E & t2 & y & H2 & -> & ->)]).
    + exists t1, s1, r1, [], (Ok r1). rewrite app_nil_r. repeat split; auto.
      destruct r1 as [a|[u| |]]; try discriminate; apply run_ret; auto.
    + exists t1, s1, r1, t2, (match y with Ok _ => Ok r1 | Panic p => Panic p end).
      split; [reflexivity|]. split; [exact H1|].
      assert (H3 : run (bind c (fun _ => ret r1) s1) t2 (s', match y with Ok _ => Ok r1 | Panic p => Panic p end)).
      { apply run_bind. destruct y as [[]|p].
        - left. exists t2, s', tt, []. rewrite app_nil_r. cbn. auto.
        - right. eauto. }
      split; [destruct r1 as [a|[u| |]]; try discriminate; exact H3|]. destruct y; reflexivity.
Qed.

(** ** The senders *)

Definition with_times (s e : option Z) (a : archival) : archival :=
  Archival (a_uuid a) s e (a_server a) (a_client a) (a_client_meta a) (a_server_meta a).

(** Every run of a sender: the setup fails, or the loop runs, and then ends or not. *)
Definition sender_shape (k : kind7) (limit : option Z) (proto : bytes) (a a' : archival)
    (tr : list event7) (r : res stop (option error)) : Prop :=
  let setup := match k with Download => [EPrepare 8192 None] | Upload => [] end in
  (exists e, k = Download /\ a' = a /\ r = Ok (Some e) /\
     tr = [EMeasurerStart; EPrepare 8192 (Some e);
           ECount (str "ndt7_client_sender_errors_total") [proto; kind_name k; str "make-prepared-message"];
           EMeasurerStop]) \/
  (exists e t0, a' = a /\ r = Ok (Some e) /\
     tr = EMeasurerStart :: setup ++
          [ENow t0; EWriteDeadline (t0 + 15000000000) (Some e);
           ECount (str "ndt7_client_sender_errors_total") [proto; kind_name k; str "set-write-deadline"];
           EMeasurerStop]) \/
  (exists t0 t1 lt last, 
     tr = EMeasurerStart :: setup ++
          [ENow t0; EWriteDeadline (t0 + 15000000000) None; ENow t1] ++ lt ++ last /\
     (exists a1, loop_facts k limit proto (t0 + 15000000000) (with_times (Some t1) (a_end a) a) a1 lt r /\
       ((r = Panic Running /\ last = [] /\ a' = a1) \/
        (exists x t2, r = Ok x /\ last = [ENow t2; EMeasurerStop] /\ a' = set_end t2 a1)))).

Lemma facts_result k limit proto dl a a' tr r : loop_facts k limit proto dl a a' tr r ->
  r = Panic Running \/ exists x, r = Ok x.
Proof. intros (o & _ & R & _). destruct o; cbn in R; [right|right|left]; eauto. destruct R. eauto. Qed.

Lemma loop_defer k limit proto dl (loop : Go7 archival (option error)) a tr a' r :
  (forall a tr a' r, run (loop a) tr (a', r) -> loop_facts k limit proto dl a a' tr r) ->
  run (go_defer (bind now7 (fun t => modify (set_end t))) loop a) tr (a', r) ->
  exists a1 lt, loop_facts k limit proto dl a a1 lt r /\
    ((r = Panic Running /\ tr = lt /\ a' = a1) \/
     (exists x t2, r = Ok x /\ tr = lt ++ [ENow t2] /\ a' = set_end t2 a1)).
Proof.
  intros HL H. apply run_go_defer in H. destruct H as (t1 & s1 & r1 & H1 & H2).
  apply HL in H1. pose proof (facts_result _ _ _ _ _ _ _ _ H1) as [->|[x ->]].
  - destruct H2 as [(_ & -> & -> & ->)|(E & _)]; [|discriminate]. exists s1, t1. split; [exact H1|auto].
  - destruct H2 as [(E & _)|(_ & t2 & y & H2 & -> & ->)]; [discriminate|].
    exe7 H2. exists s1, t1. split; [exact H1|]. right. eauto.
Qed.

Lemma stop_defer {A} (m : Go7 archival A) a tr a' r :
  run (go_defer (tell EMeasurerStop) m a) tr (a', r) ->
  exists t1, run (m a) t1 (a', r) /\
    (skips r = true /\ tr = t1 \/ skips r = false /\ tr = t1 ++ [EMeasurerStop]).
Proof.
  intros H. apply run_go_defer in H. destruct H as (t1 & s1 & r1 & H1 & [(E & -> & -> & ->)|(E & t2 & y & H2 & -> & ->)]).
  - eauto.
  - exe7 H2. eauto.
Qed.

Lemma download_sender_shape n proto p a tr a' r :
  run (download_sender n proto p a) tr (a', r) ->
  sender_shape Download (limit_of p) proto a a' tr r.
Proof.
  unfold download_sender. intros H. red7 H. destruct H as ([] & t & -> & H).
  apply stop_defer in H. destruct H as (t1 & H & Hl).
  red7 H. destruct H as (e & t2 & -> & H). destruct e as [e|].
  { left. exe7 H. cbn [skips] in Hl. destruct Hl as [[? _]|[_ ->]]; [discriminate|].
    exists e. auto. }
  exe7 H.
  - right. left. cbn [skips] in Hl. destruct Hl as [[? _]|[_ ->]]; [discriminate|].
    do 2 eexists. cbn. eauto.
  - right. right. 
    apply (loop_defer Download (limit_of p) proto (b + max_runtime)) in H; [|intros *; apply download_loop_facts].
    destruct H as (a1 & lt & F & [(-> & -> & ->)|(x & te & -> & -> & ->)]).
    + cbn [skips] in Hl. destruct Hl as [[_ ->]|[? _]]; [|discriminate].
      exists b, b1, lt, []. split; [cbn; rewrite app_nil_r; reflexivity|]. exists a1. split; [exact F|auto].
    + cbn [skips] in Hl. destruct Hl as [[? _]|[_ ->]]; [discriminate|].
      exists b, b1, lt, [ENow te; EMeasurerStop].
      split; [cbn; rewrite <- app_assoc; reflexivity|]. exists a1. split; [exact F|eauto 6].
Qed.

Lemma upload_sender_shape n proto a tr a' r :
  run (upload_sender n proto a) tr (a', r) ->
  sender_shape Upload None proto a a' tr r.
Proof.
  unfold upload_sender. intros H. red7 H. destruct H as ([] & t & -> & H).
  apply stop_defer in H. destruct H as (t1 & H & Hl).
  exe7 H.
  - right. left. cbn [skips] in Hl. destruct Hl as [[? _]|[_ ->]]; [discriminate|].
    do 2 eexists. cbn. eauto.
  - right. right. 
    apply (loop_defer Upload None proto (b + max_runtime)) in H; [|intros *; apply upload_loop_facts].
    destruct H as (a1 & lt & F & [(-> & -> & ->)|(x & te & -> & -> & ->)]).
    + cbn [skips] in Hl. destruct Hl as [[_ ->]|[? _]]; [|discriminate].
      exists b, b1, lt, []. split; [cbn; rewrite app_nil_r; reflexivity|]. exists a1. split; [exact F|auto].
    + cbn [skips] in Hl. destruct Hl as [[? _]|[_ ->]]; [discriminate|].
      exists b, b1, lt, [ENow te; EMeasurerStop].
      split; [cbn; rewrite <- app_assoc; reflexivity|]. exists a1. split; [exact F|eauto 6].
Qed.
