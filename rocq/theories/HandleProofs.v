(** Lemmas about whole control connections. *)
From Coq Require Import String ZArith List Bool Lia.
From Coq Require Import ZifyBool ZifyNat.
From Verif Require Import Base BaseFacts WireModel MessagerModel GoFloat GoStrings StringsProofs
  Web100Model Effect ControlModel ControlSpec ControlProofs MetaProofs.
Import ListNotations.
Open Scope Z_scope.

(** ** Panic labels *)

Lemma split2_prefix sep a b : ~ In sep a -> fst (split2 sep (a ++ sep :: b)) = a.
Proof.
  induction a as [|x a IH]; cbn [app split2]; intros H.
  - rewrite Z.eqb_refl. reflexivity.
  - destruct (x =? sep) eqn:E; [apply Z.eqb_eq in E; subst; exfalso; apply H; left; reflexivity|].
    specialize (IH (fun h => H (or_intror h))).
    destruct (split2 sep (a ++ sep :: b)) as [u v]. cbn in *. subst. reflexivity.
Qed.

Lemma err_type_total msg : In (panic_msg_to_err_type msg) (okay_words ++ [str "panic"]).
Proof.
  unfold panic_msg_to_err_type. apply in_or_app.
  destruct (existsb (beqb (fst (split2 32 msg))) okay_words) eqn:E; [left|right; left; reflexivity].
  apply existsb_exists in E. destruct E as (x & Hx & E). apply beqb_spec in E. subst. exact Hx.
Qed.

Lemma err_type_word w rest : In w okay_words -> panic_msg_to_err_type (w ++ 32 :: rest) = w.
Proof.
  intros H. unfold panic_msg_to_err_type. rewrite split2_prefix.
  - destruct (existsb (beqb w) okay_words) eqn:E; [reflexivity|].
    exfalso. assert (existsb (beqb w) okay_words = true) as E1
      by (apply existsb_exists; exists w; split; [exact H|apply beqb_refl]). congruence.
  - cbn in H. repeat destruct H as [<-|H]; try contradiction; cbn; intros I;
      repeat destruct I as [I|I]; try discriminate; contradiction.
Qed.

(** ** Metrics-only tails *)

Definition plain_metric (e : event) : bool := is_metric e && test_event e.

Lemma metric_tail : forall tl, forallb plain_metric tl = true ->
  io tl = [] /\ forallb test_event tl = true /\ closed tl = [] /\ served tl = [] /\
  started tl = [] /\ waited tl = [] /\ served_with_error tl = [] /\ writes tl = [] /\ without_metrics tl = [].
Proof.
  induction tl as [|e tl IH]; cbn [forallb]; intros H; [cbn; auto 10|].
  apply andb_prop in H. destruct H as [He H]. apply IH in H.
  destruct H as (H1 & H2 & H3 & H4 & H5 & H6 & H7 & H8 & H9).
  unfold plain_metric in He. apply andb_prop in He. destruct He as [Hm Ht].
  cbn [forallb]. rewrite Ht, H2.
  destruct e; try discriminate Hm; cbn; auto 10.
Qed.

(** ** Single-use servers of a part of a run *)

(** The started servers were all waited for, except perhaps the last, whose port could
    not be announced. *)
Definition leaky (tr : list event) : Prop :=
  exists a d port f e b, tr = a ++ EvListen d (inl port) :: EvWrite f (Some e) :: b /\
    started a = waited a /\ started b = [] /\ waited b = [].
Definition stopped (tr : list event) : Prop := started tr = waited tr \/ leaky tr.

Lemma started_app a b : started (a ++ b) = started a ++ started b.
Proof. apply flat_map_app. Qed.
Lemma waited_app a b : waited (a ++ b) = waited a ++ waited b.
Proof. apply flat_map_app. Qed.
Lemma served_app a b : served (a ++ b) = served a ++ served b.
Proof. apply flat_map_app. Qed.
Lemma closed_app a b : closed (a ++ b) = closed a ++ closed b.
Proof. apply flat_map_app. Qed.
Lemma writes_app a b : writes (a ++ b) = writes a ++ writes b.
Proof. apply flat_map_app. Qed.
Lemma counted_app n a b : counted n (a ++ b) = counted n a ++ counted n b.
Proof. apply flat_map_app. Qed.
Lemma reads_app a b : reads (a ++ b) = reads a ++ reads b.
Proof. apply flat_map_app. Qed.

Lemma writes_io tr : writes (io tr) = writes tr.
Proof.
  induction tr as [|e tr IH]; cbn; [reflexivity|].
  destruct e; cbn; try exact IH. unfold writes in IH. rewrite <- IH. reflexivity.
Qed.

(** A complete part has no failed write. *)
Lemma follows_complete : forall t w b, follows t w b -> b = true -> forall f e, ~ In (f, Some e) (writes t).
Proof.
  induction 1; intros Hb f' e'; try discriminate; cbn.
  - auto.
  - intros [E|I]; [discriminate|]. apply (IHfollows Hb f' e' I).
  - apply IHfollows, Hb.
Qed.

(** What each part of the conversation guarantees. *)
Record part (L : list item -> Prop) (tr : list event) (complete : bool) : Prop := {
  p_events : forallb test_event tr = true;
  p_word : exists w, L w /\ follows (io tr) w complete;
  p_closed : closed tr = served tr;
  p_stopped : stopped tr
}.

Lemma not_leaky L tr : part L tr true -> started tr = waited tr.
Proof.
  intros [_ (w & _ & F) _ [S|(a & d & p & f & e & b & -> & _)]]; [exact S|].
  exfalso. apply (follows_complete _ _ _ F eq_refl f e).
  rewrite writes_io, writes_app. apply in_or_app. right. left. reflexivity.
Qed.

Lemma stopped_app a b : started a = waited a -> stopped b -> stopped (a ++ b).
Proof.
  intros Ha [Hb|(a' & d & p & f & e & b' & -> & H1 & H2)].
  - left. rewrite started_app, waited_app, Ha, Hb. reflexivity.
  - right. exists (a ++ a'), d, p, f, e, b'. rewrite <- app_assoc, started_app, waited_app, Ha, H1.
    auto.
Qed.

Lemma stopped_tail a b : started b = [] -> waited b = [] -> stopped a -> stopped (a ++ b).
Proof.
  intros H1 H2 [Ha|(a' & d & p & f & e & b' & -> & A & B & C)].
  - left. rewrite started_app, waited_app, Ha, H1, H2. reflexivity.
  - right. exists a', d, p, f, e, (b' ++ b).
    rewrite <- app_assoc, started_app, waited_app, B, C, H1, H2. auto.
Qed.

Lemma part_seq (L1 L2 L : list item -> Prop) t1 t2 c :
  part L1 t1 true -> part L2 t2 c -> (forall w1 w2, L1 w1 -> L2 w2 -> L (w1 ++ w2)) ->
  part L (t1 ++ t2) c.
Proof.
  intros P1 P2 HL. pose proof (not_leaky _ _ P1) as S1.
  destruct P1 as [E1 (w1 & W1 & F1) C1 _], P2 as [E2 (w2 & W2 & F2) C2 S2]. split.
  - rewrite forallb_app, E1, E2. reflexivity.
  - exists (w1 ++ w2). split; [auto|]. rewrite io_app. eapply follows_app; eauto.
  - rewrite closed_app, served_app, C1, C2. reflexivity.
  - apply stopped_app; auto.
Qed.

(** An incomplete part followed by nothing. *)
Lemma part_stop (L1 L : list item -> Prop) t1 :
  part L1 t1 false -> (forall w1, L1 w1 -> exists w2, L (w1 ++ w2)) -> part L t1 false.
Proof.
  intros [E1 (w1 & W1 & F1) C1 S1] HL. split; auto.
  destruct (HL w1 W1) as (w2 & H). exists (w1 ++ w2). split; [exact H|].
  eapply follows_more; eauto.
Qed.

Lemma part_metrics L t tl c : part L t c -> forallb plain_metric tl = true -> part L (t ++ tl) c.
Proof.
  intros [E (w & W & F) C S] H. apply metric_tail in H.
  destruct H as (H1 & H2 & H3 & H4 & H5 & H6 & H7 & H8 & H9). split.
  - rewrite forallb_app, E, H2. reflexivity.
  - exists w. rewrite io_app, H1, app_nil_r. auto.
  - rewrite closed_app, served_app, C, H3, H4. reflexivity.
  - apply stopped_tail; auto.
Qed.

(** ** The blocks of the tests *)

Lemma c2s_part : forall g m s tr s' r, run (c2s_manage g m s) tr (s', r) ->
  part (c2s_word m) tr (fine r).
Proof.
  intros g m s tr s' r H. pose proof (c2s_events _ _ _ _ _ _ H) as (E & C & S).
  pose proof (c2s_follows _ _ _ _ _ _ H) as W. split; auto.
  destruct S as [S|(d & p & f & e & -> & S1 & S2 & _)]; [left; exact S|].
  right. exists [], d, p, f, e, (skipn 2 tr). cbn [app] in *. split; [reflexivity|].
  split; [reflexivity|]. cbn in S1, S2. unfold started, waited. cbn [skipn].
  split; [|exact S2]. injection S1 as S1. exact S1.
Qed.

Lemma s2c_part : forall g m s tr s' r, run (s2c_manage g m s) tr (s', r) ->
  part (s2c_word m) tr (fine r).
Proof.
  intros g m s tr s' r H. pose proof (s2c_events _ _ _ _ _ _ H) as (E & C & S).
  pose proof (s2c_follows _ _ _ _ _ _ H) as W. split; auto.
  destruct S as [S|(d & p & f & e & -> & S1 & S2 & _)]; [left; exact S|].
  right. exists [], d, p, f, e, (skipn 2 tr). cbn [app] in *. split; [reflexivity|].
  split; [reflexivity|]. cbn in S1, S2. unfold started, waited. cbn [skipn].
  split; [|exact S2]. injection S1 as S1. exact S1.
Qed.

Lemma meta_part : forall g m tr x, meta_runs g m tr x ->
  part (meta_word m) tr (match snd x with None => true | _ => false end).
Proof.
  intros g m tr x H. pose proof (meta_events _ _ _ _ H) as (E & C & S & S1 & S2 & _).
  pose proof (meta_follows _ _ _ _ H) as W. split; auto.
  - congruence.
  - left. congruence.
Qed.

(** The text of a panic raised by PanicOnError. *)
Definition panic_text (g : config) (prefix : bytes) (e : err) : bytes :=
  prefix ++ str " (uuid: " ++ c_uuid g ++ str ")" ++ c_err_text g e.

Definition test_counted (g : config) (dir : bytes) (failed : bool) (mean : f64) : event :=
  EvCount (str "ClientTestResults") [label g; dir; result_label failed mean].

Lemma run_c2s_runs : forall g m r tr r' x, run (run_c2s g m r) tr (r', x) ->
  exists t d y tl, run (c2s_manage g m c2s_empty) t (d, y) /\ tr = t ++ tl /\
    forallb plain_metric tl = true /\
    match y with
    | Ok e => r' = set_c2s d r /\
        (exists pre, tl = pre ++ [test_counted g (str "c2s") (is_some e) (u_mean d)]) /\
        match e with
        | None => x = Ok (if f_is_zero (u_mean d) then f_zero else u_mean d)
        | Some e => x = Panic (panic_text g (str "C2S - Could not run c2s test") e)
        end
    | Panic p => r' = r /\ tl = [] /\ x = Panic p
    end.
Proof.
  intros g m r tr r' x H. unfold run_c2s in H.
  apply run_bind in H. destruct H as [(t1 & s1 & [d e] & t2 & -> & H1 & H)|(p & -> & H)].
  - apply run_call in H1. destruct H1 as (-> & d1 & y & H1 & E).
    destruct y as [e1|p]; [|discriminate]. injection E as -> ->.
    exists t1, d1, (Ok e1), t2. split; [exact H1|]. split; [reflexivity|].
    destruct e1, (f_is_zero (u_mean d1)) eqn:Z; exe H;
      (split; [reflexivity|]); (split; [reflexivity|]); (split; [|reflexivity]).
    all: first [exists []; reflexivity | eexists [_]; reflexivity].
  - apply run_call in H. destruct H as (-> & d1 & y & H1 & E).
    destruct y as [e1|p']; [discriminate|]. injection E as ->.
    exists tr, d1, (Panic p'), []. rewrite app_nil_r. auto 6.
Qed.

Lemma run_s2c_runs : forall g m r tr r' x, run (run_s2c g m r) tr (r', x) ->
  exists t d e tl, run (s2c_manage g m s2c_empty) t (d, Ok e) /\ tr = t ++ tl /\
    forallb plain_metric tl = true /\ r' = set_s2c d r /\
    (exists pre, tl = pre ++ [test_counted g (str "s2c") (is_some e) (d_mean d)]) /\
    match e with
    | None => x = Ok (if f_is_zero (d_mean d) then f_zero else d_mean d)
    | Some e => x = Panic (panic_text g (str "S2C - Could not run s2c test") e)
    end.
Proof.
  intros g m r tr r' x H. unfold run_s2c in H.
  apply run_bind in H. destruct H as [(t1 & s1 & [d e] & t2 & -> & H1 & H)|(p & -> & H)].
  - apply run_call in H1. destruct H1 as (-> & d1 & y & H1 & E).
    destruct y as [e1|p]; [|discriminate]. injection E as -> ->.
    exists t1, d1, e1, t2. split; [exact H1|]. split; [reflexivity|].
    destruct e1, (f_is_zero (d_mean d1)) eqn:Z; exe H;
      (split; [reflexivity|]); (split; [reflexivity|]); (split; [|reflexivity]).
    all: first [exists []; reflexivity | eexists [_]; reflexivity].
  - exfalso. apply run_call in H. destruct H as (-> & d1 & y & H1 & E).
    destruct (s2c_outcome _ _ s2c_empty _ _ _ eq_refl H1) as (e & -> & _). discriminate.
Qed.

Lemma run_meta_runs : forall g m r tr r' x, run (run_meta g m r) tr (r', x) ->
  exists l e, meta_runs g m tr (l, e) /\ r' = set_meta l r /\
    x = match e with
        | None => Ok tt
        | Some e => Panic (panic_text g (str "META - Could not run meta test") e)
        end.
Proof.
  intros g m r tr r' x H. unfold run_meta in H.
  apply run_bind in H. destruct H as [(t1 & s1 & [d [l e]] & t2 & -> & H1 & H)|(p & -> & H)].
  - apply run_call in H1. destruct H1 as (-> & d1 & y & H1 & E).
    apply meta_manage_runs in H1. destruct H1 as (z & -> & H1). injection E as -> <-.
    exists l, e. destruct e; exe H; rewrite app_nil_r; auto.
  - exfalso. apply run_call in H. destruct H as (-> & d1 & y & H1 & E).
    apply meta_manage_runs in H1. destruct H1 as (z & -> & H1). discriminate.
Qed.

(** ** The conversation *)

Definition stage {A} (b : bool) (p : Go record A) (v : A) (r : record) (t : list event)
  (r' : record) (x : res bytes A) : Prop :=
  if b then run (p r) t (r', x) else t = [] /\ r' = r /\ x = Ok v.

Lemma stage_run {A} (b : bool) (p : Go record A) v r t r' x :
  run ((if b then p else ret v) r) t (r', x) -> stage b p v r t r' x.
Proof.
  destruct b; cbn [stage]; [auto|]. intros H. cbn in H. destruct H as [-> H].
  apply pair_inv in H. destruct H. auto.
Qed.

Definition ending (g : config) (m : encoding) (vc vs : f64) (t : list event) (x : res bytes unit) : Prop :=
  let q := frame_of m MsgResults (speed_msg vc vs) in
  let v := frame_of m MsgLogout [] in
  (exists e, t = [EvWrite q (Some e)] /\
     x = Panic (panic_text g (str "MsgResults - Could not send test results message") e)) \/
  (exists e, t = [EvWrite q None; EvWrite v (Some e)] /\
     x = Panic (panic_text g (str "MsgLogout - Could not send MsgLogout") e)) \/
  (t = [EvWrite q None; EvWrite v None] /\ x = Ok tt).

Lemma run_send {S A} m k c (f : option err -> Go S A) s tr s' r :
  run (bind (send m k c) f s) tr (s', r) ->
  exists e t, tr = EvWrite (frame_of m k c) e :: t /\ run (f e s) t (s', r).
Proof. exact (fun H => H). Qed.

Lemma run_check {S A} g e pre (f : unit -> Go S A) s tr s' r :
  run (bind (panic_on_error g e pre) f s) tr (s', r) ->
  match e with
  | None => run (f tt s) tr (s', r)
  | Some e => tr = [] /\ s' = s /\ r = Panic (panic_text g pre e)
  end.
Proof.
  destruct e; [|exact (fun H => H)]. intros H. cbn in H. destruct H as [-> H].
  apply pair_inv in H. destruct H. auto.
Qed.

Lemma run_stage {S A B} (p : Go S A) (f : A -> Go S B) s tr s' r :
  run (bind p f s) tr (s', r) ->
  exists t1 s1 x t2, tr = t1 ++ t2 /\ run (p s) t1 (s1, x) /\
    match x with
    | Ok a => run (f a s1) t2 (s', r)
    | Panic q => t2 = [] /\ s' = s1 /\ r = Panic q
    end.
Proof.
  intros H. apply run_bind in H. destruct H as [(t1 & s1 & a & t2 & -> & H1 & H)|(q & -> & H)].
  - exists t1, s1, (Ok a), t2. auto.
  - exists tr, s', (Panic q), []. rewrite app_nil_r. auto.
Qed.

Lemma converse_split g m c2s s2c meta r tr r' x : m <> Unknown ->
  run (converse g m c2s s2c meta r) tr (r', x) ->
  let r0 := set_protocol (encoding_string m) r in
  let q := frame_of m SrvQueue (str "0") in
  let v := frame_of m MsgLogin (str "v5.0-NDTinGO") in
  let l := frame_of m MsgLogin (test_list c2s s2c meta) in
  (exists e, tr = [EvWrite q (Some e)] /\ r' = r0 /\
     x = Panic (panic_text g (str "SrvQueue - Could not send SrvQueue") e)) \/
  (exists e, tr = [EvWrite q None; EvWrite v (Some e)] /\ r' = r0 /\
     x = Panic (panic_text g (str "MsgLoginVersion - Could not send MsgLogin with version") e)) \/
  (exists e, tr = [EvWrite q None; EvWrite v None; EvWrite l (Some e)] /\ r' = r0 /\
     x = Panic (panic_text g (str "MsgLoginTests - Could not send MsgLogin with the tests") e)) \/
  (exists tc rc xc t1, tr = [EvWrite q None; EvWrite v None; EvWrite l None] ++ tc ++ t1 /\
     stage c2s (run_c2s g m) f_zero r0 tc rc xc /\
     match xc with
     | Panic p => t1 = [] /\ r' = rc /\ x = Panic p
     | Ok vc =>
         exists ts rs xs t2, t1 = ts ++ t2 /\ stage s2c (run_s2c g m) f_zero rc ts rs xs /\
         match xs with
         | Panic p => t2 = [] /\ r' = rs /\ x = Panic p
         | Ok vs =>
             exists tm xm t3, t2 = tm ++ t3 /\ stage meta (run_meta g m) tt rs tm r' xm /\
             match xm with
             | Panic p => t3 = [] /\ x = Panic p
             | Ok _ => ending g m vc vs t3 x
             end
         end
     end).
Proof.
  intros Hm H. cbn zeta.
  set (c2sb := run_c2s g m). set (s2cb := run_s2c g m). set (metab := run_meta g m).
  unfold converse in H. fold c2sb in H. fold s2cb in H. fold metab in H.
  apply run_bind in H. destruct H as [(t1 & s1 & u & t2 & -> & H1 & H)|(p & -> & H)].
  2:{ destruct m; [congruence|..]; cbn in H; destruct H as [_ H]; discriminate. }
  assert (t1 = [] /\ s1 = r) as [-> ->].
  { destruct m; [congruence|..]; cbn in H1; destruct H1 as [-> H1]; apply pair_inv in H1;
      destruct H1; auto. }
  clear H1 u. cbn [app].
  apply run_bind in H. destruct H as [(t1 & s1 & u & t3 & -> & H1 & H)|(p & -> & H)];
    [|apply run_modify in H; destruct H; discriminate].
  apply run_modify in H1. destruct H1 as [-> H1]. injection H1 as -> ->. cbn [app].
  apply run_send in H. destruct H as (b & t & -> & H). apply run_check in H.
  destruct b as [e|]; [left; destruct H as (-> & -> & ->); eauto|right].
  apply run_send in H. destruct H as (b & t' & -> & H). apply run_check in H.
  destruct b as [e|]; [left; destruct H as (-> & -> & ->); eauto|right].
  apply run_send in H. destruct H as (b & t'' & -> & H). apply run_check in H.
  destruct b as [e|]; [left; destruct H as (-> & -> & ->); eauto|right].
  apply run_stage in H. destruct H as (tc & rc & xc & t1 & -> & H1 & H).
  apply stage_run in H1. exists tc, rc, xc, t1. split; [reflexivity|]. split; [exact H1|]. clear H1.
  destruct xc as [vc|p]; [|exact H].
  apply run_stage in H. destruct H as (ts & rs & xs & t2 & -> & H1 & H).
  apply stage_run in H1. exists ts, rs, xs, t2. split; [reflexivity|]. split; [exact H1|]. clear H1.
  destruct xs as [vs|p]; [|exact H].
  apply run_stage in H. destruct H as (tm & rm & xm & t3 & -> & H1 & H).
  apply stage_run in H1. exists tm, xm, t3. split; [reflexivity|].
  destruct xm as [um|p]; [|destruct H as (-> & -> & ->); auto].
  apply run_send in H. destruct H as (b & t4 & -> & H). apply run_check in H.
  unfold ending.
  destruct b as [e|]; [destruct H as (-> & -> & ->); split; [exact H1|left; eauto]|].
  apply run_send in H. destruct H as (b & t5 & -> & H).
  destruct b as [e|]; cbn in H; destruct H as (-> & H); apply pair_inv in H; destruct H as [-> ->];
    (split; [exact H1|right]); [left; eauto|right; auto].
Qed.

Definition okb {A} (x : res bytes A) : bool := match x with Ok _ => true | Panic _ => false end.

Lemma run_c2s_part g m r t r' x : run (run_c2s g m r) t (r', x) -> part (c2s_word m) t (okb x).
Proof.
  intros H. apply run_c2s_runs in H. destruct H as (t1 & d & y & tl & H & -> & Hm & Hy).
  apply part_metrics; [|exact Hm]. apply c2s_part in H.
  destruct y as [[e|]|p]; [destruct Hy as (_ & _ & ->)|destruct Hy as (_ & _ & ->)|
                           destruct Hy as (_ & _ & ->)]; exact H.
Qed.
Lemma run_s2c_part g m r t r' x : run (run_s2c g m r) t (r', x) -> part (s2c_word m) t (okb x).
Proof.
  intros H. apply run_s2c_runs in H. destruct H as (t1 & d & e & tl & H & -> & Hm & _ & _ & Hy).
  apply part_metrics; [|exact Hm]. apply s2c_part in H.
  destruct e; subst; exact H.
Qed.
Lemma run_meta_part g m r t r' x : run (run_meta g m r) t (r', x) -> part (meta_word m) t (okb x).
Proof.
  intros H. apply run_meta_runs in H. destruct H as (l & e & H & _ & ->).
  apply meta_part in H. destruct e; exact H.
Qed.

Lemma part_nil : part (fun w => w = []) [] true.
Proof.
  split; try reflexivity.
  - exists []. split; [reflexivity|constructor].
  - left. reflexivity.
Qed.

Lemma stage_part {A} (b : bool) (p : Go record A) v L r t r' x :
  (forall r t r' x, run (p r) t (r', x) -> part L t (okb x)) ->
  stage b p v r t r' x -> part (when b L) t (okb x).
Proof.
  intros Hp H. destruct b; cbn [stage when] in *; [eauto|].
  destruct H as (-> & _ & ->). apply part_nil.
Qed.

(** Every kind of part has a word. *)
Lemma when_inhabited b (L : list item -> Prop) : (exists w, L w) -> exists w, when b L w.
Proof. destruct b; cbn; eauto. Qed.
Lemma c2s_word_ex m : exists w, c2s_word m w.
Proof. eexists. exists 0, 0. reflexivity. Qed.
Lemma s2c_word_ex m : exists w, s2c_word m w.
Proof. eexists. exists 0, 0, 0, []. reflexivity. Qed.
Lemma meta_word_ex m : exists w, meta_word m w.
Proof. eexists. exists 0%nat. split; [lia|reflexivity]. Qed.

Lemma test_list_announced c2s s2c meta : test_list c2s s2c meta = str (announced c2s s2c meta).
Proof. destruct c2s, s2c, meta; reflexivity. Qed.

(** A part that consists of writes. *)
Lemma part_writes (L : list item -> Prop) t w c : L w -> follows t w c -> forallb is_io t = true -> part L t c.
Proof.
  intros HL F H.
  assert (E : io t = t).
  { clear F. induction t as [|e t IH]; cbn in *; [reflexivity|].
    apply andb_prop in H. destruct H as [-> H]. f_equal. auto. }
  assert (Hz : forallb test_event t = true /\ closed t = [] /\ served t = [] /\ started t = [] /\
               waited t = []).
  { clear F E. induction t as [|e t IH]; cbn [forallb] in *; [cbn; auto|].
    apply andb_prop in H. destruct H as [He H]. apply IH in H.
    destruct e; try discriminate He; exact H. }
  destruct Hz as (Z1 & Z2 & Z3 & Z4 & Z5). split.
  - exact Z1.
  - exists w. rewrite E. auto.
  - congruence.
  - left. congruence.
Qed.

Lemma converse_part g m c2s s2c meta r tr r' x : m <> Unknown ->
  run (converse g m c2s s2c meta r) tr (r', x) -> part (conversation m c2s s2c meta) tr (okb x).
Proof.
  intros Hm H. apply converse_split in H; [|exact Hm]. cbn zeta in H.
  set (head := [ say m SrvQueue (str "0"); say m MsgLogin (str "v5.0-NDTinGO");
                 say m MsgLogin (str (announced c2s s2c meta)) ]).
  set (tail := fun q => [ say m MsgResults q; say m MsgLogout [] ]).
  pose proof (when_inhabited c2s _ (c2s_word_ex m)) as (wc0 & Hc0).
  pose proof (when_inhabited s2c _ (s2c_word_ex m)) as (ws0 & Hs0).
  pose proof (when_inhabited meta _ (meta_word_ex m)) as (wm0 & Hm0).
  assert (Hhead : forall t c, follows t head c -> forallb is_io t = true ->
            part (fun w => w = head) t c).
  { intros t c F E. apply (part_writes _ _ head); auto. }
  assert (Hstop : forall t, part (fun w => w = head) t false -> part (conversation m c2s s2c meta) t false).
  { intros t P. eapply part_stop; [exact P|]. intros w1 ->. eexists.
    exists wc0, ws0, wm0, []. split; [exact Hc0|]. split; [exact Hs0|]. split; [exact Hm0|].
    reflexivity. }
  rewrite test_list_announced in H.
  destruct H as [(e & -> & _ & ->)|[(e & -> & _ & ->)|[(e & -> & _ & ->)|H]]].
  1-3: apply Hstop, Hhead; [unfold head; fol|reflexivity].
  destruct H as (tc & rc & xc & t1 & -> & H1 & H).
  assert (Ph : part (fun w => w = head)
     [EvWrite (frame_of m SrvQueue (str "0")) None;
      EvWrite (frame_of m MsgLogin (str "v5.0-NDTinGO")) None;
      EvWrite (frame_of m MsgLogin (str (announced c2s s2c meta))) None] true).
  { apply Hhead; [unfold head; fol|reflexivity]. }
  apply (stage_part _ _ _ (c2s_word m)) in H1; [|intros; eapply run_c2s_part; eauto].
  destruct xc as [vc|p].
  2:{ destruct H as (-> & _ & ->). rewrite app_nil_r.
      eapply part_stop; [eapply part_seq; [exact Ph|exact H1|]|].
      - intros w1 w2 -> H2. instantiate (1 := fun w => exists wc, when c2s (c2s_word m) wc /\ w = head ++ wc).
        exists w2. auto.
      - intros w1 (wc & Hc & ->). eexists. exists wc, ws0, wm0, [].
        split; [exact Hc|]. split; [exact Hs0|]. split; [exact Hm0|].
        rewrite <- app_assoc. reflexivity. }
  destruct H as (ts & rs & xs & t2 & -> & H2 & H).
  apply (stage_part _ _ _ (s2c_word m)) in H2; [|intros; eapply run_s2c_part; eauto].
  assert (P1 : part (fun w => exists wc, when c2s (c2s_word m) wc /\ w = head ++ wc)
     ([EvWrite (frame_of m SrvQueue (str "0")) None;
      EvWrite (frame_of m MsgLogin (str "v5.0-NDTinGO")) None;
      EvWrite (frame_of m MsgLogin (str (announced c2s s2c meta))) None] ++ tc) true).
  { eapply part_seq; [exact Ph|exact H1|]. intros w1 w2 -> Hw. exists w2. auto. }
  rewrite app_assoc. set (h := _ ++ tc) in *. clearbody h.
  destruct xs as [vs|p].
  2:{ destruct H as (-> & _ & ->). rewrite app_nil_r.
      eapply part_stop; [eapply part_seq; [exact P1|exact H2|]|].
      - intros w1 w2 (wc & Hc & ->) Hw.
        instantiate (1 := fun w => exists wc ws, when c2s (c2s_word m) wc /\ when s2c (s2c_word m) ws /\
                                     w = head ++ wc ++ ws).
        exists wc, w2. rewrite <- app_assoc. auto.
      - intros w1 (wc & ws & Hc & Hs & ->). eexists. exists wc, ws, wm0, [].
        split; [exact Hc|]. split; [exact Hs|]. split; [exact Hm0|].
        rewrite <- !app_assoc. reflexivity. }
  destruct H as (tm & xm & t3 & -> & H3 & H).
  apply (stage_part _ _ _ (meta_word m)) in H3; [|intros; eapply run_meta_part; eauto].
  assert (P2 : part (fun w => exists wc ws, when c2s (c2s_word m) wc /\ when s2c (s2c_word m) ws /\
                                     w = head ++ wc ++ ws) (h ++ ts) true).
  { eapply part_seq; [exact P1|exact H2|]. intros w1 w2 (wc & Hc & ->) Hw.
    exists wc, w2. rewrite <- app_assoc. auto. }
  rewrite app_assoc. set (h2 := h ++ ts) in *. clearbody h2.
  destruct xm as [um|p].
  2:{ destruct H as (-> & ->). rewrite app_nil_r.
      eapply part_stop; [eapply part_seq; [exact P2|exact H3|]|].
      - intros w1 w2 (wc & ws & Hc & Hs & ->) Hw.
        instantiate (1 := fun w => exists wc ws wm, when c2s (c2s_word m) wc /\ when s2c (s2c_word m) ws /\
                                     when meta (meta_word m) wm /\ w = head ++ wc ++ ws ++ wm).
        exists wc, ws, w2. rewrite <- !app_assoc. auto.
      - intros w1 (wc & ws & wm & Hc & Hs & Hw & ->). eexists. exists wc, ws, wm, [].
        split; [exact Hc|]. split; [exact Hs|]. split; [exact Hw|].
        rewrite <- !app_assoc. reflexivity. }
  assert (P3 : part (fun w => exists wc ws wm, when c2s (c2s_word m) wc /\ when s2c (s2c_word m) ws /\
                                     when meta (meta_word m) wm /\ w = head ++ wc ++ ws ++ wm) (h2 ++ tm) true).
  { eapply part_seq; [exact P2|exact H3|]. intros w1 w2 (wc & ws & Hc & Hs & ->) Hw.
    exists wc, ws, w2. rewrite <- !app_assoc. auto. }
  rewrite app_assoc.
  apply (part_seq _ (fun w => w = tail (speed_msg vc vs)) _ _ _ _ P3).
  2:{ intros w1 w2 (wc & ws & wm & Hc & Hs & Hw & ->) ->.
      exists wc, ws, wm, (speed_msg vc vs). unfold tail, head. rewrite <- !app_assoc. auto. }
  apply (part_writes _ _ (tail (speed_msg vc vs))); [reflexivity| |].
  - destruct H as [(e & -> & ->)|[(e & -> & ->)|(-> & ->)]]; unfold tail, okb; fol.
  - destruct H as [(e & -> & ->)|[(e & -> & ->)|(-> & ->)]]; reflexivity.
Qed.

(** ** Causes *)

Lemma label_of_text g w rest e : In w okay_words ->
  panic_msg_to_err_type (panic_text g (w ++ 32 :: rest) e) = w.
Proof.
  intros H. unfold panic_text. rewrite <- app_assoc. cbn [app]. apply err_type_word. exact H.
Qed.

Lemma result_label_error mean : result_label true mean = str "error-with-rate" \/
  result_label true mean = str "error-without-rate".
Proof. unfold result_label. destruct (f_is_zero mean); auto. Qed.

Lemma meta_error_counted g m tr l e : meta_runs g m tr (l, Some e) ->
  exists what, In (EvCount (str "ClientTestErrors") [label g; str "meta"; what]) tr.
Proof.
  intros H. inversion H; subst; exists what; cbn [In]; rewrite ?in_app_iff; cbn [In]; auto 10.
Qed.

Lemma counted_in name l tr : In (EvCount name l) tr -> In l (counted name tr).
Proof.
  intros H. unfold counted. apply in_flat_map. eexists. split; [exact H|].
  cbn. rewrite beqb_refl. left. reflexivity.
Qed.

Lemma in_mid {A} (x : A) a b c : In x b -> In x (a ++ b ++ c).
Proof. intros H. apply in_or_app. right. apply in_or_app. auto. Qed.

Ltac label_word w rest := 
  match goal with |- context [panic_msg_to_err_type (panic_text ?g ?x ?e)] =>
    change x with (w ++ 32 :: rest); rewrite (label_of_text g w rest e) by (cbn; tauto) end.

Lemma writes_pre pre x : io pre = [EvRead x] -> writes pre = [].
Proof. intros H. rewrite <- writes_io, H. reflexivity. Qed.

Lemma converse_cause g m c2s s2c meta r tr r' p pre x post : m <> Unknown ->
  run (converse g m c2s s2c meta r) tr (r', Panic p) ->
  io pre = [EvRead x] -> io post = [] ->
  cause (c_kind g) m (panic_msg_to_err_type p) (pre ++ tr ++ post).
Proof.
  intros Hm H Hpre Hpost. apply converse_split in H; [|exact Hm]. cbn zeta in H.
  assert (W : forall t, writes (pre ++ t ++ post) = writes t).
  { intros t. rewrite !writes_app, (writes_pre _ _ Hpre), <- (writes_io post), Hpost, app_nil_r.
    reflexivity. }
  unfold cause, failed_write.
  destruct H as [(e & -> & _ & E)|[(e & -> & _ & E)|[(e & -> & _ & E)|H]]];
    try (injection E as ->).
  - label_word (str "SrvQueue") (str "- Could not send SrvQueue").
    right. left. split; [reflexivity|]. eexists. split; [|reflexivity].
    exists [], e. rewrite W. split; reflexivity.
  - label_word (str "MsgLoginVersion") (str "- Could not send MsgLogin with version").
    do 2 right. left. split; [reflexivity|]. eexists. split; [|reflexivity].
    exists [(frame_of m SrvQueue (str "0"), None)], e. rewrite W. split; reflexivity.
  - label_word (str "MsgLoginTests") (str "- Could not send MsgLogin with the tests").
    do 3 right. left. split; [reflexivity|]. eexists. eexists. split; [|reflexivity].
    exists [(frame_of m SrvQueue (str "0"), None); (frame_of m MsgLogin (str "v5.0-NDTinGO"), None)], e.
    rewrite W. split; reflexivity.
  - destruct H as (tc & rc & xc & t1 & -> & H1 & H).
    destruct xc as [vc|q].
    2:{ destruct H as (-> & _ & E). injection E as <-. destruct c2s; cbn [stage] in H1;
          [|destruct H1 as (_ & _ & H1); discriminate].
        apply run_c2s_runs in H1. destruct H1 as (t & d & y & tl & H1 & -> & _ & Hy).
        destruct y as [[e|]|q].
        - destruct Hy as (_ & (pre' & ->) & E). injection E as ->.
          label_word (str "C2S") (str "- Could not run c2s test").
          do 4 right. left. split; [reflexivity|]. exists (label g), (result_label true (u_mean d)).
          split; [|apply result_label_error]. apply counted_in. apply in_mid.
          rewrite app_nil_r, !in_app_iff. right. right. right. left. reflexivity.
        - destruct Hy as (_ & _ & E). discriminate.
        - destruct Hy as (_ & -> & E). injection E as ->.
          apply c2s_outcome in H1; [|reflexivity]. destruct H1 as [-> H1].
          change (panic_msg_to_err_type nil_deref) with (str "panic").
          do 9 right. split; [reflexivity|]. right. rewrite !app_nil_r.
          destruct H1 as [(c & H1)|(dd & H1)].
          + left. exists c. apply in_mid, in_or_app. auto.
          + right. exists dd. apply in_mid, in_or_app. auto. }
    destruct H as (ts & rs & xs & t2 & -> & H2 & H).
    destruct xs as [vs|q].
    2:{ destruct H as (-> & _ & E). injection E as <-. destruct s2c; cbn [stage] in H2;
          [|destruct H2 as (_ & _ & H2); discriminate].
        apply run_s2c_runs in H2. destruct H2 as (t & d & e & tl & H2 & -> & _ & _ & (pre' & ->) & Hy).
        destruct e as [e|]; [|discriminate]. injection Hy as ->.
        label_word (str "S2C") (str "- Could not run s2c test").
        do 5 right. left. split; [reflexivity|]. exists (label g), (result_label true (d_mean d)).
        split; [|apply result_label_error]. apply counted_in. apply in_mid.
        rewrite app_nil_r, !in_app_iff. do 4 right. left. reflexivity. }
    destruct H as (tm & xm & t3 & -> & H3 & H).
    destruct xm as [um|q].
    2:{ destruct H as (-> & E). injection E as <-. destruct meta; cbn [stage] in H3;
          [|destruct H3 as (_ & _ & H3); discriminate].
        apply run_meta_runs in H3. destruct H3 as (l & e & H3 & _ & Hy).
        destruct e as [e|]; [|discriminate]. injection Hy as ->.
        label_word (str "META") (str "- Could not run meta test").
        do 6 right. left. split; [reflexivity|]. apply meta_error_counted in H3.
        destruct H3 as (what & H3). exists (label g), what. apply counted_in. apply in_mid.
        rewrite !in_app_iff. auto 10. }
    rewrite W, !writes_app.
    destruct H as [(e & -> & E)|[(e & -> & E)|(_ & E)]]; [| |discriminate]; injection E as ->.
    + label_word (str "MsgResults") (str "- Could not send test results message").
      do 7 right. left. split; [reflexivity|]. do 3 eexists. split; [|reflexivity].
      eexists _, e. split; [|reflexivity].
      rewrite !app_assoc. reflexivity.
    + label_word (str "MsgLogout") (str "- Could not send MsgLogout").
      do 8 right. left. split; [reflexivity|]. do 2 eexists. split; [|reflexivity].
      exists ((((writes [EvWrite (frame_of m SrvQueue (str "0")) None;
                  EvWrite (frame_of m MsgLogin (str "v5.0-NDTinGO")) None;
                  EvWrite (frame_of m MsgLogin (test_list c2s s2c meta)) None]
                  ++ writes tc) ++ writes ts) ++ writes tm) ++
              [(frame_of m MsgResults (speed_msg vc vs), None)]), e.
      split; [|reflexivity]. rewrite <- !app_assoc. reflexivity.
Qed.

(** ** From the request to the conversation *)

Lemma wants_bit tests k : 0 <= k -> wants tests (2 ^ k) = Z.testbit tests k.
Proof.
  intros Hk. unfold wants. destruct (Z.testbit tests k) eqn:E.
  - destruct (Z.land tests (2 ^ k) =? 0) eqn:F; [|reflexivity]. exfalso.
    apply Z.eqb_eq in F. assert (G : Z.testbit (Z.land tests (2 ^ k)) k = false) by (rewrite F; apply Z.bits_0).
    rewrite Z.land_spec, E, Z.pow2_bits_true in G by exact Hk. discriminate.
  - replace (Z.land tests (2 ^ k)) with 0; [reflexivity|]. symmetry. apply Z.bits_inj'. intros n Hn.
    rewrite Z.land_spec, Z.bits_0, Z.pow2_bits_eqb by exact Hk.
    destruct (Z.eqb_spec k n); [subst; rewrite E; reflexivity|apply andb_false_r].
Qed.

Definition requested (g : config) (tests : Z) : list event :=
  let c b (n : string) := if b : bool then [EvCount (str "ClientRequestedTests") [label g; str n]] else [] in
  c (wants tests 1) "mid"%string ++ c (wants tests 2) "c2s"%string ++ c (wants tests 4) "s2c"%string ++
  c (wants tests 8) "sfw"%string ++ c (wants tests 32) "meta"%string ++
  [EvCount (str "ClientRequestedTestSuites")
            [label g;
             join (str "-")
               ([str "status"] ++ (if wants tests 1 then [str "mid"] else []) ++
                (if wants tests 2 then [str "c2s"] else []) ++ (if wants tests 4 then [str "s2c"] else []) ++
                (if wants tests 8 then [str "sfw"] else []) ++ (if wants tests 32 then [str "meta"] else []))]].

Lemma requested_metrics g tests : forallb plain_metric (requested g tests) = true.
Proof.
  unfold requested. destruct (wants tests 1), (wants tests 2), (wants tests 4), (wants tests 8),
    (wants tests 32); reflexivity.
Qed.

Lemma count_if_run {S A} g b name (f : unit -> Go S A) s tr s' r :
  run (bind (count_if g b name) f s) tr (s', r) <->
  exists t, tr = (if b then [EvCount (str "ClientRequestedTests") [label g; name]] else []) ++ t /\
    run (f tt s) t (s', r).
Proof.
  destruct b; cbn.
  - split.
    + intros ([] & t & -> & H). eauto.
    + intros (t & -> & H). exists tt, t. auto.
  - split; [eauto|]. intros (t & -> & H). exact H.
Qed.

Lemma serve_tests_runs g m tests r tr r' x :
  run (serve_tests g m tests r) tr (r', x) <->
  if wants_status tests then
    exists t, tr = requested g tests ++ t /\
      run (converse g m (wants_c2s tests) (wants_s2c tests) (wants_meta tests) r) t (r', x)
  else tr = [EvCount (str "ClientTestErrors") [label g; str "control"; str "TestStatus"]] /\
       r' = r /\ x = Ok tt.
Proof.
  unfold wants_status, wants_c2s, wants_s2c, wants_meta.
  rewrite <- (wants_bit tests 4), <- (wants_bit tests 1), <- (wants_bit tests 2), <- (wants_bit tests 5) by lia.
  change (2 ^ 4) with 16. change (2 ^ 1) with 2. change (2 ^ 2) with 4. change (2 ^ 5) with 32.
  unfold serve_tests, requested.
  replace (wants tests 16) with (negb (Z.land tests 16 =? 0)) by reflexivity.
  destruct (Z.land tests 16 =? 0) eqn:E; cbn [negb].
  - split.
    + intros H. unfold test_error in H. apply run_tell in H. destruct H as [-> H].
      apply pair_inv in H. tauto.
    + intros (-> & -> & ->). apply run_tell. auto.
  - set (c := converse _ _ _ _ _). clearbody c. cbn zeta.
    set (b1 := wants tests 1). set (b2 := wants tests 2). set (b3 := wants tests 4).
    set (b4 := wants tests 8). set (b5 := wants tests 32). clearbody b1 b2 b3 b4 b5.
    rewrite count_if_run. setoid_rewrite count_if_run. setoid_rewrite count_if_run.
    setoid_rewrite count_if_run. setoid_rewrite count_if_run. split.
    + intros (t1 & -> & t2 & -> & t3 & -> & t4 & -> & t5 & -> & H).
      apply run_bind in H. destruct H as [(t6 & s1 & u & t7 & -> & H1 & H)|(p & -> & H)].
      * apply run_tell in H1. destruct H1 as [-> H1]. apply pair_inv in H1. destruct H1 as [-> _].
        exists t7. split; [|exact H]. rewrite <- !app_assoc. reflexivity.
      * apply run_tell in H. destruct H as [_ H]. discriminate.
    + intros (t & -> & H). rewrite <- !app_assoc.
      do 5 (eexists; split; [reflexivity|]).
      apply run_bind. left. do 4 eexists. split; [reflexivity|]. split; [|exact H].
      apply run_tell. auto.
Qed.

(** The record at the start. *)
Definition fresh (g : config) (t : Z) : record :=
  Record_ (c_uuid g) (conn_type (c_kind g)) (c_meta g)
    (c_server_ip g) (c_server_port g) (c_client_ip g) (c_client_port g)
    t None [] None None [].

Definition outcome_counts (g : config) (y : res bytes unit) : list event :=
  match y with
  | Ok _ => [EvCount (str "ControlCount") [label g; str "okay"]]
  | Panic p => [EvCount (str "ControlPanicCount") [label g; panic_msg_to_err_type p];
                EvCount (str "ControlCount") [label g; str "panic"]]
  end.

Lemma handle_inner_runs g s tr s' x : run (handle_inner g s) tr (s', x) ->
  s' = s /\ exists t0 body r1 t1,
    tr = EvNow t0 :: body ++ [EvNow t1; EvSave (set_end t1 r1); EvClose] /\
    run (control_body g (fresh g t0)) body (r1, x).
Proof.
  unfold handle_inner. intros H.
  apply run_finally in H. destruct H as (ta & sa & ra & tb & y & -> & H & Hc & ->).
  apply run_tell in Hc. destruct Hc as [-> Hc]. apply pair_inv in Hc. destruct Hc as [-> ->].
  apply run_bind in H. destruct H as [(t1 & s1 & t0 & t2 & -> & H1 & H)|(p & -> & H)].
  2:{ apply run_op in H. destruct H as (b & _ & H). discriminate. }
  apply run_op in H1. destruct H1 as (b & -> & H1). apply pair_inv in H1. destruct H1 as [-> H1].
  injection H1 as ->. cbn zeta in H. fold (fresh g b) in H.
  apply run_stage in H. destruct H as (t3 & s2 & x & t4 & -> & H1 & H).
  apply run_call in H1. destruct H1 as (-> & r2 & x1 & H1 & ->).
  apply run_finally in H1. destruct H1 as (t5 & r3 & x2 & t6 & z & -> & H1 & Hf & ->).
  assert (Hf' : exists t1, t6 = [EvNow t1; EvSave (set_end t1 r3)] /\ z = Ok tt).
  { exe Hf. destruct b1. eexists; split; reflexivity. }
  clear Hf. destruct Hf' as (t1 & -> & ->).
  assert (t4 = [] /\ sa = s /\ ra = match x2 with Ok _ => Ok tt | Panic p => Panic p end) as (-> & -> & ->).
  { destruct x2; [|destruct H as (-> & -> & ->); auto].
    apply run_ret in H. destruct H as [-> H]. apply pair_inv in H. destruct H as [-> ->]. auto. }
  split; [reflexivity|]. exists b, t5, r3, t1. split; [cbn [app]; rewrite ?app_nil_r, <- ?app_assoc; reflexivity|].
  destruct x2 as [[]|]; exact H1.
Qed.

Lemma handle_runs g s tr s' x : run (handle_control_channel g s) tr (s', x) ->
  s' = s /\ x = Ok tt /\ exists t0 body r1 t1 y,
    tr = [EvGauge (str "ActiveTests") [label g] 1; EvNow t0] ++ body ++
         [EvNow t1; EvSave (set_end t1 r1); EvClose] ++ outcome_counts g y ++
         [EvObserve (str "ControlChannelDuration") [label g] f_zero;
          EvGauge (str "ActiveTests") [label g] (-1)] /\
    run (control_body g (fresh g t0)) body (r1, y).
Proof.
  unfold handle_control_channel. intros H.
  apply run_bind in H. destruct H as [(t1 & s1 & u & t2 & -> & H1 & H)|(p & -> & H)].
  2:{ apply run_tell in H. destruct H as (_ & H). discriminate. }
  apply run_tell in H1. destruct H1 as (-> & H1). apply pair_inv in H1. destruct H1 as [-> _].
  apply run_finally in H. destruct H as (ta & sa & ra & tb & y & -> & H & Hc & ->).
  apply run_tell in Hc. destruct Hc as [-> Hc]. apply pair_inv in Hc. destruct Hc as [-> ->].
  apply run_finally in H. destruct H as (tc & sc & rc & td & y & -> & H & Hc & ->).
  apply run_tell in Hc. destruct Hc as [-> Hc]. apply pair_inv in Hc. destruct Hc as [-> ->].
  apply run_defer in H. destruct H as (te & se & re & tf & y & -> & H & Hc & ->).
  apply handle_inner_runs in H. destruct H as (-> & t0 & body & r1 & t1 & -> & H).
  assert (sc = s /\ match y with Ok r' => r' | Panic p => Panic p end = Ok tt /\ tf = outcome_counts g re)
    as (-> & -> & ->).
  { destruct re as [[]|q]; exe Hc; auto. }
  split; [reflexivity|]. split; [reflexivity|]. exists t0, body, r1, t1, re. split; [|exact H].
  cbn [app]. rewrite <- !app_assoc. cbn [app]. rewrite <- ?app_assoc. reflexivity.
Qed.

(** The body: login, then the tests. *)
Lemma control_body_runs g r tr r' x : run (control_body g r) tr (r', x) ->
  exists inbuff t, tr = EvRead inbuff :: t /\
  match login_of (c_kind g) inbuff with
  | (LoginPanic, _) => t = [] /\ r' = r /\ x = Panic nil_deref
  | (LoginErr, _) =>
      t = [EvCount (str "ClientTestErrors") [label g; str "control"; str "LoginCeremony"]] /\
      r' = r /\ exists e, x = Panic (panic_text g (str "Login - error reading JSON message") e)
  | (LoginOk tests, m) => run (serve_tests g m tests r) t (r', x)
  end.
Proof.
  unfold control_body. intros H. red_in H. destruct H as (inbuff & t & -> & H).
  exists inbuff, t. split; [reflexivity|].
  destruct (login_of (c_kind g) inbuff) as [[tests| |] m].
  - exact H.
  - exe H. split; [reflexivity|]. split; [reflexivity|]. eexists. reflexivity.
  - exe H. auto.
Qed.
