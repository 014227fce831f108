(** Lemmas about the summary of the snapshots. *)
From Coq Require Import String ZArith List Bool Lia.
From Coq Require Import ZifyBool ZifyNat.
From Verif Require Import Base BaseFacts MessagerModel Web100Model.
Import ListNotations.
Open Scope Z_scope.
Ltac Zify.zify_post_hook ::= Z.div_mod_to_equations.

Definition rtts (l : list tcp_info) : list Z := map ti_rtt l.
Definition zsum (l : list Z) : Z := fold_right Z.add 0 l.

Lemma last_snap_app : forall l d x, last_snap d (l ++ [x]) = x.
Proof. induction l as [|y l IH]; intros d x; [reflexivity|]. cbn. apply IH. Qed.

Lemma summarize_last : forall l x w, summarize (l ++ [x]) = Some w ->
  w_tcp_info w = x /\ w_cur_mss w = ti_snd_mss x /\ w_pkts_out w = wrap_u32 (ti_segs_out x).
Proof.
  intros l x w H. destruct l as [|y l]; cbn -[fold_left] in H.
  - injection H as <-. cbn. auto.
  - rewrite last_snap_app in H. injection H as <-. cbn. auto.
Qed.

Lemma summarize_acc : forall l w, summarize l = Some w ->
  let a := fold_left rtt_step l (RttAcc 0 0 0 0) in
  w_min_rtt w = a_min a / 1000 /\ w_max_rtt w = a_max a / 1000 /\
  w_sum_rtt w = a_sum a / 1000 /\ w_count_rtt w = a_count a.
Proof.
  intros [|s l] w H; [discriminate|]. unfold summarize in H. injection H as <-. cbn -[fold_left]. auto.
Qed.

Lemma acc_count : forall l a, 0 <= a_count a < 2 ^ 32 ->
  a_count (fold_left rtt_step l a) = wrap_u32 (a_count a + len l).
Proof.
  induction l as [|x l IH]; intros a Ha; cbn [fold_left].
  - unfold len; cbn. unfold wrap_u32. rewrite Z.mod_small; lia.
  - rewrite IH.
    + cbn [a_count rtt_step]. rewrite len_cons. unfold wrap_u32.
      rewrite Zplus_mod_idemp_l. f_equal. lia.
    + cbn [a_count rtt_step]. unfold wrap_u32. apply Z.mod_pos_bound. lia.
Qed.

Lemma acc_sum : forall l a, 0 <= a_sum a < 2 ^ 32 ->
  a_sum (fold_left rtt_step l a) = wrap_u32 (a_sum a + zsum (rtts l)).
Proof.
  induction l as [|x l IH]; intros a Ha; cbn [fold_left].
  - cbn. unfold wrap_u32. rewrite Z.mod_small; lia.
  - rewrite IH.
    + cbn [a_sum rtt_step rtts map zsum fold_right]. unfold wrap_u32, zsum, rtts.
      rewrite Zplus_mod_idemp_l. f_equal. lia.
    + cbn [a_sum rtt_step]. unfold wrap_u32. apply Z.mod_pos_bound. lia.
Qed.

Lemma acc_max : forall l a,
  let m := a_max (fold_left rtt_step l a) in
  (m = a_max a \/ In m (rtts l)) /\ a_max a <= m /\ Forall (fun r => r <= m) (rtts l).
Proof.
  induction l as [|x l IH]; intros a; cbn [fold_left rtts map].
  - repeat split; [left; reflexivity| lia | constructor].
  - specialize (IH (rtt_step a x)). cbn zeta in IH. destruct IH as (H1 & H2 & H3).
    cbn [rtt_step a_max] in H1, H2.
    set (m := a_max (fold_left _ _ _)) in *. cbn zeta.
    destruct (a_max a <? ti_rtt x) eqn:E.
    + repeat split.
      * destruct H1 as [->|H1]; right; [left; reflexivity | right; exact H1].
      * lia.
      * constructor; [exact H2 | exact H3].
    + repeat split.
      * destruct H1 as [->|H1]; [left; reflexivity | right; right; exact H1].
      * lia.
      * constructor; [lia | exact H3].
Qed.

(** Minimum: the value is that of the samples after the last zero sample. *)
Lemma acc_min_pos : forall l a, 0 <= a_min a -> Forall (fun r => 0 < r) (rtts l) ->
  let m := a_min (fold_left rtt_step l a) in
  (m = a_min a /\ (0 < a_min a \/ l = []) \/ In m (rtts l)) /\
  (0 < a_min a -> m <= a_min a) /\ Forall (fun r => m <= r) (rtts l).
Proof.
  induction l as [|x l IH]; intros a Ha HF; cbn [fold_left rtts map] in *.
  - split; [left; auto|]. split; [intros; reflexivity || lia | constructor].
  - inversion HF as [|? ? Hx HF']; subst.
    specialize (IH (rtt_step a x)). cbn zeta in *.
    set (m := a_min (fold_left _ _ _)) in *. cbn [rtt_step a_min] in IH.
    destruct ((ti_rtt x <? a_min a) || (a_min a =? 0)) eqn:E.
    + destruct IH as (H1 & H2 & H3); [lia | exact HF' |].
      repeat split.
      * right. destruct H1 as [[-> _]|H1]; [left; reflexivity | right; exact H1].
      * intros. specialize (H2 Hx). lia.
      * constructor; [exact (H2 Hx) | exact H3].
    + destruct IH as (H1 & H2 & H3); [lia | exact HF' |].
      repeat split.
      * destruct H1 as [[-> H1]|H1]; [left; split; [reflexivity | left; lia] | right; right; exact H1].
      * intros Hp. exact (H2 Hp).
      * constructor; [| exact H3]. assert (0 < a_min a) as Hp by lia. specialize (H2 Hp). lia.
Qed.

Lemma acc_min_zero : forall a x, 0 <= a_min a -> ti_rtt x = 0 ->
  a_min (rtt_step a x) = 0.
Proof.
  intros a x Ha Hx. cbn [rtt_step a_min]. rewrite Hx.
  destruct ((0 <? a_min a) || (a_min a =? 0)) eqn:E; lia.
Qed.

Lemma acc_min_nonneg : forall l a, 0 <= a_min a -> Forall (fun r => 0 <= r) (rtts l) ->
  0 <= a_min (fold_left rtt_step l a).
Proof.
  induction l as [|x l IH]; intros a Ha HF; cbn [fold_left]; [exact Ha|].
  inversion HF; subst. apply IH; [|assumption].
  cbn [rtt_step a_min]. destruct (_ || _); lia.
Qed.

(** For a list of positive samples the result is the least of them. *)
Lemma summarize_min_pos : forall l w, summarize l = Some w ->
  Forall (fun r => 0 < r) (rtts l) ->
  exists m, In m (rtts l) /\ Forall (fun r => m <= r) (rtts l) /\ w_min_rtt w = m / 1000.
Proof.
  intros l w H HF. destruct (summarize_acc l w H) as (Hm & _).
  destruct (acc_min_pos l (RttAcc 0 0 0 0)) as (H1 & _ & H3); [cbn; lia | exact HF |].
  eexists; repeat split; [| exact H3 | exact Hm].
  destruct H1 as [[_ [H1|H1]]|H1]; [cbn in H1; lia | subst l; discriminate | exact H1].
Qed.

Lemma rtts_app : forall a b, rtts (a ++ b) = rtts a ++ rtts b.
Proof. intros. apply map_app. Qed.

(** With zero samples: only the samples after the last zero count. *)
Lemma summarize_min_zero : forall l1 z l2 w, summarize (l1 ++ z :: l2) = Some w ->
  Forall (fun r => 0 <= r) (rtts l1) -> ti_rtt z = 0 -> Forall (fun r => 0 < r) (rtts l2) ->
  (l2 = [] -> w_min_rtt w = 0) /\
  (l2 <> [] -> exists m, In m (rtts l2) /\ Forall (fun r => m <= r) (rtts l2) /\ w_min_rtt w = m / 1000).
Proof.
  intros l1 z l2 w H HF1 Hz HF2. destruct (summarize_acc _ w H) as (Hm & _).
  rewrite fold_left_app in Hm. cbn [fold_left] in Hm.
  set (a := rtt_step (fold_left rtt_step l1 (RttAcc 0 0 0 0)) z) in *.
  assert (a_min a = 0) as Ha.
  { apply acc_min_zero; [|exact Hz]. apply acc_min_nonneg; [cbn; lia | exact HF1]. }
  split.
  - intros ->. cbn [fold_left] in Hm. rewrite Hm, Ha. reflexivity.
  - intros Hne. destruct (acc_min_pos l2 a) as (H1 & _ & H3); [lia | exact HF2 |].
    eexists; repeat split; [| exact H3 | exact Hm].
    destruct H1 as [[_ [H1|H1]]|H1]; [lia | contradiction | exact H1].
Qed.

Lemma summarize_none : forall l, summarize l = None <-> l = [].
Proof. intros [|x l]; cbn; split; intros; congruence. Qed.

Lemma summarize_max : forall l w, summarize l = Some w -> Forall (fun r => 0 <= r) (rtts l) ->
  exists m, In m (rtts l) /\ Forall (fun r => r <= m) (rtts l) /\ w_max_rtt w = m / 1000.
Proof.
  intros l w H HF. destruct (summarize_acc l w H) as (_ & Hm & _).
  destruct (acc_max l (RttAcc 0 0 0 0)) as (H1 & H2 & H3). cbn [a_max] in H1, H2.
  set (m := a_max _) in *. exists m. repeat split; [| exact H3 | exact Hm].
  destruct H1 as [H1|H1]; [|exact H1].
  destruct l as [|x l]; [discriminate|].
  cbn [rtts map] in *. inversion HF; inversion H3; subst. left. lia.
Qed.

Lemma summarize_count_sum : forall l w, summarize l = Some w ->
  w_count_rtt w = len l mod 2 ^ 32 /\ w_sum_rtt w = (zsum (rtts l) mod 2 ^ 32) / 1000.
Proof.
  intros l w H. destruct (summarize_acc l w H) as (_ & _ & Hs & Hc).
  rewrite acc_count in Hc by (cbn; lia). rewrite acc_sum in Hs by (cbn; lia).
  cbn [a_count a_sum] in *. rewrite Hs, Hc. split; reflexivity.
Qed.

Lemma acc_min_le_max : forall l a, a_min a <= a_max a -> Forall (fun r => 0 <= r) (rtts l) ->
  a_min (fold_left rtt_step l a) <= a_max (fold_left rtt_step l a).
Proof.
  induction l as [|x l IH]; intros a Ha HF; cbn [fold_left]; [exact Ha|].
  inversion HF; subst. apply IH; [|assumption].
  cbn [rtt_step a_min a_max]. destruct ((ti_rtt x <? a_min a) || (a_min a =? 0)) eqn:E;
  destruct (a_max a <? ti_rtt x) eqn:E2; lia.
Qed.

Lemma summarize_ordered : forall l w, summarize l = Some w ->
  Forall (fun r => 0 <= r < 2 ^ 32) (rtts l) ->
  0 <= w_min_rtt w <= w_max_rtt w /\ w_max_rtt w < 2 ^ 32 /\ 0 <= w_sum_rtt w < 2 ^ 32.
Proof.
  intros l w H HF.
  assert (Forall (fun r => 0 <= r) (rtts l)) as HF0
    by (eapply Forall_impl; [|exact HF]; cbn; intros; lia).
  destruct (summarize_max l w H HF0) as (m & Hin & _ & Hm).
  rewrite Forall_forall in HF. specialize (HF m Hin).
  destruct (summarize_acc l w H) as (Hmin & Hmax & _).
  destruct (summarize_count_sum l w H) as (_ & Hs).
  pose proof (acc_min_le_max l (RttAcc 0 0 0 0)) as Hle. cbn [a_min a_max] in Hle.
  specialize (Hle (Z.le_refl 0) HF0).
  pose proof (acc_min_nonneg l (RttAcc 0 0 0 0) (Z.le_refl 0) HF0) as Hge.
  set (mn := a_min (fold_left _ _ _)) in *. set (mx := a_max (fold_left _ _ _)) in *.
  pose proof (Z.mod_pos_bound (zsum (rtts l)) (2^32) ltac:(lia)) as Hb.
  set (sm := zsum (rtts l) mod 2 ^ 32) in *.
  rewrite Hmin, Hs. rewrite Hm. rewrite Hm in Hmax. rewrite Hmax. lia.
Qed.
