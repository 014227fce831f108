(** Proofs of the accuracy of the NDT5 rates, and of what can be encoded. *)
From Coq Require Import String ZArith List Bool Lia QArith Qpower Qabs Qfield Lqa.
From Coq Require Import Floats.SpecFloat.
From Verif Require Import Base BaseFacts GoStrings GoFloat FloatFacts FloatRate FloatFinite RateSpec
  Effect WireModel MessagerModel Web100Model ControlModel ControlSpec ControlFacts ControlProofs ControlMore TestFacts ArchiveModel RateSpec2.
Import ListNotations.
Open Scope Z_scope.

Lemma mbit_eq b d : 0 < d -> ((8000 * b # Z.to_pos d) == mbit_per_s b d)%Q.
Proof.
  intros D. assert (ND : ~ (inject_Z d == 0)%Q) by (unfold Qeq, inject_Z; cbn [Qnum Qden]; lia).
  unfold mbit_per_s. rewrite Qmake_Qdiv, Z2Pos.id by lia. rewrite inject_Z_mult. change (inject_Z 8000) with (8000 # 1). field. exact ND.
Qed.
Lemma kbit_eq b d : 0 < d -> ((8000000 * b # Z.to_pos d) == kbit_per_s b d)%Q.
Proof.
  intros D. assert (ND : ~ (inject_Z d == 0)%Q) by (unfold Qeq, inject_Z; cbn [Qnum Qden]; lia).
  unfold kbit_per_s. rewrite Qmake_Qdiv, Z2Pos.id by lia. rewrite inject_Z_mult. change (inject_Z 8000000) with (8000000 # 1). field. exact ND.
Qed.

Lemma near_accurate n lo hi v x y : (n <= 6)%nat -> (x == y)%Q -> near n lo hi v x -> accurate v y.
Proof.
  intros L E (m & e & -> & N & R & A). exists (1 * inject_Z (Zpos m) * (2 # 1) ^ e)%Q. split; [reflexivity|].
  rewrite <- E. setoid_replace (1 * inject_Z (Zpos m) * (2 # 1) ^ e - x)%Q with (qval m e - x)%Q.
  - apply apx_error with n; assumption.
  - unfold qval. ring.
Qed.

Lemma zero_accurate d : accurate f_zero (mbit_per_s 0 d).
Proof.
  exists 0%Q. split; [reflexivity|]. setoid_replace (mbit_per_s 0 d) with 0%Q.
  - vm_compute. discriminate.
  - unfold mbit_per_s. change (inject_Z 0) with 0%Q. unfold Qdiv. ring.
Qed.

Lemma dur_finite d : 0 < d < 2 ^ 63 -> exists m e, dur_seconds d = S754_finite false m e.
Proof. intros D. destruct (near_dur d D) as (m & e & E & _). eauto. Qed.

Lemma zero_c2s d : 0 < d < 2 ^ 63 ->
  fdiv (fdiv (fmul (f_of_int 8) (f_of_int 0)) (f_of_int 1000)) (dur_seconds d) = f_zero.
Proof. intros D. destruct (dur_finite d D) as (m & e & ->). reflexivity. Qed.
Lemma zero_s2c d : 0 < d < 2 ^ 63 ->
  fdiv (fdiv (fmul (f_of_int 8) (f_of_int 0)) (dur_seconds d)) (f_of_int 1000) = f_zero.
Proof. intros D. destruct (dur_finite d D) as (m & e & ->). reflexivity. Qed.

(** Truncation. *)
Lemma near_trunc lo hi v x y : near 5 lo hi v x -> (x == y)%Q -> (y < inject_Z (2 ^ 62))%Q -> rounded (f_to_int64 v) y.
Proof.
  intros (m & e & -> & N & R & A) E L. unfold rounded. rewrite <- E in L. rewrite <- E. clear E y.
  pose proof (apx_error 5 _ _ ltac:(lia) A) as Er. apply Qabs_Qle_condition in Er. destruct Er as [E1 E2].
  set (q := qval m e) in *. set (eps := (1 # 2 ^ 50)) in *.
  assert (X : (0 < x)%Q) by apply A.
  unfold f_to_int64. set (a := if 0 <=? e then Zpos m * 2 ^ e else Zpos m / 2 ^ (- e)).
  assert (B : (inject_Z a <= q /\ q < inject_Z a + 1)%Q).
  { unfold a, q, qval. destruct (0 <=? e) eqn:S.
    - apply Z.leb_le in S. rewrite inject_Z_mult, pow2_Q by exact S. split; [apply Qle_refl|].
      set (w := (inject_Z (Zpos m) * (2 # 1) ^ e)%Q). lra.
    - apply Z.leb_gt in S. pose proof (pow2_pos (- e) ltac:(lia)) as P.
      pose proof (Z_div_mod_eq_full (Zpos m) (2 ^ (- e))) as Dm. pose proof (Z.mod_pos_bound (Zpos m) (2 ^ (- e)) P) as Mb.
      set (k := Zpos m / 2 ^ (- e)) in *. set (h := Zpos m mod 2 ^ (- e)) in *.
      assert (T : (inject_Z (2 ^ (- e)) * (2 # 1) ^ e == 1)%Q) by (rewrite pow2_Q, <- pow2_add by lia; replace (- e + e) with 0 by lia; reflexivity).
      pose proof (pow2_Qpos e) as Pe. split.
      + setoid_replace (inject_Z k) with (inject_Z (k * 2 ^ (- e)) * (2 # 1) ^ e)%Q.
        * apply Qmult_le_compat_r; [|apply Qlt_le_weak, Pe]. rewrite <- Zle_Qle. lia.
        * rewrite inject_Z_mult, <- Qmult_assoc, T. ring.
      + setoid_replace (inject_Z k + 1)%Q with (inject_Z ((k + 1) * 2 ^ (- e)) * (2 # 1) ^ e)%Q.
        * apply Qmult_lt_r; [exact Pe|]. rewrite <- Zlt_Qlt. lia.
        * rewrite inject_Z_mult, <- Qmult_assoc, T, inject_Z_plus. ring. }
  destruct B as [B1 B2].
  assert (A0 : 0 <= a) by (unfold a; destruct (0 <=? e) eqn:S; [apply Z.leb_le in S; pose proof (pow2_pos e S); nia|apply Z.div_pos; [lia|apply pow2_pos; apply Z.leb_gt in S; lia]]).
  assert (A1 : a < 2 ^ 63).
  { apply Z.le_lt_trans with (2 ^ 62 + 2 ^ 12); [|reflexivity]. rewrite Zle_Qle, inject_Z_plus.
    assert (XE : (x * eps <= inject_Z (2 ^ 12))%Q).
    { apply Qle_trans with (inject_Z (2 ^ 62) * eps)%Q; [apply Qmult_le_compat_r; [apply Qlt_le_weak, L|unfold eps; discriminate]|]. unfold eps. discriminate. }
    eapply Qle_trans; [exact B1|]. set (c := inject_Z (2 ^ 62)) in *. set (c' := inject_Z (2 ^ 12)) in *. lra. }
  assert (Ok : int64_okb a = true) by (unfold int64_okb; apply andb_true_intro; split; apply Z.leb_le; unfold min_int64, max_int64; change (2 ^ 63) with 9223372036854775808 in A1; lia).
  cbv zeta. rewrite Ok. apply Qabs_Qle_condition. split; lra.
Qed.

Lemma c2s_accurate b d : 0 <= b < 2 ^ 64 -> 0 < d < 2 ^ 63 ->
  let kbps := fdiv (fdiv (fmul (f_of_int 8) (f_of_int b)) (f_of_int 1000)) (dur_seconds d) in
  accurate (fdiv kbps (f_of_int 1000)) (mbit_per_s b d) /\
  ((kbit_per_s b d < inject_Z (2 ^ 62))%Q -> rounded (f_to_int64 kbps) (kbit_per_s b d)).
Proof.
  intros B D kbps. destruct (Z.eq_dec b 0) as [->|N].
  - unfold kbps. rewrite zero_c2s by exact D. split; [apply zero_accurate|]. intros _. unfold rounded.
    change (f_to_int64 f_zero) with 0. setoid_replace (kbit_per_s 0 d) with 0%Q; [discriminate|].
    unfold kbit_per_s. change (inject_Z 0) with 0%Q. unfold Qdiv. ring.
  - destruct (near_c2s b d ltac:(lia) D) as [H1 H2]. split.
    + eapply near_accurate; [|apply mbit_eq, D|exact H2]. lia.
    + intros L. eapply near_trunc; [exact H1|apply kbit_eq, D|exact L].
Qed.

Lemma s2c_accurate b d : 0 <= b < 2 ^ 64 -> 0 < d < 2 ^ 63 ->
  let kbps := fdiv (fdiv (fmul (f_of_int 8) (f_of_int b)) (dur_seconds d)) (f_of_int 1000) in
  accurate (fdiv kbps (f_of_int 1000)) (mbit_per_s b d) /\
  ((kbit_per_s b d < inject_Z (2 ^ 62))%Q -> rounded (f_to_int64 kbps) (kbit_per_s b d)).
Proof.
  intros B D kbps. destruct (Z.eq_dec b 0) as [->|N].
  - unfold kbps. rewrite zero_s2c by exact D. split; [apply zero_accurate|]. intros _. unfold rounded.
    change (f_to_int64 f_zero) with 0. setoid_replace (kbit_per_s 0 d) with 0%Q; [discriminate|].
    unfold kbit_per_s. change (inject_Z 0) with 0%Q. unfold Qdiv. ring.
  - destruct (near_s2c b d ltac:(lia) D) as [H1 H2]. split.
    + eapply near_accurate; [|apply mbit_eq, D|exact H2]. lia.
    + intros L. eapply near_trunc; [exact H1|apply kbit_eq, D|exact L].
Qed.

Lemma accurate_finite v x : accurate v x -> f_finite v = true.
Proof. intros (q & H & _). destruct v; try discriminate; reflexivity. Qed.

(** ** What ParseFloat accepts that is not a number *)


Lemma special_spec t : (exists x, parse_special t = Some x) <-> not_a_rate t.
Proof.
  unfold parse_special, not_a_rate. set (l := lower t). split.
  - intros [x H]. destruct l as [|c r] eqn:El.
    + discriminate.
    + set (body := if (c =? 43) || (c =? 45) then r else c :: r) in *.
      assert (B : exists sign, In sign [[]; str "+"; str "-"] /\ c :: r = sign ++ body).
      { unfold body. destruct (Z.eqb_spec c 43) as [->|]; [exists (str "+"); cbn; auto|].
        destruct (Z.eqb_spec c 45) as [->|]; [exists (str "-"); cbn; auto|]. exists []. cbn. auto. }
      destruct B as (sign & S & Ec). rewrite Ec in *. clearbody body. destruct (beqb body (str "inf")) eqn:B1.
      * apply beqb_spec in B1. right. exists sign, body. split; [exact S|]. split; [left; congruence|reflexivity].
      * destruct (beqb body (str "infinity")) eqn:B2.
        -- apply beqb_spec in B2. right. exists sign, body. split; [exact S|]. split; [right; left; congruence|reflexivity].
        -- cbn [orb] in H. destruct (beqb (sign ++ body) (str "nan")) eqn:B3; [apply beqb_spec in B3; auto|discriminate].
  - intros [H|(sign & body & S & B & H)].
    + rewrite H. eexists. reflexivity.
    + rewrite H. destruct S as [<-|[<-|[<-|[]]]]; destruct B as [<-|[<-|[]]]; eexists; reflexivity.
Qed.

Lemma special_infinite t x : parse_special t = Some x -> f_finite x = false /\ f_finite (fdiv x (f_of_int 1000)) = false.
Proof.
  unfold parse_special. rewrite f_of_int_1000.
  repeat match goal with |- context [if ?b then _ else _] => destruct b end; intros H; try discriminate H; injection H as <-; auto.
Qed.

Lemma rate_finite t : f_finite (match parse_float t with Some v => fdiv v (f_of_int 1000) | None => f_zero end) = false <-> not_a_rate t.
Proof.
  rewrite <- special_spec. unfold parse_float. destruct (parse_special t) as [x|] eqn:S.
  - apply special_infinite in S. split; [eauto|]. intros _. apply S.
  - split; [|intros [x H]; discriminate]. destruct (parse_number t) as [x|] eqn:N; [|discriminate].
    apply parse_number_finite in N. rewrite div_1000_finite by apply N. discriminate.
Qed.

Lemma client_finite g m tr s r : run (s2c_manage g m s2c_empty) tr (s, r) ->
  (f_finite (d_client_mbps s) = false <-> exists x, reads tr = [x] /\ not_a_rate (client_text m x)).
Proof.
  intros H. rewrite (s2c_client g m tr s r H). destruct (reads tr) as [|x [|y l]].
  - split; [discriminate|]. intros (x & E & _). discriminate.
  - unfold client_text. destruct (receive_of m x TestMsg) as [[p|] [e|]] eqn:R; cbn [fst].
    1,2,4: rewrite rate_finite; split; [intros N; exists x; rewrite R; auto|intros (x' & E & N); injection E as <-; rewrite R in N; exact N].
    split; [discriminate|]. intros (x' & E & N). injection E as <-. rewrite R in N. cbn [fst] in N.
    exfalso. destruct N as [N|(sg & bd & S & B & N)]; [discriminate|].
    destruct S as [<-|[<-|[<-|[]]]]; destruct B as [<-|[<-|[]]]; discriminate.
  - split; [discriminate|]. intros (x' & E & _). discriminate.
Qed.

(** ** Records *)


Lemma measured_in tr c w l : measured tr = (c, w) :: l -> In (EvStopMeasuring c (Some w)) tr.
Proof.
  induction tr as [|e tr IH]; cbn; [discriminate|]. destruct e; try (intros H; right; apply IH, H).
  match goal with o : option web100 |- _ => destruct o; [|intros H; right; apply IH, H] end. cbn. intros H. injection H as -> -> _. left. reflexivity.
Qed.

Lemma record_finite g tr s x r : run (handle_control_channel g tt) tr (s, x) -> saved tr = [r] ->
  stats_ok tr -> tests_last r ->
  finite_record r = match r_s2c r with Some d => f_finite (d_client_mbps d) | None => true end.
Proof.
  intros H Sv St [Lc Ls]. destruct (archived g tr s x H) as (r' & Sv' & _ & _ & _ & _ & _ & _ & _ & _ & ib & rest & _ & A).
  rewrite Sv in Sv'. injection Sv' as <-.
  assert (P : (forall d, r_c2s r = Some d -> exists m t e, within t tr /\ run (c2s_manage g m c2s_empty) t (d, Ok e)) /\
              (forall d, r_s2c r = Some d -> exists m t e, within t tr /\ run (s2c_manage g m s2c_empty) t (d, Ok e))).
  { destruct (login_of (c_kind g) ib) as [[tests| |] m]; [|destruct A as (-> & -> & _); split; discriminate..].
    destruct (wants_status tests); [|destruct A as (-> & -> & _); split; discriminate]. destruct A as (_ & C & D & _).
    split; intros d E; rewrite E in *; [destruct C as (_ & t & e & C)|destruct D as (_ & t & e & D)]; eauto. }
  destruct P as [Pc Ps]. unfold finite_record.
  assert (Fc : match r_c2s r with Some u => f_finite (u_mean u) | None => true end = true).
  { destruct (r_c2s r) as [d|] eqn:E; [|reflexivity]. destruct (Pc d eq_refl) as (m & t & e & (a & b & ->) & R).
    destruct (c17_rate g m t d (Ok e) R) as (A1 & A2 & _). destruct (nth_error (writes t) 2) as [[f e']|] eqn:W; [|rewrite A2 by reflexivity; reflexivity].
    destruct (A1 f e' eq_refl) as (c & how & w & t0 & t1 & H1 & H2 & H3 & H4 & _ & _ & H7). rewrite H7.
    eapply accurate_finite, c2s_accurate; [|apply (Lc d t0 t1 eq_refl H3 H4)].
    apply (St c w). apply in_or_app. right. apply in_or_app. left. exact H2. }
  rewrite Fc. cbn [andb]. destruct (r_s2c r) as [d|] eqn:E; [|reflexivity]. destruct (Ps d eq_refl) as (m & t & e & (a & b & ->) & R).
  destruct (s2c_result g m t d (Ok e) R) as [_ M]. destruct (measured t) as [|[c w] [|]] eqn:Me; [| |contradiction M].
  - destruct M as (_ & -> & _). reflexivity.
  - destruct M as (t0 & t1 & f & e' & M1 & M2 & _ & _ & _ & _ & _ & _ & _ & _ & _ & _ & M3 & _). rewrite M3.
    rewrite (accurate_finite _ (mbit_per_s (ti_bytes_acked (w_tcp_info w)) (t1 - t0))); [reflexivity|].
    apply s2c_accurate; [|apply (Ls d t0 t1 eq_refl M1 M2)].
    apply (St c w). apply in_or_app. right. apply in_or_app. left. apply measured_in in Me. exact Me.
Qed.
