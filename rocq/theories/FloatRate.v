(** The relative errors of chains of float64 operations, as rational numbers. *)
From Coq Require Import ZArith List Bool Lia QArith Qpower Qabs Qfield Lqa.
From Coq Require Import Floats.SpecFloat.
From Verif Require Import Base BaseFacts GoFloat FloatFacts.
Open Scope Z_scope.

(** The value of a finite number. *)
Definition qval (m : positive) (e : Z) : Q := inject_Z (Zpos m) * (2 # 1) ^ e.

Lemma two_neq : ~ (2 # 1 == 0)%Q.
Proof. discriminate. Qed.

Lemma pow2_Q n : (0 <= n) -> (inject_Z (2 ^ n) == (2 # 1) ^ n)%Q.
Proof. intros H. rewrite Zpower_Qpower by exact H. reflexivity. Qed.

Lemma pow2_add a b : ((2 # 1) ^ (a + b) == (2 # 1) ^ a * (2 # 1) ^ b)%Q.
Proof. apply Qpower_plus, two_neq. Qed.

Lemma pow2_Qpos n : (0 < (2 # 1) ^ n)%Q.
Proof. apply Qpower_0_lt. reflexivity. Qed.

Lemma qval_pos m e : (0 < qval m e)%Q.
Proof. unfold qval. apply Qmult_lt_0_compat; [reflexivity|apply pow2_Qpos]. Qed.

(** The factor of one rounding. *)
Definition F : Q := (2 ^ 53 # (2 ^ 53 - 1)).
Fixpoint Fn (n : nat) : Q := match n with O => 1 | S n => F * Fn n end.

Lemma F_ge1 : (1 <= F)%Q. Proof. discriminate. Qed.
Lemma Fn_ge1 n : (1 <= Fn n)%Q.
Proof.
  induction n as [|n IH]; cbn [Fn]; [apply Qle_refl|].
  apply Qle_trans with (1 * Fn n)%Q; [rewrite Qmult_1_l; exact IH|].
  apply Qmult_le_compat_r; [apply F_ge1|]. apply Qle_trans with 1%Q; [discriminate|exact IH].
Qed.
Lemma Fn_pos n : (0 < Fn n)%Q.
Proof. apply Qlt_le_trans with 1%Q; [reflexivity|apply Fn_ge1]. Qed.
Lemma Fn_add a b : (Fn (a + b) == Fn a * Fn b)%Q.
Proof. induction a as [|a IH]; cbn [Fn Nat.add]; [ring|rewrite IH; ring]. Qed.

(** u is x up to n roundings. *)
Definition apx (n : nat) (u x : Q) : Prop := (0 < u /\ 0 < x /\ x <= u * Fn n /\ u <= x * Fn n)%Q.

Lemma apx_refl u : (0 < u)%Q -> apx 0 u u.
Proof. intros H. unfold apx. cbn [Fn]. repeat split; try exact H; rewrite Qmult_1_r; apply Qle_refl. Qed.

Lemma apx_eq n u u' x x' : (u == u')%Q -> (x == x')%Q -> apx n u x -> apx n u' x'.
Proof. intros A B (H1 & H2 & H3 & H4). unfold apx. rewrite <- A, <- B. auto. Qed.

Lemma apx_trans a b u v w : apx a u v -> apx b v w -> apx (a + b) u w.
Proof.
  intros (U & V & A1 & A2) (_ & W & B1 & B2). unfold apx. rewrite Fn_add. pose proof (Fn_pos a). pose proof (Fn_pos b).
  repeat split; try assumption.
  - apply Qle_trans with (v * Fn b)%Q; [exact B1|]. rewrite Qmult_assoc. apply Qmult_le_compat_r; [exact A1|apply Qlt_le_weak; assumption].
  - apply Qle_trans with (v * Fn a)%Q; [exact A2|]. rewrite (Qmult_comm (Fn a)), Qmult_assoc.
    apply Qmult_le_compat_r; [exact B2|apply Qlt_le_weak; assumption].
Qed.

Lemma Qmult_le_both a b c d : (0 <= a)%Q -> (0 <= c)%Q -> (a <= b)%Q -> (c <= d)%Q -> (a * c <= b * d)%Q.
Proof.
  intros A C H1 H2. apply Qle_trans with (b * c)%Q; [apply Qmult_le_compat_r; assumption|].
  rewrite !(Qmult_comm b). apply Qmult_le_compat_r; [assumption|]. apply Qle_trans with a; assumption.
Qed.

Lemma apx_mul a b u x v y : apx a u x -> apx b v y -> apx (a + b) (u * v) (x * y).
Proof.
  intros (U & X & A1 & A2) (V & Y & B1 & B2). unfold apx. rewrite Fn_add.
  repeat split; try (apply Qmult_lt_0_compat; assumption).
  - setoid_replace (u * v * (Fn a * Fn b))%Q with (u * Fn a * (v * Fn b))%Q by ring.
    apply Qmult_le_both; try assumption; apply Qlt_le_weak; assumption.
  - setoid_replace (x * y * (Fn a * Fn b))%Q with (x * Fn a * (y * Fn b))%Q by ring.
    apply Qmult_le_both; try assumption; apply Qlt_le_weak; assumption.
Qed.

Lemma apx_inv a u x : apx a u x -> apx a (/ u) (/ x).
Proof.
  intros (U & X & A1 & A2). unfold apx. assert (~ u == 0)%Q by (intros E; rewrite E in U; discriminate).
  assert (~ x == 0)%Q by (intros E; rewrite E in X; discriminate).
  repeat split; try (apply Qinv_lt_0_compat; assumption).
  - apply (Qmult_le_l _ _ (u * x)); [apply Qmult_lt_0_compat; assumption|].
    setoid_replace (u * x * / x)%Q with u by (field; assumption).
    setoid_replace (u * x * (/ u * Fn a))%Q with (x * Fn a)%Q by (field; assumption). exact A2.
  - apply (Qmult_le_l _ _ (u * x)); [apply Qmult_lt_0_compat; assumption|].
    setoid_replace (u * x * / u)%Q with x by (field; assumption).
    setoid_replace (u * x * (/ x * Fn a))%Q with (u * Fn a)%Q by (field; assumption). exact A1.
Qed.

Lemma apx_div a b u x v y : apx a u x -> apx b v y -> apx (a + b) (u / v) (x / y).
Proof. intros H1 H2. apply apx_mul; [exact H1|apply apx_inv, H2]. Qed.

Lemma apx_add a u x v y : apx a u x -> apx a v y -> apx a (u + v) (x + y).
Proof.
  intros (U & X & A1 & A2) (V & Y & B1 & B2). unfold apx. rewrite !Qmult_plus_distr_l.
  repeat split.
  - rewrite <- (Qplus_0_l 0). apply Qplus_lt_le_compat; [exact U|apply Qlt_le_weak, V].
  - rewrite <- (Qplus_0_l 0). apply Qplus_lt_le_compat; [exact X|apply Qlt_le_weak, Y].
  - apply Qplus_le_compat; assumption.
  - apply Qplus_le_compat; assumption.
Qed.

Lemma apx_weaken a b u x : (a <= b)%nat -> apx a u x -> apx b u x.
Proof.
  intros L (U & X & A1 & A2). replace b with (a + (b - a))%nat by lia. unfold apx. rewrite Fn_add.
  assert (H : forall z, (0 < z -> z * Fn a <= z * (Fn a * Fn (b - a)))%Q).
  { intros z Z. rewrite Qmult_assoc. rewrite <- (Qmult_1_r (z * Fn a)) at 1. apply Qmult_le_l; [|apply Fn_ge1].
    apply Qmult_lt_0_compat; [exact Z|apply Fn_pos]. }
  repeat split; try assumption; eapply Qle_trans; [exact A1|apply H, U|exact A2|apply H, X].
Qed.

(** One rounding, from the integer form. *)
Lemma apx_round A B : 0 < A -> 0 < B -> 2 ^ 53 * Z.abs (A - B) <= B -> apx 1 (inject_Z A) (inject_Z B).
Proof.
  intros PA PB H. apply abs_bounds in H; [|reflexivity]. unfold apx. cbn [Fn]. rewrite Qmult_1_r. unfold F, Qlt, Qle, inject_Z.
  cbn [Qnum Qden Qmult]. change (Z.pos (2 ^ 53)) with (2 ^ 53). change (Zpos (1 * (2 ^ 53 - 1))) with (2 ^ 53 - 1).
  set (P := 2 ^ 53) in *. assert (1 < P) by reflexivity. repeat split; nia.
Qed.

Lemma apx_scale a k u x : (0 < k)%Q -> apx a u x -> apx a (u * k) (x * k).
Proof.
  intros K H. replace a with (a + 0)%nat by lia. apply apx_mul; [exact H|apply apx_refl, K].
Qed.

(** A normal positive number with bounds on its exponent, near a rational. *)
Definition near (n : nat) (lo hi : Z) (v : f64) (x : Q) : Prop :=
  exists m e, v = S754_finite false m e /\ 2 ^ 52 <= Zpos m < 2 ^ 53 /\ lo <= e <= hi /\ apx n (qval m e) x.

Lemma near_of_int n : 1 <= n < 2 ^ 64 -> near 1 (-52) 12 (f_of_int n) (inject_Z n).
Proof.
  intros H. destruct (f_of_int_spec n H) as (m & e & E & N & R & A & _). exists m, e. split; [exact E|]. split; [exact N|]. split; [lia|].
  apply apx_eq with (inject_Z (Zpos m * 2 ^ (e + 52)) * (2 # 1) ^ (-52))%Q (inject_Z (n * 2 ^ 52) * (2 # 1) ^ (-52))%Q.
  - unfold qval. rewrite inject_Z_mult, pow2_Q, pow2_add by lia. rewrite <- !Qmult_assoc, <- pow2_add. cbn [Z.add]. rewrite Qmult_1_r. reflexivity.
  - rewrite inject_Z_mult. change (inject_Z (2 ^ 52)) with ((2 # 1) ^ 52)%Q. rewrite <- Qmult_assoc, <- pow2_add. cbn [Z.add]. rewrite Qmult_1_r. reflexivity.
  - apply apx_scale; [apply pow2_Qpos|]. pose proof (pow2_pos (e + 52) ltac:(lia)). apply apx_round; [nia|nia|exact A].
Qed.

Lemma near_of_int_exact n : 1 <= n < 2 ^ 53 -> near 0 (-52) 12 (f_of_int n) (inject_Z n).
Proof.
  intros H. destruct (f_of_int_spec n ltac:(lia)) as (m & e & E & N & R & _ & A). exists m, e. split; [exact E|]. split; [exact N|]. split; [lia|].
  assert (X : (qval m e == inject_Z n)%Q).
  { setoid_replace (qval m e) with (inject_Z (Zpos m * 2 ^ (e + 52)) * (2 # 1) ^ (-52))%Q.
    - rewrite A by lia. rewrite inject_Z_mult. change (inject_Z (2 ^ 52)) with ((2 # 1) ^ 52)%Q. rewrite <- Qmult_assoc, <- pow2_add. cbn [Z.add]. apply Qmult_1_r.
    - unfold qval. rewrite inject_Z_mult, pow2_Q, pow2_add by lia. rewrite <- !Qmult_assoc, <- pow2_add. cbn [Z.add]. rewrite Qmult_1_r. reflexivity. }
  apply apx_eq with (qval m e) (qval m e); [reflexivity|exact X|apply apx_refl, qval_pos].
Qed.

Lemma near_mul8 n lo hi v x : -200 <= lo -> hi <= 200 -> near n lo hi v x ->
  near n (lo + 3) (hi + 3) (fmul (f_of_int 8) v) (8 * x).
Proof.
  intros L H (m & e & -> & N & R & A). exists m, (e + 3). rewrite fmul_8 by (try exact N; lia).
  split; [reflexivity|]. split; [exact N|]. split; [lia|].
  apply apx_eq with (qval m e * 8)%Q (x * 8)%Q; [|apply Qmult_comm|apply apx_scale; [reflexivity|exact A]].
  unfold qval. rewrite pow2_add. change ((2 # 1) ^ 3)%Q with 8%Q. ring.
Qed.

Lemma near_div a b l1 h1 l2 h2 v1 x1 v2 x2 : -200 <= l1 -> h1 <= 200 -> -200 <= l2 -> h2 <= 200 ->
  near a l1 h1 v1 x1 -> near b l2 h2 v2 x2 ->
  near (S (a + b)) (l1 - h2 - 53) (h1 - l2 - 51) (fdiv v1 v2) (x1 / x2).
Proof.
  intros L1 H1 L2 H2 (m1 & e1 & -> & N1 & R1 & A1) (m2 & e2 & -> & N2 & R2 & A2).
  destruct (fdiv_spec m1 e1 m2 e2 N1 N2 ltac:(lia) ltac:(lia)) as (m & e & E & N & R & A).
  exists m, e. split; [exact E|]. split; [exact N|]. split; [lia|].
  replace (S (a + b)) with (1 + (a + b))%nat by lia. apply apx_trans with (qval m1 e1 / qval m2 e2)%Q; [|apply apx_div; assumption].
  set (k := ((2 # 1) ^ (e1 - 53))%Q).
  assert (B : apx 1 (qval m e * qval m2 e2) (qval m1 e1)).
  { apply apx_eq with (inject_Z (Zpos m * 2 ^ (e - (e1 - e2 - 53)) * Zpos m2) * k)%Q (inject_Z (Zpos m1 * 2 ^ 53) * k)%Q.
    - unfold qval, k. rewrite !inject_Z_mult, pow2_Q by lia.
      replace (e1 - 53) with ((e1 - e2 - 53) + e2) by lia. rewrite pow2_add.
      replace e with ((e - (e1 - e2 - 53)) + (e1 - e2 - 53)) at 2 by lia. rewrite pow2_add. ring.
    - unfold qval, k. rewrite inject_Z_mult. change (inject_Z (2 ^ 53)) with ((2 # 1) ^ 53)%Q. rewrite <- Qmult_assoc, <- pow2_add.
      replace (53 + (e1 - 53)) with e1 by lia. reflexivity.
    - apply apx_scale; [apply pow2_Qpos|]. pose proof (pow2_pos (e - (e1 - e2 - 53)) ltac:(lia)). apply apx_round; [nia|lia|exact A]. }
  assert (Z2 : ~ (qval m2 e2 == 0)%Q) by (intros E0; pose proof (qval_pos m2 e2) as P; rewrite E0 in P; discriminate).
  apply apx_eq with (qval m e * qval m2 e2 * / qval m2 e2)%Q (qval m1 e1 * / qval m2 e2)%Q; [field; exact Z2|reflexivity|].
  apply apx_scale; [apply Qinv_lt_0_compat, qval_pos|exact B].
Qed.

Lemma shl_align_val m e ez : ez <= e -> Zpos (fst (shl_align m e ez)) = Zpos m * 2 ^ (e - ez).
Proof.
  intros H. unfold shl_align. destruct (ez - e) as [|q|q] eqn:E; cbn [fst]; [|lia|].
  - replace (e - ez) with 0 by lia. cbn [Z.pow]. lia.
  - rewrite shift_pos_val. f_equal. f_equal. lia.
Qed.

Lemma near_add a l1 h1 l2 h2 v1 x1 v2 x2 : -200 <= l1 -> h1 <= 200 -> -200 <= l2 -> h2 <= 200 ->
  near a l1 h1 v1 x1 -> near a l2 h2 v2 x2 ->
  near (S a) (Z.max l1 l2) (Z.max h1 h2 + 2) (fadd v1 v2) (x1 + x2).
Proof.
  intros L1 H1 L2 H2 (m1 & e1 & -> & N1 & R1 & A1) (m2 & e2 & -> & N2 & R2 & A2).
  unfold fadd, SFadd. cbn [cond_Zopp]. set (ez := Z.min e1 e2).
  assert (Z1 : ez <= e1) by (unfold ez; lia). assert (Z2 : ez <= e2) by (unfold ez; lia).
  set (p1 := fst (shl_align m1 e1 ez)). set (p2 := fst (shl_align m2 e2 ez)).
  assert (P1 : Zpos p1 = Zpos m1 * 2 ^ (e1 - ez)) by (apply shl_align_val, Z1).
  assert (P2 : Zpos p2 = Zpos m2 * 2 ^ (e2 - ez)) by (apply shl_align_val, Z2).
  cbn [Z.add binary_normalize]. set (p := (p1 + p2)%positive). assert (P : Zpos p = Zpos p1 + Zpos p2) by reflexivity.
  pose proof (digits2_pos_spec p) as G. set (d := Zpos (digits2_pos p)) in *.
  pose proof (pow2_pos (e1 - ez) ltac:(lia)) as Q1. pose proof (pow2_pos (e2 - ez) ltac:(lia)) as Q2.
  set (mx := Z.max e1 e2) in *. pose proof (pow2_pos (mx - ez) ltac:(lia)) as Qm.
  assert (M1 : 2 ^ (e1 - ez) <= 2 ^ (mx - ez)) by (apply Z.pow_le_mono_r; lia).
  assert (M2 : 2 ^ (e2 - ez) <= 2 ^ (mx - ez)) by (apply Z.pow_le_mono_r; lia).
  assert (Lo : 2 ^ (52 + (mx - ez)) <= Zpos p).
  { rewrite Z.pow_add_r by lia. rewrite P, P1, P2.
    assert (2 ^ 52 * 2 ^ (mx - ez) <= Zpos m1 * 2 ^ (e1 - ez) \/ 2 ^ 52 * 2 ^ (mx - ez) <= Zpos m2 * 2 ^ (e2 - ez)).
    { destruct (Z_le_gt_dec e1 e2); [right; replace mx with e2 by lia|left; replace mx with e1 by lia]; nia. }
    nia. }
  assert (Hi : Zpos p < 2 ^ (54 + (mx - ez))).
  { rewrite Z.pow_add_r by lia. rewrite P, P1, P2. change (2 ^ 54) with (2 * 2 ^ 53). nia. }
  assert (D1 : 53 + (mx - ez) <= d).
  { destruct (Z_le_gt_dec (53 + (mx - ez)) d) as [?|C]; [assumption|exfalso].
    assert (2 ^ d <= 2 ^ (52 + (mx - ez))) by (apply Z.pow_le_mono_r; lia). lia. }
  assert (D2 : d <= 54 + (mx - ez)).
  { destruct (Z_le_gt_dec d (54 + (mx - ez))) as [?|C]; [assumption|exfalso].
    assert (2 ^ (54 + (mx - ez)) <= 2 ^ (d - 1)) by (apply Z.pow_le_mono_r; lia). lia. }
  unfold binary_round. fold d.
  assert (Sh : shl_align p ez (fexp 53 1024 (d + ez)) = (p, ez)).
  { unfold shl_align. replace (fexp 53 1024 (d + ez) - ez) with (d - 53) by (unfold fexp, emin; lia).
    destruct (d - 53) eqn:E; [reflexivity|reflexivity|lia]. }
  rewrite Sh.
  destruct (round_aux_spec false (Zpos p) ez loc_Exact d (Zpos p) 1) as (m & e & E1 & E2 & E3 & E4 & _);
    [lia|apply inb_exact; lia|exact G|lia|lia|].
  exists m, e. split; [exact E1|]. split; [exact E2|]. split; [lia|].
  replace (S a) with (1 + a)%nat by lia. apply apx_trans with (qval m1 e1 + qval m2 e2)%Q; [|apply apx_add; assumption].
  apply apx_eq with (inject_Z (Zpos m * 2 ^ (e - ez) * 1) * (2 # 1) ^ ez)%Q (inject_Z (Zpos p) * (2 # 1) ^ ez)%Q.
  - unfold qval. rewrite Z.mul_1_r, inject_Z_mult, pow2_Q by lia. rewrite <- Qmult_assoc, <- pow2_add. replace (e - ez + ez) with e by lia. reflexivity.
  - unfold qval. rewrite P, P1, P2, inject_Z_plus, !inject_Z_mult, !pow2_Q by lia. rewrite Qmult_plus_distr_l, <- !Qmult_assoc, <- !pow2_add.
    replace (e1 - ez + ez) with e1 by lia. replace (e2 - ez + ez) with e2 by lia. reflexivity.
  - apply apx_scale; [apply pow2_Qpos|]. pose proof (pow2_pos (e - ez) ltac:(lia)). apply apx_round; [nia|lia|exact E4].
Qed.

Lemma near_weaken a b l h l' h' v x : (a <= b)%nat -> l' <= l -> h <= h' -> near a l h v x -> near b l' h' v x.
Proof.
  intros A L H (m & e & -> & N & R & X). exists m, e. split; [reflexivity|]. split; [exact N|]. split; [lia|]. apply apx_weaken with a; assumption.
Qed.

Lemma near_eq a l h v x y : (x == y)%Q -> near a l h v x -> near a l h v y.
Proof. intros E (m & e & -> & N & R & X). exists m, e. split; [reflexivity|]. split; [exact N|]. split; [lia|]. apply apx_eq with (qval m e) x; [reflexivity|exact E|exact X]. Qed.

(** Durations. *)
Lemma near_dur d : 0 < d < 2 ^ 63 -> near 2 (-82) 14 (dur_seconds d) (d # 1000000000).
Proof.
  intros H. unfold dur_seconds. rewrite Z.quot_div_nonneg, Z.rem_mod_nonneg by lia.
  pose proof (Z_div_mod_eq_full d 1000000000) as E. pose proof (Z.mod_pos_bound d 1000000000 ltac:(lia)) as R.
  set (q := d / 1000000000) in *. set (r := d mod 1000000000) in *.
  assert (Q : 0 <= q < 2 ^ 63) by (split; [apply Z.div_pos; lia|change (2 ^ 63) with 9223372036854775808 in *; lia]).
  assert (NR : r <> 0 -> near 1 (-82) (-16) (fdiv (f_of_int r) (f_of_int 1000000000)) (r # 1000000000)).
  { intros N. apply near_eq with (inject_Z r / inject_Z 1000000000)%Q; [rewrite Qmake_Qdiv; reflexivity|].
    assert (X : near 0 (-23) (-23) (f_of_int 1000000000) (inject_Z 1000000000)).
    { destruct (near_of_int_exact 1000000000 ltac:(lia)) as (m & e & V & N1 & R1 & A1).
      exists m, e. split; [exact V|]. split; [exact N1|]. split; [|exact A1]. vm_compute in V. inversion V. lia. }
    apply (near_div 0 0 (-52) 12 (-23) (-23)); try lia; [apply near_of_int_exact; lia|exact X]. }
  assert (NQ : q <> 0 -> near 0 (-52) 12 (f_of_int q) (inject_Z q)).
  { intros N. apply near_of_int_exact. change (2 ^ 63) with 9223372036854775808 in *. change (2 ^ 53) with 9007199254740992. lia. }
  destruct (Z.eq_dec q 0) as [Q0|Q0].
  - rewrite Q0. assert (r <> 0) by lia. destruct (NR H0) as (m & e & V & N1 & R1 & A1). rewrite V.
    change (fadd (f_of_int 0) (S754_finite false m e)) with (S754_finite false m e). exists m, e. split; [reflexivity|]. split; [exact N1|]. split; [lia|].
    apply apx_weaken with 1%nat; [lia|]. replace d with r by lia. exact A1.
  - destruct (Z.eq_dec r 0) as [R0|R0].
    + rewrite R0. destruct (NQ Q0) as (m & e & V & N1 & R1 & A1). rewrite V.
      change (fadd (S754_finite false m e) (fdiv (f_of_int 0) (f_of_int 1000000000))) with (S754_finite false m e).
      exists m, e. split; [reflexivity|]. split; [exact N1|]. split; [lia|].
      apply apx_eq with (qval m e) (inject_Z q); [reflexivity| |apply apx_weaken with 0%nat; [lia|exact A1]].
      unfold Qeq, inject_Z. cbn [Qnum Qden]. lia.
    + assert (NQ' : near 1 (-52) 12 (f_of_int q) (inject_Z q)) by (eapply near_weaken; [| | |exact (NQ Q0)]; lia).
      apply near_eq with (inject_Z q + (r # 1000000000))%Q.
      * unfold Qeq, inject_Z, Qplus. cbn [Qnum Qden]. lia.
      * apply near_weaken with 2%nat (-52) 14; try lia. apply (near_add 1 (-52) 12 (-82) (-16)); try lia; [exact NQ'|exact (NR R0)].
Qed.

(** The two NDT5 rates. *)
Lemma near_1000 : near 0 (-43) (-43) (f_of_int 1000) (inject_Z 1000).
Proof.
  destruct (near_of_int_exact 1000 ltac:(lia)) as (m & e & V & N1 & R1 & A1).
  exists m, e. split; [exact V|]. split; [exact N1|]. split; [|exact A1]. vm_compute in V. inversion V. lia.
Qed.

Lemma near_c2s b d : 1 <= b < 2 ^ 64 -> 0 < d < 2 ^ 63 ->
  let kbps := fdiv (fdiv (fmul (f_of_int 8) (f_of_int b)) (f_of_int 1000)) (dur_seconds d) in
  near 5 (-126) 38 kbps (8000000 * b # Z.to_pos d) /\ near 6 (-136) 30 (fdiv kbps (f_of_int 1000)) (8000 * b # Z.to_pos d).
Proof.
  intros B D kbps.
  assert (A : near 5 (-126) 38 kbps (8000000 * b # Z.to_pos d)).
  { apply near_eq with (8 * inject_Z b / inject_Z 1000 / (d # 1000000000))%Q.
    - assert (~ (d # 1000000000 == 0)%Q) by (unfold Qeq; cbn [Qnum Qden]; lia).
      rewrite (Qmake_Qdiv (8000000 * b)), (Qmake_Qdiv d). rewrite Z2Pos.id by lia. rewrite inject_Z_mult.
      assert (~ (inject_Z d == 0)%Q) by (unfold Qeq, inject_Z; cbn [Qnum Qden]; lia).
      change (inject_Z 8000000) with (8000000 # 1). change (inject_Z (Zpos 1000000000)) with (1000000000 # 1).
      change (inject_Z 1000) with (1000 # 1). field. assumption.
    - apply near_weaken with 5%nat (-126) 38; try lia.
      apply (near_div 2 2 (-59) 7 (-82) 14); try lia; [|apply near_dur; exact D].
      apply (near_div 1 0 (-49) 15 (-43) (-43)); try lia; [|apply near_1000].
      apply (near_mul8 1 (-52) 12); try lia. apply near_of_int, B. }
  split; [exact A|].
  apply near_eq with ((8000000 * b # Z.to_pos d) / inject_Z 1000)%Q.
  - rewrite (Qmake_Qdiv (8000000 * b)), (Qmake_Qdiv (8000 * b)). rewrite Z2Pos.id by lia. rewrite !inject_Z_mult.
    assert (~ (inject_Z d == 0)%Q) by (unfold Qeq, inject_Z; cbn [Qnum Qden]; lia).
    change (inject_Z 8000000) with (8000000 # 1). change (inject_Z 8000) with (8000 # 1).
    change (inject_Z 1000) with (1000 # 1). field. assumption.
  - apply near_weaken with 6%nat (-136) 30; try lia. apply (near_div 5 0 (-126) 38 (-43) (-43)); try lia; [exact A|apply near_1000].
Qed.

Lemma near_s2c b d : 1 <= b < 2 ^ 64 -> 0 < d < 2 ^ 63 ->
  let kbps := fdiv (fdiv (fmul (f_of_int 8) (f_of_int b)) (dur_seconds d)) (f_of_int 1000) in
  near 5 (-126) 38 kbps (8000000 * b # Z.to_pos d) /\ near 6 (-136) 30 (fdiv kbps (f_of_int 1000)) (8000 * b # Z.to_pos d).
Proof.
  intros B D kbps.
  assert (ND : ~ (inject_Z d == 0)%Q) by (unfold Qeq, inject_Z; cbn [Qnum Qden]; lia).
  assert (A : near 5 (-126) 38 kbps (8000000 * b # Z.to_pos d)).
  { apply near_eq with (8 * inject_Z b / (d # 1000000000) / inject_Z 1000)%Q.
    - rewrite (Qmake_Qdiv (8000000 * b)), (Qmake_Qdiv d). rewrite Z2Pos.id by lia. rewrite inject_Z_mult.
      change (inject_Z 8000000) with (8000000 # 1). change (inject_Z (Zpos 1000000000)) with (1000000000 # 1).
      change (inject_Z 1000) with (1000 # 1). field. assumption.
    - apply near_weaken with 5%nat (-126) 38; try lia.
      apply (near_div 4 0 (-116) 46 (-43) (-43)); try lia; [|apply near_1000].
      apply (near_div 1 2 (-49) 15 (-82) 14); try lia; [|apply near_dur; exact D].
      apply (near_mul8 1 (-52) 12); try lia. apply near_of_int, B. }
  split; [exact A|].
  apply near_eq with ((8000000 * b # Z.to_pos d) / inject_Z 1000)%Q.
  - rewrite (Qmake_Qdiv (8000000 * b)), (Qmake_Qdiv (8000 * b)). rewrite Z2Pos.id by lia. rewrite !inject_Z_mult.
    change (inject_Z 8000000) with (8000000 # 1). change (inject_Z 8000) with (8000 # 1).
    change (inject_Z 1000) with (1000 # 1). field. assumption.
  - apply near_weaken with 6%nat (-136) 30; try lia. apply (near_div 5 0 (-126) 38 (-43) (-43)); try lia; [exact A|apply near_1000].
Qed.

(** Six roundings are at most 2^-50. *)
Lemma apx_error n u x : (n <= 6)%nat -> apx n u x -> (Qabs (u - x) <= x * (1 # 2 ^ 50))%Q.
Proof.
  intros L H. apply apx_weaken with (b := 6%nat) in H; [|exact L]. destruct H as (U & X & A & B).
  assert (F6 : (Fn 6 <= 1 + (1 # 2 ^ 50))%Q) by (apply Qle_bool_iff; vm_compute; reflexivity).
  assert (G6 : ((1 - (1 # 2 ^ 50)) * Fn 6 <= 1)%Q) by (apply Qle_bool_iff; vm_compute; reflexivity).
  apply Qabs_Qle_condition. split.
  - (* x (1 - eps) F <= x <= u F *)
    assert (H : (x * (1 - (1 # 2 ^ 50)) <= u)%Q).
    { apply (Qmult_le_r _ _ (Fn 6)); [apply Fn_pos|]. apply Qle_trans with x; [|exact A].
      rewrite <- Qmult_assoc. rewrite <- (Qmult_1_r x) at 2. apply Qmult_le_l; [exact X|exact G6]. }
    set (eps := (1 # 2 ^ 50)) in *. lra.
  - assert (H : (u <= x * (1 + (1 # 2 ^ 50)))%Q).
    { apply Qle_trans with (x * Fn 6)%Q; [exact B|]. apply Qmult_le_l; [exact X|exact F6]. }
    set (eps := (1 # 2 ^ 50)) in *. lra.
Qed.
