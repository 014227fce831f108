(** Facts about float64 arithmetic, proved over the integers (no real numbers). *)
From Coq Require Import ZArith List Bool Lia.
From Coq Require Import Floats.SpecFloat.
From Verif Require Import Base GoFloat FloatSpec.
Open Scope Z_scope.

(** ** Digits *)

Lemma pow2_pos n : 0 <= n -> 0 < 2 ^ n.
Proof. intros. apply Z.pow_pos_nonneg; lia. Qed.

Lemma digits2_pos_spec m : 2 ^ (Zpos (digits2_pos m) - 1) <= Zpos m < 2 ^ Zpos (digits2_pos m).
Proof.
  induction m as [m IH|m IH|]; cbn [digits2_pos].
  1-2: rewrite Pos2Z.inj_succ; replace (Z.succ (Zpos (digits2_pos m)) - 1) with (Zpos (digits2_pos m)) by lia;
    rewrite Z.pow_succ_r by lia;
    assert (E : 2 ^ Zpos (digits2_pos m) = 2 * 2 ^ (Zpos (digits2_pos m) - 1))
      by (rewrite <- Z.pow_succ_r by lia; f_equal; lia); lia.
  cbn. lia.
Qed.

Lemma digits2_unique m d : 0 < m -> 2 ^ (d - 1) <= m < 2 ^ d -> Zdigits2 m = d.
Proof.
  intros Hm H. destruct m as [|m|m]; try lia. cbn [Zdigits2]. pose proof (digits2_pos_spec m) as G.
  destruct (Z_lt_le_dec d 0) as [Hd|Hd]. { rewrite (Z.pow_neg_r 2 d) in H by lia. lia. }
  destruct (Z.lt_trichotomy (Zpos (digits2_pos m)) d) as [L|[L|L]]; [|exact L|]; exfalso.
  - assert (2 ^ Zpos (digits2_pos m) <= 2 ^ (d - 1)) by (apply Z.pow_le_mono_r; lia). lia.
  - assert (2 ^ d <= 2 ^ (Zpos (digits2_pos m) - 1)) by (apply Z.pow_le_mono_r; lia). lia.
Qed.

(** ** Shifting with sticky bits *)

(** The record stands for the number num/den. *)
Definition inb (x : shr_record) (num den : Z) : Prop :=
  0 <= shr_m x /\
  match shr_r x, shr_s x with
  | false, false => num = shr_m x * den
  | false, true => 2 * shr_m x * den < 2 * num < (2 * shr_m x + 1) * den
  | true, false => 2 * num = (2 * shr_m x + 1) * den
  | true, true => (2 * shr_m x + 1) * den < 2 * num < (2 * shr_m x + 2) * den
  end.

Lemma inb_range x num den : 0 < den -> inb x num den -> shr_m x * den <= num < (shr_m x + 1) * den.
Proof. intros D [P H]. destruct (shr_r x), (shr_s x); nia. Qed.

Lemma shr_1_inb x num den : 0 < den -> inb x num den ->
  inb (shr_1 x) num (2 * den) /\ shr_m (shr_1 x) = shr_m x / 2.
Proof.
  intros D [P H]. destruct x as [m r s]. cbn [shr_m shr_r shr_s] in *. unfold inb.
  destruct m as [|[p|p|]|p]; cbn [shr_1]; cbn [shr_m shr_r shr_s].
  5: lia.
  2: replace (Zpos p~1 / 2) with (Zpos p) by (rewrite Pos2Z.inj_xI; apply Z.div_unique with 1; lia);
     rewrite Pos2Z.inj_xI in H.
  3: replace (Zpos p~0 / 2) with (Zpos p) by (rewrite Pos2Z.inj_xO; apply Z.div_unique with 0; lia);
     rewrite Pos2Z.inj_xO in H.
  4: replace (1 / 2) with 0 by reflexivity.
  1: replace (0 / 2) with 0 by reflexivity.
  all: split; [split; [lia|]|reflexivity]; destruct r, s; cbn [orb]; try lia; nia.
Qed.

Lemma iter_plus {A} (f : A -> A) a b x : Nat.iter (a + b) f x = Nat.iter a f (Nat.iter b f x).
Proof. induction a as [|a IH]; [reflexivity|]. cbn. f_equal. exact IH. Qed.
Lemma iter_step_r {A} (f : A -> A) a x : Nat.iter (S a) f x = Nat.iter a f (f x).
Proof. induction a as [|a IH]; [reflexivity|]. cbn in *. f_equal. exact IH. Qed.

Lemma iter_pos_iter {A} (f : A -> A) p x : iter_pos f p x = Nat.iter (Pos.to_nat p) f x.
Proof.
  revert x. induction p as [p IH|p IH|]; intros x; cbn [iter_pos].
  - rewrite !IH. rewrite Pos2Nat.inj_xI, iter_step_r, <- iter_plus. f_equal. lia.
  - rewrite !IH, <- iter_plus. f_equal. lia.
  - reflexivity.
Qed.

Lemma iter_inb n x num den : 0 < den -> inb x num den ->
  inb (Nat.iter n shr_1 x) num (2 ^ Z.of_nat n * den) /\
  shr_m (Nat.iter n shr_1 x) = shr_m x / 2 ^ Z.of_nat n.
Proof.
  intros D H. induction n as [|n [I1 I2]].
  - cbn [Nat.iter nat_rect]. change (2 ^ Z.of_nat 0) with 1. rewrite Z.div_1_r.
    replace (1 * den) with den by lia. auto.
  - change (Nat.iter (S n) shr_1 x) with (shr_1 (Nat.iter n shr_1 x)). rewrite Nat2Z.inj_succ, Z.pow_succ_r by lia.
    pose proof (pow2_pos (Z.of_nat n) ltac:(lia)) as P.
    assert (Pd : 0 < 2 ^ Z.of_nat n * den) by nia.
    destruct (shr_1_inb _ _ _ Pd I1) as [J1 J2].
    replace (2 * 2 ^ Z.of_nat n * den) with (2 * (2 ^ Z.of_nat n * den)) by lia.
    split; [exact J1|]. rewrite J2, I2, Z.div_div by lia. f_equal. lia.
Qed.

Lemma shr_spec x e n num den : 0 < den -> 0 <= n -> inb x num den ->
  exists y, shr x e n = (y, e + n) /\ inb y num (2 ^ n * den) /\ shr_m y = shr_m x / 2 ^ n.
Proof.
  intros D N H. destruct n as [|p|p]; [| |lia]; cbn [shr].
  - exists x. change (2 ^ 0) with 1. rewrite Z.div_1_r, Z.add_0_r, Z.mul_1_l. auto.
  - rewrite iter_pos_iter. destruct (iter_inb (Pos.to_nat p) x num den D H) as [I1 I2].
    rewrite positive_nat_Z in I1, I2. eauto.
Qed.

Lemma inb_exact m num den : 0 <= m -> num = m * den -> inb (shr_record_of_loc m loc_Exact) num den.
Proof. intros. split; cbn; assumption. Qed.

(** Rounding to the nearest integer. *)
Lemma nearest_spec x num den : 0 < den -> inb x num den ->
  let r := round_nearest_even (shr_m x) (loc_of_shr_record x) in
  2 * Z.abs (r * den - num) <= den /\ shr_m x <= r <= shr_m x + 1 /\
  (num = shr_m x * den -> r = shr_m x).
Proof.
  intros D [P H]. destruct x as [m r s]. cbn [shr_m shr_r shr_s] in *.
  destruct r, s; cbn [loc_of_shr_record round_nearest_even]; cbv zeta; try (split; [nia|split; [lia|nia]]).
  destruct (Z.even m); split; try nia; split; try lia; nia.
Qed.

(** A normal number: 53 significant bits. *)
Definition normal (m e : Z) : Prop := 2 ^ 52 <= m < 2 ^ 53.

(** Rounding num/den * 2^ex, known to at least 53 bits, in the range of the normal
    numbers: the result is off by at most half a unit in the last place, so by a
    relative error of at most 2^-53, and is exact if the value has 53 bits. *)
Lemma round_aux_spec sx mx ex lx d num den :
  0 < den -> inb (shr_record_of_loc mx lx) num den ->
  2 ^ (d - 1) <= mx < 2 ^ d -> 53 <= d -> -1000 <= d + ex <= 1000 ->
  exists m e, binary_round_aux 53 1024 sx mx ex lx = S754_finite sx m e /\
    2 ^ 52 <= Zpos m < 2 ^ 53 /\ d + ex - 53 <= e <= d + ex - 52 /\
    2 ^ 53 * Z.abs (Zpos m * 2 ^ (e - ex) * den - num) <= num /\
    (forall q, 2 ^ (d - 53) * q * den = num -> Zpos m * 2 ^ (e - ex) * den = num).
Proof.
  intros D H M Dd R. unfold binary_round_aux, shr_fexp.
  assert (Pm : 0 < mx) by (pose proof (pow2_pos (d - 1) ltac:(lia)); lia).
  rewrite (digits2_unique mx d Pm M).
  replace (fexp 53 1024 (d + ex) - ex) with (d - 53) by (unfold fexp, emin; lia).
  destruct (shr_spec _ ex (d - 53) num den D ltac:(lia) H) as (y & E1 & I1 & S1). rewrite E1. cbv iota beta.
  assert (Sm : shr_m (shr_record_of_loc mx lx) = mx) by (destruct lx as [|[]]; reflexivity). rewrite Sm in S1.
  pose proof (pow2_pos (d - 53) ltac:(lia)) as Pd.
  assert (Ny : 2 ^ 52 <= shr_m y < 2 ^ 53).
  { rewrite S1. split.
    - apply Z.div_le_lower_bound; [lia|]. rewrite <- Z.pow_add_r by lia. replace (d - 53 + 52) with (d - 1) by lia. lia.
    - apply Z.div_lt_upper_bound; [lia|]. rewrite <- Z.pow_add_r by lia. replace (d - 53 + 53) with d by lia. lia. }
  set (P := 2 ^ (d - 53)) in *. set (dd := P * den) in *.
  assert (Ddd : 0 < dd) by (unfold dd; nia).
  destruct (nearest_spec y num dd Ddd I1) as (Hn & Hr & He).
  set (r := round_nearest_even (shr_m y) (loc_of_shr_record y)) in *.
  pose proof (inb_range y num dd Ddd I1) as Rg.
  assert (Rl : 2 ^ 53 * Z.abs (r * dd - num) <= num).
  { change (2 ^ 53) with (2 * 2 ^ 52). assert (2 ^ 52 * dd <= num) by nia. nia. }
  assert (Ex : forall q, P * q * den = num -> r * dd = num).
  { intros q Hq. assert (num = q * dd) by (unfold dd; nia).
    assert (q = shr_m y) by nia. subst q. rewrite He by assumption. lia. }
  destruct (Z.eq_dec r (2 ^ 53)) as [C|C].
  - (* the mantissa overflows into the next exponent *)
    assert (Zr : Zdigits2 r = 54) by (rewrite C; reflexivity). rewrite Zr.
    replace (fexp 53 1024 (54 + (ex + (d - 53))) - (ex + (d - 53))) with 1 by (unfold fexp, emin; lia).
    destruct (shr_spec (shr_record_of_loc r loc_Exact) (ex + (d - 53)) 1 r 1 ltac:(lia) ltac:(lia)
                ltac:(apply inb_exact; lia)) as (z & E2 & I2 & S2).
    rewrite E2. cbv iota beta. cbn [shr_record_of_loc shr_m] in S2. rewrite C in S2. change (2 ^ 53 / 2 ^ 1) with (2 ^ 52) in S2.
    rewrite S2. change (2 ^ 52) with (Zpos (2 ^ 52)).
    replace (Zle_bool (ex + (d - 53) + 1) (1024 - 53)) with true by (symmetry; apply Z.leb_le; lia).
    exists (2 ^ 52)%positive, (ex + (d - 53) + 1). split; [reflexivity|]. split; [cbn; lia|]. split; [lia|].
    replace (ex + (d - 53) + 1 - ex) with (Z.succ (d - 53)) by lia. rewrite Z.pow_succ_r by lia. fold P.
    change (Zpos (2 ^ 52)) with (2 ^ 52) in *.
    replace (2 ^ 52 * (2 * P) * den) with (r * dd) by (rewrite C; unfold dd; change (2 ^ 53) with (2 * 2 ^ 52); ring).
    split; [exact Rl|exact Ex].
  - assert (Nr : 2 ^ 52 <= r < 2 ^ 53) by lia.
    rewrite (digits2_unique r 53) by (cbn; cbn in Nr; lia).
    replace (fexp 53 1024 (53 + (ex + (d - 53))) - (ex + (d - 53))) with 0 by (unfold fexp, emin; lia).
    cbn [shr shr_m shr_record_of_loc].
    replace (Zle_bool (ex + (d - 53)) (1024 - 53)) with true by (symmetry; apply Z.leb_le; lia).
    destruct r as [|p|p]; [cbn in Nr; lia| |cbn in Nr; lia].
    exists p, (ex + (d - 53)). split; [reflexivity|]. split; [exact Nr|]. split; [lia|].
    replace (ex + (d - 53) - ex) with (d - 53) by lia. fold P.
    replace (Zpos p * P * den) with (Zpos p * dd) by (unfold dd; ring).
    split; [exact Rl|exact Ex].
Qed.

(** ** Integers *)

Lemma shl_align_spec p d : 0 < d -> Zpos (digits2_pos p) = d ->
  shl_align p 0 (d - 53) = (if d - 53 <? 0 then (shift_pos (Z.to_pos (53 - d)) p, d - 53) else (p, 0)).
Proof.
  intros D E. unfold shl_align. replace (d - 53 - 0) with (d - 53) by lia.
  replace (53 - d) with (- (d - 53)) by lia. destruct (d - 53) as [|x|x]; reflexivity.
Qed.

Lemma shift_pos_val n p : Zpos (shift_pos n p) = Zpos p * 2 ^ Zpos n.
Proof. rewrite shift_pos_correct, Z.mul_comm. f_equal. Qed.

(** float64(n): 53 significant bits, a relative error of at most 2^-53, and exact up to
    2^53. *)
Lemma f_of_int_spec n : 1 <= n < 2 ^ 64 ->
  exists m e, f_of_int n = S754_finite false m e /\ 2 ^ 52 <= Zpos m < 2 ^ 53 /\ -52 <= e <= 12 /\
    2 ^ 53 * Z.abs (Zpos m * 2 ^ (e + 52) - n * 2 ^ 52) <= n * 2 ^ 52 /\
    (n < 2 ^ 53 -> Zpos m * 2 ^ (e + 52) = n * 2 ^ 52).
Proof.
  intros H. destruct n as [|p|p]; try lia. unfold f_of_int, binary_normalize, binary_round.
  pose proof (digits2_pos_spec p) as G. set (d := Zpos (digits2_pos p)) in *.
  assert (D : 0 < d) by (unfold d; lia).
  assert (D64 : d <= 64).
  { destruct (Z_le_gt_dec d 64) as [?|L]; [assumption|exfalso].
    assert (2 ^ 64 <= 2 ^ (d - 1)) by (apply Z.pow_le_mono_r; lia). lia. }
  replace (fexp 53 1024 (d + 0)) with (d - 53) by (unfold fexp, emin; lia).
  rewrite (shl_align_spec p d D eq_refl). destruct (d - 53 <? 0) eqn:F.
  - apply Z.ltb_lt in F.
    set (mz := shift_pos (Z.to_pos (53 - d)) p).
    assert (Em : Zpos mz = Zpos p * 2 ^ (53 - d)) by (unfold mz; rewrite shift_pos_val; f_equal; f_equal; lia).
    pose proof (pow2_pos (53 - d) ltac:(lia)) as P0.
    destruct (round_aux_spec false (Zpos mz) (d - 53) loc_Exact 53 (Zpos mz) 1) as (m & e & E1 & E2 & E3 & E4 & E5).
    + lia.
    + apply inb_exact; lia.
    + rewrite Em. split.
      * replace (2 ^ (53 - 1)) with (2 ^ (d - 1) * 2 ^ (53 - d)) by (rewrite <- Z.pow_add_r by lia; f_equal; lia). nia.
      * replace (2 ^ 53) with (2 ^ d * 2 ^ (53 - d)) by (rewrite <- Z.pow_add_r by lia; f_equal; lia). nia.
    + lia.
    + lia.
    + specialize (E5 (Zpos mz)). rewrite !Z.mul_1_r, ?Z.mul_1_l in *. specialize (E5 eq_refl).
      exists m, e. split; [exact E1|]. split; [exact E2|]. split; [lia|].
      assert (X : Zpos m * 2 ^ (e + 52) = Zpos p * 2 ^ 52).
      { replace (2 ^ (e + 52)) with (2 ^ (e - (d - 53)) * 2 ^ (d - 1)) by (rewrite <- Z.pow_add_r by lia; f_equal; lia).
        rewrite Z.mul_assoc, E5, Em, <- Z.mul_assoc, <- Z.pow_add_r by lia. f_equal. f_equal. lia. }
      rewrite X. split; [rewrite Z.sub_diag; change (Z.abs 0) with 0; lia|reflexivity].
  - apply Z.ltb_ge in F.
    destruct (round_aux_spec false (Zpos p) 0 loc_Exact d (Zpos p) 1) as (m & e & E1 & E2 & E3 & E4 & E5);
      [lia|apply inb_exact; lia|exact G|lia|lia|].
    rewrite !Z.mul_1_r, Z.sub_0_r in *.
    exists m, e. split; [exact E1|]. split; [exact E2|]. split; [lia|].
    rewrite Z.pow_add_r by lia. set (X := Zpos m * 2 ^ e) in *.
    replace (Zpos m * (2 ^ e * 2 ^ 52)) with (X * 2 ^ 52) by (unfold X; ring).
    split.
    + rewrite <- Z.mul_sub_distr_r, Z.abs_mul. change (Z.abs (2 ^ 52)) with (2 ^ 52). nia.
    + intros L. f_equal. assert (d = 53).
      { destruct (Z.eq_dec d 53) as [?|Nd]; [assumption|exfalso].
        assert (2 ^ 53 <= 2 ^ (d - 1)) by (apply Z.pow_le_mono_r; lia). lia. }
      apply (E5 (Zpos p)). replace (d - 53) with 0 by lia. cbn [Z.pow]. lia.
Qed.

(** ** Eight times *)

Lemma f_of_int_8 : f_of_int 8 = S754_finite false (2 ^ 52) (-49).
Proof. reflexivity. Qed.

Lemma fmul_8 m e : 2 ^ 52 <= Zpos m < 2 ^ 53 -> -200 <= e <= 200 ->
  fmul (f_of_int 8) (S754_finite false m e) = S754_finite false m (e + 3).
Proof.
  intros M R. rewrite f_of_int_8. unfold fmul, SFmul. cbn [xorb].
  assert (Em : Zpos (2 ^ 52 * m) = 2 ^ 52 * Zpos m) by (rewrite Pos2Z.inj_mul; reflexivity).
  destruct (round_aux_spec false (Zpos (2 ^ 52 * m)) (-49 + e) loc_Exact 105 (Zpos (2 ^ 52 * m)) 1)
    as (m' & e' & E1 & E2 & E3 & E4 & E5).
  - lia.
  - apply inb_exact; lia.
  - rewrite Em. change (2 ^ (105 - 1)) with (2 ^ 52 * 2 ^ 52). change (2 ^ 105) with (2 ^ 52 * 2 ^ 53).
    split; [apply Z.mul_le_mono_nonneg_l; lia|apply Z.mul_lt_mono_pos_l; lia].
  - lia.
  - lia.
  - rewrite E1. specialize (E5 (Zpos m)). rewrite Em in E5. rewrite !Z.mul_1_r in E5. specialize (E5 eq_refl).
    assert (C : e' - (-49 + e) = 52 \/ e' - (-49 + e) = 53) by lia. destruct C as [C|C]; rewrite C in E5.
    + assert (m' = m) by nia. subst m'. f_equal. lia.
    + change (2 ^ 53) with (2 * 2 ^ 52) in *. exfalso. nia.
Qed.

(** ** Division *)

Lemma new_location_spec n r q : 2 <= n -> 0 <= r < n -> 0 <= q ->
  inb (shr_record_of_loc q (new_location n r)) (q * n + r) n.
Proof.
  intros N R Q. unfold new_location, new_location_even, new_location_odd.
  assert (Ev : Z.even n = true -> exists k, n = 2 * k) by (intros E; apply Z.even_spec in E; exact E).
  assert (Od : Z.even n = false -> exists k, n = 2 * k + 1).
  { intros E. rewrite <- Z.negb_odd in E. apply negb_false_iff, Z.odd_spec in E. exact E. }
  destruct (Z.even n).
  - destruct (Zeq_bool r 0) eqn:E; [apply Zeq_bool_eq in E|apply Zeq_bool_neq in E].
    + split; cbn; lia.
    + destruct (2 * r ?= n) eqn:C; [apply Z.compare_eq in C|change (2 * r < n) in C|change (2 * r ?= n = Gt) in C; apply Z.gt_lt in C];
        split; cbn [shr_record_of_loc shr_m shr_r shr_s]; nia.
  - destruct (Od eq_refl) as [k K].
    destruct (Zeq_bool r 0) eqn:E; [apply Zeq_bool_eq in E|apply Zeq_bool_neq in E].
    + split; cbn; lia.
    + destruct (2 * r + 1 ?= n) eqn:C; [apply Z.compare_eq in C|change (2 * r + 1 < n) in C|apply Z.gt_lt in C];
        split; cbn [shr_record_of_loc shr_m shr_r shr_s]; nia.
Qed.

Lemma fdiv_spec m1 e1 m2 e2 :
  2 ^ 52 <= Zpos m1 < 2 ^ 53 -> 2 ^ 52 <= Zpos m2 < 2 ^ 53 -> -200 <= e1 <= 200 -> -200 <= e2 <= 200 ->
  exists m e, fdiv (S754_finite false m1 e1) (S754_finite false m2 e2) = S754_finite false m e /\
    2 ^ 52 <= Zpos m < 2 ^ 53 /\ e1 - e2 - 53 <= e <= e1 - e2 - 51 /\
    2 ^ 53 * Z.abs (Zpos m * 2 ^ (e - (e1 - e2 - 53)) * Zpos m2 - Zpos m1 * 2 ^ 53) <= Zpos m1 * 2 ^ 53.
Proof.
  intros M1 M2 R1 R2. unfold fdiv, SFdiv, SFdiv_core_binary. cbn [xorb].
  rewrite (digits2_unique (Zpos m1) 53), (digits2_unique (Zpos m2) 53) by (try exact M1; try exact M2; lia).
  replace (Z.min (fexp 53 1024 (53 + e1 - (53 + e2))) (e1 - e2)) with (e1 - e2 - 53) by (unfold fexp, emin; lia).
  replace (e1 - e2 - (e1 - e2 - 53)) with 53 by lia.
  rewrite Z.shiftl_mul_pow2 by lia.
  pose proof (Z_div_mod (Zpos m1 * 2 ^ 53) (Zpos m2) ltac:(lia)) as DM.
  destruct (Z.div_eucl (Zpos m1 * 2 ^ 53) (Zpos m2)) as [q r]. destruct DM as [Eq Rr].
  assert (Q : 2 ^ 52 <= q < 2 ^ 54).
  { change (2 ^ 54) with (2 * 2 ^ 53). change (2 ^ 53) with (2 * 2 ^ 52) in *.
    set (h := 2 ^ 52) in *. assert (0 < h) by (unfold h; lia). nia. }
  assert (exists d, 53 <= d <= 54 /\ 2 ^ (d - 1) <= q < 2 ^ d) as (d & Dd & Qd).
  { destruct (Z_lt_le_dec q (2 ^ 53)); [exists 53|exists 54]; cbn; cbn in *; lia. }
  destruct (round_aux_spec false q (e1 - e2 - 53) (new_location (Zpos m2) r) d (Zpos m1 * 2 ^ 53) (Zpos m2))
    as (m & e & E1 & E2 & E3 & E4 & _); [lia| |exact Qd|lia|lia|].
  { rewrite Eq, Z.mul_comm. apply new_location_spec; [|lia|lia]. change (2 ^ 52) with 4503599627370496 in M2. lia. }
  exists m, e. split; [exact E1|]. split; [exact E2|]. split; [lia|exact E4].
Qed.

(** ** Rates *)

Lemma abs_bounds P x y z : 0 < P -> P * Z.abs (x - y) <= z -> P * y - z <= P * x <= P * y + z.
Proof. intros HP H. destruct (Z.abs_spec (x - y)) as [[_ E]|[_ E]]; rewrite E in H; nia. Qed.

Lemma error_sum P S U A B R b el : 5 <= P -> 0 < S -> 0 < U -> 0 < b -> 0 < el -> 0 < A -> 0 < B -> 0 < R ->
  P * Z.abs (A - b * S) <= b * S -> P * Z.abs (B - el * S) <= el * S ->
  P * Z.abs (R * B - 8 * A * U) <= 8 * A * U ->
  P * Z.abs (R * el - 8 * b * U) <= 4 * (8 * b * U).
Proof.
  intros HP HS HU Hb Hel HA HB HR H1 H2 H3.
  apply abs_bounds in H1, H2, H3; try lia.
  assert (A1 : P * A <= (P + 1) * (b * S)) by lia. assert (A2 : (P - 1) * (b * S) <= P * A) by lia.
  assert (B1 : P * B <= (P + 1) * (el * S)) by lia. assert (B2 : (P - 1) * (el * S) <= P * B) by lia.
  assert (C1 : P * (R * B) <= (P + 1) * (8 * A * U)) by lia.
  assert (C2 : (P - 1) * (8 * A * U) <= P * (R * B)) by lia. clear H1 H2 H3.
  (* upper bound *)
  assert (U1 : P * (R * el) * ((P - 1) * S) <= (P + 1) * (P + 1) * (8 * b * U) * S).
  { assert (P * (R * el) * ((P - 1) * S) = P * R * ((P - 1) * (el * S))) by ring.
    assert (P * R * ((P - 1) * (el * S)) <= P * R * (P * B)) by (apply Z.mul_le_mono_nonneg_l; nia).
    assert (P * R * (P * B) = P * (P * (R * B))) by ring.
    assert (P * (P * (R * B)) <= P * ((P + 1) * (8 * A * U))) by (apply Z.mul_le_mono_nonneg_l; lia).
    assert (P * ((P + 1) * (8 * A * U)) = (P + 1) * (8 * U) * (P * A)) by ring.
    assert ((P + 1) * (8 * U) * (P * A) <= (P + 1) * (8 * U) * ((P + 1) * (b * S))) by (apply Z.mul_le_mono_nonneg_l; nia).
    assert ((P + 1) * (8 * U) * ((P + 1) * (b * S)) = (P + 1) * (P + 1) * (8 * b * U) * S) by ring. lia. }
  assert (L1 : (P - 1) * (P - 1) * (8 * b * U) * S <= P * (R * el) * ((P + 1) * S)).
  { assert (P * (R * el) * ((P + 1) * S) = P * R * ((P + 1) * (el * S))) by ring.
    assert (P * R * (P * B) <= P * R * ((P + 1) * (el * S))) by (apply Z.mul_le_mono_nonneg_l; nia).
    assert (P * R * (P * B) = P * (P * (R * B))) by ring.
    assert (P * ((P - 1) * (8 * A * U)) <= P * (P * (R * B))) by (apply Z.mul_le_mono_nonneg_l; lia).
    assert (P * ((P - 1) * (8 * A * U)) = (P - 1) * (8 * U) * (P * A)) by ring.
    assert ((P - 1) * (8 * U) * ((P - 1) * (b * S)) <= (P - 1) * (8 * U) * (P * A)) by (apply Z.mul_le_mono_nonneg_l; nia).
    assert ((P - 1) * (8 * U) * ((P - 1) * (b * S)) = (P - 1) * (P - 1) * (8 * b * U) * S) by ring. lia. }
  set (T := 8 * b * U) in *. assert (0 < T) by (unfold T; nia). set (X := P * (R * el)) in *.
  assert (U2 : X * (P - 1) <= (P + 1) * (P + 1) * T) by (apply Z.mul_le_mono_pos_r with S; lia).
  assert (L2 : (P - 1) * (P - 1) * T <= X * (P + 1)) by (apply Z.mul_le_mono_pos_r with S; lia).
  assert (U3 : X <= (P + 4) * T).
  { apply Z.mul_le_mono_pos_r with (P - 1); [lia|]. nia. }
  assert (L3 : (P - 4) * T <= X).
  { apply Z.mul_le_mono_pos_r with (P + 1); [lia|]. nia. }
  assert (Eabs : P * Z.abs (R * el - T) = Z.abs (X - P * T)).
  { unfold X. rewrite <- Z.mul_sub_distr_l, Z.abs_mul. rewrite (Z.abs_eq P) by lia. reflexivity. }
  rewrite Eabs. lia.
Qed.

(** 8*float64(b)/float64(el), for positive 64-bit integers. *)
Lemma rate_positive b el : 1 <= b < 2 ^ 64 -> 1 <= el < 2 ^ 64 ->
  close_to (fdiv (fmul (f_of_int 8) (f_of_int b)) (f_of_int el)) (8 * b) el.
Proof.
  intros Hb He.
  destruct (f_of_int_spec b Hb) as (m1 & e1 & E1 & N1 & R1 & A1 & _).
  destruct (f_of_int_spec el He) as (m2 & e2 & E2 & N2 & R2 & A2 & _).
  rewrite E1, E2, fmul_8 by (try exact N1; lia).
  destruct (fdiv_spec m1 (e1 + 3) m2 e2 N1 N2 ltac:(lia) ltac:(lia)) as (m & e & E3 & N3 & R3 & A3).
  exists m, e. split; [exact E3|]. split; [lia|].
  set (S := 2 ^ 52) in *. set (P := 2 ^ 53) in *.
  remember (2 ^ 1074) as U eqn:HU.
  assert (PU : 0 < U) by (rewrite HU; apply pow2_pos; lia).
  set (A := Zpos m1 * 2 ^ (e1 + 52)) in *. set (B := Zpos m2 * 2 ^ (e2 + 52)) in *.
  set (R := Zpos m * 2 ^ (e + 1074)) in *.
  pose proof (pow2_pos (e1 + 52) ltac:(lia)) as Q1. pose proof (pow2_pos (e2 + 52) ltac:(lia)) as Q2.
  pose proof (pow2_pos (e + 1074) ltac:(lia)) as Q3. pose proof (pow2_pos (e1 + 2 + 1074) ltac:(lia)) as Q4.
  set (X := Zpos m * 2 ^ (e - (e1 + 3 - e2 - 53)) * Zpos m2) in *. set (Y := Zpos m1 * P) in *.
  set (W := 2 ^ (e1 + 2 + 1074)) in *.
  assert (ER : R * B = X * W).
  { unfold R, B, X, W.
    replace (Zpos m * 2 ^ (e + 1074) * (Zpos m2 * 2 ^ (e2 + 52))) with
      (Zpos m * Zpos m2 * (2 ^ (e + 1074) * 2 ^ (e2 + 52))) by ring.
    replace (Zpos m * 2 ^ (e - (e1 + 3 - e2 - 53)) * Zpos m2 * 2 ^ (e1 + 2 + 1074)) with
      (Zpos m * Zpos m2 * (2 ^ (e - (e1 + 3 - e2 - 53)) * 2 ^ (e1 + 2 + 1074))) by ring.
    rewrite <- !Z.pow_add_r by lia. f_equal. f_equal. lia. }
  assert (EA : 8 * A * U = Y * W).
  { unfold A, Y, W, P. rewrite HU. change 8 with (2 ^ 3).
    replace (2 ^ 3 * (Zpos m1 * 2 ^ (e1 + 52)) * 2 ^ 1074) with (Zpos m1 * (2 ^ 3 * (2 ^ (e1 + 52) * 2 ^ 1074))) by ring.
    rewrite <- Z.mul_assoc. rewrite <- !Z.pow_add_r by lia. f_equal. f_equal. lia. }
  assert (H3 : P * Z.abs (R * B - 8 * A * U) <= 8 * A * U).
  { rewrite ER, EA, <- Z.mul_sub_distr_r, Z.abs_mul, (Z.abs_eq W) by lia. nia. }
  pose proof (error_sum P S U A B R b el) as G.
  replace (8 * b * U) with (8 * b * U) in * by reflexivity.
  assert (F : P * Z.abs (R * el - 8 * b * U) <= 4 * (8 * b * U)).
  { apply G; try assumption; try (unfold P, S; lia); try (unfold A, B, R; nia). }
  change P with (4 * 2 ^ 51) in F. lia.
Qed.

Lemma rate_zero el : 1 <= el < 2 ^ 64 -> fdiv (fmul (f_of_int 8) (f_of_int 0)) (f_of_int el) = f_zero.
Proof.
  intros He. destruct (f_of_int_spec el He) as (m2 & e2 & E2 & _). rewrite E2. reflexivity.
Qed.

Lemma rate_nan : fdiv (fmul (f_of_int 8) (f_of_int 0)) (f_of_int 0) = S754_nan.
Proof. reflexivity. Qed.

Lemma rate_inf b : 1 <= b < 2 ^ 64 ->
  fdiv (fmul (f_of_int 8) (f_of_int b)) (f_of_int 0) = S754_infinity false.
Proof.
  intros Hb. destruct (f_of_int_spec b Hb) as (m1 & e1 & E1 & N1 & R1 & _).
  rewrite E1, fmul_8 by (try exact N1; lia). reflexivity.
Qed.

Lemma close_positive v num den : close_to v num den -> fltb f_zero v = true /\ f_is_zero v = false /\ f_finite v = true.
Proof. intros (m & e & -> & _). repeat split. Qed.
