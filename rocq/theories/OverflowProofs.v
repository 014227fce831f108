(** Proofs that numbers which are too large are refused. *)
From Coq Require Import String ZArith QArith Qabs Qpower List Bool Lia.
From Coq Require Import Floats.SpecFloat.
From Verif Require Import Base BaseFacts JsonSpec GoFloat RateSpec RateSpec2 FloatFacts FloatFinite FloatRate NumberSpec NumberProofs NumberRound NumberParse.
Import ListNotations.
Open Scope Z_scope.

(** Rounding of a value of 2^1024 or more. *)
Lemma round_aux_large sx mx ex lx d num den :
  0 < den -> inb (shr_record_of_loc mx lx) num den ->
  2 ^ (d - 1) <= mx < 2 ^ d -> 53 <= d -> 1025 <= d + ex ->
  binary_round_aux 53 1024 sx mx ex lx = S754_infinity sx.
Proof.
  intros D H M Dd R. unfold binary_round_aux, shr_fexp.
  assert (Pm : 0 < mx) by (pose proof (pow2_pos (d - 1) ltac:(lia)); lia).
  rewrite (digits2_unique mx d Pm M).
  replace (fexp 53 1024 (d + ex) - ex) with (d - 53) by (unfold fexp, emin; lia).
  destruct (shr_spec _ ex (d - 53) num den D ltac:(lia) H) as (y & E1 & I1 & S1). rewrite E1. cbv iota beta.
  assert (Sm : shr_m (shr_record_of_loc mx lx) = mx) by (destruct lx as [|[]]; reflexivity). rewrite Sm in S1.
  pose proof (pow2_pos (d - 53) ltac:(lia)) as Pd.
  assert (Ny : 2 ^ 52 <= shr_m y < 2 ^ 53).
  { rewrite S1. split.
    - apply Z.div_le_lower_bound; [lia|]. rewrite <- Z.pow_add_r by lia. replace (d - 53 + 52) with (d - 1) by lia. lia.
    - apply Z.div_lt_upper_bound; [lia|]. rewrite <- Z.pow_add_r by lia. replace (d - 53 + 53) with d by lia. lia. }
  set (P := 2 ^ (d - 53)) in *. set (dd := P * den) in *.
  assert (Ddd : 0 < dd) by (unfold dd; nia).
  destruct (nearest_spec y num dd Ddd I1) as (Hn & Hr & He).
  set (r := round_nearest_even (shr_m y) (loc_of_shr_record y)) in *.
  destruct (Z.eq_dec r (2 ^ 53)) as [C|C].
  - assert (Zr : Zdigits2 r = 54) by (rewrite C; reflexivity). rewrite Zr.
    replace (fexp 53 1024 (54 + (ex + (d - 53))) - (ex + (d - 53))) with 1 by (unfold fexp, emin; lia).
    destruct (shr_spec (shr_record_of_loc r loc_Exact) (ex + (d - 53)) 1 r 1 ltac:(lia) ltac:(lia)
                ltac:(apply inb_exact; lia)) as (z & E2 & I2 & S2).
    rewrite E2. cbv iota beta. cbn [shr_record_of_loc shr_m] in S2. rewrite C in S2. change (2 ^ 53 / 2 ^ 1) with (2 ^ 52) in S2.
    rewrite S2. change (2 ^ 52) with (Zpos (2 ^ 52)).
    replace (Zle_bool (ex + (d - 53) + 1) (1024 - 53)) with false by (symmetry; apply Z.leb_gt; lia). reflexivity.
  - assert (Nr : 2 ^ 52 <= r < 2 ^ 53) by lia.
    rewrite (digits2_unique r 53) by (cbn; cbn in Nr; lia).
    replace (fexp 53 1024 (53 + (ex + (d - 53))) - (ex + (d - 53))) with 0 by (unfold fexp, emin; lia).
    cbn [shr shr_m shr_record_of_loc].
    replace (Zle_bool (ex + (d - 53)) (1024 - 53)) with false by (symmetry; apply Z.leb_gt; lia).
    destruct r as [|p|p]; [cbn in Nr; lia|reflexivity|cbn in Nr; lia].
Qed.

Lemma large_int neg p : ((2 # 1) ^ 1024 <= inject_Z (Zpos p))%Q ->
  binary_normalize 53 1024 (if neg : bool then - Zpos p else Zpos p) 0 false = S754_infinity neg.
Proof.
  intros Lo. replace (binary_normalize 53 1024 (if neg then - Zpos p else Zpos p) 0 false) with (binary_round 53 1024 neg p 0)
    by (destruct neg; reflexivity).
  unfold binary_round. pose proof (digits2_pos_spec p) as G. set (d := Zpos (digits2_pos p)) in *.
  assert (D : 0 < d) by (unfold d; lia).
  assert (D1 : 1025 <= d).
  { assert ((2 # 1) ^ 1024 < (2 # 1) ^ d)%Q; [|apply pow2_lt_inv in H; lia].
    eapply Qle_lt_trans; [exact Lo|]. rewrite <- pow2_Q by lia. rewrite <- Zlt_Qlt. lia. }
  replace (fexp 53 1024 (d + 0)) with (d - 53) by (unfold fexp, emin; lia).
  rewrite (shl_align_spec p d D eq_refl). destruct (d - 53 <? 0) eqn:F; [apply Z.ltb_lt in F; lia|].
  apply round_aux_large with d (Zpos p) 1; [lia|apply inb_exact; lia|exact G|lia|lia].
Qed.

Lemma large_quotient neg m1 e1 m2 e2 : 2 <= Zpos m2 ->
  ((2 # 1) ^ 1024 <= scaled (Zpos m1) (Zpos m2) (e1 - e2))%Q ->
  SFdiv 53 1024 (S754_finite neg m1 e1) (S754_finite false m2 e2) = S754_infinity neg.
Proof.
  intros M2 Lo. unfold SFdiv, SFdiv_core_binary. rewrite xorb_false_r. cbn [Zdigits2].
  pose proof (digits2_pos_spec m1) as G1. pose proof (digits2_pos_spec m2) as G2.
  set (d1 := Zpos (digits2_pos m1)) in *. set (d2 := Zpos (digits2_pos m2)) in *.
  assert (0 < d1 /\ 0 < d2) as [P1 P2] by (unfold d1, d2; lia).
  pose proof (inject_pos (Zpos m2) ltac:(lia)) as I2. pose proof (pow2_Qpos (e1 - e2)) as PE.
  (* the quotient is between 2^(d1-d2-1) and 2^(d1-d2+1) *)
  assert (B1 : ((2 # 1) ^ (d1 - d2 - 1) <= inject_Z (Zpos m1) / inject_Z (Zpos m2))%Q).
  { apply Qle_shift_div_l; [exact I2|]. apply Qle_trans with ((2 # 1) ^ (d1 - d2 - 1) * (2 # 1) ^ d2)%Q.
    - rewrite !(Qmult_comm ((2 # 1) ^ (d1 - d2 - 1))). apply Qmult_le_compat_r; [|apply Qlt_le_weak, pow2_Qpos].
      rewrite <- pow2_Q by lia. rewrite <- Zle_Qle. lia.
    - rewrite <- pow2_add. replace (d1 - d2 - 1 + d2) with (d1 - 1) by lia. rewrite <- pow2_Q by lia. rewrite <- Zle_Qle. lia. }
  assert (B2 : (inject_Z (Zpos m1) / inject_Z (Zpos m2) < (2 # 1) ^ (d1 - d2 + 1))%Q).
  { apply Qlt_shift_div_r; [exact I2|]. apply Qlt_le_trans with ((2 # 1) ^ (d1 - d2 + 1) * (2 # 1) ^ (d2 - 1))%Q.
    - rewrite <- pow2_add. replace (d1 - d2 + 1 + (d2 - 1)) with d1 by lia. rewrite <- pow2_Q by lia. rewrite <- Zlt_Qlt. lia.
    - rewrite !(Qmult_comm ((2 # 1) ^ (d1 - d2 + 1))). apply Qmult_le_compat_r; [|apply Qlt_le_weak, pow2_Qpos].
      rewrite <- pow2_Q by lia. rewrite <- Zle_Qle. lia. }
  assert (K2 : 1024 < d1 - d2 + 1 + (e1 - e2)).
  { apply pow2_lt_inv. rewrite (pow2_add (d1 - d2 + 1)). eapply Qle_lt_trans; [exact Lo|]. apply Qmult_lt_compat_r; [exact PE|exact B2]. }
  set (ex := Z.min (fexp 53 1024 (d1 + e1 - (d2 + e2))) (e1 - e2)).
  assert (Ex : ex = Z.min (d1 - d2 + (e1 - e2) - 53) (e1 - e2)) by (unfold ex, fexp, emin; lia).
  set (s := e1 - e2 - ex). assert (S0 : 0 <= s) by lia.
  assert (Sh : (match s with Zpos _ => Z.shiftl (Zpos m1) s | Z0 => Zpos m1 | Zneg _ => Z0 end) = Zpos m1 * 2 ^ s).
  { destruct s as [|q|q] eqn:Es; [cbn; lia| |lia]. apply Z.shiftl_mul_pow2. lia. }
  rewrite Sh. pose proof (Z_div_mod (Zpos m1 * 2 ^ s) (Zpos m2) ltac:(lia)) as DM.
  destruct (Z.div_eucl (Zpos m1 * 2 ^ s) (Zpos m2)) as [q r]. destruct DM as [Eq Rr].
  pose proof (pow2_pos s S0) as Ps.
  set (k := d1 + s - d2). assert (K53 : 53 <= k) by (unfold k, s; lia).
  assert (Qlo : 2 ^ (k - 1) <= q).
  { assert (2 ^ (k - 1) * Zpos m2 < (q + 1) * Zpos m2).
    { assert (2 ^ (k - 1) * Zpos m2 < 2 ^ (k - 1) * 2 ^ d2) by (apply Z.mul_lt_mono_pos_l; [apply pow2_pos; lia|lia]).
      replace (2 ^ (k - 1) * 2 ^ d2) with (2 ^ (d1 - 1) * 2 ^ s) in H by (rewrite <- !Z.pow_add_r by lia; f_equal; unfold k; lia). nia. }
    apply Z.mul_lt_mono_pos_r in H; lia. }
  assert (Qhi : q < 2 ^ (k + 1)).
  { assert (q * Zpos m2 < 2 ^ (k + 1) * Zpos m2).
    { assert (2 ^ (k + 1) * 2 ^ (d2 - 1) <= 2 ^ (k + 1) * Zpos m2) by (apply Z.mul_le_mono_nonneg_l; [apply Z.lt_le_incl, pow2_pos; lia|lia]).
      replace (2 ^ (k + 1) * 2 ^ (d2 - 1)) with (2 ^ d1 * 2 ^ s) in H by (rewrite <- !Z.pow_add_r by lia; f_equal; unfold k; lia). nia. }
    apply Z.mul_lt_mono_pos_r in H; lia. }
  assert (Dq : exists d, 53 <= d /\ k <= d <= k + 1 /\ 2 ^ (d - 1) <= q < 2 ^ d).
  { destruct (Z_lt_le_dec q (2 ^ k)); [exists k|exists (k + 1)]; (split; [lia|]); (split; [lia|]); (split; [|lia]); [exact Qlo|].
    replace (k + 1 - 1) with k by lia. assumption. }
  destruct Dq as (d & D53 & Dk & Dq).
  assert (Es : (scaled (Zpos m1 * 2 ^ s) (Zpos m2) ex == scaled (Zpos m1) (Zpos m2) (e1 - e2))%Q).
  { unfold scaled. rewrite inject_Z_mult, pow2_Q by lia. unfold Qdiv.
    setoid_replace (inject_Z (Zpos m1) * (2 # 1) ^ s * / inject_Z (Zpos m2) * (2 # 1) ^ ex)%Q
      with (inject_Z (Zpos m1) * / inject_Z (Zpos m2) * ((2 # 1) ^ s * (2 # 1) ^ ex))%Q by ring.
    rewrite <- pow2_add. replace (s + ex) with (e1 - e2) by lia. reflexivity. }
  assert (N : inb (shr_record_of_loc q (new_location (Zpos m2) r)) (Zpos m1 * 2 ^ s) (Zpos m2)).
  { rewrite Eq, (Z.mul_comm (Zpos m2)). apply new_location_spec; lia. }
  assert (Rg : 1025 <= d + ex).
  { pose proof (inb_range _ _ _ (Pos2Z.is_pos m2) N) as Ib.
    assert (Sm : shr_m (shr_record_of_loc q (new_location (Zpos m2) r)) = q) by (destruct (new_location (Zpos m2) r) as [|[]]; reflexivity).
    rewrite Sm in Ib.
    destruct (scaled_range q _ _ ex d (Pos2Z.is_pos m2) Ib Dq ltac:(lia)) as [L1 L2]. rewrite Es in L1, L2.
    assert (1024 < d + ex) by (apply pow2_lt_inv; eapply Qle_lt_trans; [exact Lo|exact L2]). lia. }
  destruct q as [|qp|qp].
  - pose proof (pow2_pos (d - 1) ltac:(lia)). lia.
  - apply round_aux_large with d (Zpos m1 * 2 ^ s) (Zpos m2); [lia|exact N|exact Dq|exact D53|exact Rg].
  - pose proof (pow2_pos (d - 1) ltac:(lia)). lia.
Qed.

Lemma large_scaled neg n x base : 0 < n -> 2 <= base ->
  ((2 # 1) ^ 1024 <= inject_Z n * inject_Z base ^ x)%Q -> round_scaled neg n x base = S754_infinity neg.
Proof.
  intros N B R. destruct n as [|m|m]; try lia. unfold round_scaled.
  destruct (0 <=? x) eqn:C; [apply Z.leb_le in C|apply Z.leb_gt in C].
  - rewrite Z.abs_eq by lia. assert (E : (inject_Z (Zpos m) * inject_Z base ^ x == inject_Z (Zpos m * base ^ x))%Q)
      by (rewrite inject_Z_mult, Zpower_Qpower by lia; reflexivity).
    pose proof (Z.pow_pos_nonneg base x ltac:(lia) C) as P. destruct (base ^ x) as [|p|p] eqn:Ep; try lia.
    change (Zpos m * Zpos p) with (Zpos (m * p)) in *. apply large_int. rewrite <- E. exact R.
  - pose proof (Z.pow_gt_lin_r base (Z.abs x) ltac:(lia) ltac:(lia)) as P.
    assert (E : (inject_Z base ^ x == / inject_Z (base ^ Z.abs x))%Q).
    { rewrite Zpower_Qpower by lia. replace x with (- Z.abs x) at 1 by lia. apply Qpower_opp. }
    destruct (base ^ Z.abs x) as [|p|p] eqn:Ep; try lia.
    apply large_quotient; [lia|]. change (0 - 0) with 0. rewrite scaled_0. unfold Qdiv. rewrite <- E. exact R.
Qed.

Lemma large_decimal t neg n k x : decimal_number t neg n k x -> Z.abs x < 10000 ->
  ((2 # 1) ^ 1024 <= inject_Z n * (10 # 1) ^ (x - k))%Q -> parse_float t = None.
Proof.
  intros H B R. unfold parse_float. rewrite (decimal_not_special _ _ _ _ _ H), (parse_decimal _ _ _ _ _ H B).
  assert (N0 : 0 <= n).
  { destruct H as (sg & ip & dot & fp & ep & _ & _ & D1 & D2 & _ & _ & _ & -> & _). apply decimal_bounds, Forall_app. auto. }
  assert (Np : 0 < n).
  { destruct (Z.eq_dec n 0) as [->|?]; [exfalso|lia]. apply (Qlt_not_le 0 ((2 # 1) ^ 1024)); [reflexivity|].
    eapply Qle_trans; [exact R|]. change (inject_Z 0) with 0%Q. rewrite Qmult_0_l. apply Qle_refl. }
  cbv zeta. rewrite (large_scaled neg n (x - k) 10 Np ltac:(lia) R). reflexivity.
Qed.

Lemma large_hex t neg n k x : hex_number t neg n k x -> Z.abs x < 10000 ->
  ((2 # 1) ^ 1024 <= inject_Z n * (2 # 1) ^ (x - 4 * k))%Q -> parse_float t = None.
Proof.
  intros H B R. unfold parse_float. rewrite (hex_not_special _ _ _ _ _ H), (parse_hex _ _ _ _ _ H B).
  assert (Np : 0 < n).
  { destruct (Z_lt_le_dec 0 n) as [?|L]; [assumption|exfalso]. apply (Qlt_not_le 0 ((2 # 1) ^ 1024)); [reflexivity|].
    eapply Qle_trans; [exact R|]. rewrite <- (Qmult_0_l ((2 # 1) ^ (x - 4 * k))). apply Qmult_le_compat_r; [|apply Qlt_le_weak, pow2_Qpos].
    change 0%Q with (inject_Z 0). rewrite <- Zle_Qle. exact L. }
  cbv zeta. rewrite (large_scaled neg n (x - 4 * k) 2 Np ltac:(lia) R). reflexivity.
Qed.
