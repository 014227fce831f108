(** Rounding returns a float64 exactly when it is given the value of one. *)
From Coq Require Import String ZArith QArith Qabs Qpower Qfield List Bool Lia.
From Coq Require Import ZifyBool ZifyNat.
From Coq Require Import Floats.SpecFloat.
From Verif Require Import Base BaseFacts GoFloat FloatFacts FloatFinite FloatRate.
Import ListNotations.
Open Scope Z_scope.

(** The mantissas and exponents of float64 values. *)
Definition canonical (m : positive) (e : Z) : Prop :=
  fexp 53 1024 (Zpos (digits2_pos m) + e) = e /\ e <= 971.

Lemma valid_canonical s m e : valid_binary 53 1024 (S754_finite s m e) = true -> canonical m e.
Proof.
  cbn [valid_binary]. unfold bounded, canonical_mantissa, canonical. intros H. apply andb_prop in H as [A B].
  apply Zeq_bool_eq in A. apply Zle_bool_imp_le in B. split; [exact A|lia].
Qed.

Lemma canonical_bounds m e : canonical m e -> -1074 <= e <= 971 /\ Zpos m < 2 ^ 53.
Proof.
  intros [F L]. pose proof (digits2_pos_spec m) as G. set (d := Zpos (digits2_pos m)) in *. unfold fexp, emin in F.
  split; [lia|]. eapply Z.lt_le_trans; [apply G|]. apply Z.pow_le_mono_r; lia.
Qed.

Lemma round_exact sx m e M ex : canonical m e -> ex <= e -> M = Zpos m * 2 ^ (e - ex) ->
  binary_round_aux 53 1024 sx M ex loc_Exact = S754_finite sx m e.
Proof.
  intros [F L] X ->. pose proof (digits2_pos_spec m) as G. set (d := Zpos (digits2_pos m)) in *.
  assert (P : 0 < 2 ^ (e - ex)) by (apply Z.pow_pos_nonneg; lia).
  assert (D : Zdigits2 (Zpos m * 2 ^ (e - ex)) = d + (e - ex)).
  { apply digits2_unique; [apply Z.mul_pos_pos; lia|]. replace (d + (e - ex) - 1) with (d - 1 + (e - ex)) by lia.
    rewrite !Z.pow_add_r by (unfold d; lia). nia. }
  unfold binary_round_aux, shr_fexp. rewrite D. replace (d + (e - ex) + ex) with (d + e) by lia. rewrite F.
  destruct (shr_spec (shr_record_of_loc (Zpos m * 2 ^ (e - ex)) loc_Exact) ex (e - ex) (Zpos m * 2 ^ (e - ex)) 1)
    as (y & E & I & Y); [lia|lia|apply inb_exact; [apply Z.mul_nonneg_nonneg; lia|symmetry; apply Z.mul_1_r]|].
  cbn [shr_record_of_loc shr_m] in Y. rewrite Z.div_mul in Y by lia.
  rewrite E. replace (ex + (e - ex)) with e by lia. cbv beta iota.
  destruct (nearest_spec y _ _ (eq_ind_r (fun x => 0 < x) P (Z.mul_1_r _)) I) as (_ & _ & N). cbv zeta in N. rewrite N by (rewrite Y; ring). rewrite Y.
  cbn [Zdigits2]. fold d. rewrite F, Z.sub_diag. cbn [shr shr_record_of_loc shr_m].
  replace (Zle_bool e (1024 - 53)) with true; [reflexivity|]. symmetry. apply Z.leb_le. lia.
Qed.

Lemma pow10_Q n : (0 <= n) -> (inject_Z (10 ^ n) == (10 # 1) ^ n)%Q.
Proof. intros H. rewrite Zpower_Qpower by exact H. reflexivity. Qed.

(** a * 2^i = b * 2^k over the rationals, as an equation of integers. *)
Lemma pow2_cross a i b k j : j <= i -> j <= k ->
  (inject_Z a * (2 # 1) ^ i == inject_Z b * (2 # 1) ^ k)%Q -> a * 2 ^ (i - j) = b * 2 ^ (k - j).
Proof.
  intros I K E. apply inject_Z_injective. rewrite !inject_Z_mult, !pow2_Q by lia.
  assert (N : ~ (2 # 1 == 0)%Q) by discriminate.
  unfold Z.sub. rewrite !Qpower_plus by exact N. rewrite !Qmult_assoc, E. reflexivity.
Qed.

Lemma exact_integer neg v m e : canonical m e -> 0 < v -> (inject_Z v == inject_Z (Zpos m) * (2 # 1) ^ e)%Q ->
  binary_normalize 53 1024 (if neg : bool then - v else v) 0 false = S754_finite neg m e.
Proof.
  intros C V E. destruct v as [|p|p]; try lia.
  assert (H : binary_normalize 53 1024 (if neg then - Zpos p else Zpos p) 0 false = binary_round 53 1024 neg p 0) by (destruct neg; reflexivity).
  rewrite H. clear H. unfold binary_round. set (d := Zpos (digits2_pos p)).
  assert (X : Zpos p * 2 ^ (0 - Z.min e 0) = Zpos m * 2 ^ (e - Z.min e 0)).
  { apply pow2_cross; try lia. rewrite <- E. cbn. ring. }
  assert (FE : fexp 53 1024 (d + 0) = e).
  { destruct C as [F L]. etransitivity; [|exact F]. f_equal. 
    pose proof (digits2_pos_spec m) as G. pose proof (digits2_pos_spec p) as Gp. fold d in Gp. set (dm := Zpos (digits2_pos m)) in *.
    assert (U : Zdigits2 (Zpos p * 2 ^ (0 - Z.min e 0)) = d + (0 - Z.min e 0)).
    { assert (P : 0 < 2 ^ (0 - Z.min e 0)) by (apply Z.pow_pos_nonneg; lia). apply digits2_unique; [apply Z.mul_pos_pos; lia|].
      replace (d + (0 - Z.min e 0) - 1) with (d - 1 + (0 - Z.min e 0)) by lia. rewrite !Z.pow_add_r by (unfold d; lia). nia. }
    assert (U2 : Zdigits2 (Zpos m * 2 ^ (e - Z.min e 0)) = dm + (e - Z.min e 0)).
    { assert (P : 0 < 2 ^ (e - Z.min e 0)) by (apply Z.pow_pos_nonneg; lia). apply digits2_unique; [apply Z.mul_pos_pos; lia|].
      replace (dm + (e - Z.min e 0) - 1) with (dm - 1 + (e - Z.min e 0)) by lia. rewrite !Z.pow_add_r by (unfold dm; lia). nia. }
    rewrite X in U. lia. }
  rewrite FE. unfold shl_align. rewrite Z.sub_0_r.
  destruct e as [|e|e].
  - apply round_exact; [exact C|lia|]. change (0 - Z.min 0 0) with 0 in X. cbn in X |- *. lia.
  - apply round_exact; [exact C|lia|]. rewrite Z.min_r in X by lia. rewrite Z.pow_0_r in X. lia.
  - apply round_exact; [exact C|lia|]. rewrite shift_pos_val. rewrite Z.min_l in X by lia.
    replace (0 - Zneg e) with (Zpos e) in X by lia. exact X.
Qed.

Lemma new_location_exact n : new_location n 0 = loc_Exact.
Proof. unfold new_location, new_location_even, new_location_odd. destruct (Z.even n); reflexivity. Qed.

Lemma fexp_mono a b : a <= b -> fexp 53 1024 a <= fexp 53 1024 b.
Proof. unfold fexp, emin. lia. Qed.

Lemma exact_quotient neg v d m e : canonical m e -> (inject_Z (Zpos v) == inject_Z (Zpos d) * (inject_Z (Zpos m) * (2 # 1) ^ e))%Q ->
  SFdiv 53 1024 (S754_finite neg v 0) (S754_finite false d 0) = S754_finite neg m e.
Proof.
  intros C E. unfold SFdiv. rewrite xorb_false_r.
  assert (LE : Z.min (fexp 53 1024 (Zdigits2 (Zpos v) + 0 - (Zdigits2 (Zpos d) + 0))) (0 - 0) <= e).
  { etransitivity; [apply Z.le_min_l|]. destruct C as [F L]. rewrite <- F. apply fexp_mono. cbn [Zdigits2].
    pose proof (digits2_pos_spec m) as G. pose proof (digits2_pos_spec v) as Gv. pose proof (digits2_pos_spec d) as Gd.
    set (dm := Zpos (digits2_pos m)) in *. set (dv := Zpos (digits2_pos v)) in *. set (dd := Zpos (digits2_pos d)) in *.
    assert (X : Zpos v * 2 ^ (0 - Z.min e 0) = Zpos d * Zpos m * 2 ^ (e - Z.min e 0)).
    { apply pow2_cross; try lia. rewrite inject_Z_mult. cbn [Qpower]. rewrite E. ring. }
    destruct (Z_le_gt_dec (dv + 0 - (dd + 0)) (dm + e)) as [?|B]; [assumption|exfalso].
    set (j := Z.min e 0) in *. assert (P0 : 0 < 2 ^ (0 - j)) by (apply Z.pow_pos_nonneg; lia).
    assert (P1 : 0 < 2 ^ (e - j)) by (apply Z.pow_pos_nonneg; lia).
    assert (A1 : 2 ^ (dv - 1 + (0 - j)) <= Zpos v * 2 ^ (0 - j)) by (rewrite Z.pow_add_r by (unfold dv; lia); nia).
    assert (A2 : Zpos d * Zpos m * 2 ^ (e - j) < 2 ^ (dd + dm + (e - j))).
    { rewrite Z.pow_add_r by (unfold dd, dm; lia). rewrite (Z.pow_add_r 2 dd dm) by (unfold dd, dm; lia).
      apply Z.mul_lt_mono_pos_r; [exact P1|]. apply Z.mul_lt_mono_nonneg; lia. }
    assert (A3 : 2 ^ (dd + dm + (e - j)) <= 2 ^ (dv - 1 + (0 - j))) by (apply Z.pow_le_mono_r; unfold dd, dm; lia). lia. }
  unfold SFdiv_core_binary. set (e' := Z.min _ (0 - 0)) in *.
  assert (X : Zpos v * 2 ^ (0 - 0 - e') = Zpos d * (Zpos m * 2 ^ (e - e'))).
  { replace (0 - 0 - e') with (0 - e') by lia. rewrite Z.mul_assoc. apply pow2_cross; try lia. rewrite inject_Z_mult. cbn [Qpower]. rewrite E. ring. }
  assert (S : (match 0 - 0 - e' with Zpos _ => Z.shiftl (Zpos v) (0 - 0 - e') | Z0 => Zpos v | Zneg _ => Z0 end) = Zpos v * 2 ^ (0 - 0 - e')).
  { destruct (0 - 0 - e') as [|p|p] eqn:Ee; [cbn; lia|apply Z.shiftl_mul_pow2; lia|lia]. }
  rewrite S, X. destruct (Z.div_eucl (Zpos d * (Zpos m * 2 ^ (e - e'))) (Zpos d)) as [q r] eqn:DE.
  assert (Eq : q = Zpos m * 2 ^ (e - e')).
  { transitivity (Zpos d * (Zpos m * 2 ^ (e - e')) / Zpos d); [unfold Z.div; rewrite DE; reflexivity|]. rewrite Z.mul_comm. apply Z.div_mul. lia. }
  assert (Er : r = 0).
  { transitivity (Zpos d * (Zpos m * 2 ^ (e - e')) mod Zpos d); [unfold Z.modulo; rewrite DE; reflexivity|]. rewrite Z.mul_comm. apply Z.mod_mul. lia. }
  subst q r. rewrite new_location_exact. apply round_exact; [exact C|exact LE|reflexivity].
Qed.

Lemma exact_scaled neg v j m e : canonical m e -> 0 < v ->
  (inject_Z v * (10 # 1) ^ j == inject_Z (Zpos m) * (2 # 1) ^ e)%Q ->
  round_scaled neg v j 10 = S754_finite neg m e.
Proof.
  intros C V E. destruct v as [|p|p]; try lia. unfold round_scaled. cbv zeta.
  destruct (Z.leb_spec 0 j) as [J|J].
  - rewrite Z.abs_eq by exact J. apply exact_integer; [exact C|apply Z.mul_pos_pos; [lia|apply Z.pow_pos_nonneg; lia]|].
    rewrite inject_Z_mult, pow10_Q by exact J. exact E.
  - destruct (10 ^ Z.abs j) as [|d|d] eqn:D; try (pose proof (Z.pow_pos_nonneg 10 (Z.abs j)); lia).
    apply exact_quotient; [exact C|]. rewrite <- E, <- D. rewrite pow10_Q by lia. replace (Z.abs j) with (- j) by lia.
    rewrite Qpower_opp. field. apply Qpower_not_0. discriminate.
Qed.
