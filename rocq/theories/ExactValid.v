(** The results of rounding are float64 values, and so are the rates of a record. *)
From Coq Require Import String ZArith List Bool Lia.
From Coq Require Import ZifyBool ZifyNat.
From Coq Require Import Floats.SpecFloat.
From Verif Require Import Base BaseFacts GoFloat FloatFacts FloatFinite.
Import ListNotations.
Open Scope Z_scope.

Lemma shr_loc_m m l : shr_m (shr_record_of_loc m l) = m.
Proof. destruct l as [|[]]; reflexivity. Qed.

Lemma digits_lb m : 0 < m -> 2 ^ (Zdigits2 m - 1) <= m.
Proof. destruct m as [|p|p]; try lia. intros _. cbn [Zdigits2]. apply digits2_pos_spec. Qed.

Lemma digits_ge m k : 0 <= k -> 2 ^ k <= m -> k + 1 <= Zdigits2 m.
Proof.
  intros K H. pose proof (Z.pow_pos_nonneg 2 k ltac:(lia) K). destruct (digits_ub m ltac:(lia)) as [U D].
  destruct (Z_le_gt_dec (k + 1) (Zdigits2 m)) as [?|G]; [assumption|exfalso].
  assert (2 ^ Zdigits2 m <= 2 ^ k) by (apply Z.pow_le_mono_r; lia). lia.
Qed.

(** One shift, for a mantissa with enough bits. *)
Lemma shr_fexp_exp m e l : 0 <= m -> e <= fexp 53 1024 (Zdigits2 m + e) ->
  let '(r, e') := shr_fexp 53 1024 m e l in
  e' = fexp 53 1024 (Zdigits2 m + e) /\ shr_m r = m / 2 ^ (e' - e) /\ e <= e'.
Proof.
  intros H L. unfold shr_fexp. set (n := fexp 53 1024 (Zdigits2 m + e) - e) in *. assert (N : 0 <= n) by lia.
  destruct n as [|p|p] eqn:E; [| |lia]; cbn [shr].
  - rewrite shr_loc_m. replace (e - e) with 0 by lia. rewrite Z.div_1_r. lia.
  - rewrite iter_pos_iter, iter_m, shr_loc_m, positive_nat_Z by (rewrite shr_loc_m; exact H).
    replace (e + Zpos p - e) with (Zpos p) by lia. lia.
Qed.

Lemma round_aux_valid sx mx ex lx : 0 <= mx -> ex <= fexp 53 1024 (Zdigits2 mx + ex) ->
  valid_binary 53 1024 (binary_round_aux 53 1024 sx mx ex lx) = true.
Proof.
  intros H L. unfold binary_round_aux. pose proof (shr_fexp_exp mx ex lx H L) as B1.
  destruct (shr_fexp 53 1024 mx ex lx) as [r1 e1]. destruct B1 as (E1 & M1 & L1).
  set (m1 := round_nearest_even (shr_m r1) (loc_of_shr_record r1)).
  assert (R1 : shr_m r1 <= m1 <= shr_m r1 + 1).
  { unfold m1, round_nearest_even. destruct (loc_of_shr_record r1) as [|[]]; try destruct (Z.even (shr_m r1)); lia. }
  destruct (digits_ub mx H) as [U0 D0]. set (d := Zdigits2 mx) in *.
  assert (P : 0 < 2 ^ (e1 - ex)) by (apply Z.pow_pos_nonneg; lia).
  assert (Q : 0 <= shr_m r1 < 2 ^ 53).
  { rewrite M1. split; [apply Z.div_pos; lia|]. apply Z.div_lt_upper_bound; [exact P|]. rewrite <- Z.pow_add_r by lia.
    eapply Z.lt_le_trans; [exact U0|]. apply Z.pow_le_mono_r; unfold fexp, emin in E1; lia. }
  (** Either the mantissa has all its bits or the exponent is the least. *)
  assert (K : 2 ^ 52 <= shr_m r1 \/ e1 = -1074).
  { destruct (Z.eq_dec e1 (-1074)) as [?|NE]; [auto|left]. unfold fexp, emin in E1. assert (e1 = d + ex - 53) by lia.
    assert (d = 53 + (e1 - ex)) by lia. assert (0 < mx). { destruct mx; try lia. cbn in d. lia. }
    rewrite M1. apply Z.div_le_lower_bound; [exact P|]. rewrite <- Z.pow_add_r by lia.
    replace (e1 - ex + 52) with (d - 1) by lia. apply digits_lb. assumption. }
  cbv beta iota. clearbody m1.
  assert (E1b : -1074 <= e1) by (unfold fexp, emin in E1; lia).
  assert (F2 : e1 <= fexp 53 1024 (Zdigits2 m1 + e1)).
  { unfold fexp, emin. destruct K as [K|K]; [|lia]. pose proof (digits_ge m1 52 ltac:(lia) ltac:(lia)). lia. }
  pose proof (shr_fexp_exp m1 e1 loc_Exact ltac:(lia) F2) as B2.
  destruct (shr_fexp 53 1024 m1 e1 loc_Exact) as [r2 e2]. destruct B2 as (E2 & M2 & L2).
  destruct (shr_m r2) as [|p|p] eqn:Sp; [reflexivity| |reflexivity].
  destruct (Zle_bool e2 (1024 - 53)) eqn:Le; [|reflexivity].
  cbn [valid_binary]. unfold bounded. rewrite Le, andb_true_r. unfold canonical_mantissa. apply Zeq_is_eq_bool.
  change (Zpos (digits2_pos p)) with (Zdigits2 (Zpos p)). rewrite M2.
  destruct (Z.eq_dec m1 (2 ^ 53)) as [->|Nm].
  - assert (E2' : e2 = e1 + 1).
    { rewrite E2. change (Zdigits2 (2 ^ 53)) with 54. unfold fexp, emin. lia. }
    rewrite E2'. replace (e1 + 1 - e1) with 1 by lia. change (2 ^ 53 / 2 ^ 1) with (2 ^ 52). change (Zdigits2 (2 ^ 52)) with 53.
    unfold fexp, emin. lia.
  - assert (D1 : Zdigits2 m1 <= 53) by (apply digits_le; lia).
    assert (E2' : e2 = e1).
    { rewrite E2. unfold fexp, emin. destruct K as [K|K]; [|lia]. pose proof (digits_ge m1 52 ltac:(lia) ltac:(lia)). lia. }
    rewrite E2' in *. replace (e1 - e1) with 0 by lia. rewrite Z.div_1_r. symmetry. exact E2.
Qed.

Lemma normalize_valid m e s : valid_binary 53 1024 (binary_normalize 53 1024 m e s) = true.
Proof.
  assert (H : forall sx p, valid_binary 53 1024 (binary_round 53 1024 sx p e) = true).
  { intros sx p. unfold binary_round. set (f := fexp 53 1024 (Zpos (digits2_pos p) + e)). unfold shl_align.
    destruct (f - e) as [|n|n] eqn:E.
    - apply round_aux_valid; [lia|]. cbn [Zdigits2]. fold f. lia.
    - apply round_aux_valid; [lia|]. cbn [Zdigits2]. fold f. lia.
    - apply round_aux_valid; [lia|]. pose proof (digits2_pos_spec p) as G. rewrite shift_pos_val.
      assert (P2 : 0 < 2 ^ Zpos n) by (apply Z.pow_pos_nonneg; lia).
      rewrite (digits2_unique (Zpos p * 2 ^ Zpos n) (Zpos (digits2_pos p) + Zpos n)).
      + replace (Zpos (digits2_pos p) + Zpos n + f) with (Zpos (digits2_pos p) + e) by lia. fold f. lia.
      + apply Z.mul_pos_pos; lia.
      + replace (Zpos (digits2_pos p) + Zpos n - 1) with (Zpos (digits2_pos p) - 1 + Zpos n) by lia.
        rewrite !Z.pow_add_r by lia. nia. }
  destruct m; cbn [binary_normalize]; [reflexivity|apply H|apply H].
Qed.

Lemma div_valid a b : valid_binary 53 1024 (fdiv a b) = true.
Proof.
  destruct a as [s|s| |s m e], b as [s'|s'| |s' m' e']; try reflexivity. unfold fdiv, SFdiv.
  pose proof (div_core_nonneg (Zpos m) e (Zpos m') e' ltac:(lia) ltac:(lia)) as D.
  destruct (SFdiv_core_binary 53 1024 (Zpos m) e (Zpos m') e') as [[q x] l]. destruct D as (Q & X & Eq).
  apply round_aux_valid; [exact Q|].
  (** The quotient is at least 2^(d - d' - 1), so the exponent chosen was small enough. *)
  cbn [Zdigits2] in X. pose proof (digits2_pos_spec m) as G. pose proof (digits2_pos_spec m') as G'.
  set (d := Zpos (digits2_pos m)) in *. set (d' := Zpos (digits2_pos m')) in *.
  destruct (Z_le_gt_dec x (fexp 53 1024 (Zdigits2 q + x))) as [?|B]; [assumption|exfalso].
  set (k := d - d' - 1 + (e - e' - x)). assert (Dx : x <= fexp 53 1024 (d + e - (d' + e'))) by lia.
  unfold fexp, emin in Dx, B. assert (K : 52 <= k) by (unfold k; lia).
  assert (2 ^ k <= q).
  { rewrite Eq. apply Z.div_le_lower_bound; [lia|]. apply Z.le_trans with (2 ^ d' * 2 ^ k).
    - apply Z.mul_le_mono_nonneg_r; [apply Z.pow_nonneg; lia|lia].
    - rewrite <- Z.pow_add_r by lia. replace (d' + k) with (d - 1 + (e - e' - x)) by (unfold k; lia).
      rewrite Z.pow_add_r by lia. apply Z.mul_le_mono_nonneg_r; [apply Z.pow_nonneg; lia|apply G]. }
  pose proof (digits_ge q k ltac:(lia) ltac:(assumption)). lia.
Qed.
