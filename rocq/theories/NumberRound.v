(** Proofs about numbers as text: correct rounding of the value of a literal. *)
From Coq Require Import ZArith QArith Qabs Qpower List Bool Lia.
From Coq Require Import Floats.SpecFloat.
From Verif Require Import Base BaseFacts GoFloat RateSpec FloatFacts FloatFinite FloatRate NumberSpec.
Open Scope Z_scope.

Lemma inject_pos z : 0 < z -> (0 < inject_Z z)%Q.
Proof. intros H. change 0%Q with (inject_Z 0). rewrite <- Zlt_Qlt. exact H. Qed.
Lemma inject_neq z : 0 < z -> ~ (inject_Z z == 0)%Q.
Proof. intros H E. pose proof (inject_pos z H) as P. rewrite E in P. discriminate. Qed.

(** The rational that is rounded. *)
Definition scaled (num den ex : Z) : Q := (inject_Z num / inject_Z den * (2 # 1) ^ ex)%Q.

Lemma scaled_range mx num den ex d : 0 < den -> mx * den <= num < (mx + 1) * den ->
  2 ^ (d - 1) <= mx < 2 ^ d -> 1 <= d ->
  ((2 # 1) ^ (d - 1 + ex) <= scaled num den ex /\ scaled num den ex < (2 # 1) ^ (d + ex))%Q.
Proof.
  intros D N M Dd. unfold scaled. rewrite (pow2_add (d - 1) ex), (pow2_add d ex), <- (pow2_Q (d - 1)), <- (pow2_Q d) by lia. pose proof (inject_pos den D) as PD.
  pose proof (pow2_Qpos ex) as PE. split.
  - apply Qmult_le_compat_r; [|apply Qlt_le_weak, PE]. apply Qle_shift_div_l; [exact PD|].
    rewrite <- inject_Z_mult, <- Zle_Qle. nia.
  - apply Qmult_lt_compat_r; [exact PE|]. apply Qlt_shift_div_r; [exact PD|].
    rewrite <- inject_Z_mult, <- Zlt_Qlt. nia.
Qed.

(** Comparing powers of two. *)
Lemma pow2_lt_inv a b : ((2 # 1) ^ a < (2 # 1) ^ b)%Q -> a < b.
Proof.
  intros H. destruct (Z_lt_le_dec a b) as [?|L]; [assumption|exfalso].
  replace a with (b + (a - b)) in H by lia. rewrite pow2_add, <- (pow2_Q (a - b)) in H by lia.
  assert (1 <= 2 ^ (a - b)) by (pose proof (Z.pow_pos_nonneg 2 (a - b) ltac:(lia) ltac:(lia)); lia).
  apply (Qlt_not_le _ _ H). rewrite <- (Qmult_1_r ((2 # 1) ^ b)) at 1.
  rewrite !(Qmult_comm ((2 # 1) ^ b)). apply Qmult_le_compat_r; [|apply Qlt_le_weak, pow2_Qpos].
  change 1%Q with (inject_Z 1). rewrite <- Zle_Qle. assumption.
Qed.

Lemma round_aux_rounded sx mx ex lx d num den :
  0 < den -> inb (shr_record_of_loc mx lx) num den ->
  2 ^ (d - 1) <= mx < 2 ^ d -> 53 <= d -> -1000 <= d + ex <= 1000 ->
  rounded_to (binary_round_aux 53 1024 sx mx ex lx) sx (scaled num den ex).
Proof.
  intros D I M Dd R. destruct (round_aux_spec sx mx ex lx d num den D I M Dd R) as (m & e & E1 & E2 & E3 & E4 & E5).
  exists m, e. split; [exact E1|]. cbv zeta.
  assert (Sm : shr_m (shr_record_of_loc mx lx) = mx) by (destruct lx as [|[]]; reflexivity).
  pose proof (inb_range _ num den D I) as Rg. rewrite Sm in Rg.
  pose proof (inject_pos den D) as PD. pose proof (inject_neq den D) as ND. pose proof (pow2_Qpos ex) as PE.
  set (y := (inject_Z (Zpos m) * (2 # 1) ^ e)%Q).
  assert (Y : (y == inject_Z (Zpos m * 2 ^ (e - ex) * den) / inject_Z den * (2 # 1) ^ ex)%Q).
  { unfold y. replace e with ((e - ex) + ex) at 1 by lia. rewrite pow2_add, !inject_Z_mult, pow2_Q by lia. field. exact ND. }
  assert (Df : (y - scaled num den ex == inject_Z (Zpos m * 2 ^ (e - ex) * den - num) / inject_Z den * (2 # 1) ^ ex)%Q).
  { rewrite Y. unfold scaled, Z.sub at 2. rewrite inject_Z_plus, inject_Z_opp. field. exact ND. }
  split.
  - rewrite Df. unfold Qdiv. rewrite !Qabs_Qmult, (Qabs_pos ((2 # 1) ^ ex)) by (apply Qlt_le_weak, PE).
    rewrite (Qabs_pos (/ inject_Z den)) by (apply Qlt_le_weak, Qinv_lt_0_compat, PD).
    unfold scaled, Qdiv.
    setoid_replace (inject_Z num * / inject_Z den * (2 # 1) ^ ex * (1 # 2 ^ 53))%Q
      with (inject_Z num * (1 # 2 ^ 53) * / inject_Z den * (2 # 1) ^ ex)%Q by ring.
    apply Qmult_le_compat_r; [|apply Qlt_le_weak, PE].
    apply Qmult_le_compat_r; [|apply Qlt_le_weak, Qinv_lt_0_compat, PD].
    unfold Qle, Qmult, inject_Z. cbn [Qnum Qden Qabs]. change (Zpos (1 * 2 ^ 53)) with (2 ^ 53). lia.
  - intros n j Hn X.
    pose proof (scaled_range mx num den ex d D Rg M ltac:(lia)) as [L _]. rewrite X in L.
    assert (J : d - 53 <= j - ex).
    { assert (S : ((2 # 1) ^ (d - 1 + ex) < (2 # 1) ^ (53 + j))%Q).
      { eapply Qle_lt_trans; [exact L|]. rewrite pow2_add. apply Qmult_lt_compat_r; [apply pow2_Qpos|].
        rewrite <- (pow2_Q 53) by lia. rewrite <- Zlt_Qlt. lia. }
      apply pow2_lt_inv in S. lia. }
    assert (Nz : num = n * 2 ^ (j - ex) * den).
    { apply inject_Z_injective. rewrite !inject_Z_mult, pow2_Q by lia.
      assert (Ej : ((2 # 1) ^ j == (2 # 1) ^ (j - ex) * (2 # 1) ^ ex)%Q) by (rewrite <- pow2_add; replace (j - ex + ex) with j by lia; reflexivity).
      rewrite Ej in X. unfold scaled in X.
      assert (NE : ~ ((2 # 1) ^ ex == 0)%Q) by (intros Z0; rewrite Z0 in PE; discriminate).
      assert (X2 : (inject_Z num == scaled num den ex / (2 # 1) ^ ex * inject_Z den)%Q) by (unfold scaled; field; auto).
      rewrite X2. unfold scaled. rewrite X. field. exact NE. }
    specialize (E5 (n * 2 ^ (j - ex - (d - 53)))).
    assert (Q5 : 2 ^ (d - 53) * (n * 2 ^ (j - ex - (d - 53))) * den = num).
    { rewrite Nz. replace (j - ex) with ((d - 53) + (j - ex - (d - 53))) at 2 by lia. rewrite Z.pow_add_r by lia. ring. }
    specialize (E5 Q5). rewrite Y, E5. reflexivity.
Qed.

Lemma rounded_eq v neg x y : (x == y)%Q -> rounded_to v neg x -> rounded_to v neg y.
Proof.
  intros E (m & e & V & A & B). exists m, e. split; [exact V|]. cbv zeta in *. split.
  - rewrite <- E. exact A.
  - intros n j N X. rewrite <- E. apply (B n j N). rewrite E. exact X.
Qed.

(** Integers. *)
Lemma round_int neg p : ((2 # 1) ^ (-999) <= inject_Z (Zpos p) <= (2 # 1) ^ 999)%Q ->
  rounded_to (binary_normalize 53 1024 (if neg : bool then - Zpos p else Zpos p) 0 false) neg (inject_Z (Zpos p)).
Proof.
  intros [_ Hi]. replace (binary_normalize 53 1024 (if neg then - Zpos p else Zpos p) 0 false) with (binary_round 53 1024 neg p 0)
    by (destruct neg; reflexivity).
  unfold binary_round. pose proof (digits2_pos_spec p) as G. set (d := Zpos (digits2_pos p)) in *.
  assert (D : 0 < d) by (unfold d; lia).
  assert (D1 : d <= 1000).
  { assert ((2 # 1) ^ (d - 1) < (2 # 1) ^ 1000)%Q.
    { rewrite <- (pow2_Q (d - 1)) by lia. apply Qle_lt_trans with (inject_Z (Zpos p)); [rewrite <- Zle_Qle; lia|].
      eapply Qle_lt_trans; [exact Hi|]. reflexivity. }
    apply pow2_lt_inv in H. lia. }
  replace (fexp 53 1024 (d + 0)) with (d - 53) by (unfold fexp, emin; lia).
  rewrite (shl_align_spec p d D eq_refl). destruct (d - 53 <? 0) eqn:F.
  - apply Z.ltb_lt in F. set (mz := shift_pos (Z.to_pos (53 - d)) p).
    assert (Em : Zpos mz = Zpos p * 2 ^ (53 - d)) by (unfold mz; rewrite shift_pos_val; f_equal; f_equal; lia).
    pose proof (pow2_pos (53 - d) ltac:(lia)) as P0.
    apply rounded_eq with (scaled (Zpos mz) 1 (d - 53)).
    { unfold scaled. rewrite Em, inject_Z_mult, pow2_Q by lia. unfold Qdiv. change (/ inject_Z 1)%Q with 1%Q.
      rewrite Qmult_1_r, <- Qmult_assoc, <- pow2_add. replace (53 - d + (d - 53)) with 0 by lia. cbn [Qpower]. apply Qmult_1_r. }
    apply round_aux_rounded with 53; [lia|apply inb_exact; lia| |lia|lia]. rewrite Em. split.
    + replace (2 ^ (53 - 1)) with (2 ^ (d - 1) * 2 ^ (53 - d)) by (rewrite <- Z.pow_add_r by lia; f_equal; lia). nia.
    + replace (2 ^ 53) with (2 ^ d * 2 ^ (53 - d)) by (rewrite <- Z.pow_add_r by lia; f_equal; lia). nia.
  - apply Z.ltb_ge in F. apply rounded_eq with (scaled (Zpos p) 1 0).
    { unfold scaled. cbn [Qpower]. unfold Qdiv. change (/ inject_Z 1)%Q with 1%Q. ring. }
    apply round_aux_rounded with d; [lia|apply inb_exact; lia|exact G|lia|lia].
Qed.

(** Quotients. *)
Lemma round_quotient_exp neg m1 e1 m2 e2 : 2 <= Zpos m2 ->
  ((2 # 1) ^ (-999) <= scaled (Zpos m1) (Zpos m2) (e1 - e2) <= (2 # 1) ^ 999)%Q ->
  rounded_to (SFdiv 53 1024 (S754_finite neg m1 e1) (S754_finite false m2 e2)) neg (scaled (Zpos m1) (Zpos m2) (e1 - e2)).
Proof.
  intros M2 [Lo Hi]. unfold SFdiv, SFdiv_core_binary. rewrite xorb_false_r. cbn [Zdigits2].
  pose proof (digits2_pos_spec m1) as G1. pose proof (digits2_pos_spec m2) as G2.
  set (d1 := Zpos (digits2_pos m1)) in *. set (d2 := Zpos (digits2_pos m2)) in *.
  assert (0 < d1 /\ 0 < d2) as [P1 P2] by (unfold d1, d2; lia).
  pose proof (inject_pos (Zpos m2) ltac:(lia)) as I2. pose proof (pow2_Qpos (e1 - e2)) as PE.
  (* the quotient is between 2^(d1-d2-1) and 2^(d1-d2+1) *)
  assert (B1 : ((2 # 1) ^ (d1 - d2 - 1) <= inject_Z (Zpos m1) / inject_Z (Zpos m2))%Q).
  { apply Qle_shift_div_l; [exact I2|]. apply Qle_trans with ((2 # 1) ^ (d1 - d2 - 1) * (2 # 1) ^ d2)%Q.
    - rewrite !(Qmult_comm ((2 # 1) ^ (d1 - d2 - 1))). apply Qmult_le_compat_r; [|apply Qlt_le_weak, pow2_Qpos].
      rewrite <- pow2_Q by lia. rewrite <- Zle_Qle. lia.
    - rewrite <- pow2_add. replace (d1 - d2 - 1 + d2) with (d1 - 1) by lia. rewrite <- pow2_Q by lia. rewrite <- Zle_Qle. lia. }
  assert (B2 : (inject_Z (Zpos m1) / inject_Z (Zpos m2) < (2 # 1) ^ (d1 - d2 + 1))%Q).
  { apply Qlt_shift_div_r; [exact I2|]. apply Qlt_le_trans with ((2 # 1) ^ (d1 - d2 + 1) * (2 # 1) ^ (d2 - 1))%Q.
    - rewrite <- pow2_add. replace (d1 - d2 + 1 + (d2 - 1)) with d1 by lia. rewrite <- pow2_Q by lia. rewrite <- Zlt_Qlt. lia.
    - rewrite !(Qmult_comm ((2 # 1) ^ (d1 - d2 + 1))). apply Qmult_le_compat_r; [|apply Qlt_le_weak, pow2_Qpos].
      rewrite <- pow2_Q by lia. rewrite <- Zle_Qle. lia. }
  assert (K1 : d1 - d2 - 1 + (e1 - e2) < 1000).
  { apply pow2_lt_inv. rewrite pow2_add. eapply Qle_lt_trans; [apply Qmult_le_compat_r; [exact B1|apply Qlt_le_weak, PE]|].
    eapply Qle_lt_trans; [exact Hi|]. reflexivity. }
  assert (K2 : -999 < d1 - d2 + 1 + (e1 - e2)).
  { apply pow2_lt_inv. rewrite (pow2_add (d1 - d2 + 1)). eapply Qle_lt_trans; [exact Lo|]. apply Qmult_lt_compat_r; [exact PE|exact B2]. }
  set (ex := Z.min (fexp 53 1024 (d1 + e1 - (d2 + e2))) (e1 - e2)).
  assert (Ex : ex = Z.min (d1 - d2 + (e1 - e2) - 53) (e1 - e2)) by (unfold ex, fexp, emin; lia).
  set (s := e1 - e2 - ex). assert (S0 : 0 <= s) by lia.
  assert (Sh : (match s with Zpos _ => Z.shiftl (Zpos m1) s | Z0 => Zpos m1 | Zneg _ => Z0 end) = Zpos m1 * 2 ^ s).
  { destruct s as [|q|q] eqn:Es; [cbn; lia| |lia]. apply Z.shiftl_mul_pow2. lia. }
  rewrite Sh. pose proof (Z_div_mod (Zpos m1 * 2 ^ s) (Zpos m2) ltac:(lia)) as DM.
  destruct (Z.div_eucl (Zpos m1 * 2 ^ s) (Zpos m2)) as [q r]. destruct DM as [Eq Rr].
  pose proof (pow2_pos s S0) as Ps.
  set (k := d1 + s - d2). assert (K53 : 53 <= k) by (unfold k, s; lia).
  assert (Qlo : 2 ^ (k - 1) <= q).
  { assert (2 ^ (k - 1) * Zpos m2 < (q + 1) * Zpos m2).
    { assert (2 ^ (k - 1) * Zpos m2 < 2 ^ (k - 1) * 2 ^ d2) by (apply Z.mul_lt_mono_pos_l; [apply pow2_pos; lia|lia]).
      replace (2 ^ (k - 1) * 2 ^ d2) with (2 ^ (d1 - 1) * 2 ^ s) in H by (rewrite <- !Z.pow_add_r by lia; f_equal; unfold k; lia). nia. }
    apply Z.mul_lt_mono_pos_r in H; lia. }
  assert (Qhi : q < 2 ^ (k + 1)).
  { assert (q * Zpos m2 < 2 ^ (k + 1) * Zpos m2).
    { assert (2 ^ (k + 1) * 2 ^ (d2 - 1) <= 2 ^ (k + 1) * Zpos m2) by (apply Z.mul_le_mono_nonneg_l; [apply Z.lt_le_incl, pow2_pos; lia|lia]).
      replace (2 ^ (k + 1) * 2 ^ (d2 - 1)) with (2 ^ d1 * 2 ^ s) in H by (rewrite <- !Z.pow_add_r by lia; f_equal; unfold k; lia). nia. }
    apply Z.mul_lt_mono_pos_r in H; lia. }
  assert (Dq : exists d, 53 <= d /\ k <= d <= k + 1 /\ 2 ^ (d - 1) <= q < 2 ^ d).
  { destruct (Z_lt_le_dec q (2 ^ k)); [exists k|exists (k + 1)]; (split; [lia|]); (split; [lia|]); (split; [|lia]); [exact Qlo|].
    replace (k + 1 - 1) with k by lia. assumption. }
  destruct Dq as (d & D53 & Dk & Dq).
  assert (Es : (scaled (Zpos m1 * 2 ^ s) (Zpos m2) ex == scaled (Zpos m1) (Zpos m2) (e1 - e2))%Q).
  { unfold scaled. rewrite inject_Z_mult, pow2_Q by lia. unfold Qdiv.
    setoid_replace (inject_Z (Zpos m1) * (2 # 1) ^ s * / inject_Z (Zpos m2) * (2 # 1) ^ ex)%Q
      with (inject_Z (Zpos m1) * / inject_Z (Zpos m2) * ((2 # 1) ^ s * (2 # 1) ^ ex))%Q by ring.
    rewrite <- pow2_add. replace (s + ex) with (e1 - e2) by lia. reflexivity. }
  apply rounded_eq with (scaled (Zpos m1 * 2 ^ s) (Zpos m2) ex); [exact Es|].
  assert (N : inb (shr_record_of_loc q (new_location (Zpos m2) r)) (Zpos m1 * 2 ^ s) (Zpos m2)).
  { rewrite Eq, (Z.mul_comm (Zpos m2)). apply new_location_spec; lia. }
  assert (Rg : -1000 <= d + ex <= 1000).
  { pose proof (inb_range _ _ _ (Pos2Z.is_pos m2) N) as Ib.
    assert (Sm : shr_m (shr_record_of_loc q (new_location (Zpos m2) r)) = q) by (destruct (new_location (Zpos m2) r) as [|[]]; reflexivity).
    rewrite Sm in Ib.
    destruct (scaled_range q _ _ ex d (Pos2Z.is_pos m2) Ib Dq ltac:(lia)) as [L1 L2]. rewrite Es in L1, L2.
    assert (d - 1 + ex < 1000) by (apply pow2_lt_inv; eapply Qle_lt_trans; [exact L1|]; eapply Qle_lt_trans; [exact Hi|]; reflexivity).
    assert (-999 < d + ex) by (apply pow2_lt_inv; eapply Qle_lt_trans; [exact Lo|exact L2]). lia. }
  destruct q as [|qp|qp].
  - pose proof (pow2_pos (d - 1) ltac:(lia)). lia.
  - apply round_aux_rounded with d; [lia|exact N|exact Dq|exact D53|exact Rg].
  - pose proof (pow2_pos (d - 1) ltac:(lia)). lia.
Qed.

Lemma scaled_0 a b : (scaled a b 0 == inject_Z a / inject_Z b)%Q.
Proof. unfold scaled. cbn [Qpower]. apply Qmult_1_r. Qed.

Lemma round_quotient neg m1 m2 : 2 <= Zpos m2 ->
  ((2 # 1) ^ (-999) <= inject_Z (Zpos m1) / inject_Z (Zpos m2) <= (2 # 1) ^ 999)%Q ->
  rounded_to (SFdiv 53 1024 (S754_finite neg m1 0) (S754_finite false m2 0)) neg (inject_Z (Zpos m1) / inject_Z (Zpos m2)).
Proof.
  intros M R. eapply rounded_eq; [apply scaled_0|]. change 0 with (0 - 0) at 3. apply round_quotient_exp; [exact M|].
  rewrite scaled_0. exact R.
Qed.

(** Products with a number of 53 bits. *)
Lemma round_product neg m1 e1 m2 e2 : 2 ^ 52 <= Zpos m2 ->
  ((2 # 1) ^ (-999) <= scaled (Zpos m1 * Zpos m2) 1 (e1 + e2) <= (2 # 1) ^ 999)%Q ->
  rounded_to (SFmul 53 1024 (S754_finite neg m1 e1) (S754_finite false m2 e2)) neg (scaled (Zpos m1 * Zpos m2) 1 (e1 + e2)).
Proof.
  intros M2 [Lo Hi]. unfold SFmul. rewrite xorb_false_r.
  change (Zpos m1 * Zpos m2) with (Zpos (m1 * m2)) in *.
  pose proof (digits2_pos_spec (m1 * m2)) as G. set (d := Zpos (digits2_pos (m1 * m2))) in *.
  assert (D : 53 <= d).
  { destruct (Z_le_gt_dec 53 d) as [?|L]; [assumption|exfalso]. assert (2 ^ d <= 2 ^ 52) by (apply Z.pow_le_mono_r; lia).
    rewrite Pos2Z.inj_mul in G. nia. }
  assert (I : inb (shr_record_of_loc (Zpos (m1 * m2)) loc_Exact) (Zpos (m1 * m2)) 1) by (apply inb_exact; lia).
  destruct (scaled_range (Zpos (m1 * m2)) (Zpos (m1 * m2)) 1 (e1 + e2) d ltac:(lia) ltac:(lia) G ltac:(lia)) as [L1 L2].
  apply round_aux_rounded with d; [lia|exact I|exact G|exact D|].
  assert (d - 1 + (e1 + e2) < 1000) by (apply pow2_lt_inv; eapply Qle_lt_trans; [exact L1|]; eapply Qle_lt_trans; [exact Hi|]; reflexivity).
  assert (-999 < d + (e1 + e2)) by (apply pow2_lt_inv; eapply Qle_lt_trans; [exact Lo|exact L2]). lia.
Qed.

(** Literals. *)
Lemma round_scaled_rounded neg n x base : 0 < n -> 2 <= base ->
  ((2 # 1) ^ (-999) <= inject_Z n * inject_Z base ^ x <= (2 # 1) ^ 999)%Q ->
  rounded_to (round_scaled neg n x base) neg (inject_Z n * inject_Z base ^ x).
Proof.
  intros N B R. destruct n as [|m|m]; try lia. unfold round_scaled.
  destruct (0 <=? x) eqn:C; [apply Z.leb_le in C|apply Z.leb_gt in C].
  - rewrite Z.abs_eq by lia. assert (E : (inject_Z (Zpos m) * inject_Z base ^ x == inject_Z (Zpos m * base ^ x))%Q)
      by (rewrite inject_Z_mult, Zpower_Qpower by lia; reflexivity).
    pose proof (Z.pow_pos_nonneg base x ltac:(lia) C) as P. destruct (base ^ x) as [|p|p] eqn:Ep; try lia.
    change (Zpos m * Zpos p) with (Zpos (m * p)) in *. eapply rounded_eq; [symmetry; exact E|]. apply round_int. rewrite <- E. exact R.
  - pose proof (Z.pow_gt_lin_r base (Z.abs x) ltac:(lia) ltac:(lia)) as P.
    assert (E : (inject_Z base ^ x == / inject_Z (base ^ Z.abs x))%Q).
    { rewrite Zpower_Qpower by lia. replace x with (- Z.abs x) at 1 by lia. apply Qpower_opp. }
    destruct (base ^ Z.abs x) as [|p|p] eqn:Ep; try lia.
    apply rounded_eq with (inject_Z (Zpos m) / inject_Z (Zpos p))%Q; [rewrite E; reflexivity|].
    apply round_quotient; [lia|]. unfold Qdiv. rewrite <- E. exact R.
Qed.

(** ** Thousands *)

Lemma f_1000 : f_of_int 1000 = S754_finite false 8796093022208000 (-43).
Proof. reflexivity. Qed.

Lemma thousand : (inject_Z 8796093022208000 * (2 # 1) ^ (-43) == 1000 # 1)%Q.
Proof. reflexivity. Qed.

(** Two roundings in a row. *)
Lemma two_roundings x y z : (0 <= x)%Q -> (Qabs (y - x) <= x * (1 # 2 ^ 53))%Q -> (Qabs (z - y) <= y * (1 # 2 ^ 53))%Q ->
  (Qabs (z - x) <= x * (1 # 2 ^ 51))%Q.
Proof.
  intros X Y Z.
  apply Qabs_Qle_condition in Y. apply Qabs_Qle_condition in Z. apply Qabs_Qle_condition.
  destruct Y as [Y1 Y2]. destruct Z as [Z1 Z2].
  assert (Y3 : (y <= x * (2 # 1))%Q).
  { apply Qle_trans with (x + x * (1 # 2 ^ 53))%Q; [|].
    - setoid_replace y with (x + (y - x))%Q by ring. apply Qplus_le_r. exact Y2.
    - setoid_replace (x * (2 # 1))%Q with (x + x * 1)%Q by ring. apply Qplus_le_r.
      rewrite !(Qmult_comm x). apply Qmult_le_compat_r; [discriminate|exact X]. }
  assert (Y4 : (y * (1 # 2 ^ 53) <= x * (2 # 2 ^ 53))%Q).
  { setoid_replace (x * (2 # 2 ^ 53))%Q with (x * (2 # 1) * (1 # 2 ^ 53))%Q by (rewrite <- Qmult_assoc; reflexivity).
    apply Qmult_le_compat_r; [exact Y3|discriminate]. }
  assert (S : (x * (1 # 2 ^ 53) + x * (2 # 2 ^ 53) <= x * (1 # 2 ^ 51))%Q).
  { rewrite <- Qmult_plus_distr_r, !(Qmult_comm x). apply Qmult_le_compat_r; [discriminate|exact X]. }
  split.
  - setoid_replace (z - x)%Q with ((z - y) + (y - x))%Q by ring.
    apply Qle_trans with (- (x * (2 # 2 ^ 53)) + - (x * (1 # 2 ^ 53)))%Q.
    + setoid_replace (- (x * (2 # 2 ^ 53)) + - (x * (1 # 2 ^ 53)))%Q with (- (x * (1 # 2 ^ 53) + x * (2 # 2 ^ 53)))%Q by ring.
      apply Qopp_le_compat, S.
    + apply Qplus_le_compat; [|exact Y1]. eapply Qle_trans; [|exact Z1]. apply Qopp_le_compat, Y4.
  - setoid_replace (z - x)%Q with ((z - y) + (y - x))%Q by ring.
    apply Qle_trans with (x * (2 # 2 ^ 53) + x * (1 # 2 ^ 53))%Q; [apply Qplus_le_compat; [|exact Y2]; eapply Qle_trans; [exact Z2|exact Y4]|].
    rewrite Qplus_comm. exact S.
Qed.

(** The value of a number that was read, divided by 1000. *)
Lemma thousandth v neg x : rounded_to v neg x -> ((2 # 1) ^ (-900) <= x <= (2 # 1) ^ 900)%Q ->
  exists m e, fdiv v (f_of_int 1000) = S754_finite neg m e /\
    (Qabs (inject_Z (Zpos m) * (2 # 1) ^ e - x / (1000 # 1)) <= x / (1000 # 1) * (1 # 2 ^ 51))%Q.
Proof.
  intros (m & e & -> & A & _) [Lo Hi]. cbv zeta in A. rewrite f_1000. unfold fdiv.
  set (y := (inject_Z (Zpos m) * (2 # 1) ^ e)%Q) in *.
  assert (P2 : forall a, (0 < (2 # 1) ^ a)%Q) by apply pow2_Qpos.
  assert (X0 : (0 < x)%Q) by (eapply Qlt_le_trans; [apply P2|exact Lo]).
  assert (Es : (scaled (Zpos m) 8796093022208000 (e - -43) == y / (1000 # 1))%Q).
  { unfold scaled, y. unfold Z.sub. rewrite pow2_add. change (- -43) with 43.
    setoid_replace (1000 # 1)%Q with (inject_Z 8796093022208000 * (2 # 1) ^ (-43))%Q by (symmetry; exact thousand).
    change ((2 # 1) ^ 43)%Q with (inject_Z (2 ^ 43)). change ((2 # 1) ^ (-43))%Q with (/ inject_Z (2 ^ 43))%Q. field; repeat split; discriminate. }
  assert (Y : (x / (2 # 1) <= y <= x * (2 # 1))%Q).
  { apply Qabs_Qle_condition in A. destruct A as [A1 A2].
    assert (H1 : (x * (1 # 2 ^ 53) <= x / (2 # 1))%Q) by (unfold Qdiv; rewrite !(Qmult_comm x); apply Qmult_le_compat_r; [discriminate|apply Qlt_le_weak, X0]).
    assert (H2 : (x * (1 # 2 ^ 53) <= x)%Q) by (rewrite <- (Qmult_1_r x) at 2; rewrite !(Qmult_comm x); apply Qmult_le_compat_r; [discriminate|apply Qlt_le_weak, X0]).
    split.
    - setoid_replace y with (x + (y - x))%Q by ring. setoid_replace (x / (2 # 1))%Q with (x + - (x / (2 # 1)))%Q by field.
      apply Qplus_le_r. eapply Qle_trans; [|exact A1]. apply Qopp_le_compat, H1.
    - setoid_replace y with (x + (y - x))%Q by ring. setoid_replace (x * (2 # 1))%Q with (x + x)%Q by ring. apply Qplus_le_r.
      eapply Qle_trans; [exact A2|exact H2]. }
  destruct Y as [Y1 Y2].
  destruct (round_quotient_exp neg m e 8796093022208000 (-43)) as (m' & e' & E & B & _).
  - lia.
  - rewrite Es. split.
    + apply Qle_trans with (((2 # 1) ^ (-900) / (2 # 1)) / (1000 # 1))%Q.
      * vm_compute. discriminate.
      * unfold Qdiv. apply Qmult_le_compat_r; [|discriminate]. eapply Qle_trans; [|exact Y1]. apply Qmult_le_compat_r; [exact Lo|discriminate].
    + apply Qle_trans with (((2 # 1) ^ 900 * (2 # 1)) / (1000 # 1))%Q.
      * unfold Qdiv. apply Qmult_le_compat_r; [|discriminate]. eapply Qle_trans; [exact Y2|]. apply Qmult_le_compat_r; [exact Hi|discriminate].
      * vm_compute. discriminate.
  - exists m', e'. split; [exact E|]. cbv zeta in B. rewrite Es in B. apply two_roundings with (y / (1000 # 1))%Q.
    + unfold Qdiv. rewrite <- (Qmult_0_l (/ (1000 # 1))). apply Qmult_le_compat_r; [apply Qlt_le_weak, X0|discriminate].
    + setoid_replace (y / (1000 # 1) - x / (1000 # 1))%Q with ((y - x) / (1000 # 1))%Q by field.
      unfold Qdiv. rewrite Qabs_Qmult. setoid_replace (x * / (1000 # 1) * (1 # 2 ^ 53))%Q with (x * (1 # 2 ^ 53) * / (1000 # 1))%Q by ring.
      apply Qmult_le_compat_r; [exact A|discriminate].
    + exact B.
Qed.

(** A rate times 1000. *)
Lemma thousandfold v q : f_value v = Some q -> ((2 # 1) ^ (-900) <= q <= (2 # 1) ^ 900)%Q ->
  exists y, f_value (fmul v (f_of_int 1000)) = Some y /\ (0 <= y)%Q /\ (Qabs (y - (1000 # 1) * q) <= (1000 # 1) * q * (1 # 2 ^ 53))%Q /\
    negative (fmul v (f_of_int 1000)) = false.
Proof.
  intros V [Lo Hi]. assert (Q0 : (0 < q)%Q) by (eapply Qlt_le_trans; [apply pow2_Qpos|exact Lo]).
  destruct v as [s|s| |s m e]; try discriminate; cbn [f_value] in V; injection V as <-; [discriminate Q0|].
  destruct s.
  { exfalso. apply (Qlt_not_le _ _ Q0). setoid_replace ((-1 # 1) * inject_Z (Zpos m) * (2 # 1) ^ e)%Q with (- (inject_Z (Zpos m) * (2 # 1) ^ e))%Q by ring.
    change 0%Q with (- 0)%Q. apply Qopp_le_compat. apply Qlt_le_weak. apply (qval_pos m e). }
  rewrite f_1000. unfold fmul.
  set (q := (1 * inject_Z (Zpos m) * (2 # 1) ^ e)%Q) in *.
  assert (Es : (scaled (Zpos m * 8796093022208000) 1 (e + -43) == (1000 # 1) * q)%Q).
  { unfold scaled, q. rewrite pow2_add, inject_Z_mult. setoid_replace (1000 # 1)%Q with (inject_Z 8796093022208000 * (2 # 1) ^ (-43))%Q by (symmetry; exact thousand).
    unfold Qdiv. change (/ inject_Z 1)%Q with 1%Q. ring. }
  destruct (round_product false m e 8796093022208000 (-43)) as (m' & e' & E & B & _).
  - cbn. lia.
  - rewrite Es. split.
    + apply Qle_trans with ((1000 # 1) * (2 # 1) ^ (-900))%Q; [vm_compute; discriminate|].
      rewrite !(Qmult_comm (1000 # 1)). apply Qmult_le_compat_r; [exact Lo|discriminate].
    + apply Qle_trans with ((1000 # 1) * (2 # 1) ^ 900)%Q; [|vm_compute; discriminate].
      rewrite !(Qmult_comm (1000 # 1)). apply Qmult_le_compat_r; [exact Hi|discriminate].
  - change (Zpos m * Zpos 8796093022208000) with (Zpos m * 8796093022208000) in B. cbv zeta in B. rewrite Es in B.
    exists (1 * inject_Z (Zpos m') * (2 # 1) ^ e')%Q. rewrite E. split; [reflexivity|].
    assert (E1 : (1 * inject_Z (Zpos m') * (2 # 1) ^ e' == inject_Z (Zpos m') * (2 # 1) ^ e')%Q) by ring.
    rewrite E1. split; [apply Qlt_le_weak, (qval_pos m' e')|]. split; [exact B|reflexivity].
Qed.
