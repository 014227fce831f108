(** When float64 operations overflow, and what ParseFloat returns. *)
From Coq Require Import String ZArith List Bool Lia.
From Coq Require Import Floats.SpecFloat.
From Verif Require Import Base BaseFacts GoFloat FloatFacts.
Import ListNotations.
Open Scope Z_scope.

Lemma digits_le m k : 0 <= m < 2 ^ k -> 0 <= k -> Zdigits2 m <= k.
Proof.
  intros H K. destruct m as [|p|p]; cbn [Zdigits2]; [exact K| |lia].
  pose proof (digits2_pos_spec p) as G. destruct (Z_le_gt_dec (Zpos (digits2_pos p)) k) as [L|L]; [exact L|exfalso].
  assert (2 ^ k <= 2 ^ (Zpos (digits2_pos p) - 1)) by (apply Z.pow_le_mono_r; lia). lia.
Qed.

Lemma digits_ub m : 0 <= m -> m < 2 ^ Zdigits2 m /\ 0 <= Zdigits2 m.
Proof.
  intros H. destruct m as [|p|p]; cbn [Zdigits2]; [lia| |lia]. pose proof (digits2_pos_spec p). lia.
Qed.

Lemma shr_1_m x : 0 <= shr_m x -> shr_m (shr_1 x) = shr_m x / 2.
Proof.
  intros P. destruct x as [m r s]. cbn [shr_m] in *.
  destruct m as [|[p|p|]|p]; cbn [shr_1]; cbn [shr_m]; try reflexivity; [| |lia].
  - rewrite Pos2Z.inj_xI. apply Z.div_unique with 1; lia.
  - rewrite Pos2Z.inj_xO. apply Z.div_unique with 0; lia.
Qed.

Lemma iter_m n x : 0 <= shr_m x -> shr_m (Nat.iter n shr_1 x) = shr_m x / 2 ^ Z.of_nat n.
Proof.
  intros P. induction n as [|n IH].
  - cbn. rewrite Z.div_1_r. reflexivity.
  - cbn [Nat.iter nat_rect]. change (nat_rect _ x (fun _ => shr_1) n) with (Nat.iter n shr_1 x).
    rewrite shr_1_m, IH.
    + rewrite Z.div_div by (try apply Z.pow_nonzero; lia). f_equal. rewrite Nat2Z.inj_succ, Z.pow_succ_r by lia. lia.
    + rewrite IH. apply Z.div_pos; [exact P|apply Z.pow_pos_nonneg; lia].
Qed.

Lemma shr_fexp_bounds m e l : 0 <= m ->
  let '(r, e') := shr_fexp 53 1024 m e l in
  0 <= shr_m r /\ Zdigits2 (shr_m r) <= 53 /\
  e' <= Z.max e (fexp 53 1024 (Zdigits2 m + e)) /\
  Zdigits2 (shr_m r) + e' <= Z.max (Zdigits2 m + e) e'.
Proof.
  intros H. unfold shr_fexp. destruct (digits_ub m H) as [U D]. set (d := Zdigits2 m) in *.
  assert (Sm : shr_m (shr_record_of_loc m l) = m) by (destruct l as [|[]]; reflexivity).
  set (n := fexp 53 1024 (d + e) - e). assert (N : n = Z.max (d + e - 53) (-1074) - e) by (unfold n, fexp, emin; lia).
  destruct n as [|p|p] eqn:En; cbn [shr].
  1,3: rewrite Sm; fold d; unfold fexp, emin; lia.
  rewrite iter_pos_iter, iter_m, Sm by (rewrite Sm; exact H). rewrite positive_nat_Z.
  assert (Pp : 0 < 2 ^ Zpos p) by (apply Z.pow_pos_nonneg; lia).
  assert (Q : 0 <= m / 2 ^ Zpos p) by (apply Z.div_pos; lia).
  assert (X : Zdigits2 (m / 2 ^ Zpos p) <= Z.max 0 (d - Zpos p)).
  { apply digits_le; [|lia]. split; [exact Q|]. apply Z.div_lt_upper_bound; [exact Pp|]. rewrite <- Z.pow_add_r by lia.
    eapply Z.lt_le_trans; [exact U|]. apply Z.pow_le_mono_r; lia. }
  split; [exact Q|]. unfold fexp, emin. lia.
Qed.

(** Rounding never gives NaN, gives at most 53 digits, and overflows only on large values. *)
Lemma round_aux_class sx mx ex lx : 0 <= mx ->
  match binary_round_aux 53 1024 sx mx ex lx with
  | S754_nan => False
  | S754_finite _ m e => Zpos (digits2_pos m) <= 53 /\ e <= 971
  | S754_infinity _ => 1020 < Zdigits2 mx + ex \/ 965 < ex
  | S754_zero _ => True
  end.
Proof.
  intros H. unfold binary_round_aux. pose proof (shr_fexp_bounds mx ex lx H) as B1.
  destruct (shr_fexp 53 1024 mx ex lx) as [r1 e1]. destruct B1 as (P1 & D1 & E1 & S1).
  set (m1 := round_nearest_even (shr_m r1) (loc_of_shr_record r1)).
  assert (M1 : shr_m r1 <= m1 <= shr_m r1 + 1).
  { unfold m1, round_nearest_even. destruct (loc_of_shr_record r1) as [|[]]; try destruct (Z.even (shr_m r1)); lia. }
  assert (P2 : 0 <= m1) by lia.
  assert (D2 : Zdigits2 m1 <= Zdigits2 (shr_m r1) + 1).
  { destruct (digits_ub (shr_m r1) P1) as [U D]. apply digits_le; [|lia]. split; [exact P2|].
    rewrite Z.pow_add_r by lia. change (2 ^ 1) with 2. lia. }
  pose proof (shr_fexp_bounds m1 e1 loc_Exact P2) as B2. cbv iota beta.
  destruct (shr_fexp 53 1024 m1 e1 loc_Exact) as [r2 e2]. destruct B2 as (P3 & D3 & E2 & S2).
  destruct (shr_m r2) as [|p|p]; [exact I| |lia].
  destruct (Zle_bool e2 (1024 - 53)) eqn:L.
  - apply Z.leb_le in L. split; [exact D3|lia].
  - apply Z.leb_gt in L. destruct (digits_ub mx H) as [_ D]. unfold fexp, emin in *. lia.
Qed.

(** Numbers no larger than the largest float64. *)
Definition small (x : f64) : Prop :=
  match x with S754_finite _ m e => Zpos (digits2_pos m) <= 53 /\ e <= 971 | _ => True end.

Lemma small_normalize m e s : small (binary_normalize 53 1024 m e s).
Proof.
  assert (H : forall sx p, small (binary_round 53 1024 sx p e)).
  { intros sx p. unfold binary_round. destruct (shl_align p e _) as [mz ez]. pose proof (round_aux_class sx (Zpos mz) ez loc_Exact ltac:(lia)) as C.
    destruct (binary_round_aux 53 1024 sx (Zpos mz) ez loc_Exact); cbn in *; tauto. }
  destruct m; cbn [binary_normalize]; [exact I|apply H|apply H].
Qed.

Lemma div_core_nonneg m1 e1 m2 e2 : 0 < m2 -> 0 <= m1 ->
  let '(q, e, l) := SFdiv_core_binary 53 1024 m1 e1 m2 e2 in
  0 <= q /\ e = Z.min (fexp 53 1024 (Zdigits2 m1 + e1 - (Zdigits2 m2 + e2))) (e1 - e2) /\
  q = m1 * 2 ^ (e1 - e2 - e) / m2.
Proof.
  intros P1 P2. unfold SFdiv_core_binary. set (e := Z.min _ (e1 - e2)).
  assert (S : (match e1 - e2 - e with Zpos _ => Z.shiftl m1 (e1 - e2 - e) | Z0 => m1 | Zneg _ => Z0 end) = m1 * 2 ^ (e1 - e2 - e)).
  { destruct (e1 - e2 - e) as [|p|p] eqn:E; [cbn; lia|apply Z.shiftl_mul_pow2; lia|lia]. }
  rewrite S. set (n := m1 * 2 ^ (e1 - e2 - e)).
  destruct (Z.div_eucl n m2) as [q r] eqn:DE.
  assert (E : q = n / m2) by (unfold Z.div; rewrite DE; reflexivity).
  split; [|split; [reflexivity|exact E]]. rewrite E. apply Z.div_pos; [|lia]. unfold n.
  apply Z.mul_nonneg_nonneg; [exact P2|]. apply Z.pow_nonneg. lia.
Qed.

Lemma small_div s1 m1 e1 s2 m2 e2 : small (SFdiv 53 1024 (S754_finite s1 m1 e1) (S754_finite s2 m2 e2)).
Proof.
  unfold SFdiv. pose proof (div_core_nonneg (Zpos m1) e1 (Zpos m2) e2 ltac:(lia) ltac:(lia)) as D.
  destruct (SFdiv_core_binary 53 1024 (Zpos m1) e1 (Zpos m2) e2) as [[q e] l]. destruct D as (Q & _ & _).
  pose proof (round_aux_class (xorb s1 s2) q e l Q) as C.
  destruct (binary_round_aux 53 1024 (xorb s1 s2) q e l); cbn in *; tauto.
Qed.

Lemma f_of_int_1000 : f_of_int 1000 = S754_finite false 8796093022208000 (-43).
Proof. reflexivity. Qed.

(** Dividing a finite number by 1000 gives a finite number. *)
Lemma div_1000_finite x : small x -> f_finite x = true -> f_finite (fdiv x (f_of_int 1000)) = true.
Proof.
  intros S H. rewrite f_of_int_1000. destruct x as [s|s| |s m e]; try discriminate; [reflexivity|].
  destruct S as [D E]. unfold fdiv, SFdiv.
  pose proof (div_core_nonneg (Zpos m) e 8796093022208000 (-43) ltac:(lia) ltac:(lia)) as C.
  destruct (SFdiv_core_binary 53 1024 (Zpos m) e 8796093022208000 (-43)) as [[q e'] l]. destruct C as (Q & E' & Eq).
  change (Zdigits2 8796093022208000) with 53 in E'. cbn [Zdigits2] in E'.
  pose proof (round_aux_class (xorb s false) q e' l Q) as C.
  destruct (binary_round_aux 53 1024 (xorb s false) q e' l); try reflexivity; [|contradiction C]. exfalso.
  set (d := Zpos (digits2_pos m)) in *. assert (Ee : e' <= 961) by (unfold fexp, emin in E'; lia).
  assert (Dq : Zdigits2 q <= Z.max 0 (d + (e - -43 - e') - 52)).
  { apply digits_le; [|lia]. split; [exact Q|]. rewrite Eq. apply Z.div_lt_upper_bound; [lia|].
    pose proof (digits2_pos_spec m) as G. fold d in G.
    apply Z.lt_le_trans with (2 ^ d * 2 ^ (e - -43 - e')).
    - apply Z.mul_lt_mono_pos_r; [apply Z.pow_pos_nonneg; lia|apply G].
    - rewrite <- Z.pow_add_r by lia. apply Z.le_trans with (2 ^ 52 * 2 ^ Z.max 0 (d + (e - -43 - e') - 52)).
      + rewrite <- Z.pow_add_r by lia. apply Z.pow_le_mono_r; lia.
      + apply Z.mul_le_mono_nonneg_r; [apply Z.pow_nonneg; lia|]. vm_compute. discriminate. }
  lia.
Qed.

(** ParseFloat. *)
Lemma round_scaled_small neg v x base : small (round_scaled neg v x base).
Proof.
  unfold round_scaled. destruct v as [|m|m]; try exact I. destruct (0 <=? x); [apply small_normalize|].
  destruct (base ^ Z.abs x); try exact I. apply small_div.
Qed.

Lemma parse_number_finite s x : parse_number s = Some x -> f_finite x = true /\ small x.
Proof.
  unfold parse_number. intros H.
  repeat match type of H with
         | context [match ?t with _ => _ end] =>
             lazymatch t with f_finite _ => fail | context [match _ with _ => _ end] => fail | _ => destruct t eqn:? end
         | context [if ?t then _ else _] =>
             lazymatch t with f_finite _ => fail | context [match _ with _ => _ end] => fail | _ => destruct t eqn:? end
         end; try discriminate;
  match type of H with (if f_finite ?y then _ else _) = _ => destruct (f_finite y) eqn:F; [|discriminate H]; injection H as <- end;
  (split; [exact F|apply round_scaled_small]).
Qed.
