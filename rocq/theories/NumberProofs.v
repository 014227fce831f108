(** Proofs about numbers as text: printing. *)
From Coq Require Import String ZArith QArith Qabs Qpower List Bool Lia.
From Coq Require Import ZifyBool ZifyNat.
From Coq Require Import Floats.SpecFloat.
From Verif Require Import Base BaseFacts JsonSpec GoFloat RateSpec FloatFacts FloatFinite FloatRate NumberSpec.
Import ListNotations.
Open Scope Z_scope.

Lemma decimal_app a b : decimal (a ++ b) = decimal a * 10 ^ len b + decimal b.
Proof.
  unfold decimal. rewrite fold_left_app. generalize (fold_left (fun a b => a * 10 + (b - 48)) a 0) as v. clear a.
  induction b as [|c b IH] using rev_ind; intros v; [cbn; lia|].
  rewrite !fold_left_app. cbn [fold_left]. rewrite IH. unfold len. rewrite app_length. cbn [List.length].
  rewrite Nat2Z.inj_add. change (Z.of_nat 1) with 1. rewrite Z.pow_add_r by lia. change (10 ^ 1) with 10. ring.
Qed.

Lemma decimal_bounds ds : digits ds -> 0 <= decimal ds < 10 ^ len ds.
Proof.
  induction ds as [|c ds IH] using rev_ind; intros D; [cbn; lia|].
  apply Forall_app in D. destruct D as [D1 D2]. inversion D2; subst. specialize (IH D1).
  rewrite decimal_app. unfold decimal at 2 4. cbn [fold_left]. unfold digit in *.
  unfold len in *. rewrite app_length. cbn [List.length]. rewrite Nat2Z.inj_add. change (Z.of_nat 1) with 1.
  rewrite Z.pow_add_r by lia. change (10 ^ 1) with 10. lia.
Qed.

Lemma decimal_zeros n ds : decimal (repeat 48 n ++ ds) = decimal ds.
Proof.
  rewrite decimal_app. replace (decimal (repeat 48 n)) with 0; [lia|].
  induction n as [|n IH]; [reflexivity|]. cbn [repeat]. change (48 :: repeat 48 n) with ([48] ++ repeat 48 n).
  rewrite decimal_app. change (decimal [48]) with 0. lia.
Qed.

Lemma dec_nonneg_short n k : 0 <= n < 10 ^ k -> 1 <= k -> len (dec_nonneg n) <= k.
Proof.
  intros H K. destruct (dec_nonneg_spec n ltac:(lia)) as (V & D & N). pose proof (dec_nonneg_no_lead0 n ltac:(lia)) as L.
  destruct (dec_nonneg n) as [|b r] eqn:E; [contradiction|]. destruct (Z.eq_dec b 48) as [->|B].
  - specialize (L eq_refl). subst n. cbn in E. injection E as <-. unfold len. cbn. lia.
  - pose proof (Forall_inv D) as Hb. pose proof (Forall_inv_tail D) as Hr. cbv beta in Hb. change (decimal ([b] ++ r) = n) in V. rewrite decimal_app in V.
    pose proof (decimal_bounds r Hr). unfold decimal at 1 in V. cbn [fold_left] in V.
    destruct (Z_le_gt_dec (len (b :: r)) k) as [?|G]; [assumption|exfalso].
    assert (Lr : k <= len r) by (unfold len in *; cbn [List.length] in G; lia).
    assert (10 ^ k <= 10 ^ len r) by (apply Z.pow_le_mono_r; lia). nia.
Qed.

Lemma fixed4_spec neg n : 0 <= n -> fixed_text neg n ((if neg : bool then str "-" else []) ++ fixed4 n).
Proof.
  intros H. unfold fixed4.
  assert (Q0 : 0 <= n / 10000) by (apply Z.div_pos; lia).
  pose proof (Z.mod_pos_bound n 10000 ltac:(lia)) as R0. set (q := n / 10000) in *. set (r := n mod 10000) in *.
  assert (E0 : n = q * 10000 + r) by (unfold q, r; pose proof (Z.div_mod n 10000 ltac:(lia)); lia).
  destruct (dec_nonneg_spec q Q0) as (Vq & Dq & Nq). destruct (dec_nonneg_spec r ltac:(lia)) as (Vr & Dr & Nr).
  pose proof (dec_nonneg_short r 4 ltac:(cbn; lia) ltac:(lia)) as Lr.
  pose proof (dec_nonneg_no_lead0 q Q0) as L0. clearbody q r.
  assert (L4 : len (pad4 r) = 4).
  { unfold pad4, len in *. rewrite app_length, repeat_length. lia. }
  exists (dec_nonneg q), (pad4 r). split; [reflexivity|]. split; [exact Nq|]. split; [exact Dq|]. split; [|split; [|split; [exact L4|]]].
  - intros L. destruct (dec_nonneg q) as [|b l] eqn:E; [cbn in L; lia|]. cbn [hd]. intros ->. specialize (L0 eq_refl).
    rewrite L0 in E. cbn in E. injection E as <-. unfold len in L. cbn in L. lia.
  - unfold pad4. apply Forall_app. split; [|exact Dr]. apply Forall_forall. intros x I. apply repeat_spec in I. subst. unfold digit. lia.
  - rewrite decimal_app, L4. unfold pad4. rewrite decimal_zeros. change (10 ^ 4) with 10000.
    change (decimal (dec_nonneg q)) with (dec_value (dec_nonneg q)). change (decimal (dec_nonneg r)) with (dec_value (dec_nonneg r)). lia.
Qed.

Lemma round_half_even_spec num den : 0 <= num -> 0 < den ->
  let n := round_half_even num den in
  0 <= n /\ 2 * Z.abs (n * den - num) <= den /\ (2 * Z.abs (n * den - num) = den -> Z.even n = true).
Proof.
  intros P D. unfold round_half_even. pose proof (Z.div_mod num den ltac:(lia)) as E.
  pose proof (Z.mod_pos_bound num den D) as R. pose proof (Z.div_pos num den P D) as Q0.
  set (q := num / den) in *. set (r := num mod den) in *.
  assert (E1 : q * den - num = - r) by lia. assert (E2 : (q + 1) * den - num = den - r) by lia.
  destruct (2 * r <? den) eqn:C1; [apply Z.ltb_lt in C1; cbn zeta; rewrite E1; repeat split; lia|apply Z.ltb_ge in C1].
  destruct (den <? 2 * r) eqn:C2; [apply Z.ltb_lt in C2; cbn zeta; rewrite E2; repeat split; lia|apply Z.ltb_ge in C2].
  destruct (Z.even q) eqn:C3; cbn zeta.
  - rewrite E1. repeat split; try lia. intros _. exact C3.
  - rewrite E2. repeat split; try lia. intros _. rewrite Z.even_add, C3. reflexivity.
Qed.

Lemma ten_thousandths_spec m e : nearest (ten_thousandths (Zpos m) e) ((10000 # 1) * (inject_Z (Zpos m) * (2 # 1) ^ e)) /\
  0 <= ten_thousandths (Zpos m) e.
Proof.
  unfold ten_thousandths. destruct (0 <=? e) eqn:C; [apply Z.leb_le in C|apply Z.leb_gt in C].
  - assert (E : (inject_Z (Zpos m * 2 ^ e * 10000) - (10000 # 1) * (inject_Z (Zpos m) * (2 # 1) ^ e) == 0)%Q).
    { rewrite !inject_Z_mult, pow2_Q by exact C. change (inject_Z 10000) with (10000 # 1)%Q. ring. }
    split; [|pose proof (Z.pow_pos_nonneg 2 e ltac:(lia) C); lia]. unfold nearest. rewrite E. split; [discriminate|]. discriminate.
  - set (P := 2 ^ (- e)). assert (P0 : 0 < P) by (apply Z.pow_pos_nonneg; lia).
    destruct (round_half_even_spec (Zpos m * 10000) P ltac:(lia) P0) as (N & A & B). cbv zeta in *.
    set (n := round_half_even (Zpos m * 10000) P) in *. split; [|exact N].
    assert (PQ : (0 < inject_Z P)%Q) by (change 0%Q with (inject_Z 0); rewrite <- Zlt_Qlt; exact P0).
    assert (NZ : ~ (inject_Z P == 0)%Q) by (intros Z0; rewrite Z0 in PQ; discriminate).
    assert (E : (inject_Z n - (10000 # 1) * (inject_Z (Zpos m) * (2 # 1) ^ e) == inject_Z (n * P - Zpos m * 10000) / inject_Z P)%Q).
    { replace e with (- (- e)) by lia. rewrite Qpower_opp, <- pow2_Q by lia. fold P.
      unfold Z.sub. rewrite inject_Z_plus, inject_Z_opp, !inject_Z_mult. change (inject_Z 10000) with (10000 # 1)%Q. field. exact NZ. }
    assert (Eb : (Qabs (inject_Z n - (10000 # 1) * (inject_Z (Zpos m) * (2 # 1) ^ e)) == inject_Z (Z.abs (n * P - Zpos m * 10000)) / inject_Z P)%Q).
    { rewrite E. unfold Qdiv. rewrite Qabs_Qmult, (Qabs_pos (/ inject_Z P)) by (apply Qlt_le_weak, Qinv_lt_0_compat, PQ). reflexivity. }
    unfold nearest. rewrite Eb. split.
    + apply Qle_shift_div_r; [exact PQ|]. setoid_replace ((1 # 2) * inject_Z P)%Q with (inject_Z P * (1 # 2))%Q by ring.
      unfold Qle, inject_Z, Qmult. cbn [Qnum Qden]. lia.
    + intros H. apply B. assert (X : (inject_Z (Z.abs (n * P - Zpos m * 10000)) == (1 # 2) * inject_Z P)%Q) by (rewrite <- H; field; exact NZ).
      unfold Qeq, inject_Z, Qmult in X. cbn [Qnum Qden] in X. lia.
Qed.

Lemma format_fixed v q : f_value v = Some q ->
  exists n, fixed_text (negative v) n (format_f4 v) /\ nearest n ((10000 # 1) * Qabs q).
Proof.
  destruct v as [s|s| |s m e]; try discriminate; cbn [f_value negative format_f4]; intros H; injection H as <-.
  - exists 0. split; [apply fixed4_spec; lia|]. split; [discriminate|]. intros H. discriminate H.
  - destruct (ten_thousandths_spec m e) as [A B]. exists (ten_thousandths (Zpos m) e). split; [apply fixed4_spec, B|].
    assert (E : (Qabs ((if s then -1 # 1 else 1) * inject_Z (Zpos m) * (2 # 1) ^ e) == inject_Z (Zpos m) * (2 # 1) ^ e)%Q).
    { rewrite !Qabs_Qmult. rewrite (Qabs_pos ((2 # 1) ^ e)) by (apply Qlt_le_weak, pow2_Qpos).
      change (Qabs (inject_Z (Zpos m))) with (inject_Z (Zpos m)). destruct s; cbn [Qabs]; [change (Z.abs (-1) # 1) with 1%Q|change (Z.abs 1 # 1) with 1%Q]; ring. }
    unfold nearest in *. rewrite E. exact A.
Qed.
