(** Proofs about numbers as text: the rates in messages and records. *)
From Coq Require Import String ZArith QArith Qabs Qpower List Bool Lia.
From Coq Require Import Floats.SpecFloat.
From Verif Require Import Base BaseFacts WireModel MessagerModel GoFloat Effect ControlModel ControlSpec
  TestFacts RateSpec FloatRate NumberSpec NumberProofs NumberRound NumberParse.
Import ListNotations.
Open Scope Z_scope.

Lemma printed_near n y : nearest n ((10000 # 1) * Qabs y) -> (0 <= y)%Q -> (Qabs (inject_Z n / (10000 # 1) - y) <= 1 # 20000)%Q.
Proof.
  intros [N _] P. rewrite (Qabs_pos y P) in N.
  setoid_replace (inject_Z n / (10000 # 1) - y)%Q with ((inject_Z n - (10000 # 1) * y) / (10000 # 1))%Q by field.
  unfold Qdiv. rewrite Qabs_Qmult. apply Qle_trans with ((1 # 2) * Qabs (/ (10000 # 1)))%Q; [|discriminate].
  apply Qmult_le_compat_r; [exact N|discriminate].
Qed.

Lemma rate_text v q : f_value v = Some q -> (q == 0 \/ (2 # 1) ^ (-900) <= q <= (2 # 1) ^ 900)%Q ->
  exists n, fixed_text false n (format_f4 (fmul (if f_is_zero v then f_zero else v) (f_of_int 1000))) /\
    (Qabs ((inject_Z n / (10000 # 1)) - (1000 # 1) * q) <= (1 # 20000) + (1000 # 1) * q * (1 # 2 ^ 53))%Q.
Proof.
  intros V R. destruct (f_is_zero v) eqn:Z0.
  - destruct v; try discriminate. injection V as <-. exists 0. change (fmul f_zero (f_of_int 1000)) with (S754_zero false).
    cbn [format_f4]. split; [apply (fixed4_spec false 0); lia|]. vm_compute. discriminate.
  - assert (R' : ((2 # 1) ^ (-900) <= q <= (2 # 1) ^ 900)%Q).
    { destruct R as [R|R]; [exfalso|exact R]. destruct v as [s|s| |s m e]; try discriminate. cbn [f_value] in V. injection V as <-.
      pose proof (qval_pos m e) as P. unfold qval in P. destruct s.
      - assert (X : (inject_Z (Zpos m) * (2 # 1) ^ e == 0)%Q).
        { setoid_replace (inject_Z (Zpos m) * (2 # 1) ^ e)%Q with (- ((-1 # 1) * inject_Z (Zpos m) * (2 # 1) ^ e))%Q by ring. rewrite R. reflexivity. }
        rewrite X in P. discriminate P.
      - rewrite <- Qmult_assoc, Qmult_1_l in R. rewrite R in P. discriminate P. }
    destruct (thousandfold v q V R') as (y & Y & Yp & A & Ng).
    destruct (format_fixed _ _ Y) as (n & F & N). rewrite Ng in F. exists n. split; [exact F|].
    pose proof (printed_near n y N Yp) as B.
    setoid_replace (inject_Z n / (10000 # 1) - (1000 # 1) * q)%Q with ((inject_Z n / (10000 # 1) - y) + (y - (1000 # 1) * q))%Q by ring.
    eapply Qle_trans; [apply Qabs_triangle|]. apply Qplus_le_compat; assumption.
Qed.

Lemma client_value g m tr s r x t neg n k e : run (s2c_manage g m s2c_empty) tr (s, r) ->
  reads tr = [x] -> receive_of m x TestMsg = (Some t, None) ->
  decimal_number t neg n k e -> Z.abs e < 10000 ->
  let q := (inject_Z n * (10 # 1) ^ (e - k))%Q in
  ((2 # 1) ^ (-900) <= q <= (2 # 1) ^ 900)%Q ->
  negative (d_client_mbps s) = neg /\
  exists y, f_value (d_client_mbps s) = Some y /\ (Qabs (Qabs y - q / (1000 # 1)) <= q / (1000 # 1) * (1 # 2 ^ 51))%Q.
Proof.
  intros H X R D B q Q. rewrite (s2c_client _ _ _ _ _ H), X, R.
  destruct (decimal_read t neg n k e D B) as [_ P]. destruct P as (v & -> & V).
  { destruct Q as [Q1 Q2]. split.
    - apply Qle_trans with ((2 # 1) ^ (-900))%Q; [vm_compute; discriminate|exact Q1].
    - apply Qle_trans with ((2 # 1) ^ 900)%Q; [exact Q2|vm_compute; discriminate]. }
  destruct (thousandth v neg _ V Q) as (m' & e' & -> & A). split; [reflexivity|]. eexists. split; [reflexivity|].
  assert (E : (Qabs ((if neg then -1 # 1 else 1) * inject_Z (Zpos m') * (2 # 1) ^ e') == inject_Z (Zpos m') * (2 # 1) ^ e')%Q).
  { rewrite !Qabs_Qmult. rewrite (Qabs_pos ((2 # 1) ^ e')) by (apply Qlt_le_weak, pow2_Qpos).
    change (Qabs (inject_Z (Zpos m'))) with (inject_Z (Zpos m')). destruct neg; cbn [Qabs]; [change (Z.abs (-1) # 1) with 1%Q|change (Z.abs 1 # 1) with 1%Q]; ring. }
  rewrite E. exact A.
Qed.
