(** Proofs about numbers in documents. *)
From Coq Require Import String ZArith QArith Qabs Qpower Qfield List Bool Lia.
From Coq Require Import ZifyBool ZifyNat.
From Coq Require Import Floats.SpecFloat.
From Verif Require Import Base BaseFacts JsonSpec GoFloat FloatFacts FloatFinite FloatRate NumberSpec NumberProofs NumberParse
  TimeModel TimeFacts ExactFloat ExactModel.
Import ListNotations.
Open Scope Z_scope.

(** ** The text *)

Lemma len_app {A} (a b : list A) : len (a ++ b) = len a + len b.
Proof. unfold len. rewrite app_length. lia. Qed.
Lemma len_repeat (n : nat) : len (repeat 48 n) = Z.of_nat n.
Proof. unfold len. rewrite repeat_length. reflexivity. Qed.
Lemma digits_zeros n : digits (repeat 48 n).
Proof. apply Forall_forall. intros x I. apply repeat_spec in I. subst. unfold digit. lia. Qed.

(** The digits without the zeros at the end. *)
Lemma trimmed c : 0 < c -> exists b r k,
  trim_zeros (dec_nonneg c) = b :: r /\ 49 <= b <= 57 /\ digits r /\
  len (dec_nonneg c) = len (b :: r) + Z.of_nat k /\ c = decimal (b :: r) * 10 ^ Z.of_nat k.
Proof.
  intros P. destruct (dec_nonneg_spec c ltac:(lia)) as (V & D & _). pose proof (dec_nonneg_no_lead0 c ltac:(lia)) as L.
  destruct (trim_split (dec_nonneg c)) as [k K]. destruct (trim_zeros (dec_nonneg c)) as [|b r] eqn:T.
  - exfalso. rewrite K in V. cbn [app] in V. rewrite <- (app_nil_l (repeat 48 k)), dec_value_zeros in V. cbn in V. lia.
  - rewrite K in D, V, L. cbn [app] in L. apply Forall_app in D as [D _]. pose proof (Forall_inv D) as Hb. pose proof (Forall_inv_tail D) as Hr. cbv beta in Hb.
    exists b, r, k. split; [reflexivity|]. split; [|split; [exact Hr|split]].
    + assert (b <> 48) by (intros ->; specialize (L eq_refl); lia). lia.
    + rewrite K, len_app, len_repeat. reflexivity.
    + rewrite <- V at 1. rewrite dec_value_zeros. reflexivity.
Qed.

Definition decimal_like (e neg : bool) (c q : Z) : Prop :=
  let t := decimal_text e neg c q in
  jnumber t /\
  exists n k x, decimal_number t neg n k x /\ (x = 0 \/ x = len (dec_nonneg c) + q - 1) /\ 0 < n /\
    (inject_Z n * (10 # 1) ^ (x - k) == inject_Z c * (10 # 1) ^ q)%Q.

Lemma scale_10 n k q : (inject_Z (n * 10 ^ Z.of_nat k) * (10 # 1) ^ q == inject_Z n * (10 # 1) ^ (Z.of_nat k + q))%Q.
Proof. rewrite inject_Z_mult, pow10_Q by lia. rewrite Qpower_plus by discriminate. ring. Qed.

Lemma sign_text (neg : bool) : a_sign (if neg then str "-" else []) neg.
Proof. destruct neg; [right|left]; auto. Qed.
Lemma sign_json (neg : bool) : (if neg then str "-" else []) = [] \/ (if neg then str "-" else []) = [45].
Proof. destruct neg; auto. Qed.

(** The exponent. *)
Definition exp_text (x : Z) : bytes :=
  if x <? 0 then str "-" ++ dec_nonneg (- x) else str "+" ++ (if x <? 10 then str "0" else []) ++ dec_nonneg x.
Lemma exp_like x : exists c sg neg ds, exp_text x = sg :: ds /\ c = 101 /\ a_sign [sg] neg /\ ds <> [] /\ digits ds /\
  (sg = 43 \/ sg = 45) /\ x = if neg : bool then - decimal ds else decimal ds.
Proof.
  unfold exp_text. exists 101. destruct (Z.ltb_spec x 0) as [N|N].
  - destruct (dec_nonneg_spec (- x) ltac:(lia)) as (V & D & E). exists 45, true, (dec_nonneg (- x)).
    split; [reflexivity|]. split; [reflexivity|]. split; [right; auto|]. split; [exact E|]. split; [exact D|]. split; [auto|].
    unfold decimal. unfold dec_value in V. rewrite V. lia.
  - destruct (dec_nonneg_spec x ltac:(lia)) as (V & D & E). exists 43, false, ((if x <? 10 then str "0" else []) ++ dec_nonneg x).
    split; [reflexivity|]. split; [reflexivity|]. split; [left; auto|]. split; [|split; [|split; [auto|]]].
    + intros H. apply app_eq_nil in H as [_ H]. contradiction.
    + apply Forall_app. split; [|exact D]. destruct (x <? 10); [|constructor]. change (str "0") with [48]. constructor; [unfold digit; lia|constructor].
    + rewrite decimal_app. change (decimal (dec_nonneg x)) with (dec_value (dec_nonneg x)). rewrite V.
      destruct (x <? 10); [change (decimal (str "0")) with 0|change (decimal []) with 0]; lia.
Qed.

Lemma format_e_like (neg : bool) b r dp : 49 <= b <= 57 -> digits r ->
  let t := (if neg then str "-" else []) ++ format_e (b :: r) dp in
  jnumber t /\ decimal_number t neg (decimal (b :: r)) (len r) (dp - 1).
Proof.
  intros B D t.
  assert (T : exists dot, t = (if neg then str "-" else []) ++ [b] ++ dot ++ r ++ str "e" ++ exp_text (dp - 1) /\
    ((dot = str "." /\ r <> []) \/ (dot = [] /\ r = []))).
  { unfold t, format_e, exp_text. change (take 1 (b :: r)) with [b]. change (drop 1 (b :: r)) with r. destruct r as [|d r].
    - exists []. split; [reflexivity|auto].
    - exists (str "."). replace (1 <? len (b :: d :: r)) with true by (unfold len; cbn [List.length]; lia).
      split; [rewrite <- !app_assoc; reflexivity|left; split; [reflexivity|discriminate]]. }
  clearbody t. destruct T as (dot & -> & Hd).
  destruct (exp_like (dp - 1)) as (c & sg & en & ds & E & -> & S & N & Dd & Sg & X). rewrite E.
  split.
  - exists (if neg then str "-" else []), [b], (dot ++ r), (str "e" ++ sg :: ds).
    split; [rewrite <- !app_assoc; reflexivity|]. split; [apply sign_json|]. split; [right; exists b, []; split; [reflexivity|]; split; [exact B|constructor]|].
    split; [destruct Hd as [(-> & R)|(-> & ->)]; [right; exists r; auto|left; reflexivity]|].
    right. exists 101, [sg], ds. split; [reflexivity|]. split; [auto|]. split; [destruct Sg as [-> | ->]; auto|]. auto.
  - exists (if neg then str "-" else []), [b], dot, r, (str "e" ++ sg :: ds).
    split; [reflexivity|]. split; [apply sign_text|]. split; [constructor; [unfold digit; lia|constructor]|]. split; [exact D|].
    split; [discriminate|]. split; [tauto|]. split; [|split; reflexivity]. right. exists 101, [sg], en, ds.
    split; [reflexivity|]. split; [left; reflexivity|]. auto.
Qed.

Lemma decimal_trailing ds n : decimal (ds ++ repeat 48 n) = decimal ds * 10 ^ Z.of_nat n.
Proof. exact (dec_value_zeros ds n). Qed.

Lemma format_f_like (neg : bool) b r dp : 49 <= b <= 57 -> digits r ->
  let t := (if neg then str "-" else []) ++ format_f (b :: r) dp in
  jnumber t /\ exists n k, decimal_number t neg n k 0 /\
    ((n = decimal (b :: r) /\ k = len (b :: r) - dp) \/
     (0 <= dp - len (b :: r) /\ n = decimal (b :: r) * 10 ^ (dp - len (b :: r)) /\ k = 0)).
Proof.
  intros B D t. set (ds := b :: r) in *. assert (Dd : digits ds) by (constructor; [unfold digit; lia|exact D]).
  assert (T : exists ip dot fp, t = (if neg then str "-" else []) ++ ip ++ dot ++ fp /\
    ((dot = str "." /\ fp <> []) \/ (dot = [] /\ fp = [])) /\ digits ip /\ digits fp /\ ip <> [] /\
    (ip = [48] \/ exists d l, ip = d :: l /\ 49 <= d <= 57 /\ digits l) /\
    ((decimal (ip ++ fp) = decimal ds /\ len fp = len ds - dp) \/
     (0 <= dp - len ds /\ decimal (ip ++ fp) = decimal ds * 10 ^ (dp - len ds) /\ fp = []))).
  { unfold t, format_f. destruct (Z.ltb_spec 0 dp) as [P|P]; [destruct (Z.ltb_spec dp (len ds)) as [Q|Q]|].
    - replace (Z.to_nat (dp - len ds)) with O by lia. replace (Z.to_nat (- dp)) with O by lia. cbn [repeat app].
      unfold take, drop. destruct (Z.to_nat dp) as [|n] eqn:En; [lia|].
      pose proof (firstn_skipn (S n) ds) as FS. pose proof (skipn_length (S n) ds) as SL. rewrite <- FS in Dd. apply Forall_app in Dd as [D1 D2].
      exists (firstn (S n) ds), (str "."), (skipn (S n) ds). split; [rewrite app_nil_r; reflexivity|].
      unfold len in *. split; [left; split; [reflexivity|intros E; rewrite E in SL; cbn [List.length] in SL; lia]|].
      split; [exact D1|]. split; [exact D2|]. split; [discriminate|]. split; [|left; rewrite FS; split; [reflexivity|rewrite SL; lia]].
      right. exists b, (firstn n r). split; [reflexivity|]. split; [exact B|]. cbn in D1. exact (Forall_inv_tail D1).
    - assert (TK : take dp ds = ds) by (unfold take; apply firstn_all2; unfold len in Q; lia). rewrite TK.
      exists (ds ++ repeat 48 (Z.to_nat (dp - len ds))), [], []. rewrite !app_nil_r. split; [reflexivity|].
      split; [auto|]. split; [apply Forall_app; split; [exact Dd|apply digits_zeros]|]. split; [constructor|]. split; [discriminate|].
      split; [right; exists b, (r ++ repeat 48 (Z.to_nat (dp - len ds))); split; [reflexivity|]; split; [exact B|]; apply Forall_app; split; [exact D|apply digits_zeros]|].
      right. split; [lia|]. split; [|reflexivity]. rewrite decimal_trailing, Z2Nat.id by lia. reflexivity.
    - assert (L : 0 < len ds) by (unfold len, ds; cbn [List.length]; lia). replace (dp <? len ds) with true by lia.
      assert (DK : drop dp ds = ds) by (unfold drop; replace (Z.to_nat dp) with O by lia; reflexivity). rewrite DK.
      exists [48], (str "."), (repeat 48 (Z.to_nat (- dp)) ++ ds). split; [reflexivity|].
      split; [left; split; [reflexivity|intros E; apply app_eq_nil in E as [_ E]; discriminate E]|].
      split; [constructor; [unfold digit; lia|constructor]|]. split; [apply Forall_app; split; [apply digits_zeros|exact Dd]|].
      split; [discriminate|]. split; [left; reflexivity|]. left. split.
      + change [48] with (repeat 48 1). rewrite app_assoc, <- repeat_app. apply decimal_zeros.
      + rewrite len_app, len_repeat. lia. }
  clearbody t. destruct T as (ip & dot & fp & -> & Hd & Di & Df & Ni & Hi & Hv). split.
  - exists (if neg then str "-" else []), ip, (dot ++ fp), []. rewrite !app_nil_r. split; [reflexivity|].
    split; [apply sign_json|]. split; [exact Hi|]. split; [|left; reflexivity].
    destruct Hd as [(-> & F)|(-> & ->)]; [right; exists fp; auto|left; reflexivity].
  - exists (decimal (ip ++ fp)), (len fp). split.
    + exists (if neg then str "-" else []), ip, dot, fp, []. rewrite !app_nil_r. split; [reflexivity|].
      split; [apply sign_text|]. split; [exact Di|]. split; [exact Df|].
      split; [intros E; apply app_eq_nil in E as [E _]; contradiction|]. split; [tauto|]. split; [left; auto|]. auto.
    + destruct Hv as [(E & K)|(N & E & ->)]; [left; auto|right; auto].
Qed.

Lemma decimal_text_like e neg c q : 0 < c -> decimal_like e neg c q.
Proof.
  intros P. destruct (trimmed c P) as (b & r & k & T & B & D & L & C). unfold decimal_like, decimal_text. rewrite T, L.
  assert (V : 0 < decimal (b :: r)) by (pose proof (Z.pow_pos_nonneg 10 (Z.of_nat k) ltac:(lia) ltac:(lia)); nia).
  assert (LD : len (b :: r) = len r + 1) by (unfold len; cbn [List.length]; lia).
  rewrite C. destruct e.
  - destruct (format_e_like neg b r (len (b :: r) + Z.of_nat k + q) B D) as [J N]. split; [exact J|].
    exists (decimal (b :: r)), (len r), (len (b :: r) + Z.of_nat k + q - 1). split; [exact N|]. split; [right; lia|]. split; [exact V|].
    rewrite scale_10. replace (len (b :: r) + Z.of_nat k + q - 1 - len r) with (Z.of_nat k + q) by lia. reflexivity.
  - destruct (format_f_like neg b r (len (b :: r) + Z.of_nat k + q) B D) as [J (n & kk & N & H)]. split; [exact J|].
    exists n, kk, 0. split; [exact N|]. split; [left; reflexivity|]. rewrite scale_10.
    destruct H as [(-> & ->)|(G & -> & ->)].
    + split; [exact V|]. replace (0 - (len (b :: r) - (len (b :: r) + Z.of_nat k + q))) with (Z.of_nat k + q) by lia. reflexivity.
    + replace (len (b :: r) + Z.of_nat k + q - len (b :: r)) with (Z.of_nat k + q) in * by lia.
      split; [apply Z.mul_pos_pos; [exact V|apply Z.pow_pos_nonneg; lia]|].
      rewrite inject_Z_mult, pow10_Q by exact G. cbn [Z.sub Z.opp Z.add Qpower]. ring.
Qed.

(** A text that stands for a float64 exactly is read as that. *)
Lemma exact_reads e neg c q m x : 0 < c -> canonical m x -> Z.abs (len (dec_nonneg c) + q - 1) < 10000 ->
  (inject_Z c * (10 # 1) ^ q == inject_Z (Zpos m) * (2 # 1) ^ x)%Q ->
  parse_float (decimal_text e neg c q) = Some (S754_finite neg m x).
Proof.
  intros P C A E. destruct (decimal_text_like e neg c q P) as [_ (n & k & j & N & X & Q & V)].
  unfold parse_float. rewrite (decimal_not_special _ _ _ _ _ N).
  rewrite (parse_decimal _ _ _ _ _ N) by (destruct X as [-> | ->]; [reflexivity|exact A]). cbv zeta.
  rewrite (exact_scaled neg n (j - k) m x C Q) by (rewrite V; exact E). reflexivity.
Qed.

(** ** The search *)

Lemma same_eq x y : f_same x y = true -> x = y.
Proof.
  destruct x as [s|s| |s m e], y as [s'|s'| |s' m' e']; cbn [f_same]; try discriminate; try reflexivity; intros H.
  - apply eqb_prop in H. congruence.
  - apply eqb_prop in H. congruence.
  - apply andb_prop in H as [H E]. apply andb_prop in H as [S M]. apply eqb_prop in S. apply Pos.eqb_eq in M. apply Z.eqb_eq in E. congruence.
Qed.
Lemma same_refl x : f_same x x = true.
Proof. destruct x as [s|s| |s m e]; cbn [f_same]; rewrite ?eqb_reflx, ?Pos.eqb_refl, ?Z.eqb_refl; reflexivity. Qed.
Lemma reads_eq x t : ExactModel.reads x t = true -> parse_float t = Some x.
Proof. unfold ExactModel.reads. destruct (parse_float t) as [y|]; [|discriminate]. intros H. f_equal. symmetry. apply same_eq, H. Qed.

Lemma shortest_jnumber fuel : forall x e neg num den n, jnumber (shortest fuel x e neg num den n).
Proof.
  induction fuel as [|f IH]; intros x e neg num den n; cbn [shortest]; destruct (neighbours num den n) as [cs q];
    destruct (find (ExactModel.reads x) _) as [t|] eqn:F.
  - apply find_some in F as [I _]. apply in_map_iff in I as (c & <- & I). apply filter_In in I as [_ I]. apply decimal_text_like. lia.
  - apply decimal_text_like. lia.
  - apply find_some in F as [I _]. apply in_map_iff in I as (c & <- & I). apply filter_In in I as [_ I]. apply decimal_text_like. lia.
  - apply IH.
Qed.

(** The search ends at the latest where a text is found. *)
Lemma shortest_reads x e neg num den k : forall fuel n, n <= k -> k - n <= Z.of_nat fuel ->
  (exists c, In c (fst (neighbours num den k)) /\ 0 < c /\ parse_float (decimal_text e neg c (snd (neighbours num den k))) = Some x) ->
  parse_float (shortest fuel x e neg num den n) = Some x.
Proof.
  induction fuel as [|f IH]; intros n L U (c & I & P & E); cbn [shortest];
    destruct (neighbours num den n) as [cs q] eqn:N; destruct (find (ExactModel.reads x) _) as [t|] eqn:F;
    try (apply find_some in F as [_ F]; apply reads_eq, F).
  - exfalso. replace k with n in * by lia. rewrite N in *. cbn [fst snd] in *.
    apply (find_none _ _ F (decimal_text e neg c q)) in I || idtac.
    assert (J : In (decimal_text e neg c q) (map (fun c => decimal_text e neg c q) (filter (fun c => 0 <? c) cs))).
    { apply in_map_iff. exists c. split; [reflexivity|]. apply filter_In. split; [exact I|lia]. }
    pose proof (find_none _ _ F _ J) as X. unfold ExactModel.reads in X. rewrite E, same_refl in X. discriminate.
  - destruct (Z.eq_dec n k) as [->|Nk].
    + exfalso. rewrite N in *. cbn [fst snd] in *.
      assert (J : In (decimal_text e neg c q) (map (fun c => decimal_text e neg c q) (filter (fun c => 0 <? c) cs))).
      { apply in_map_iff. exists c. split; [reflexivity|]. apply filter_In. split; [exact I|lia]. }
      pose proof (find_none _ _ F _ J) as X. unfold ExactModel.reads in X. rewrite E, same_refl in X. discriminate.
    + apply IH; [lia|lia|]. exists c. auto.
Qed.

Lemma leading_zeros_range fuel : forall num den, 0 <= leading_zeros fuel num den <= Z.of_nat fuel.
Proof.
  induction fuel as [|f IH]; intros num den; cbn [leading_zeros]; [lia|].
  destruct (10 * num <? den); [|lia]. specialize (IH (10 * num) den). lia.
Qed.

Lemma big_decimal : 2 ^ 1024 < 10 ^ 309.
Proof. apply Z.ltb_lt. vm_compute. reflexivity. Qed.

Lemma point_range m x : canonical m x ->
  let num := if 0 <=? x then Zpos m * 2 ^ x else Zpos m in
  let den := if 0 <=? x then 1 else 2 ^ (- x) in
  0 < num /\ 0 < den /\ num < 2 ^ 1024 * den /\ -400 <= point num den <= 309.
Proof.
  intros C num den. destruct (canonical_bounds m x C) as [R M].
  assert (N : 0 < num) by (unfold num; destruct (Z.leb_spec 0 x); [apply Z.mul_pos_pos; [lia|apply Z.pow_pos_nonneg; lia]|lia]).
  assert (D : 0 < den) by (unfold den; destruct (Z.leb_spec 0 x); [lia|apply Z.pow_pos_nonneg; lia]).
  assert (B : num < 2 ^ 1024 * den).
  { unfold num, den. destruct (Z.leb_spec 0 x) as [X|X].
    - rewrite Z.mul_1_r. apply Z.lt_le_trans with (2 ^ 53 * 2 ^ x); [apply Z.mul_lt_mono_pos_r; [apply Z.pow_pos_nonneg; lia|exact M]|].
      rewrite <- Z.pow_add_r by lia. apply Z.pow_le_mono_r; lia.
    - apply Z.lt_le_trans with (2 ^ 53); [exact M|]. rewrite <- Z.pow_add_r by lia. apply Z.pow_le_mono_r; lia. }
  split; [exact N|]. split; [exact D|]. split; [exact B|]. clearbody num den. unfold point. destruct (Z.leb_spec den num) as [L|L].
  - assert (Q : 0 <= num / den < 10 ^ 309).
    { split; [apply Z.div_pos; lia|]. apply Z.lt_trans with (2 ^ 1024); [|exact big_decimal]. apply Z.div_lt_upper_bound; [exact D|].
      rewrite Z.mul_comm. exact B. }
    pose proof (dec_nonneg_short (num / den) 309 Q ltac:(lia)). unfold len in *. lia.
  - pose proof (leading_zeros_range (Z.to_nat 400) num den) as Z0. rewrite Z2Nat.id in Z0 by lia. lia.
Qed.

(** From here on the digits are exact. *)
Lemma exact_there m x : canonical m x ->
  let num := if 0 <=? x then Zpos m * 2 ^ x else Zpos m in
  let den := if 0 <=? x then 1 else 2 ^ (- x) in
  let k := Z.max 1 (point num den + Z.max 0 (- x)) in
  k <= 2000 /\ exists c, In c (fst (neighbours num den k)) /\ 0 < c /\
    Z.abs (len (dec_nonneg c) + snd (neighbours num den k) - 1) < 10000 /\
    (inject_Z c * (10 # 1) ^ snd (neighbours num den k) == inject_Z (Zpos m) * (2 # 1) ^ x)%Q.
Proof.
  intros C num den k. destruct (canonical_bounds m x C) as [R M]. destruct (point_range m x C) as (N & D & B & P).
  fold num den in N, D, B, P. split; [unfold k; lia|].
  set (q := point num den - k). assert (Q : q <= 0 /\ q <= x /\ -1500 <= q) by (unfold q, k; lia).
  assert (NE : neighbours num den k = (let lo := num * 10 ^ (- q) / den in (if 2 * (num * 10 ^ (- q) mod den) <=? den then [lo; lo + 1] else [lo + 1; lo], q))).
  { unfold neighbours. fold q. destruct (Z.leb_spec 0 q) as [Z0|Z0]; [|reflexivity]. replace q with 0 by lia. rewrite Z.mul_1_r, Z.mul_1_r. reflexivity. }
  rewrite NE. cbv zeta. clear NE.
  assert (X : exists lo, num * 10 ^ (- q) = lo * den /\ 0 < lo).
  { assert (T : 0 < 10 ^ (- q)) by (apply Z.pow_pos_nonneg; lia). unfold den. destruct (Z.leb_spec 0 x) as [X|X].
    - exists (num * 10 ^ (- q)). split; [ring|apply Z.mul_pos_pos; assumption].
    - exists (num * (10 ^ (- q - - x) * 5 ^ (- x))). split.
      + replace (- q) with ((- q - - x) + - x) at 1 by lia. rewrite (Z.pow_add_r 10) by lia.
        change 10 with (5 * 2) at 2. rewrite Z.pow_mul_l. ring.
      + repeat apply Z.mul_pos_pos; try assumption; apply Z.pow_pos_nonneg; lia. }
  destruct X as (lo & E & L). rewrite E, Z.div_mul, Z.mod_mul by lia. replace (2 * 0 <=? den) with true by lia. cbn [fst snd].
  exists lo. split; [left; reflexivity|]. split; [exact L|]. split.
  - assert (U : lo < 10 ^ (309 - q)).
    { replace (309 - q) with (309 + - q) by lia. rewrite Z.pow_add_r by lia. assert (T : 0 < 10 ^ (- q)) by (apply Z.pow_pos_nonneg; lia).
      pose proof big_decimal. set (a := 2 ^ 1024) in *. set (b := 10 ^ 309) in *. set (t := 10 ^ (- q)) in *. clearbody a b t.
      apply Z.mul_lt_mono_pos_r with den; [exact D|]. rewrite <- E. apply Z.lt_le_trans with (a * den * t).
      - apply Z.mul_lt_mono_pos_r; assumption.
      - replace (b * t * den) with (b * den * t) by ring. apply Z.mul_le_mono_nonneg_r; [lia|]. apply Z.mul_le_mono_nonneg_r; lia. }
    pose proof (dec_nonneg_short lo (309 - q) ltac:(lia) ltac:(lia)).
    assert (0 <= len (dec_nonneg lo)) by (unfold len; lia). lia.
  - assert (V : (inject_Z num == inject_Z den * (inject_Z (Zpos m) * (2 # 1) ^ x))%Q).
    { unfold num, den. destruct (Z.leb_spec 0 x) as [X|X].
      - rewrite inject_Z_mult, pow2_Q by exact X. ring.
      - rewrite pow2_Q by lia. rewrite Qpower_opp. field. apply Qpower_not_0. discriminate. }
    assert (T : (inject_Z lo * inject_Z den == inject_Z num * (10 # 1) ^ (- q))%Q).
    { rewrite <- pow10_Q by lia. rewrite <- !inject_Z_mult, E. reflexivity. }
    assert (DN : ~ (inject_Z den == 0)%Q) by (intros Z0; exact (Z.lt_neq _ _ D (eq_sym (proj1 (inject_Z_injective den 0) Z0)))).
    apply Qmult_inj_r with (inject_Z den); [exact DN|].
    setoid_replace (inject_Z lo * (10 # 1) ^ q * inject_Z den)%Q with (inject_Z lo * inject_Z den * (10 # 1) ^ q)%Q by ring.
    rewrite T, V, Qpower_opp. field. apply Qpower_not_0. discriminate.
Qed.

(** ** Numbers come back *)

Lemma json_float_number x : f_finite x = true -> jnumber (json_float x).
Proof.
  destruct x as [s|s| |s m e]; cbn [f_finite]; try discriminate; intros _.
  - unfold json_float. exists (if s then str "-" else []), [48], [], []. split; [reflexivity|]. split; [apply sign_json|]. auto.
  - unfold json_float. apply shortest_jnumber.
Qed.

Lemma json_float_exact x : valid_binary 53 1024 x = true -> f_finite x = true -> parse_float (json_float x) = Some x.
Proof.
  destruct x as [s|s| |s m e]; cbn [f_finite]; try discriminate; intros V _.
  - destruct s; reflexivity.
  - apply valid_canonical in V. unfold json_float. destruct (exact_there m e V) as (K & c & I & P & A & E).
    set (k := Z.max 1 _) in *. apply shortest_reads with k; [unfold k; lia|rewrite Z2Nat.id; lia|].
    exists c. split; [exact I|]. split; [exact P|]. apply exact_reads; assumption.
Qed.
