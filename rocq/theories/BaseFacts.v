(** Lemmas about the Go basics of Base.v. *)
From Coq Require Import String Ascii ZArith List Bool Lia.
From Coq Require Import ZifyBool ZifyNat ZifyN.
From Verif Require Import Base.
Import ListNotations.
Open Scope Z_scope.
Ltac Zify.zify_post_hook ::= Z.div_mod_to_equations.

Lemma len_nil {A} : len (@nil A) = 0.
Proof. reflexivity. Qed.
Lemma len_cons {A} (x : A) l : len (x :: l) = 1 + len l.
Proof. unfold len. cbn [List.length]. lia. Qed.
Lemma len_app {A} (a b : list A) : len (a ++ b) = len a + len b.
Proof. unfold len. rewrite app_length. lia. Qed.
Lemma len_nonneg {A} (a : list A) : 0 <= len a.
Proof. unfold len. lia. Qed.
Lemma len_rev {A} (a : list A) : len (rev a) = len a.
Proof. unfold len. now rewrite rev_length. Qed.
Lemma len_map {A B} (f : A -> B) l : len (map f l) = len l.
Proof. unfold len. now rewrite map_length. Qed.
Lemma len_zeros n : 0 <= n -> len (zeros n) = n.
Proof. intros. unfold len, zeros. rewrite repeat_length. lia. Qed.
Lemma len_0_nil {A} (l : list A) : len l = 0 -> l = [].
Proof. destruct l; [reflexivity|]. rewrite len_cons. pose proof (len_nonneg l). lia. Qed.

Lemma take_all {A} n (s : list A) : len s <= n -> take n s = s.
Proof. intros. unfold take. apply firstn_all2. unfold len in *. lia. Qed.
Lemma drop_all {A} n (s : list A) : len s <= n -> drop n s = [].
Proof. intros. unfold drop. apply skipn_all2. unfold len in *. lia. Qed.
Lemma take_app_exact {A} n (a b : list A) : len a = n -> take n (a ++ b) = a.
Proof.
  intros <-. unfold take, len. rewrite Nat2Z.id.
  rewrite firstn_app, Nat.sub_diag, firstn_all, firstn_O. apply app_nil_r.
Qed.
Lemma drop_app_exact {A} n (a b : list A) : len a = n -> drop n (a ++ b) = b.
Proof.
  intros <-. unfold drop, len. rewrite Nat2Z.id.
  rewrite skipn_app, Nat.sub_diag, skipn_all. reflexivity.
Qed.
Lemma take_drop {A} n (s : list A) : take n s ++ drop n s = s.
Proof. apply firstn_skipn. Qed.
Lemma len_take {A} n (s : list A) : 0 <= n -> len (take n s) = Z.min n (len s).
Proof. intros. unfold len, take. rewrite firstn_length. lia. Qed.
Lemma len_drop {A} n (s : list A) : 0 <= n -> len (drop n s) = Z.max 0 (len s - n).
Proof. intros. unfold len, drop. rewrite skipn_length. lia. Qed.
Lemma take_app_le {A} n (a b : list A) : n <= len a -> take n (a ++ b) = take n a.
Proof.
  intros. unfold take, len in *. rewrite firstn_app.
  replace (Z.to_nat n - List.length a)%nat with 0%nat by lia.
  rewrite firstn_O. apply app_nil_r.
Qed.
Lemma take_app_ge {A} n (a b : list A) : len a <= n -> take n (a ++ b) = a ++ take (n - len a) b.
Proof.
  intros. unfold take, len in *. rewrite firstn_app, firstn_all2 by lia.
  f_equal. f_equal. lia.
Qed.
Lemma drop_app_le {A} n (a b : list A) : 0 <= n <= len a -> drop n (a ++ b) = drop n a ++ b.
Proof.
  intros. unfold drop, len in *. rewrite skipn_app.
  replace (Z.to_nat n - List.length a)%nat with 0%nat by lia. reflexivity.
Qed.
Lemma take_0 {A} (s : list A) : take 0 s = [].
Proof. reflexivity. Qed.
Lemma drop_0 {A} (s : list A) : drop 0 s = s.
Proof. reflexivity. Qed.

Lemma bytes_ok_app a b : bytes_ok (a ++ b) <-> bytes_ok a /\ bytes_ok b.
Proof. apply Forall_app. Qed.
Lemma bytes_ok_cons x b : bytes_ok (x :: b) <-> byte_ok x /\ bytes_ok b.
Proof. split; [intros H; inversion H; auto | intros []; constructor; auto]. Qed.
Lemma bytes_okb_spec s : bytes_okb s = true <-> bytes_ok s.
Proof.
  unfold bytes_okb, bytes_ok. rewrite forallb_forall, Forall_forall.
  unfold byte_okb, byte_ok.
  split; intros H x Hx; specialize (H x Hx); lia.
Qed.
Lemma bytes_ok_take n s : bytes_ok s -> bytes_ok (take n s).
Proof.
  intros H. rewrite <- (take_drop n s) in H. apply bytes_ok_app in H. tauto.
Qed.
Lemma bytes_ok_drop n s : bytes_ok s -> bytes_ok (drop n s).
Proof.
  intros H. rewrite <- (take_drop n s) in H. apply bytes_ok_app in H. tauto.
Qed.
Lemma bytes_ok_str s : bytes_ok (str s).
Proof.
  induction s as [|c s IH]; constructor; auto.
  unfold byte_ok. pose proof (nat_ascii_bounded c). lia.
Qed.

Lemma beqb_spec a b : beqb a b = true <-> a = b.
Proof.
  revert b. induction a as [|x a IH]; destruct b as [|y b]; cbn [beqb]; try (split; congruence).
  rewrite andb_true_iff, Z.eqb_eq, IH. split; [intros []; congruence | intros H; inversion H; auto].
Qed.
Lemma beqb_refl a : beqb a a = true.
Proof. now apply beqb_spec. Qed.
Lemma beqb_false a b : beqb a b = false <-> a <> b.
Proof.
  destruct (beqb a b) eqn:E.
  - apply beqb_spec in E. split; congruence.
  - split; auto. intros _ H. apply beqb_spec in H. congruence.
Qed.

Lemma has_prefix_spec p s : has_prefix p s = true <-> exists r, s = p ++ r.
Proof.
  revert s. induction p as [|x p IH]; intros s; cbn [has_prefix app].
  - split; eauto.
  - destruct s as [|y s].
    + split; [discriminate | intros [r H]; discriminate].
    + rewrite andb_true_iff, Z.eqb_eq, IH. split.
      * intros [-> [r ->]]. eauto.
      * intros [r H]. inversion H. split; eauto.
Qed.
Lemma has_prefix_app p s : has_prefix p (p ++ s) = true.
Proof. apply has_prefix_spec. eauto. Qed.

Lemma has_suffix_spec p s : has_suffix p s = true <-> exists r, s = r ++ p.
Proof.
  unfold has_suffix. rewrite has_prefix_spec. split; intros [r H].
  - exists (rev r). apply (f_equal (@rev Z)) in H.
    rewrite rev_app_distr, !rev_involutive in H. exact H.
  - exists (rev r). subst. now rewrite rev_app_distr.
Qed.

Lemma mem_spec x l : mem x l = true <-> In x l.
Proof.
  unfold mem. rewrite existsb_exists. split.
  - intros [y [H E]]. apply Z.eqb_eq in E. now subst.
  - intros H. exists x. split; auto. apply Z.eqb_refl.
Qed.

(** ** Decimal conversion *)

Lemma dec_value_app_gen s t a :
  fold_left (fun a b => a * 10 + (b - 48)) (s ++ t) a =
  fold_left (fun a b => a * 10 + (b - 48)) t (fold_left (fun a b => a * 10 + (b - 48)) s a).
Proof. apply fold_left_app. Qed.

Lemma dec_digits_app fuel : forall n acc, dec_digits fuel n acc = dec_digits fuel n [] ++ acc.
Proof.
  induction fuel as [|f IH]; intros n acc; cbn [dec_digits]; [reflexivity|].
  destruct (n / 10 =? 0); [reflexivity|].
  rewrite IH. rewrite (IH _ [_]). rewrite <- app_assoc. reflexivity.
Qed.

Lemma log2_div10 n : 10 <= n -> Z.log2 (n / 10) + 1 <= Z.log2 n.
Proof.
  intros H.
  assert (0 < n / 10) by lia.
  pose proof (Z.log2_spec (n / 10) ltac:(lia)) as [L _].
  apply Z.log2_le_pow2; [lia|].
  rewrite Z.pow_add_r by (pose proof (Z.log2_nonneg (n/10)); lia).
  change (2 ^ 1) with 2. lia.
Qed.

Lemma dec_digits_spec fuel : forall n,
  0 <= n -> (Z.to_nat (Z.log2 n) < fuel)%nat ->
  let d := dec_digits fuel n [] in
  dec_value d = n /\ Forall (fun b => 48 <= b <= 57) d /\ d <> [] /\
  (match d with b :: _ => b = 48 -> n = 0 | [] => True end).
Proof.
  induction fuel as [|f IH]; intros n Hn Hf; cbn zeta; [lia|].
  cbn [dec_digits]. destruct (n / 10 =? 0) eqn:E.
  - repeat split; try (constructor; [lia|constructor]); try discriminate.
    + unfold dec_value. cbn [fold_left]. lia.
    + lia.
  - assert (10 <= n) by lia.
    pose proof (log2_div10 n H).
    destruct (IH (n / 10)) as (V & F & NE & LZ); [lia|pose proof (Z.log2_nonneg (n/10)); lia|].
    rewrite dec_digits_app.
    set (d := dec_digits f (n / 10) []) in *.
    repeat split.
    + unfold dec_value in *. rewrite fold_left_app, V. cbn [fold_left]. lia.
    + apply Forall_app. split; auto. constructor; [lia|constructor].
    + destruct d; [congruence|discriminate].
    + destruct d; [congruence|]. cbn [app]. intros ->. specialize (LZ eq_refl). lia.
Qed.

Lemma dec_nonneg_spec n : 0 <= n ->
  dec_value (dec_nonneg n) = n /\ Forall (fun b => 48 <= b <= 57) (dec_nonneg n) /\
  dec_nonneg n <> [].
Proof.
  intros H. destruct (dec_digits_spec (S (Z.to_nat (Z.log2 n))) n H ltac:(lia)) as (A & B & C & _).
  auto.
Qed.

Lemma dec_nonneg_no_lead0 n : 0 <= n ->
  match dec_nonneg n with b :: _ => b = 48 -> n = 0 | [] => True end.
Proof.
  intros H. destruct (dec_digits_spec (S (Z.to_nat (Z.log2 n))) n H ltac:(lia)) as (A & B & C & D).
  exact D.
Qed.

Lemma dec_nonneg_inj a b : 0 <= a -> 0 <= b -> dec_nonneg a = dec_nonneg b -> a = b.
Proof.
  intros Ha Hb H.
  destruct (dec_nonneg_spec a Ha) as [<- _].
  destruct (dec_nonneg_spec b Hb) as [<- _]. now rewrite H.
Qed.

Lemma digits_forallb s : Forall (fun b => 48 <= b <= 57) s -> forallb is_digit s = true.
Proof.
  intros H. apply forallb_forall. intros x Hx.
  rewrite Forall_forall in H. specialize (H x Hx). unfold is_digit. lia.
Qed.

Lemma forallb_digits s : forallb is_digit s = true -> Forall (fun b => 48 <= b <= 57) s.
Proof.
  intros H. rewrite forallb_forall in H. apply Forall_forall. intros x Hx.
  specialize (H x Hx). unfold is_digit in H. lia.
Qed.

Lemma int64_okb_spec n : int64_okb n = true <-> int64_ok n.
Proof. unfold int64_okb, int64_ok. lia. Qed.

Lemma atoi_itoa n : int64_ok n -> atoi (itoa n) = Some n.
Proof.
  intros H. unfold itoa.
  destruct (n <? 0) eqn:E.
  - destruct (dec_nonneg_spec (- n) ltac:(lia)) as (V & F & NE).
    unfold atoi. change (45 =? 45) with true. cbv beta iota zeta.
    destruct (dec_nonneg (- n)) as [|b r] eqn:D; [congruence|].
    rewrite (digits_forallb _ F), V.
    replace (- - n) with n by lia.
    apply int64_okb_spec in H. now rewrite H.
  - destruct (dec_nonneg_spec n ltac:(lia)) as (V & F & NE).
    unfold atoi. destruct (dec_nonneg n) as [|b r] eqn:D; [congruence|].
    assert (Hb : 48 <= b <= 57) by (inversion F; auto).
    replace (b =? 45) with false by lia. replace (b =? 43) with false by lia. cbv beta iota zeta.
    rewrite (digits_forallb _ F), V.
    apply int64_okb_spec in H. now rewrite H.
Qed.

Lemma itoa_inj a b : itoa a = itoa b -> a = b.
Proof.
  unfold itoa. intros H.
  destruct (a <? 0) eqn:Ea, (b <? 0) eqn:Eb.
  - injection H as H. apply dec_nonneg_inj in H; lia.
  - destruct (dec_nonneg_spec b ltac:(lia)) as (_ & F & _). rewrite <- H in F. inversion F. lia.
  - destruct (dec_nonneg_spec a ltac:(lia)) as (_ & F & _). rewrite H in F. inversion F. lia.
  - apply dec_nonneg_inj in H; lia.
Qed.

(** Characters of a decimal: digits and possibly a leading minus. *)
Lemma itoa_chars n : Forall (fun b => b = 45 \/ 48 <= b <= 57) (itoa n).
Proof.
  unfold itoa. destruct (n <? 0) eqn:E.
  - constructor; [auto|]. destruct (dec_nonneg_spec (- n) ltac:(lia)) as (_ & F & _).
    eapply Forall_impl; [|exact F]. intros; cbn in *; lia.
  - destruct (dec_nonneg_spec n ltac:(lia)) as (_ & F & _).
    eapply Forall_impl; [|exact F]. intros; cbn in *; lia.
Qed.

Lemma itoa_nonempty n : itoa n <> [].
Proof.
  unfold itoa. destruct (n <? 0) eqn:E; [discriminate|].
  destruct (dec_nonneg_spec n ltac:(lia)) as (_ & _ & F). exact F.
Qed.

Lemma itoa_bytes_ok n : bytes_ok (itoa n).
Proof.
  eapply Forall_impl; [|apply itoa_chars]. unfold byte_ok. intros; cbn in *; lia.
Qed.

Lemma wrap64_id n : int64_ok n -> wrap64 n = n.
Proof. unfold int64_ok, min_int64, max_int64, wrap64. intros. lia. Qed.
Lemma wrap64_range n : int64_ok (wrap64 n).
Proof. unfold int64_ok, min_int64, max_int64, wrap64. lia. Qed.
