(** Proofs about netx, bbr and tcpinfox. *)
From Coq Require Import String ZArith List Bool Lia.
From Verif Require Import Base Web100Model Ndt7Model MeasurerModel Lts NetxModel.
Import ListNotations.
Open Scope Z_scope.

(** ** The gauge *)
(** What a connection contributes to the gauge. *)
Definition counts (c : net_conn) : bool :=
  match n_phase c with NLive => negb (n_dec c) | _ => false end.
Definition tally {A} (f : A -> bool) (l : list A) : Z := Z.of_nat (length (filter f l)).

Lemma tally_app {A} f (l l' : list A) : tally f (l ++ l') = tally f l + tally f l'.
Proof. unfold tally. rewrite filter_app, app_length. lia. Qed.
Lemma tally_cons {A} f (x : A) l : tally f (x :: l) = (if f x then 1 else 0) + tally f l.
Proof. unfold tally. cbn. destruct (f x); cbn [length]; lia. Qed.

(** *** One connection *)
Definition conn_ok (c : net_conn) : Prop :=
  match n_phase c with
  | NAccepted => n_sock c = true /\ n_dup c = false /\ n_dec c = false /\ n_closing c = [] /\ n_closed c = 0%nat
  | NDuped => n_sock c = true /\ n_dup c = true /\ n_dec c = false /\ n_closing c = [] /\ n_closed c = 0%nat
  | NFailed => n_sock c = false /\ n_dup c = false /\ n_dec c = false /\ n_closing c = [] /\ n_closed c = 0%nat
  | NLive =>
      (n_dup c = false <-> (In COnce (n_closing c) \/ In CSock (n_closing c) \/ (0 < n_closed c)%nat)) /\
      (n_dec c = true <-> (In CSock (n_closing c) \/ (0 < n_closed c)%nat)) /\
      (n_sock c = false <-> (0 < n_closed c)%nat)
  end.

Lemma conn_ok_step c c' d : conn_ok c -> net_conn_step c c' d ->
  conn_ok c' /\ d = (if counts c' then 1 else 0) - (if counts c then 1 else 0).
Proof.
  intros H St. inversion St; subst; unfold conn_ok, counts in *; cbn [n_phase n_sock n_dup n_dec n_closing n_closed] in *.
  - intuition.
  - intuition.
  - destruct H as (-> & -> & -> & -> & ->). cbn. repeat split; intros; try discriminate; intuition (try lia).
  - destruct H as (A & B & C). rewrite !in_app_iff. cbn. split; [|lia]. rewrite A, B, C.
    repeat split; intros X; intuition congruence.
  - destruct H as (A & B & C). rewrite !in_app_iff in *. cbn in *. split; [|lia]. rewrite B, C.
    repeat split; intros X; intuition congruence.
  - destruct H as (A & B & C). rewrite !in_app_iff in *. cbn in *. split; [|destruct o; reflexivity]. rewrite A, C.
    repeat split; intros X; intuition congruence.
  - destruct H as (A & B & C). rewrite !in_app_iff in *. cbn in *. split; [|lia]. rewrite A, B.
    assert (L : (0 < S k)%nat) by lia. repeat split; intros X; intuition congruence.
Qed.

Lemma net_inv s : net_reachable s -> Forall conn_ok (t_conns s) /\ t_gauge s = tally counts (t_conns s).
Proof.
  apply (invariant net_init net_step (fun s => Forall conn_ok (t_conns s) /\ t_gauge s = tally counts (t_conns s))).
  - intros ? ->. split; [constructor|reflexivity].
  - intros x y [A B] St. inversion St; subst; cbn [t_conns t_gauge] in *.
    + split.
      * apply Forall_app. split; [exact A|]. constructor; [|constructor]. cbn. auto.
      * rewrite tally_app, B. unfold tally at 3. cbn. lia.
    + auto.
    + apply Forall_app in A as [A1 A2]. inversion A2 as [|? ? Hc Hl]; subst.
      destruct (conn_ok_step _ _ _ Hc H) as [Hc' Hd]. split.
      * apply Forall_app. split; [exact A1|]. constructor; assumption.
      * rewrite !tally_app, !tally_cons, Hd. lia.
Qed.

(** ** BBR *)
Definition le_value (b : bytes) : Z := fold_right (fun x v => x + 256 * v) 0 b.

Lemma lor_shift hi lo : 0 <= lo < 2 ^ 32 -> 0 <= hi -> Z.lor (Z.shiftl hi 32) lo = hi * 2 ^ 32 + lo.
Proof.
  intros L H. rewrite Z.shiftl_mul_pow2 by lia. symmetry. rewrite <- Z.lxor_lor.
  - apply Z.add_nocarry_lxor. apply Z.bits_inj'. intros n N. rewrite Z.land_spec, Z.bits_0.
    destruct (Z.lt_ge_cases n 32).
    + rewrite Z.mul_pow2_bits_low by lia. reflexivity.
    + destruct (Z.eq_dec lo 0) as [->|Z0]; [rewrite Z.bits_0; apply andb_false_r|].
      rewrite (Z.bits_above_log2 lo n); [apply andb_false_r|lia|]. apply Z.log2_lt_pow2; [lia|].
      eapply Z.lt_le_trans; [apply L|]. apply Z.pow_le_mono_r; lia.
  - apply Z.bits_inj'. intros n N. rewrite Z.land_spec, Z.bits_0.
    destruct (Z.lt_ge_cases n 32).
    + rewrite Z.mul_pow2_bits_low by lia. reflexivity.
    + destruct (Z.eq_dec lo 0) as [->|Z0]; [rewrite Z.bits_0; apply andb_false_r|].
      rewrite (Z.bits_above_log2 lo n); [apply andb_false_r|lia|]. apply Z.log2_lt_pow2; [lia|].
      eapply Z.lt_le_trans; [apply L|]. apply Z.pow_le_mono_r; lia.
Qed.

(** A buffer of twenty bytes. *)
Lemma get_bbr_spec buf : bytes_ok buf -> length buf = 20%nat ->
  get_bbr false 0 20 buf =
    if le_value (firstn 8 buf) <? 2 ^ 63 then
      (BBRInfo (le_value (firstn 8 buf)) (le_value (firstn 4 (skipn 8 buf)))
               (le_value (firstn 4 (skipn 12 buf))) (le_value (firstn 4 (skipn 16 buf))), None)
    else (bbr_zero, Some (Errno 75)).
Proof.
  intros B L. do 20 (destruct buf as [|? buf]; [discriminate|]). destruct buf; [|discriminate]. clear L.
  unfold bytes_ok, byte_ok in B. repeat match goal with H : Forall _ (_ :: _) |- _ => inversion H; clear H; subst end.
  unfold get_bbr. cbn [negb Z.eqb Pos.eqb]. rewrite lor_shift.
  2: { unfold le32. cbn [skipn]. lia. }
  2: { unfold le32. cbn [skipn]. lia. }
  unfold le32, le_value. cbn [skipn firstn fold_right].
  match goal with |- (if _ <? ?a then _ else (BBRInfo ?a' ?b ?c ?d, _)) = (if ?x <? _ then (BBRInfo ?x' ?y ?z ?w, _) else _) =>
    replace a with x by lia; replace b with y by lia; replace c with z by lia; replace d with w by lia;
    destruct (Z.ltb_spec (2 ^ 63 - 1) x), (Z.ltb_spec x (2 ^ 63)); try reflexivity; lia end.
Qed.

Lemma le_value_firstn n : forall b, bytes_ok b -> 0 <= le_value (firstn n b).
Proof.
  induction n as [|n IH]; intros b B; [cbn; lia|]. destruct b as [|x b]; [cbn; lia|]. inversion B; subst.
  specialize (IH b H2). unfold byte_ok in *. unfold le_value in *. cbn [firstn fold_right]. lia.
Qed.

Lemma get_bbr_error raw errno size buf :
  snd (get_bbr raw errno size buf) <> None -> fst (get_bbr raw errno size buf) = bbr_zero.
Proof.
  unfold get_bbr. destruct raw; [reflexivity|]. destruct (negb (errno =? 0)); [destruct (_ =? _); reflexivity|].
  destruct (negb _); [reflexivity|]. destruct (_ <? _); [reflexivity|]. cbn. congruence.
Qed.

(** ** UUIDs *)
Lemma hex_of_length l : length (hex_of l) = (2 * length l)%nat.
Proof. unfold hex_of. induction l; [reflexivity|]. cbn. rewrite IHl. lia. Qed.

Lemma uuid_string_length u : length u = 16%nat -> length (uuid_string u) = 36%nat.
Proof.
  intros L. unfold uuid_string. rewrite !app_length, !hex_of_length, !firstn_length, !skipn_length, L. reflexivity.
Qed.

Lemma hex_digit_inj a b : 0 <= a < 16 -> 0 <= b < 16 -> hex_digit a = hex_digit b -> a = b.
Proof. unfold hex_digit. intros. destruct (Z.ltb_spec a 10), (Z.ltb_spec b 10); lia. Qed.

Lemma hex_of_inj l : forall l', bytes_ok l -> bytes_ok l' -> hex_of l = hex_of l' -> l = l'.
Proof.
  induction l as [|x l IH]; intros [|y l'] B B' E; try reflexivity; try discriminate.
  inversion B; inversion B'; subst. cbn in E. injection E as E1 E2 E3. unfold byte_ok in *.
  apply hex_digit_inj in E1; [|split; [apply Z.div_pos; lia|apply Z.div_lt_upper_bound; lia]..].
  apply hex_digit_inj in E2; [|apply Z.mod_pos_bound; lia..].
  f_equal; [|auto]. rewrite (Z.div_mod x 16), (Z.div_mod y 16), E1, E2 by lia. reflexivity.
Qed.

Lemma app_inv_length {A} (a b c d : list A) : length a = length c -> a ++ b = c ++ d -> a = c /\ b = d.
Proof. revert c. induction a; intros [|? c] L E; try discriminate; [auto|]. injection E as -> E. destruct (IHa c); [now injection L|assumption|]. subst. auto. Qed.

Lemma uuid_string_inj u v : length u = 16%nat -> length v = 16%nat -> bytes_ok u -> bytes_ok v ->
  uuid_string u = uuid_string v -> u = v.
Proof.
  intros Lu Lv Bu Bv E.
  do 16 (destruct u as [|? u]; [discriminate|]). destruct u; [|discriminate].
  do 16 (destruct v as [|? v]; [discriminate|]). destruct v; [|discriminate].
  unfold uuid_string in E. cbn [firstn skipn] in E. unfold bytes_ok in *.
  do 8 (apply app_inv_length in E as [? E]; [|rewrite ?hex_of_length; reflexivity]).
  repeat match goal with
  | H : Forall _ (_ :: _) |- _ => inversion H; clear H; subst end.
  repeat match goal with
  | H : hex_of _ = hex_of _ |- _ => apply hex_of_inj in H; [inversion H; clear H; subst|unfold bytes_ok; repeat (apply Forall_cons; [assumption|]); apply Forall_nil..] end.
  reflexivity.
Qed.
