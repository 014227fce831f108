(** Proofs about the times in names and documents. *)
From Coq Require Import String ZArith List Bool Lia.
From Verif Require Import Base BaseFacts ArchiveModel ArchiveProofs TimeModel TimeSpec TimeProofs.
Import ListNotations.
Open Scope Z_scope.

(** ** All days *)

(** [ymd] for days before its range too. *)
Definition shift (k : Z) (d : date) : date := let '(y, m, d) := d in (y + 400 * k, m, d).
Definition calendar (n : Z) : date := shift (n / 146097) (ymd (n mod 146097)).

Lemma leap_shift y k : leap_year (y + 400 * k) = leap_year y.
Proof.
  unfold leap_year. replace (y + 400 * k) with (y + (100 * k) * 4) at 1 by lia.
  replace (y + 400 * k) with (y + (4 * k) * 100) at 1 by lia. replace (y + 400 * k) with (y + k * 400) by lia.
  rewrite !Z.mod_add by lia. reflexivity.
Qed.
Lemma length_shift y m k : month_length (y + 400 * k) m = month_length y m.
Proof. unfold month_length. rewrite leap_shift. reflexivity. Qed.
Lemma shift_tomorrow k d : tomorrow (shift k d) = shift k (tomorrow d).
Proof.
  destruct d as [[y m] d]. unfold shift, tomorrow. rewrite length_shift.
  destruct (d <? month_length y m); [reflexivity|]. destruct (m <? 12); [reflexivity|].
  f_equal. f_equal. lia.
Qed.
Lemma shift_real k d : real_date d -> real_date (shift k d).
Proof. destruct d as [[y m] d]. unfold shift, real_date. rewrite length_shift. auto. Qed.
Lemma shift_shift k l d : shift k (shift l d) = shift (k + l) d.
Proof. destruct d as [[y m] d]. unfold shift. f_equal. f_equal. lia. Qed.

Lemma unix_pos : 0 <= unix_days. Proof. vm_compute. discriminate. Qed.

Lemma calendar_next n : calendar (n + 1) = tomorrow (calendar n) /\ real_date (calendar n).
Proof.
  unfold calendar. pose proof unix_pos as U. pose proof (Z.mod_pos_bound n 146097 ltac:(lia)) as R.
  destruct (ymd_next (n mod 146097)) as [E W]; [lia|]. split; [|apply shift_real, W].
  rewrite shift_tomorrow, <- E. destruct (Z.eq_dec (n mod 146097) 146096) as [L|L].
  - assert (E1 : (n + 1) / 146097 = n / 146097 + 1) by lia. assert (E2 : (n + 1) mod 146097 = 0) by lia.
    rewrite E1, E2, L. change (146096 + 1) with 146097.
    assert (Y : ymd 146097 = shift 1 (ymd 0)) by (vm_compute; reflexivity). rewrite Y, shift_shift. reflexivity.
  - assert (E1 : (n + 1) / 146097 = n / 146097) by lia. assert (E2 : (n + 1) mod 146097 = n mod 146097 + 1) by lia.
    rewrite E1, E2. reflexivity.
Qed.

Lemma date_of_calendar n d : date_of n d <-> d = calendar n.
Proof.
  split.
  - induction 1 as [|n d H IH|n d R H IH].
    + vm_compute. reflexivity.
    + rewrite (proj1 (calendar_next n)), <- IH. reflexivity.
    + apply tomorrow_inj; [exact R|apply calendar_next|]. rewrite IH. apply calendar_next.
  - intros ->. destruct (Z.le_gt_cases 0 n) as [P|P].
    + replace n with (Z.of_nat (Z.to_nat n)) by lia. induction (Z.to_nat n) as [|k IH]; [apply date_epoch|].
      replace (Z.of_nat (S k)) with (Z.of_nat k + 1) by lia. rewrite (proj1 (calendar_next _)). apply date_after, IH.
    + replace n with (- Z.of_nat (Z.to_nat (- n))) by lia. induction (Z.to_nat (- n)) as [|k IH]; [apply date_epoch|].
      apply date_before; [apply calendar_next|]. rewrite <- (proj1 (calendar_next _)).
      replace (- Z.of_nat (S k) + 1) with (- Z.of_nat k) by lia. exact IH.
Qed.

Lemma date_unique n d d' : date_of n d -> date_of n d' -> d = d'.
Proof. rewrite !date_of_calendar. congruence. Qed.

(** The order of dates. *)
Definition earlier (d d' : date) : Prop :=
  let '(y, m, d) := d in let '(y', m', d') := d' in
  y < y' \/ (y = y' /\ (m < m' \/ (m = m' /\ d < d'))).
Lemma earlier_tomorrow d : earlier d (tomorrow d).
Proof.
  destruct d as [[y m] d]. unfold tomorrow. destruct (d <? month_length y m); [cbn; lia|].
  destruct (m <? 12); cbn; lia.
Qed.
Lemma earlier_trans a b c : earlier a b -> earlier b c -> earlier a c.
Proof. destruct a as [[? ?] ?], b as [[? ?] ?], c as [[? ?] ?]. cbn. lia. Qed.
Lemma calendar_order n k : earlier (calendar n) (calendar (n + 1 + Z.of_nat k)).
Proof.
  induction k as [|k IH].
  - rewrite Z.add_0_r, (proj1 (calendar_next n)). apply earlier_tomorrow.
  - replace (n + 1 + Z.of_nat (S k)) with (n + 1 + Z.of_nat k + 1) by lia.
    rewrite (proj1 (calendar_next (n + 1 + Z.of_nat k))). eapply earlier_trans; [exact IH|apply earlier_tomorrow].
Qed.
Lemma calendar_lt n n' : n < n' -> earlier (calendar n) (calendar n').
Proof. intros H. replace n' with (n + 1 + Z.of_nat (Z.to_nat (n' - n - 1))) by lia. apply calendar_order. Qed.
Lemma earlier_irrefl d : ~ earlier d d.
Proof. destruct d as [[? ?] ?]. cbn. lia. Qed.
Lemma day_unique n n' d : date_of n d -> date_of n' d -> n = n'.
Proof.
  rewrite !date_of_calendar. intros -> E. destruct (Z.lt_trichotomy n n') as [L|[L|L]]; [|exact L|];
    apply calendar_lt in L; rewrite E in L; destruct (earlier_irrefl _ L).
Qed.

(** ** The clock *)

Definition local (off t : Z) : Z := t + off * 10 ^ 9.
Definition day_ns : Z := 86400 * 10 ^ 9.

(** What [civil_at] gives. *)
Record reading (off t : Z) (c : civil) : Prop := {
  rd_date : date_of (local off t / day_ns) (t_year c, t_month c, t_day c);
  rd_real : real_date (t_year c, t_month c, t_day c);
  rd_time : ((t_hour c * 60 + t_minute c) * 60 + t_second c) * 10 ^ 9 + t_nano c = local off t mod day_ns;
  rd_hour : 0 <= t_hour c < 24;
  rd_minute : 0 <= t_minute c < 60;
  rd_second : 0 <= t_second c < 60;
  rd_nano : 0 <= t_nano c < 10 ^ 9
}.
Lemma div_both g s t off : g = 10 ^ 9 -> s = 86400 -> (t / g + off) / s = (t + off * g) / (s * g).
Proof. intros -> ->. rewrite (Z.mul_comm 86400), <- Z.div_div by lia. rewrite Z.div_add by lia. reflexivity. Qed.
Lemma clock_time x : let s := x mod 86400 in
  0 <= s / 3600 < 24 /\ 0 <= s mod 3600 / 60 < 60 /\ 0 <= s mod 60 < 60 /\
  (s / 3600 * 60 + s mod 3600 / 60) * 60 + s mod 60 = s.
Proof. cbv zeta. lia. Qed.
Lemma clock_nano t off : (t / 10 ^ 9 + off) mod 86400 * 10 ^ 9 + t mod 10 ^ 9 = (t + off * 10 ^ 9) mod (86400 * 10 ^ 9).
Proof. change (10 ^ 9) with 1000000000. change (86400 * 1000000000) with 86400000000000. lia. Qed.
Lemma day_low u x g : 0 < g -> - u * g <= x -> 0 <= x / g + u.
Proof. intros G H. apply (Z.div_le_mono _ _ g G) in H. rewrite Z.div_mul in H by lia. lia. Qed.

Lemma civil_ymd off t : civil_at off t =
  let sec := t / 10 ^ 9 + off in
  let '(y, m, d) := ymd (sec / 86400) in
  Civil y m d (sec mod 86400 / 3600) (sec mod 86400 mod 3600 / 60) (sec mod 86400 mod 60) (t mod 10 ^ 9).
Proof.
  unfold civil_at, ymd. cbv zeta. destruct (abs_year _) as [y k]. destruct (month_day _ _) as [m d]. reflexivity.
Qed.
Lemma some_reading off t y m d sec : sec = t / 10 ^ 9 + off -> date_of (sec / 86400) (y, m, d) -> real_date (y, m, d) ->
  reading off t (Civil y m d (sec mod 86400 / 3600) (sec mod 86400 mod 3600 / 60) (sec mod 86400 mod 60) (t mod 10 ^ 9)).
Proof.
  intros E Y W. destruct (clock_time sec) as (H & I & S & T). pose proof (clock_nano t off) as N.
  constructor; cbn [t_year t_month t_day t_hour t_minute t_second t_nano].
  - unfold local, day_ns. rewrite <- (div_both _ _ t off eq_refl eq_refl), <- E. exact Y.
  - exact W.
  - rewrite T, E. exact N.
  - exact H.
  - exact I.
  - exact S.
  - apply Z.mod_pos_bound. reflexivity.
Qed.

Lemma civil_reading off t : - unix_days * day_ns <= local off t -> reading off t (civil_at off t).
Proof.
  intros L. rewrite civil_ymd. cbv zeta. remember (t / 10 ^ 9 + off) as sec eqn:E.
  assert (P : 0 <= sec / 86400 + unix_days).
  { rewrite E, (div_both _ _ t off eq_refl eq_refl). apply day_low; [reflexivity|exact L]. }
  pose proof (ymd_date _ P) as Y. pose proof (proj2 (ymd_next _ P)) as W.
  destruct (ymd (sec / 86400)) as [[y m] d]. apply some_reading; assumption.
Qed.

Lemma civil_valid off t c : reading off t c -> 0 <= t_year c <= 9999 -> civil_ok c.
Proof.
  intros R Y. destruct R as [_ [M D] _ H I S N]. unfold civil_ok. change (10 ^ 9) with 1000000000 in N.
  assert (month_length (t_year c) (t_month c) <= 31).
  { unfold month_length. destruct (_ =? 2); [destruct (leap_year _); lia|]. destruct (existsb _ _); lia. }
  repeat split; lia.
Qed.

(** ** Digits *)

Lemma digits_number w n : 0 <= n < 10 ^ Z.of_nat w -> number w (digits w n) n.
Proof.
  intros R. split; [apply digits_length|]. split.
  - apply forallb_forall. intros b B. pose proof (digits_chars w n ltac:(lia)) as F. rewrite Forall_forall in F.
    specialize (F b B). unfold is_digit. lia.
  - revert n R. induction w as [|w IH]; intros n R; [cbn in *; lia|]. rewrite Nat2Z.inj_succ, Z.pow_succ_r in R by lia.
    cbn [digits]. unfold dec_value in *. rewrite fold_left_app, IH by lia. cbn [fold_left]. lia.
Qed.

Lemma number_unique w s n n' : number w s n -> number w s n' -> n = n'.
Proof. intros (_ & _ & <-) (_ & _ & <-). reflexivity. Qed.

Lemma dec_value_zeros s k : dec_value (s ++ repeat 48 k) = dec_value s * 10 ^ Z.of_nat k.
Proof.
  induction k as [|k IH]; [cbn [repeat]; rewrite app_nil_r; lia|].
  change (repeat 48 (S k)) with (48 :: repeat 48 k). rewrite repeat_cons, app_assoc. unfold dec_value in *. rewrite fold_left_app, IH. cbn [fold_left].
  rewrite Nat2Z.inj_succ, Z.pow_succ_r by lia. lia.
Qed.

Lemma trim_split s : exists k, s = trim_zeros s ++ repeat 48 k.
Proof.
  induction s as [|b r [k IH]]; [exists O; reflexivity|]. cbn [trim_zeros].
  destruct (trim_zeros r) as [|x l].
  - destruct (Z.eqb_spec b 48) as [->|]; [exists (S k); cbn in *; congruence|exists k; cbn in *; congruence].
  - exists k. cbn in *. congruence.
Qed.

Lemma fraction_text n : 0 <= n < 10 ^ 9 -> frac_text (fraction n) n.
Proof.
  intros R. change 9 with (Z.of_nat 9) in R. destruct (digits_number 9 n R) as (L & D & V). unfold fraction.
  destruct (trim_split (digits 9 n)) as [k E]. set (f := trim_zeros (digits 9 n)) in *. clearbody f.
  rewrite E in L, D, V. rewrite app_length, repeat_length in L. rewrite forallb_app in D. apply andb_true_iff in D as [D _].
  rewrite dec_value_zeros in V. destruct f as [|b f].
  - change (dec_value []) with 0 in V. replace n with 0 by lia. constructor.
  - replace n with (dec_value (b :: f) * 10 ^ (9 - len (b :: f))).
    + apply frac_some; [cbn [List.length] in *; lia|]. repeat split. exact D.
    + rewrite <- V. f_equal. f_equal. unfold len. lia.
Qed.

Lemma zone_spec off : off mod 60 = 0 -> Z.abs off < 86400 -> zone_of (zone_text off) (off / 60).
Proof.
  intros M A. unfold zone_text. destruct (Z.eqb_spec off 0) as [->|N]; [constructor|].
  assert (Q : Z.quot off 60 = off / 60) by lia. rewrite Q. set (z := off / 60) in *.
  assert (B : 0 < Z.abs z < 1440) by (subst z; lia). clearbody z. clear Q A M N off.
  assert (H : 0 <= Z.abs z / 60 < 24) by lia. assert (I : 0 <= Z.abs z mod 60 < 60) by lia.
  pose proof (digits_number 2 (Z.abs z / 60) ltac:(cbn; lia)) as D1.
  pose proof (digits_number 2 (Z.abs z mod 60) ltac:(cbn; lia)) as D2.
  destruct (Z.ltb_spec z 0).
  - pose proof (zone_west _ _ _ _ D1 D2 H I) as W. replace (- (Z.abs z / 60 * 60 + Z.abs z mod 60)) with z in W by lia. exact W.
  - pose proof (zone_east _ _ _ _ D1 D2 H I) as W. replace (Z.abs z / 60 * 60 + Z.abs z mod 60) with z in W by lia. exact W.
Qed.

(** ** RFC 3339 *)

Lemma rfc3339_denotes off t : - unix_days * day_ns <= local off t -> off mod 60 = 0 -> Z.abs off < 86400 ->
  0 <= t_year (civil_at off t) <= 9999 -> denotes (rfc3339 off t) t.
Proof.
  intros L M A Y. destruct (civil_reading off t L) as [D W T H I S N]. unfold rfc3339.
  set (c := civil_at off t) in *. clearbody c. destruct W as [W1 W2].
  assert (ML : month_length (t_year c) (t_month c) <= 31).
  { unfold month_length. destruct (_ =? 2); [destruct (leap_year _); lia|]. destruct (existsb _ _); lia. }
  assert (E : t = instant (local off t / day_ns) (t_hour c) (t_minute c) (t_second c) (t_nano c) (off / 60)).
  { unfold instant. unfold local, day_ns in *. change (10 ^ 9) with 1000000000 in *. lia. }
  assert (G : forall w t', t' = t -> denotes w t' -> denotes w t) by (intros; subst; assumption).
  apply G with (1 := eq_sym E). apply denotes_text with (y := t_year c) (m := t_month c) (d := t_day c);
    try apply digits_number; try (cbn; lia); try assumption.
  - apply fraction_text, N.
  - apply zone_spec; assumption.
Qed.

(** A text stands for one instant. *)
Lemma zone_head z n : zone_of z n -> exists b r, z = b :: r /\ is_digit b = false /\ b <> 46.
Proof. destruct 1; (do 2 eexists; split; [reflexivity|]); split; (reflexivity || discriminate). Qed.
Lemma digit_run a b r a' b' r' : forallb is_digit a = true -> forallb is_digit a' = true ->
  is_digit b = false -> is_digit b' = false -> a ++ b :: r = a' ++ b' :: r' -> a = a' /\ b :: r = b' :: r'.
Proof.
  revert a'. induction a as [|x a IH]; intros [|x' a'] A A' B B' E; cbn in *.
  - auto.
  - injection E as -> _. rewrite B in A'. discriminate.
  - injection E as <- _. rewrite B' in A. discriminate.
  - injection E as <- E. apply andb_true_iff in A as [_ A]. apply andb_true_iff in A' as [_ A'].
    destruct (IH a' A A' B B' E) as [-> ->]. auto.
Qed.
Lemma frac_zone f n z k f' n' z' k' : frac_text f n -> zone_of z k -> frac_text f' n' -> zone_of z' k' ->
  f ++ z = f' ++ z' -> n = n' /\ z = z'.
Proof.
  intros F Z F' Z' E. destruct (zone_head _ _ Z) as (b & r & -> & B & B2). destruct (zone_head _ _ Z') as (b' & r' & -> & B' & B2').
  destruct F as [|f n L (_ & D & V)], F' as [|f' n' L' (_ & D' & V')]; cbn [app str] in E.
  - auto.
  - injection E as -> _. contradiction B2. reflexivity.
  - injection E as <- _. contradiction B2'. reflexivity.
  - injection E as E.
    destruct (digit_run _ _ _ _ _ _ D D' B B' E) as [-> E2]. split; [congruence|exact E2].
Qed.
Lemma zone_unique z n n' : zone_of z n -> zone_of z n' -> n = n'.
Proof.
  intros A B. remember z as x eqn:X in B. revert X.
  destruct A as [|hh mm h m H M Hr Mr|hh mm h m H M Hr Mr], B as [|hh' mm' h' m' H' M' Hr' Mr'|hh' mm' h' m' H' M' Hr' Mr'];
    intros E; try reflexivity; cbn [str app] in E; try discriminate E;
    injection E as E; (apply app_inv_len in E as [-> E]; [|destruct H as [-> _], H' as [-> _]; reflexivity]);
    injection E as ->; rewrite (number_unique _ _ _ _ H H'), (number_unique _ _ _ _ M M'); reflexivity.
Qed.

Lemma denotes_unique w t t' : denotes w t -> denotes w t' -> t = t'.
Proof.
  intros A B. destruct A as [yy mo dd hh mi ss f z y m d h i s nano zone day Y M D H I S F Z R T Hr Ir Sr].
  inversion B as [yy' mo' dd' hh' mi' ss' f' z' y' m' d' h' i' s' nano' zone' day' Y' M' D' H' I' S' F' Z' R' T' Hr' Ir' Sr' E E'].
  subst t'. clear B.
  Ltac next E A B := apply app_inv_len in E as [? E]; [|destruct A as [-> _], B as [-> _]; reflexivity]; subst.
  next E Y Y'. injection E as E. next E M M'. injection E as E. next E D D'. injection E as E.
  next E H H'. injection E as E. next E I I'. injection E as E. next E S S'.
  rewrite (number_unique _ _ _ _ H H'), (number_unique _ _ _ _ I I'), (number_unique _ _ _ _ S S').
  destruct (frac_zone _ _ _ _ _ _ _ _ F Z F' Z' (eq_sym E)) as [<- EZ] || destruct (frac_zone _ _ _ _ _ _ _ _ F' Z' F Z E) as [<- EZ].
  subst. rewrite (zone_unique _ _ _ Z Z').
  rewrite (number_unique _ _ _ _ Y Y'), (number_unique _ _ _ _ M M'), (number_unique _ _ _ _ D D') in T.
  rewrite (day_unique _ _ _ T T'). reflexivity.
Qed.

(** ** The years that can be printed *)

Definition go_zero : Z := - 62135596800 * 10 ^ 9.
Definition year_10000 : Z := 253402300800 * 10 ^ 9.

Lemma go_zero_local off t : go_zero <= t -> Z.abs off < 86400 -> - unix_days * day_ns <= local off t.
Proof.
  unfold go_zero, local, day_ns. intros A B.
  assert (U : - unix_days * (86400 * 10 ^ 9) <= -62135596800 * 10 ^ 9 - 86400 * 10 ^ 9) by (vm_compute; discriminate).
  change (10 ^ 9) with 1000000000 in *. lia.
Qed.
Definition year_of (d : date) : Z := fst (fst d).
Lemma calendar_mono n n' : n <= n' -> year_of (calendar n) <= year_of (calendar n').
Proof.
  intros H. destruct (Z.eq_dec n n') as [->|N]; [lia|]. pose proof (calendar_lt n n' ltac:(lia)) as E.
  destruct (calendar n) as [[? ?] ?], (calendar n') as [[? ?] ?]. cbn in *. lia.
Qed.
Lemma year_low n : -719528 <= n -> 0 <= year_of (calendar n).
Proof.
  intros H. apply calendar_mono in H. assert (E : year_of (calendar (-719528)) = 0) by (vm_compute; reflexivity).
  lia.
Qed.
Lemma year_high n : n < 2932897 <-> year_of (calendar n) <= 9999.
Proof.
  assert (E : calendar 2932897 = (10000, 1, 1)) by (vm_compute; reflexivity).
  assert (E' : year_of (calendar 2932896) = 9999) by (vm_compute; reflexivity). split; intros H.
  - assert (H' : n <= 2932896) by lia. apply calendar_mono in H'. lia.
  - destruct (Z.lt_ge_cases n 2932897) as [L|L]; [exact L|]. apply calendar_mono in L. rewrite E in L. cbn in L. lia.
Qed.

Lemma low_day off t : go_zero <= t -> Z.abs off < 86400 -> -719528 <= local off t / day_ns.
Proof.
  unfold go_zero, local, day_ns. intros G A. apply Z.div_le_lower_bound; [reflexivity|].
  change (10 ^ 9) with 1000000000 in *. lia.
Qed.
Lemma high_day off t : local off t / day_ns < 2932897 <-> t + off * 10 ^ 9 < year_10000.
Proof.
  fold (local off t). generalize (local off t). intros x. assert (E : year_10000 = day_ns * 2932897) by reflexivity. rewrite E.
  assert (P : 0 < day_ns) by reflexivity. clear E. split; intros H.
  - apply Z.lt_nge. intros N. apply (Z.div_le_lower_bound _ _ _ P) in N. lia.
  - apply Z.div_lt_upper_bound; assumption.
Qed.
Lemma civil_year off t : go_zero <= t -> Z.abs off < 86400 ->
  0 <= t_year (civil_at off t) /\ (t_year (civil_at off t) <= 9999 <-> t + off * 10 ^ 9 < year_10000).
Proof.
  intros G A. pose proof (rd_date _ _ _ (civil_reading off t (go_zero_local _ _ G A))) as D.
  pose proof (low_day off t G A) as L. rewrite <- high_day.
  generalize dependent (local off t / day_ns). generalize (civil_at off t). intros c n D L.
  apply date_of_calendar in D. pose proof (year_low n L) as Y. pose proof (year_high n) as Y'. rewrite <- D in Y, Y'.
  cbn in Y, Y'. split; [exact Y|symmetry; exact Y'].
Qed.

Lemma civil_at_ok off t : go_zero <= t -> Z.abs off < 86400 -> t + off * 10 ^ 9 < year_10000 -> civil_ok (civil_at off t).
Proof.
  intros G A L. destruct (civil_year off t G A) as [Y1 Y2]. eapply civil_valid; [apply civil_reading, go_zero_local; eassumption|].
  split; [exact Y1|apply Y2, L].
Qed.

Lemma three_tests y a l h : 0 <= y -> a < 86400 -> (y <= 9999 <-> l < h) ->
  (0 <=? y) && (y <=? 9999) && (a <? 86400) = (l <? h).
Proof.
  intros Y A E. destruct (Z.leb_spec 0 y); [|lia]. destruct (Z.ltb_spec a 86400); [|lia].
  destruct (Z.leb_spec y 9999), (Z.ltb_spec l h); cbn; try reflexivity; lia.
Qed.
Lemma marshal_some off t : go_zero <= t -> Z.abs off < 86400 ->
  marshal_time off t = if t + off * 10 ^ 9 <? year_10000 then Some (rfc3339 off t) else None.
Proof.
  intros G A. destruct (civil_year off t G A) as [Y1 Y2]. unfold marshal_time. cbv zeta. generalize dependent (rfc3339 off t).
  generalize dependent (civil_at off t). intros c Y1 Y2 r.
  rewrite (three_tests _ _ _ _ Y1 A Y2). reflexivity.
Qed.
Lemma marshal_zone off t w : marshal_time off t = Some w -> Z.abs off < 86400.
Proof.
  unfold marshal_time. cbv zeta. generalize (rfc3339 off t), (civil_at off t). intros r c.
  destruct (Z.ltb_spec (Z.abs off) 86400); [intros; assumption|]. rewrite andb_false_r. discriminate.
Qed.
Lemma if_some (b : bool) (x w : bytes) : (if b then Some x else None) = Some w -> b = true /\ x = w.
Proof. destruct b; [intros E; injection E as ->; auto|discriminate]. Qed.
Lemma marshal_inv off t w : go_zero <= t -> marshal_time off t = Some w ->
  w = rfc3339 off t /\ t + off * 10 ^ 9 < year_10000.
Proof.
  intros G E. pose proof (marshal_zone _ _ _ E) as A. rewrite (marshal_some off t G A) in E.
  apply if_some in E as [E ->]. split; [reflexivity|apply Z.ltb_lt, E].
Qed.
Lemma marshal_denotes off t w : go_zero <= t -> off mod 60 = 0 -> marshal_time off t = Some w -> denotes w t.
Proof.
  intros G M E. pose proof (marshal_zone _ _ _ E) as A. destruct (marshal_inv _ _ _ G E) as [-> L].
  destruct (civil_year off t G A) as [Y1 Y2].
  exact (rfc3339_denotes off t (go_zero_local _ _ G A) M A (conj Y1 (proj2 Y2 L))).
Qed.

(** ** What the text of a time is made of *)
Definition plain (b : Z) : Prop := 48 <= b <= 57 \/ In b [45; 43; 58; 46; 84; 90].
Lemma number_plain w s n : number w s n -> Forall plain s.
Proof.
  intros (_ & D & _). rewrite forallb_forall in D. apply Forall_forall. intros b B. apply D in B. unfold is_digit in B. left. lia.
Qed.
Lemma denotes_plain w t : denotes w t -> Forall plain w.
Proof.
  destruct 1 as [yy mo dd hh mi ss f z y m d h i s nano zone day Y M D H I S F Z R T Hr Ir Sr].
  assert (C : forall b, In b [45; 43; 58; 46; 84; 90] -> Forall plain [b]) by (intros b B; constructor; [right; exact B|constructor]).
  repeat (apply Forall_app; split); try (eapply number_plain; eassumption); try (apply C; cbn; tauto).
  - destruct F as [|f n L N]; [constructor|]. apply Forall_app. split; [apply C; cbn; tauto|eapply number_plain; exact N].
  - destruct Z as [|hh' mm' h' m' N1 N2|hh' mm' h' m' N1 N2]; repeat (apply Forall_app; split);
      try (eapply number_plain; eassumption); apply C; cbn; tauto.
Qed.

(** ** Names *)

Lemma sorts_app a x y : sorts_before x y -> sorts_before (a ++ x) (a ++ y).
Proof. intros H. induction a as [|b a IH]; [exact H|]. apply sorts_next, IH. Qed.

Lemma digits_lt w : forall a b x y, 0 <= a -> a < b -> b < 10 ^ Z.of_nat w ->
  sorts_before (digits w a ++ x) (digits w b ++ y).
Proof.
  induction w as [|w IH]; intros a b x y A L B; [cbn in B; lia|].
  rewrite Nat2Z.inj_succ, Z.pow_succ_r in B by lia. cbn [digits]. rewrite <- !app_assoc.
  destruct (Z.eq_dec (a / 10) (b / 10)) as [E|N].
  - rewrite E. apply sorts_app. cbn [app]. apply sorts_byte. lia.
  - apply IH; lia.
Qed.

(** Two readings of one zone, in order. *)
Lemma readings_order off t t' c c' : reading off t c -> reading off t' c' -> t < t' ->
  earlier (t_year c, t_month c, t_day c) (t_year c', t_month c', t_day c') \/
  (t_year c = t_year c' /\ t_month c = t_month c' /\ t_day c = t_day c' /\
   (t_hour c < t_hour c' \/ (t_hour c = t_hour c' /\
     (t_minute c < t_minute c' \/ (t_minute c = t_minute c' /\
       (t_second c < t_second c' \/ (t_second c = t_second c' /\ t_nano c < t_nano c'))))))).
Proof.
  intros [D _ T H I S N] [D' _ T' H' I' S' N'] L.
  assert (Q : local off t / day_ns < local off t' / day_ns \/
              (local off t / day_ns = local off t' / day_ns /\ local off t mod day_ns < local off t' mod day_ns)).
  { unfold local, day_ns. change (10 ^ 9) with 1000000000. lia. }
  apply date_of_calendar in D, D'. destruct Q as [Q|[Q R]].
  - left. rewrite D, D'. apply calendar_lt, Q.
  - right. rewrite Q in D. rewrite <- D' in D. injection D as -> -> ->. repeat split.
    rewrite <- T, <- T' in R. change (10 ^ 9) with 1000000000 in *. lia.
Qed.

Lemma name_order d what off t t' u u' c c' :
  civil_ok (civil_at off t) -> civil_ok (civil_at off t') ->
  reading off t (civil_at off t) -> reading off t' (civil_at off t') -> t < t' ->
  sorts_before (ndt7_name d what (civil_at off t) u c) (ndt7_name d what (civil_at off t') u' c').
Proof.
  intros O O' R R' L. unfold ndt7_name. rewrite !ndt7_dir_spec by assumption. rewrite <- !app_assoc. do 2 apply sorts_app.
  pose proof (readings_order _ _ _ _ _ R R' L) as Q. revert O O' Q. generalize (civil_at off t), (civil_at off t'). clear.
  intros [y m dd h i s n] [y' m' d' h' i' s' n']. unfold civil_ok, format_day, format_stamp, earlier.
  cbn [t_year t_month t_day t_hour t_minute t_second t_nano]. rewrite <- !app_assoc.
  intros (A1 & A2 & A3 & A4 & A5 & A6 & A7) (B1 & B2 & B3 & B4 & B5 & B6 & B7) Q.
  Ltac digit := apply digits_lt; [lia|lia|cbn; lia].
  destruct Q as [[Q|[<- [Q|[<- Q]]]]|(<- & <- & <- & [Q|[<- [Q|[<- [Q|[<- Q]]]]]])].
  - digit.
  - do 2 apply sorts_app. digit.
  - do 4 apply sorts_app. digit.
  - do 12 apply sorts_app. digit.
  - do 13 apply sorts_app. digit.
  - do 14 apply sorts_app. digit.
  - do 16 apply sorts_app. digit.
Qed.

(** The text with the fraction sorts before the text without. *)
Lemma trim_nonzero s : dec_value s <> 0 -> forallb is_digit s = true -> trim_zeros s <> [].
Proof.
  intros V D E. destruct (trim_split s) as [k K]. rewrite E in K. rewrite K in V. rewrite dec_value_zeros in V. cbn in V. lia.
Qed.
Lemma fraction_dot n : 0 < n < 10 ^ 9 -> exists f, fraction n = 46 :: f.
Proof.
  intros R. destruct (digits_number 9 n ltac:(change (Z.of_nat 9) with 9; lia)) as (_ & D & V). unfold fraction.
  destruct (trim_zeros (digits 9 n)) as [|b f] eqn:E; [|exists (b :: f); reflexivity].
  exfalso. apply (trim_nonzero (digits 9 n)); [rewrite V; lia|exact D|exact E].
Qed.
Lemma add_part g t k : 0 < g -> t mod g = 0 -> 0 <= k < g -> (t + k) / g = t / g /\ (t + k) mod g = k.
Proof.
  intros G M K. assert (TE : t + k = k + t / g * g) by (pose proof (Z.div_mod t g); lia). rewrite TE. clear TE M.
  rewrite Z.div_add, Z.mod_add by lia. rewrite Z.div_small, Z.mod_small by exact K. split; reflexivity.
Qed.
Lemma text_order t k : t mod 10 ^ 9 = 0 -> 0 < k < 10 ^ 9 ->
  sorts_before (rfc3339 0 (t + k)) (rfc3339 0 t).
Proof.
  intros M K. unfold rfc3339, civil_at.
  destruct (add_part (10 ^ 9) t k eq_refl M (conj (Z.lt_le_incl _ _ (proj1 K)) (proj2 K))) as [E E'].
  rewrite E, E', M. destruct (abs_year _) as [y yd]. destruct (month_day _ _) as [m d].
  cbn [t_year t_month t_day t_hour t_minute t_second t_nano]. do 11 apply sorts_app.
  destruct (fraction_dot k K) as [f ->]. change (fraction 0 ++ zone_text 0) with [90]. apply sorts_byte. reflexivity.
Qed.

(** ** The statements *)

Lemma go_zero_last t off : t + off * 10 ^ 9 <= 253402300800 * 10 ^ 9 - 1 -> t + off * 10 ^ 9 < year_10000.
Proof. unfold year_10000. lia. Qed.
Lemma utc t : t + 0 * 10 ^ 9 = t.
Proof. rewrite Z.mul_0_l. apply Z.add_0_r. Qed.

Definition clean_dir (datadir : bytes) : bytes :=
  if beqb (path_clean datadir) (str ".") then []
  else if beqb (path_clean datadir) (str "/") then str "/" else path_clean datadir ++ str "/".

Lemma ndt7_name_time datadir what t uuid compress : datadir <> [] ->
  - 62135596800 * 10 ^ 9 <= t <= 253402300800 * 10 ^ 9 - 1 ->
  exists day y m d h i s n yy mo dd hh mi ss nn,
    date_of day (y, m, d) /\ t = instant day h i s n 0 /\
    0 <= h < 24 /\ 0 <= i < 60 /\ 0 <= s < 60 /\ 0 <= n < 10 ^ 9 /\
    number 4 yy y /\ number 2 mo m /\ number 2 dd d /\ number 2 hh h /\ number 2 mi i /\ number 2 ss s /\ number 9 nn n /\
    ndt7_name datadir what (civil_at 0 t) uuid compress =
      clean_dir datadir ++ str "ndt7/" ++ yy ++ str "/" ++ mo ++ str "/" ++ dd ++ str "/ndt7-" ++ what ++ str "-" ++
      yy ++ mo ++ dd ++ str "T" ++ hh ++ mi ++ ss ++ str "." ++ nn ++ str "Z." ++ uuid ++ str ".json" ++
      (if compress then str ".gz" else []).
Proof.
  intros N [F L]. rewrite <- (utc t) in L. apply go_zero_last in L.
  pose proof (civil_at_ok 0 t F eq_refl L) as O. pose proof (civil_reading 0 t (go_zero_local 0 t F eq_refl)) as [D _ T H I S NN].
  assert (P : dir_prefix datadir = clean_dir datadir) by (apply dir_prefix_clean, N).
  unfold ndt7_name. rewrite ndt7_dir_spec, P by exact O.
  generalize dependent (civil_at 0 t). intros c. intros.
  assert (E : t = instant (local 0 t / day_ns) (t_hour c) (t_minute c) (t_second c) (t_nano c) 0).
  { clear -T. pose proof (Z.div_mod (local 0 t) day_ns ltac:(discriminate)) as Q. rewrite <- T in Q.
    unfold local in Q at 1. rewrite utc in Q. unfold instant. unfold day_ns at 1 in Q.
    change (10 ^ 9) with 1000000000 in *. lia. }
  destruct O as (A1 & A2 & A3 & A4 & A5 & A6 & A7).
  exists (local 0 t / day_ns), (t_year c), (t_month c), (t_day c), (t_hour c), (t_minute c), (t_second c), (t_nano c).
  exists (digits 4 (t_year c)), (digits 2 (t_month c)), (digits 2 (t_day c)), (digits 2 (t_hour c)), (digits 2 (t_minute c)), (digits 2 (t_second c)), (digits 9 (t_nano c)).
  split; [exact D|]. split; [exact E|]. do 4 (split; [assumption|]).
  do 7 (split; [apply digits_number; cbn; lia|]).
  unfold format_day, format_stamp. rewrite <- !app_assoc. reflexivity.
Qed.

Lemma ndt7_sorted datadir what t t' uuid uuid' (compress compress' : bool) :
  - 62135596800 * 10 ^ 9 <= t -> t < t' -> t' <= 253402300800 * 10 ^ 9 - 1 ->
  sorts_before (ndt7_name datadir what (civil_at 0 t) uuid compress)
               (ndt7_name datadir what (civil_at 0 t') uuid' compress').
Proof.
  intros F L U. assert (U1 : t <= 253402300800 * 10 ^ 9 - 1) by (apply Z.lt_le_incl, (Z.lt_le_trans _ t'); assumption).
  assert (F' : - 62135596800 * 10 ^ 9 <= t') by (apply Z.lt_le_incl, (Z.le_lt_trans _ t); assumption).
  rewrite <- (utc t') in U. rewrite <- (utc t) in U1. apply go_zero_last in U, U1.
  apply name_order; try exact L; try (apply civil_at_ok; (assumption || reflexivity)); apply civil_reading, go_zero_local; (assumption || reflexivity).
Qed.

Lemma ndt5_day_time datadir off t : datadir <> [] -> Z.abs off < 86400 ->
  - 62135596800 * 10 ^ 9 <= t -> t + off * 10 ^ 9 <= 253402300800 * 10 ^ 9 - 1 ->
  exists y m d yy mo dd,
    date_of ((t + off * 10 ^ 9) / (86400 * 10 ^ 9)) (y, m, d) /\
    number 4 yy y /\ number 2 mo m /\ number 2 dd d /\
    ndt5_dir datadir (civil_at off t) = clean_dir datadir ++ yy ++ str "/" ++ mo ++ str "/" ++ dd.
Proof.
  intros N A F L. apply go_zero_last in L. pose proof (civil_at_ok off t F A L) as O.
  pose proof (rd_date _ _ _ (civil_reading off t (go_zero_local off t F A))) as D.
  assert (P : dir_prefix datadir = clean_dir datadir) by (apply dir_prefix_clean, N).
  rewrite ndt5_dir_spec, P by exact O. generalize dependent (civil_at off t). intros c. intros.
  destruct O as (A1 & A2 & A3 & _).
  exists (t_year c), (t_month c), (t_day c), (digits 4 (t_year c)), (digits 2 (t_month c)), (digits 2 (t_day c)).
  split; [exact D|]. do 3 (split; [apply digits_number; cbn; lia|]). reflexivity.
Qed.

Lemma other_day datadir off t : Z.abs off < 86400 -> - 62135596800 * 10 ^ 9 <= t ->
  t + off * 10 ^ 9 <= 253402300800 * 10 ^ 9 - 1 -> t <= 253402300800 * 10 ^ 9 - 1 ->
  (t + off * 10 ^ 9) / (86400 * 10 ^ 9) <> t / (86400 * 10 ^ 9) ->
  ndt5_dir datadir (civil_at off t) <> ndt5_dir datadir (civil_at 0 t).
Proof.
  intros A F L L0 N E. rewrite <- (utc t) in L0. apply go_zero_last in L, L0.
  pose proof (civil_at_ok off t F A L) as O. pose proof (civil_at_ok 0 t F eq_refl L0) as O0.
  pose proof (rd_date _ _ _ (civil_reading off t (go_zero_local off t F A))) as D.
  pose proof (rd_date _ _ _ (civil_reading 0 t (go_zero_local 0 t F eq_refl))) as D0.
  generalize dependent (civil_at off t). generalize dependent (civil_at 0 t). intros c0 O0 D0 c E O D.
  rewrite !ndt5_dir_spec in E by assumption. apply app_inv_head in E. apply format_day_inj in E as (Y & M & DD); try assumption.
  rewrite Y, M, DD in D. pose proof (day_unique _ _ _ D D0) as Q. apply N. unfold local in Q. rewrite utc in Q. exact Q.
Qed.
Lemma ndt5_zone datadir off : off <> 0 -> Z.abs off < 86400 ->
  exists t, - 62135596800 * 10 ^ 9 <= t <= 253402300800 * 10 ^ 9 - 1 /\
    ndt5_dir datadir (civil_at off t) <> ndt5_dir datadir (civil_at 0 t).
Proof.
  intros N A. destruct (Z.lt_ge_cases off 0) as [B|B].
  - exists (86400 * 10 ^ 9). split; [split; discriminate|].
    apply other_day; [assumption|discriminate|change (10 ^ 9) with 1000000000; lia|discriminate|].
    rewrite Z.div_same by discriminate. rewrite Z.div_small; [discriminate|]. change (10 ^ 9) with 1000000000. lia.
  - exists (86400 * 10 ^ 9 - 1). split; [split; discriminate|].
    apply other_day; [assumption|discriminate|change (10 ^ 9) with 1000000000; lia|discriminate|].
    change ((86400 * 10 ^ 9 - 1) / (86400 * 10 ^ 9)) with 0. intros Q. apply Z.div_small_iff in Q; [|discriminate].
    change (10 ^ 9) with 1000000000 in Q. lia.
Qed.

Lemma printable off t : Z.abs off < 86400 -> - 62135596800 * 10 ^ 9 <= t ->
  marshal_time off t <> None <-> t + off * 10 ^ 9 <= 253402300800 * 10 ^ 9 - 1.
Proof.
  intros A F. rewrite (marshal_some off t F A). generalize (rfc3339 off t). intros w.
  destruct (Z.ltb_spec (t + off * 10 ^ 9) year_10000) as [L|L]; unfold year_10000 in L; split; intros H.
  - lia.
  - discriminate.
  - contradiction.
  - lia.
Qed.

Lemma document_order t k : - 62135596800 * 10 ^ 9 <= t -> t + k <= 253402300800 * 10 ^ 9 - 1 ->
  t mod 10 ^ 9 = 0 -> 0 < k < 10 ^ 9 ->
  exists w w', marshal_time 0 t = Some w /\ marshal_time 0 (t + k) = Some w' /\ sorts_before w' w.
Proof.
  intros F L M K. exists (rfc3339 0 t), (rfc3339 0 (t + k)).
  assert (F' : - 62135596800 * 10 ^ 9 <= t + k) by (destruct K; lia).
  rewrite (marshal_some 0 t F eq_refl), (marshal_some 0 (t + k) F' eq_refl), !utc.
  assert (L1 : (t <? year_10000) = true) by (apply Z.ltb_lt; unfold year_10000; destruct K; lia).
  assert (L2 : (t + k <? year_10000) = true) by (apply Z.ltb_lt; unfold year_10000; lia).
  rewrite L1, L2. split; [reflexivity|]. split; [reflexivity|]. apply text_order; assumption.
Qed.
