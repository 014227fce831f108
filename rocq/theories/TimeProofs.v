(** The calendar: absDate follows the days one by one. *)
From Coq Require Import String ZArith List Bool Lia.
From Verif Require Import Base BaseFacts ArchiveModel ArchiveProofs TimeModel TimeSpec.
Import ListNotations.
Open Scope Z_scope.

Ltac Zify.zify_post_hook ::= Z.to_euclidean_division_equations.

Lemma leap_eq y : is_leap y = leap_year y.
Proof.
  unfold is_leap, leap_year.
  assert (R : forall b, 0 < b -> (Z.rem y b =? 0) = (y mod b =? 0)).
  { intros b B. destruct (Z.eqb_spec (Z.rem y b) 0) as [E|E], (Z.eqb_spec (y mod b) 0) as [E'|E']; try reflexivity.
    - exfalso. apply E'. apply Z.rem_divide in E; [|lia]. apply Z.mod_divide; [lia|exact E].
    - exfalso. apply E. apply Z.mod_divide in E'; [|lia]. apply Z.rem_divide; [lia|exact E']. }
  rewrite !R by lia. reflexivity.
Qed.

(** The days before year number y, counted from [zero_year]. *)
Definition before_year (y : Z) : Z := 365 * y + y / 4 - y / 100 + y / 400.
Definition year_length (y : Z) : Z := if leap_year (y + zero_year) then 366 else 365.

Lemma leap_number y : leap_year (y + zero_year) =
  (((y + 1) mod 4 =? 0) && (negb ((y + 1) mod 100 =? 0) || ((y + 1) mod 400 =? 0))).
Proof.
  unfold leap_year, zero_year.
  replace (y + -292277022399) with (y + 1 + (-73069255600) * 4) at 1 by lia. rewrite Z.mod_add by lia.
  replace (y + -292277022399) with (y + 1 + (-2922770224) * 100) at 1 by lia. rewrite Z.mod_add by lia.
  replace (y + -292277022399) with (y + 1 + (-730692556) * 400) by lia. rewrite Z.mod_add by lia. reflexivity.
Qed.

Lemma before_next y : before_year (y + 1) = before_year y + year_length y.
Proof.
  unfold year_length. rewrite leap_number. unfold before_year.
  destruct (Z.eqb_spec ((y + 1) mod 4) 0), (Z.eqb_spec ((y + 1) mod 100) 0), (Z.eqb_spec ((y + 1) mod 400) 0);
    cbn [andb orb negb]; lia.
Qed.
Lemma length_year y : 365 <= year_length y <= 366.
Proof. unfold year_length. destruct (leap_year _); lia. Qed.
Lemma before_mono n : forall y, before_year y <= before_year (y + Z.of_nat n).
Proof.
  induction n as [|n IH]; intros y; [rewrite Z.add_0_r; lia|].
  replace (y + Z.of_nat (S n)) with (y + Z.of_nat n + 1) by lia. rewrite before_next.
  specialize (IH y). pose proof (length_year (y + Z.of_nat n)). lia.
Qed.
Lemma before_le y y' : y <= y' -> before_year y <= before_year y'.
Proof. intros H. replace y' with (y + Z.of_nat (Z.to_nat (y' - y))) by lia. apply before_mono. Qed.

(** The year of a day is unique. *)
Lemma year_unique d y k y' k' : d = before_year y + k -> 0 <= k < year_length y ->
  d = before_year y' + k' -> 0 <= k' < year_length y' -> y = y' /\ k = k'.
Proof.
  intros E R E' R'. destruct (Z.lt_trichotomy y y') as [L|[->|L]]; [| split; lia |].
  - pose proof (before_le (y + 1) y' ltac:(lia)) as M. rewrite before_next in M. lia.
  - pose proof (before_le (y' + 1) y ltac:(lia)) as M. rewrite before_next in M. lia.
Qed.

Lemma abs_year_spec d : 0 <= d ->
  let y := fst (abs_year d) - zero_year in
  d = before_year y + snd (abs_year d) /\ 0 <= snd (abs_year d) < year_length y /\ 0 <= y.
Proof.
  intros D. unfold abs_year. cbn [fst snd].
  set (n4 := d / 146097). assert (N4 : 0 <= d - 146097 * n4 < 146097 /\ 0 <= n4) by (subst n4; lia).
  set (d1 := d - 146097 * n4) in *. 
  set (n1 := d1 / 36524 - d1 / 36524 / 4).
  assert (N1 : 0 <= n1 <= 3 /\ 0 <= d1 - 36524 * n1 <= 36524 /\ (n1 <= 2 -> d1 - 36524 * n1 < 36524)) by (subst n1; clearbody d1 n4; lia).
  set (d2 := d1 - 36524 * n1) in *.
  set (q := d2 / 1461). assert (Q : 0 <= q <= 24 /\ 0 <= d2 - 1461 * q < 1461) by (subst q; clearbody d1 n4 n1 d2; lia).
  set (d3 := d2 - 1461 * q) in *.
  set (r := d3 / 365 - d3 / 365 / 4).
  assert (R : 0 <= r <= 3 /\ 0 <= d3 - 365 * r <= 365 /\ (r <= 2 -> d3 - 365 * r < 365)) by (subst r; clearbody d1 n4 n1 d2 d3 q; lia).
  set (d4 := d3 - 365 * r) in *.
  replace (400 * n4 + 100 * n1 + 4 * q + r + zero_year - zero_year) with (400 * n4 + 100 * n1 + 4 * q + r) by lia.
  set (y := 400 * n4 + 100 * n1 + 4 * q + r).
  assert (E : d = 146097 * n4 + 36524 * n1 + 1461 * q + 365 * r + d4) by (subst d4 d3 d2 d1; lia).
  assert (Y4 : y / 4 = 100 * n4 + 25 * n1 + q) by (subst y; clearbody r q n1 n4 d4; lia).
  assert (Y100 : y / 100 = 4 * n4 + n1) by (subst y; clearbody r q n1 n4 d4; lia).
  assert (Y400 : y / 400 = n4) by (subst y; clearbody r q n1 n4 d4; lia).
  split; [unfold before_year; rewrite Y4, Y100, Y400; subst y; lia|]. split; [|subst y; lia].
  split; [lia|]. pose proof (length_year y) as L. destruct (Z.eq_dec d4 365) as [F|]; [|lia].
  assert (R3 : r = 3) by lia.
  assert (C : q = 24 -> n1 = 3).
  { intros ->. destruct (Z.eq_dec n1 3); [assumption|]. exfalso. subst d4 d3. lia. }
  assert (LY : leap_year (y + zero_year) = true).
  { rewrite leap_number. destruct (Z.eqb_spec ((y + 1) mod 4) 0) as [|A]; [|exfalso; apply A; subst y; rewrite R3; clear; lia].
    destruct (Z.eqb_spec ((y + 1) mod 100) 0) as [B|]; [|reflexivity].
    destruct (Z.eqb_spec ((y + 1) mod 400) 0) as [|A]; [reflexivity|]. exfalso. apply A.
    assert (Q24 : q = 24) by (subst y; clear - B Q N1 R3; lia). subst y. rewrite (C Q24), Q24, R3. clear. lia. }
  unfold year_length. rewrite LY. lia.
Qed.

Lemma abs_year_eq d y k : 0 <= d -> d = before_year y + k -> 0 <= k < year_length y ->
  abs_year d = (y + zero_year, k).
Proof.
  intros D E R. destruct (abs_year_spec d D) as (E' & R' & _).
  destruct (year_unique _ _ _ _ _ E R E' R') as [A B]. destruct (abs_year d) as [a b]. cbn [fst snd] in *. f_equal; lia.
Qed.

Lemma abs_year_next d : 0 <= d ->
  let '(y, k) := abs_year d in
  abs_year (d + 1) = if k + 1 <? (if leap_year y then 366 else 365) then (y, k + 1) else (y + 1, 0).
Proof.
  intros D. pose proof (abs_year_spec d D) as S. destruct (abs_year d) as [y k]. cbn [fst snd] in S.
  destruct S as (E & R & Y). set (n := y - zero_year) in *.
  assert (L : year_length n = if leap_year y then 366 else 365).
  { unfold year_length. replace (n + zero_year) with y by (subst n; lia). reflexivity. }
  rewrite <- L. destruct (Z.ltb_spec (k + 1) (year_length n)).
  - rewrite (abs_year_eq _ n (k + 1)) by lia. f_equal. subst n. lia.
  - rewrite (abs_year_eq _ (n + 1) 0); [f_equal; subst n; lia|lia| |pose proof (length_year (n + 1)); lia].
    rewrite before_next. lia.
Qed.

(** Months and days, for all days of a year. *)
Definition month_check (leap : bool) (k : Z) : bool :=
  let '(m, d) := month_day leap k in
  let len := if m =? 2 then if leap then 29 else 28 else if existsb (Z.eqb m) [4; 6; 9; 11] then 30 else 31 in
  (1 <=? m) && (m <=? 12) && (1 <=? d) && (d <=? len) &&
  let '(m', d') := month_day leap (k + 1) in
  if d <? len then (m' =? m) && (d' =? d + 1)
  else if m <? 12 then (m' =? m + 1) && (d' =? 1)
  else k + 1 =? if leap then 366 else 365.
Lemma month_checked (leap : bool) k : 0 <= k < (if leap then 366 else 365) -> month_check leap k = true.
Proof.
  intros R. assert (A : forallb (fun n => month_check leap (Z.of_nat n)) (seq 0 (if leap then 366 else 365)%nat) = true)
    by (destruct leap; vm_compute; reflexivity).
  rewrite forallb_forall in A. specialize (A (Z.to_nat k)). rewrite Z2Nat.id in A by lia. apply A.
  apply in_seq. destruct leap; lia.
Qed.
Lemma month_last (leap : bool) k : 0 <= k < (if leap then 366 else 365) ->
  (k + 1 = (if leap then 366 else 365) <-> month_day leap k = (12, 31)).
Proof.
  intros R. assert (A : forallb (fun n => let k := Z.of_nat n in
      Bool.eqb (k + 1 =? if leap then 366 else 365)
               (let '(m, d) := month_day leap k in (m =? 12) && (d =? 31)))
    (seq 0 (if leap then 366 else 365)%nat) = true) by (destruct leap; vm_compute; reflexivity).
  rewrite forallb_forall in A. specialize (A (Z.to_nat k)). cbn zeta in A. rewrite Z2Nat.id in A by lia.
  specialize (A ltac:(apply in_seq; destruct leap; lia)). apply eqb_prop in A.
  destruct (month_day leap k) as [m d]. split.
  - intros E. apply Z.eqb_eq in E. rewrite E in A. symmetry in A. apply andb_true_iff in A as [A B].
    apply Z.eqb_eq in A, B. congruence.
  - intros [= -> ->]. cbn in A. apply Z.eqb_eq in A. exact A.
Qed.

(** The date of a day since 1970. *)
Definition ymd (n : Z) : date :=
  let '(year, yday) := abs_year (n + unix_days) in
  let '(month, day) := month_day (is_leap year) yday in (year, month, day).

Lemma ymd_next n : 0 <= n + unix_days -> ymd (n + 1) = tomorrow (ymd n) /\ real_date (ymd n).
Proof.
  intros D. unfold ymd. replace (n + 1 + unix_days) with (n + unix_days + 1) by lia.
  pose proof (abs_year_next _ D) as N. pose proof (abs_year_spec _ D) as (_ & R & _).
  destruct (abs_year (n + unix_days)) as [y k]. cbn [fst snd] in R. rewrite N. clear N.
  assert (L : year_length (y - zero_year) = if leap_year y then 366 else 365).
  { unfold year_length. replace (y - zero_year + zero_year) with y by lia. reflexivity. }
  rewrite L in R. clear L. rewrite (leap_eq y). pose proof (month_checked _ _ R) as C. pose proof (month_last _ _ R) as LA.
  unfold month_check in C. unfold real_date, tomorrow.
  destruct (month_day (leap_year y) k) as [m d] eqn:M. fold (month_length y m) in C.
  apply andb_true_iff in C as [C C5]. apply andb_true_iff in C as [C C4]. apply andb_true_iff in C as [C C3].
  apply andb_true_iff in C as [C1 C2]. apply Z.leb_le in C1, C2, C3, C4. split; [|lia].
  destruct (Z.ltb_spec (k + 1) (if leap_year y then 366 else 365)) as [K|K].
  - rewrite leap_eq. destruct (month_day (leap_year y) (k + 1)) as [m' d'].
    destruct (d <? month_length y m); [apply andb_true_iff in C5 as [A B]; apply Z.eqb_eq in A, B; congruence|].
    destruct (m <? 12); [apply andb_true_iff in C5 as [A B]; apply Z.eqb_eq in A, B; congruence|].
    apply Z.eqb_eq in C5. lia.
  - assert (E : k + 1 = (if leap_year y then 366 else 365)) by lia. apply LA in E. injection E as -> ->.
    unfold month_day. destruct (is_leap (y + 1)); cbn [andb]; reflexivity.
Qed.

Lemma ymd_epoch : ymd 0 = (1970, 1, 1).
Proof. vm_compute. reflexivity. Qed.

(** [ymd] is the calendar. *)
Lemma tomorrow_inj d d' : real_date d -> real_date d' -> tomorrow d = tomorrow d' -> d = d'.
Proof.
  destruct d as [[y m] d], d' as [[y' m'] d']. unfold real_date, tomorrow. intros (M & D) (M' & D').
  destruct (Z.ltb_spec d (month_length y m)), (Z.ltb_spec d' (month_length y' m'));
    try destruct (Z.ltb_spec m 12); try destruct (Z.ltb_spec m' 12); intros E; injection E; clear E; intros; try lia;
    (assert (m' = m) by lia; assert (y' = y) by lia; subst m' y'; f_equal; lia).
Qed.
Lemma real_tomorrow d : real_date d -> real_date (tomorrow d).
Proof.
  destruct d as [[y m] d]. unfold real_date, tomorrow. intros (M & D).
  assert (L : forall y m, 28 <= month_length y m).
  { intros y0 m0. unfold month_length. destruct (m0 =? 2); [destruct (leap_year y0); lia|]. destruct (existsb _ _); lia. }
  destruct (Z.ltb_spec d (month_length y m)); [lia|].
  destruct (Z.ltb_spec m 12); [specialize (L y (m + 1)); lia|specialize (L (y + 1) 1); lia].
Qed.
Lemma date_of_real n d : date_of n d -> real_date d.
Proof. induction 1; [cbn; lia|apply real_tomorrow, IHdate_of|assumption]. Qed.

Lemma ymd_up n : date_of (Z.of_nat n) (ymd (Z.of_nat n)).
Proof.
  induction n as [|n IH]; [change (Z.of_nat 0) with 0; rewrite ymd_epoch; constructor|]. replace (Z.of_nat (S n)) with (Z.of_nat n + 1) by lia.
  assert (0 <= unix_days) by (vm_compute; discriminate).
  destruct (ymd_next (Z.of_nat n)) as [-> _]; [lia|]. apply date_after, IH.
Qed.
Lemma ymd_down n : 0 <= - Z.of_nat n + unix_days -> date_of (- Z.of_nat n) (ymd (- Z.of_nat n)).
Proof.
  induction n as [|n IH]; intros L; [change (- Z.of_nat 0) with 0; rewrite ymd_epoch; constructor|].
  destruct (ymd_next (- Z.of_nat (S n)) L) as [E R]. apply date_before; [exact R|]. rewrite <- E.
  replace (- Z.of_nat (S n) + 1) with (- Z.of_nat n) by lia. apply IH. lia.
Qed.
Lemma ymd_date n : 0 <= n + unix_days -> date_of n (ymd n).
Proof.
  intros L. destruct (Z.le_gt_cases 0 n).
  - replace n with (Z.of_nat (Z.to_nat n)) by lia. apply ymd_up.
  - replace n with (- Z.of_nat (Z.to_nat (- n))) in * by lia. apply ymd_down. lia.
Qed.
