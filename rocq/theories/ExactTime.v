(** Proofs about times in documents. *)
From Coq Require Import String ZArith List Bool Lia.
From Coq Require Import ZifyBool ZifyNat.
From Verif Require Import Base BaseFacts ArchiveModel TimeModel TimeSpec TimeProofs TimeFacts ExactSpec ExactModel.
Import ListNotations.
Open Scope Z_scope.

(** ** The number of a day *)

Lemma days_in_length y m : 1 <= m <= 12 -> days_in m y = month_length y m.
Proof.
  intros R. unfold days_in, month_length. rewrite leap_eq. destruct (leap_year y);
    (assert (C : m = 1 \/ m = 2 \/ m = 3 \/ m = 4 \/ m = 5 \/ m = 6 \/ m = 7 \/ m = 8 \/ m = 9 \/ m = 10 \/ m = 11 \/ m = 12) by lia);
    repeat (destruct C as [-> |C]; [reflexivity|]); rewrite C; reflexivity.
Qed.

Definition yday (leap : bool) (m d : Z) : Z :=
  nth (Z.to_nat (m - 1)) days_before 0 + (if leap && (3 <=? m) then 1 else 0) + (d - 1).
Definition yday_check (leap : bool) (m d : Z) : bool :=
  let l := if m =? 2 then if leap then 29 else 28 else if existsb (Z.eqb m) [4; 6; 9; 11] then 30 else 31 in
  (l <? d) || (let '(m', d') := month_day leap (yday leap m d) in (m' =? m) && (d' =? d) && (0 <=? yday leap m d) && (yday leap m d <? if leap then 366 else 365)).
Lemma yday_checked leap m d : 1 <= m <= 12 -> 1 <= d <= 31 -> yday_check leap m d = true.
Proof.
  intros M D. assert (A : forallb (fun m => forallb (fun d => yday_check leap (Z.of_nat m) (Z.of_nat d)) (seq 1 31)) (seq 1 12) = true)
    by (destruct leap; vm_compute; reflexivity).
  rewrite forallb_forall in A. specialize (A (Z.to_nat m) ltac:(apply in_seq; lia)). rewrite forallb_forall in A.
  specialize (A (Z.to_nat d) ltac:(apply in_seq; lia)). rewrite !Z2Nat.id in A by lia. exact A.
Qed.
Lemma month_length_31 y m : month_length y m <= 31.
Proof. unfold month_length. destruct (m =? 2), (leap_year y), (existsb (Z.eqb m) [4; 6; 9; 11]); lia. Qed.

Lemma day_number_date y m d : 0 <= y -> real_date (y, m, d) -> date_of (day_number y m d) (y, m, d).
Proof.
  intros Y [M D]. pose proof (month_length_31 y m) as L31. pose proof (yday_checked (leap_year y) m d M ltac:(lia)) as C.
  unfold yday_check in C. fold (month_length y m) in C. replace (month_length y m <? d) with false in C by lia. cbn [orb] in C.
  destruct (month_day (leap_year y) (yday (leap_year y) m d)) as [m' d'] eqn:E.
  apply andb_prop in C as [C C4]. apply andb_prop in C as [C C3]. apply andb_prop in C as [C1 C2].
  assert (m' = m) by lia. assert (d' = d) by lia. subst m' d'.
  assert (B : day_number y m d + unix_days = before_year (y - zero_year) + yday (leap_year y) m d).
  { unfold day_number, before_year, yday, unix_days, zero_year. rewrite leap_eq.
    replace ((y - -292277022399) / 4) with ((y - 1) / 4 + 73069255600) by (rewrite <- Z.div_add by lia; f_equal; lia).
    replace ((y - -292277022399) / 100) with ((y - 1) / 100 + 2922770224) by (rewrite <- Z.div_add by lia; f_equal; lia).
    replace ((y - -292277022399) / 400) with ((y - 1) / 400 + 730692556) by (rewrite <- Z.div_add by lia; f_equal; lia).
    set (a := (y - 1) / 4). set (b := (y - 1) / 100). set (c := (y - 1) / 400). lia. }
  assert (P : 0 <= day_number y m d + unix_days).
  { rewrite B. unfold before_year, zero_year. assert (0 <= (y - -292277022399) / 4) by (apply Z.div_pos; lia).
    assert (0 <= (y - -292277022399) / 400) by (apply Z.div_pos; lia).
    assert ((y - -292277022399) / 100 <= y - -292277022399) by (apply Z.div_le_upper_bound; lia). lia. }
  assert (A : ymd (day_number y m d) = (y, m, d)).
  { unfold ymd. rewrite (abs_year_eq _ (y - zero_year) (yday (leap_year y) m d) P B).
    - replace (y - zero_year + zero_year) with y by lia. rewrite leap_eq, E. reflexivity.
    - unfold year_length. replace (y - zero_year + zero_year) with y by lia. lia. }
  rewrite <- A. apply ymd_date, P.
Qed.

(** ** Reading *)

Lemma number_forall w s n : number w s n -> forallb is_digit s = true /\ List.length s = w /\ dec_value s = n.
Proof. intros (A & B & C). auto. Qed.

Lemma two_spec w lo hi s n r : two_or_more w lo hi s = Some (n, r) <-> exists d, s = d ++ r /\ number w d n /\ lo <= n <= hi.
Proof.
  unfold two_or_more. split.
  - intros H. destruct (((List.length (firstn w s) =? w)%nat && forallb is_digit (firstn w s) &&
      (lo <=? dec_value (firstn w s)) && (dec_value (firstn w s) <=? hi))) eqn:E; [|discriminate]. injection H as <- <-.
    apply andb_prop in E as [E E4]. apply andb_prop in E as [E E3]. apply andb_prop in E as [E1 E2].
    exists (firstn w s). split; [symmetry; apply firstn_skipn|]. split; [|lia]. split; [lia|auto].
  - intros (d & -> & (L & D & V) & R). rewrite firstn_app, skipn_app, <- L, Nat.sub_diag, firstn_all, skipn_all. cbn [firstn skipn app].
    rewrite app_nil_r, D, V, Nat.eqb_refl. replace (lo <=? n) with true by lia. replace (n <=? hi) with true by lia. reflexivity.
Qed.

Lemma expect_spec b s r : expect b s = Some r <-> s = b :: r.
Proof.
  unfold expect. destruct s as [|c t]; [split; discriminate|]. destruct (Z.eqb_spec c b) as [->|N].
  - split; intros E; [injection E as ->|injection E as ->]; reflexivity.
  - split; [discriminate|]. intros E. injection E as -> _. contradiction.
Qed.

Lemma digit_span_spec s d t : digit_span s = (d, t) <->
  s = d ++ t /\ forallb is_digit d = true /\ match t with b :: _ => is_digit b = false | [] => True end.
Proof.
  revert d t. induction s as [|b r IH]; intros d t; cbn [digit_span].
  - split; [intros E; injection E as <- <-; auto|]. intros (E & _). symmetry in E. apply app_eq_nil in E as [-> ->]. reflexivity.
  - destruct (is_digit b) eqn:B.
    + destruct (digit_span r) as [d' t'] eqn:S. destruct (proj1 (IH d' t') eq_refl) as (E1 & E2 & E3). split.
      * intros H. injection H as <- <-. cbn [app forallb]. rewrite B, E2, E1. auto.
      * intros (F1 & F2 & F3). destruct d as [|c d].
        -- cbn [app] in F1. subst t. rewrite B in F3. discriminate.
        -- injection F1 as <- F1. cbn [forallb] in F2. apply andb_prop in F2 as [_ F2].
           assert (X : (d', t') = (d, t)) by (apply IH; auto). injection X as -> ->. reflexivity.
    + split.
      * intros H. injection H as <- <-. auto.
      * intros (F1 & F2 & F3). destruct d as [|c d]; [cbn [app] in F1; subst t; reflexivity|].
        injection F1 as <- _. cbn [forallb] in F2. rewrite B in F2. discriminate.
Qed.

Definition ends (t : bytes) : Prop := match t with b :: _ => is_digit b = false | [] => True end.

(** The fraction. *)
Lemma read_fraction_some s n t : read_fraction s = Some (n, t) -> exists f, s = f ++ t /\ fraction_of f n.
Proof.
  unfold read_fraction. destruct s as [|c r]; [intros E; injection E as <- <-; exists []; split; [reflexivity|constructor]|].
  destruct ((c =? 46) || (c =? 44)) eqn:C; [|intros E; injection E as <- <-; exists []; split; [reflexivity|constructor]].
  destruct (digit_span r) as [d u] eqn:S. apply digit_span_spec in S as (-> & D & _). destruct d as [|b d]; [discriminate|].
  intros E. injection E as <- <-. exists (c :: firstn 9 (b :: d) ++ skipn 9 (b :: d)).
  split; [rewrite firstn_skipn; reflexivity|]. unfold nanoseconds.
  assert (D1 : forallb is_digit (firstn 9 (b :: d)) = true /\ forallb is_digit (skipn 9 (b :: d)) = true).
  { rewrite <- (firstn_skipn 9 (b :: d)) in D. rewrite forallb_app in D. apply andb_prop in D. exact D. }
  pose proof (firstn_length 9 (b :: d)) as FL. pose proof (skipn_length 9 (b :: d)) as SL.
  assert (1 <= List.length (b :: d))%nat by (cbn; lia).
  apply fraction_some; [lia|lia|split; [reflexivity|split; [apply D1|reflexivity]]|].
  destruct (skipn 9 (b :: d)) as [|g gs] eqn:G; [left; reflexivity|right]. split; [|apply D1]. rewrite FL. cbn [List.length] in SL |- *. lia.
Qed.
Lemma read_fraction_back f n t : fraction_of f n -> ends t -> match t with b :: _ => b <> 46 /\ b <> 44 | [] => True end ->
  read_fraction (f ++ t) = Some (n, t).
Proof.
  intros [|sep d v g S L (_ & D & V) G] E X.
  - unfold read_fraction. cbn [app]. destruct t as [|b t]; [reflexivity|]. replace ((b =? 46) || (b =? 44)) with false by lia. reflexivity.
  - unfold read_fraction. cbn [app]. replace ((sep =? 46) || (sep =? 44)) with true by lia.
    assert (DG : forallb is_digit (d ++ g) = true).
    { rewrite forallb_app, D. destruct G as [->|(_ & G)]; [reflexivity|rewrite G; reflexivity]. }
    assert (SP : digit_span ((d ++ g) ++ t) = (d ++ g, t)) by (apply digit_span_spec; auto). rewrite SP.
    destruct (d ++ g) as [|a q] eqn:Q; [apply app_eq_nil in Q as [-> ->]; cbn in L; lia|]. rewrite <- Q. f_equal. f_equal.
    unfold nanoseconds. assert (F : firstn 9 (d ++ g) = d).
    { destruct G as [->|(L9 & _)]; [rewrite app_nil_r; apply firstn_all2; lia|]. rewrite <- L9, firstn_app, Nat.sub_diag, firstn_all, firstn_O. apply app_nil_r. }
    rewrite F, V. reflexivity.
Qed.

(** The zone. *)
Lemma read_zone_spec s z : read_zone s = Some z <-> wide_zone s z.
Proof.
  split.
  - unfold read_zone. destruct s as [|c r]; [discriminate|]. destruct (Z.eqb_spec c 90) as [->|_].
    + destruct r; [|discriminate]. intros E. injection E as <-. apply wide_utc.
    + destruct ((c =? 43) || (c =? 45)) eqn:C; [|discriminate].
      destruct (two_or_more 2 0 24 r) as [[h r1]|] eqn:H; [|discriminate]. apply two_spec in H as (hh & -> & N1 & R1).
      destruct (expect 58 r1) as [r2|] eqn:X; [|discriminate]. apply expect_spec in X. subst r1.
      destruct (two_or_more 2 0 60 r2) as [[m r3]|] eqn:M; [|discriminate]. apply two_spec in M as (mm & -> & N2 & R2).
      destruct r3; [|discriminate]. rewrite app_nil_r. intros E. injection E as <-. destruct (Z.eqb_spec c 45) as [Ec|N].
      * rewrite Ec. apply wide_west; assumption.
      * replace c with 43 by lia. apply wide_east; assumption.
  - intros [|hh mm h m N1 N2 R1 R2|hh mm h m N1 N2 R1 R2]; [reflexivity| |]; unfold read_zone; cbn [Z.eqb Pos.eqb orb];
      (rewrite (proj2 (two_spec 2 0 24 (hh ++ 58 :: mm) h (58 :: mm))) by (exists hh; auto));
      (rewrite (proj2 (expect_spec 58 (58 :: mm) mm)) by reflexivity);
      (rewrite (proj2 (two_spec 2 0 60 mm m [])) by (exists mm; rewrite app_nil_r; auto)); reflexivity.
Qed.
Lemma zone_start z n : wide_zone z n -> ends z /\ match z with b :: _ => b <> 46 /\ b <> 44 | [] => True end.
Proof. intros []; cbn; (split; [reflexivity|split; discriminate]). Qed.

(** The hour. *)
Lemma read_hour_some s h r : read_hour s = Some (h, r) -> exists hh, s = hh ++ r /\ hour_of hh h /\ 0 <= h < 24.
Proof.
  unfold read_hour. destruct (two_or_more 2 0 23 s) as [[h' r']|] eqn:E.
  - intros X. injection X as <- <-. apply two_spec in E as (d & -> & N & R). exists d. split; [reflexivity|]. split; [left; exact N|lia].
  - destruct s as [|a [|b t]]; try discriminate. destruct (is_digit b); [discriminate|]. intros X.
    apply two_spec in X as (d & -> & N & R). exists d. split; [reflexivity|]. split; [right; exact N|lia].
Qed.
Lemma read_hour_back hh h r : hour_of hh h -> 0 <= h < 24 -> ends r -> r <> [] -> read_hour (hh ++ r) = Some (h, r).
Proof.
  intros [N|N] R E NE; unfold read_hour.
  - rewrite (proj2 (two_spec 2 0 23 (hh ++ r) h r)) by (exists hh; split; [reflexivity|]; split; [exact N|lia]). reflexivity.
  - destruct (two_or_more 2 0 23 (hh ++ r)) as [[h' r']|] eqn:T.
    + exfalso. apply two_spec in T as (d & E1 & (L & D & _) & _). destruct N as (L1 & _).
      destruct hh as [|a [|]]; try discriminate L1. destruct d as [|x [|y [|]]]; try discriminate L.
      destruct r as [|b r]; [contradiction|]. cbn [app] in E1. injection E1 as <- <- _. cbn in D, E. rewrite E, andb_false_r in D. discriminate.
    + destruct N as (L1 & D1 & V1). destruct hh as [|a [|]]; try discriminate L1. destruct r as [|b r]; [contradiction|].
      cbn [app]. cbn in E. rewrite E. apply (two_spec 1 0 9 (a :: b :: r) h (b :: r)). exists [a]. split; [reflexivity|].
      split; [split; auto|]. unfold dec_value in V1. cbn in V1, D1. rewrite andb_true_r in D1. unfold is_digit in D1. lia.
Qed.

Lemma number4 s n : number 4 s n -> 0 <= n <= 9999.
Proof.
  intros (L & D & <-). destruct s as [|a [|b [|c [|d [|]]]]]; try discriminate L.
  cbn [forallb] in D. unfold is_digit in D. unfold dec_value. cbn [fold_left]. lia.
Qed.
Lemma number2 s n : number 2 s n -> 0 <= n <= 99.
Proof.
  intros (L & D & <-). destruct s as [|a [|b [|]]]; try discriminate L.
  cbn [forallb] in D. unfold is_digit in D. unfold dec_value. cbn [fold_left]. lia.
Qed.

Lemma bind_some {A B} (o : option A) (f : A -> option B) y : bind_opt o f = Some y <-> exists x, o = Some x /\ f x = Some y.
Proof. destruct o as [x|]; cbn; split; [intros H; exists x; auto|intros (x' & E & H); injection E as <-; exact H|discriminate|intros (x' & E & _); discriminate]. Qed.

Lemma time_text_at yy mo dd hh mi ss f z y m d h i s nano zone day t :
    number 4 yy y -> number 2 mo m -> number 2 dd d -> hour_of hh h -> number 2 mi i -> number 2 ss s ->
    fraction_of f nano -> wide_zone z zone -> real_date (y, m, d) -> date_of day (y, m, d) ->
    0 <= h < 24 -> 0 <= i < 60 -> 0 <= s < 60 -> t = instant day h i s nano zone ->
    time_text (yy ++ str "-" ++ mo ++ str "-" ++ dd ++ str "T" ++ hh ++ str ":" ++ mi ++ str ":" ++ ss ++ f ++ z) t zone.
Proof. intros. subst t. eapply time_text_intro; eassumption. Qed.
Lemma some_pair {A B} (a a' : A) (b b' : B) : Some (a, b) = Some (a', b') -> a' = a /\ b' = b.
Proof. intros H. injection H as <- <-. auto. Qed.

(** Exactly these texts are read. *)
Lemma read_time_spec w t z : read_time_zone w = Some (t, z) <-> time_text w t z.
Proof.
  unfold read_time_zone. split.
  - intros H.
    apply bind_some in H as ([y s1] & E1 & H). apply bind_some in H as (s2 & E2 & H).
    apply bind_some in H as ([mo s3] & E3 & H). apply bind_some in H as (s4 & E4 & H).
    apply bind_some in H as ([d s5] & E5 & H). apply bind_some in H as (s6 & E6 & H).
    apply bind_some in H as ([h s7] & E7 & H). apply bind_some in H as (s8 & E8 & H).
    apply bind_some in H as ([mi s9] & E9 & H). apply bind_some in H as (s10 & E10 & H).
    apply bind_some in H as ([se s11] & E11 & H). apply bind_some in H as ([n s12] & E12 & H). apply bind_some in H as (zone & E13 & H).
    apply some_pair in H as [Et ->].
    apply two_spec in E1 as (yy & -> & N1 & R1). apply expect_spec in E2. subst s1.
    apply two_spec in E3 as (mm & -> & N3 & R3). apply expect_spec in E4. subst s3.
    apply two_spec in E5 as (dd & -> & N5 & R5). apply expect_spec in E6. subst s5.
    apply read_hour_some in E7 as (hh & -> & N7 & R7). apply expect_spec in E8. subst s7.
    apply two_spec in E9 as (ii & -> & N9 & R9). apply expect_spec in E10. subst s9.
    apply two_spec in E11 as (ss & -> & N11 & R11). apply read_fraction_some in E12 as (f & -> & F). apply read_zone_spec in E13.
    rewrite days_in_length in R5 by exact R3.
    assert (RD : real_date (y, mo, d)) by (split; assumption).
    pose proof (day_number_date y mo d (proj1 R1) RD) as DO.  assert (R9' : 0 <= mi < 60) by lia. assert (R11' : 0 <= se < 60) by lia.
    refine (time_text_at yy mm dd hh ii ss f s12 y mo d h mi se n zone (day_number y mo d) t N1 N3 N5 N7 N9 N11 F E13 RD DO R7 R9' R11' _).
    unfold instant. exact Et.
  - intros [yy mm dd hh ii ss f zz y mo d h mi se n zone day N1 N3 N5 N7 N9 N11 F E13 RD DO R7 R9 R11].
    pose proof (number4 _ _ N1) as Y4. assert (DE : day = day_number y mo d) by (eapply day_unique; [exact DO|apply day_number_date; [lia|exact RD]]). subst day.
    destruct RD as [R3 R5].
    apply bind_some. eexists (y, _). split; [apply two_spec; exists yy; split; [reflexivity|]; auto|].
    apply bind_some. eexists. split; [apply expect_spec; reflexivity|].
    apply bind_some. eexists (mo, _). split; [apply two_spec; exists mm; split; [reflexivity|]; auto|].
    apply bind_some. eexists. split; [apply expect_spec; reflexivity|].
    apply bind_some. eexists (d, _). split; [apply two_spec; exists dd; split; [reflexivity|]; rewrite days_in_length by exact R3; auto|].
    apply bind_some. eexists. split; [apply expect_spec; reflexivity|].
    apply bind_some. eexists (h, _). split; [apply read_hour_back; [exact N7|exact R7|reflexivity|discriminate]|].
    apply bind_some. eexists. split; [apply expect_spec; reflexivity|].
    apply bind_some. eexists (mi, _). split; [apply two_spec; exists ii; split; [reflexivity|]; split; [exact N9|lia]|].
    apply bind_some. eexists. split; [apply expect_spec; reflexivity|].
    apply bind_some. eexists (se, _). split; [apply two_spec; exists ss; split; [reflexivity|]; split; [exact N11|lia]|].
    destruct (zone_start _ _ E13) as [Z1 Z2].
    apply bind_some. eexists (n, _). split; [apply read_fraction_back; [exact F|exact Z1|exact Z2]|].
    apply bind_some. exists zone. split; [apply read_zone_spec, E13|]. unfold instant. reflexivity.
Qed.

(** Texts of RFC 3339 are among them. *)
Lemma denotes_text w t : denotes w t -> exists z, time_text w t z /\ Z.abs z < 1440.
Proof.
  intros [yy mo dd hh mi ss f zz y m d h i s nano zone day N1 N3 N5 N7 N9 N11 F Z RD DO R7 R9 R11]. exists zone. split.
  - apply time_text_intro with (y := y) (m := m) (d := d); try assumption.
    + left. exact N7.
    + destruct F as [|f n L N]; [constructor|]. pose proof (fraction_some 46 f n [] (or_introl eq_refl) L N (or_introl eq_refl)) as P. rewrite app_nil_r in P. exact P.
    + destruct Z as [|hh' mm h' m' A B C D|hh' mm h' m' A B C D]; [constructor|apply wide_east|apply wide_west]; auto; lia.
  - destruct Z; lia.
Qed.
Lemma denotes_read w t : denotes w t -> read_time w = Some t.
Proof.
  intros D. destruct (denotes_text w t D) as (z & T & _). apply read_time_spec in T. unfold read_time. rewrite T. reflexivity.
Qed.

(** ** Writing and reading again *)

Lemma marshal_year off t w : marshal_time off t = Some w -> 0 <= t_year (civil_at off t) <= 9999 /\ Z.abs off < 86400 /\ w = rfc3339 off t.
Proof.
  unfold marshal_time. cbv zeta. generalize (rfc3339 off t), (civil_at off t). intros r c.
  destruct ((0 <=? t_year c) && (t_year c <=? 9999) && (Z.abs off <? 86400)) eqn:E; [|discriminate]. intros H. injection H as <-. split; [lia|]. split; [lia|reflexivity].
Qed.
Lemma marshal_read off t w : - unix_days * day_ns <= local off t -> off mod 60 = 0 -> marshal_time off t = Some w ->
  read_time w = Some t.
Proof.
  intros L M H. apply marshal_year in H as (Y & A & ->). apply denotes_read, rfc3339_denotes; assumption.
Qed.

Lemma digits_always w : forall n, Forall (fun b => 48 <= b <= 57) (digits w n).
Proof.
  induction w as [|w IH]; intros n; [constructor|]. cbn [digits]. apply Forall_app. split; [apply IH|].
  constructor; [|constructor]. pose proof (Z.mod_pos_bound n 10 ltac:(lia)). lia.
Qed.
Lemma digits_plain w n : Forall plain (digits w n).
Proof. eapply Forall_impl; [|apply digits_always]. intros b B. left. exact B. Qed.
Lemma trim_plain s : Forall plain s -> Forall plain (trim_zeros s).
Proof.
  intros H. destruct (trim_split s) as [k K]. rewrite K in H. apply Forall_app in H as [H _]. exact H.
Qed.
Lemma marshal_plain off t w : marshal_time off t = Some w -> Forall plain w.
Proof.
  intros H. apply marshal_year in H as (_ & _ & ->). unfold rfc3339. generalize (civil_at off t). intros c. cbv zeta.
  assert (C : forall b, In b [45; 43; 58; 46; 84; 90] -> Forall plain [b]) by (intros b B; constructor; [right; exact B|constructor]).
  assert (A : forall x y, Forall plain x -> Forall plain y -> Forall plain (x ++ y)) by (intros; apply Forall_app; auto).
  do 11 (apply A; [first [apply digits_plain|apply C; cbn; tauto]|]). apply A.
  - unfold fraction. pose proof (trim_plain _ (digits_plain 9 (t_nano c))) as P. destruct (trim_zeros (digits 9 (t_nano c))); [constructor|].
    apply A; [apply C; cbn; tauto|exact P].
  - unfold zone_text. destruct (off =? 0); [apply C; cbn; tauto|]. cbv zeta.
    apply A; [destruct (Z.quot off 60 <? 0); apply C; cbn; tauto|]. apply A; [apply digits_plain|]. apply A; [apply C; cbn; tauto|apply digits_plain].
Qed.

(** What is read can be written in the zone it was read in, unless that is a day or more
    from UTC. *)
Lemma instant_local day h i s nano zone : 0 <= h < 24 -> 0 <= i < 60 -> 0 <= s < 60 -> 0 <= nano < 10 ^ 9 ->
  local (zone * 60) (instant day h i s nano zone) / day_ns = day.
Proof.
  intros H I S N. unfold local, instant, day_ns. change (10 ^ 9) with 1000000000 in *.
  symmetry. apply Z.div_unique with (((h * 60 + i) * 60 + s) * 1000000000 + nano); lia.
Qed.
Lemma fraction_range f n : fraction_of f n -> 0 <= n < 10 ^ 9.
Proof.
  intros [|sep d v g S L (_ & D & V) G]; [split; [lia|reflexivity]|]. subst v.
  assert (B : 0 <= dec_value d < 10 ^ len d).
  { clear L G. induction d as [|b d IH] using rev_ind; [cbn; lia|]. rewrite forallb_app in D. apply andb_prop in D as [D1 D2]. specialize (IH D1).
    cbn [forallb] in D2. unfold is_digit in D2. unfold dec_value in *. rewrite fold_left_app. cbn [fold_left].
    unfold len in *. rewrite app_length, Nat2Z.inj_add. change (Z.of_nat (List.length [b])) with 1. rewrite Z.pow_add_r by lia. lia. }
  assert (P : 0 < 10 ^ (9 - len d)) by (apply Z.pow_pos_nonneg; unfold len; lia).
  assert (T : 10 ^ 9 = 10 ^ len d * 10 ^ (9 - len d)) by (rewrite <- Z.pow_add_r by (unfold len; lia); f_equal; unfold len; lia).
  rewrite T. split; [apply Z.mul_nonneg_nonneg; lia|apply Z.mul_lt_mono_pos_r; lia].
Qed.

Lemma day_low y m d day : 0 <= y -> real_date (y, m, d) -> date_of day (y, m, d) -> -719600 <= day.
Proof.
  intros Y R D. assert (E : day = day_number y m d) by (eapply day_unique; [exact D|apply day_number_date; assumption]). rewrite E.
  destruct R as [M Dr]. unfold day_number. assert (NB : 0 <= nth (Z.to_nat (m - 1)) days_before 0).
  { destruct (Nat.lt_ge_cases (Z.to_nat (m - 1)) 13) as [L|L]; [|rewrite nth_overflow by (cbn; lia); lia].
    assert (F : Forall (fun x => 0 <= x) days_before) by (unfold days_before; repeat (constructor; [lia|]); constructor).
    rewrite Forall_forall in F. apply F, nth_In. exact L. }
  assert (-1 <= (y - 1) / 4) by (apply Z.div_le_lower_bound; lia). assert (-1 <= (y - 1) / 400) by (apply Z.div_le_lower_bound; lia).
  assert ((y - 1) / 100 <= Z.max 0 (y - 1)) by (apply Z.div_le_upper_bound; lia).
  destruct (is_leap y && (3 <=? m)); lia.
Qed.
Lemma unix_days_big : 800000 <= unix_days.
Proof. vm_compute. discriminate. Qed.

Lemma read_again w t z : time_text w t z -> (marshal_time (z * 60) t = None <-> 1440 <= Z.abs z) /\ - (800000 - 100) * day_ns <= local (z * 60) t.
Proof.
  intros [yy mm dd hh ii ss f zz y mo d h mi se n zone day N1 N3 N5 N7 N9 N11 F E13 RD DO R7 R9 R11].
  pose proof (fraction_range _ _ F) as Rn. pose proof (number4 _ _ N1) as Y4. pose proof (day_low y mo d day ltac:(lia) RD DO) as DL.
  pose proof (instant_local day h mi se n zone R7 R9 R11 Rn) as LD.
  assert (LL : - (800000 - 100) * day_ns <= local (zone * 60) (instant day h mi se n zone)).
  { unfold local, instant, day_ns. change (10 ^ 9) with 1000000000 in *. lia. }
  assert (LU : - unix_days * day_ns <= local (zone * 60) (instant day h mi se n zone)).
  { pose proof unix_days_big. eapply Z.le_trans; [|exact LL]. apply Z.mul_le_mono_nonneg_r; [unfold day_ns; lia|lia]. }
  split; [|exact LL]. destruct (civil_reading _ _ LU) as [D _ _ _ _ _ _]. rewrite LD in D.
  set (tt := instant day h mi se n zone) in *. clearbody tt. unfold marshal_time. cbv zeta.
  generalize dependent (rfc3339 (zone * 60) tt). generalize dependent (civil_at (zone * 60) tt). intros c D r.
  assert (E : (t_year c, t_month c, t_day c) = (y, mo, d)) by (rewrite date_of_calendar in D, DO; congruence).
  injection E as -> _ _. replace ((0 <=? y) && (y <=? 9999)) with true by lia. cbn [andb].
  destruct (Z.ltb_spec (Z.abs (zone * 60)) 86400) as [L|L]; split; intros H; try lia; try discriminate. reflexivity.
Qed.
