(** Proofs about numbers as text: which texts are numbers, and their value. *)
From Coq Require Import String ZArith QArith Qabs Qpower List Bool Lia.
From Coq Require Import ZifyBool ZifyNat.
From Coq Require Import Floats.SpecFloat.
From Verif Require Import Base BaseFacts JsonSpec GoFloat RateSpec RateSpec2 FloatFinite RateProofs NumberSpec NumberProofs NumberRound.
Import ListNotations.
Open Scope Z_scope.

(** ** Digits *)

Definition isd (h : bool) (b : Z) : bool := is_digit b || (h && is_hex_letter b).
Definition base (h : bool) : Z := if h then 16 else 10.
Definition val (h : bool) (ds : bytes) (v : Z) : Z := fold_left (fun a b => a * base h + digit_val b) ds v.

Lemma isd_other h b : isd h b = true -> b <> 95 /\ b <> 46 /\ b <> 43 /\ b <> 45.
Proof. unfold isd, is_digit, is_hex_letter, to_lower. intros H. destruct ((65 <=? b) && (b <=? 90)) eqn:E; destruct h; lia. Qed.

(** The longest prefix of digits. *)
Lemma span_digits h s : exists ds r, s = ds ++ r /\ forallb (isd h) ds = true /\
  match r with b :: _ => isd h b = false | [] => True end.
Proof.
  induction s as [|b s (ds & r & -> & A & B)]; [exists [], []; auto|].
  destruct (isd h b) eqn:E.
  - exists (b :: ds), r. cbn [forallb app]. rewrite E. auto.
  - exists [], (b :: ds ++ r). auto.
Qed.

Definition some (ds : bytes) : bool := match ds with [] => false | _ => true end.

Lemma read_digits h ds s : forallb (isd h) ds = true -> forall v f dot dig und,
  read_mant h (ds ++ s) v f dot dig und =
  read_mant h s (val h ds v) (if dot : bool then f + len ds else f) dot (dig || some ds) und.
Proof.
  induction ds as [|b ds IH]; cbn [forallb]; intros D v f dot dig und.
  - cbn [app some]. unfold len. cbn. rewrite Z.add_0_r, orb_false_r. destruct dot; reflexivity.
  - apply andb_prop in D. destruct D as [Db D]. destruct (isd_other h b Db) as (N1 & N2 & _).
    cbn [app read_mant]. replace (b =? 95) with false by lia. replace (b =? 46) with false by lia.
    unfold isd in Db. rewrite Db, IH by exact D. unfold val. cbn [fold_left some orb].
    rewrite orb_true_r. replace (len (b :: ds)) with (1 + len ds) by (unfold len; cbn [List.length]; lia).
    fold (base h). destruct dot; rewrite ?Z.add_assoc; reflexivity.
Qed.

Lemma read_point h r v f dig und : read_mant h (46 :: r) v f false dig und = read_mant h r v f true dig und.
Proof. reflexivity. Qed.

(** Where the mantissa ends. *)
Definition stops (h : bool) (dot : bool) (r : bytes) : Prop :=
  match r with b :: _ => isd h b = false /\ b <> 95 /\ (dot = false -> b <> 46) | [] => True end.

Lemma read_stop h r v f dot dig und : stops h dot r -> read_mant h r v f dot dig und = (v, f, dig, und, r).
Proof.
  destruct r as [|b r]; cbn [stops read_mant]; [reflexivity|]. intros (A & B & C).
  replace (b =? 95) with false by lia. unfold isd in A. rewrite A.
  destruct (b =? 46) eqn:E; [|reflexivity]. destruct dot; [reflexivity|]. apply Z.eqb_eq in E. exfalso. apply C; auto.
Qed.

(** A mantissa: digits, a point, digits. *)
Definition mantissa (h : bool) (ip dot fp : bytes) : Prop :=
  forallb (isd h) ip = true /\ forallb (isd h) fp = true /\ (dot = str "." \/ (dot = [] /\ fp = [])).

Lemma read_mantissa h ip dot fp r : mantissa h ip dot fp -> stops h (some dot) r ->
  read_mant h (ip ++ dot ++ fp ++ r) 0 0 false false false =
  (val h (ip ++ fp) 0, len fp, some (ip ++ fp), false, r).
Proof.
  intros (A & B & [->|[-> ->]]) S.
  - rewrite read_digits by exact A. change (str "." ++ fp ++ r) with (46 :: fp ++ r).
    rewrite read_point, read_digits by exact B. rewrite read_stop by exact S.
    rewrite Z.add_0_l. unfold val. rewrite fold_left_app. repeat f_equal. destruct ip; reflexivity.
  - cbn [app] in *. rewrite app_nil_r, read_digits by exact A. cbn [some] in S.
    rewrite read_stop by exact S. reflexivity.
Qed.

Lemma find_mantissa h s : ~ In 95 s -> exists ip dot fp r, s = ip ++ dot ++ fp ++ r /\ mantissa h ip dot fp /\ stops h (some dot) r.
Proof.
  intros U. destruct (span_digits h s) as (ip & r & -> & A & B).
  destruct r as [|b r]; [exists ip, [], [], []; unfold mantissa; cbn [app forallb stops]; rewrite !app_nil_r; repeat split; auto|].
  destruct (Z.eq_dec b 46) as [->|N].
  - destruct (span_digits h r) as (fp & r' & -> & A' & B'). exists ip, (str "."), fp, r'. unfold mantissa.
    split; [reflexivity|]. split; [auto|]. destruct r' as [|c r']; [exact I|]. cbn [stops some str]. split; [exact B'|]. split; [|discriminate].
    intros ->. apply U. rewrite !in_app_iff. right. right. rewrite in_app_iff. right. left. reflexivity.
  - exists ip, [], [], (b :: r). unfold mantissa. cbn [app forallb]. split; [reflexivity|]. split; [auto|]. cbn [stops some]. split; [exact B|]. split; [|auto].
    intros ->. apply U. rewrite in_app_iff. right. left. reflexivity.
Qed.

(** ** Exponents *)

Definition satur (ds : bytes) (e : Z) : Z := fold_left (fun e b => if e <? 10000 then e * 10 + (b - 48) else e) ds e.

Lemma read_exp_digits ds s : forallb (isd false) ds = true -> forall e und,
  read_exp (ds ++ s) e und = read_exp s (satur ds e) und.
Proof.
  induction ds as [|b ds IH]; cbn [forallb]; intros D e und; [reflexivity|].
  apply andb_prop in D. destruct D as [Db D]. destruct (isd_other _ _ Db) as (N1 & _).
  cbn [app read_exp]. replace (b =? 95) with false by lia. unfold isd in Db. cbn [andb] in Db. rewrite orb_false_r in Db.
  rewrite Db, IH by exact D. reflexivity.
Qed.

Lemma satur_grows ds : digits ds -> forall e, 0 <= e -> e <= satur ds e /\ e <= fold_left (fun a b => a * 10 + (b - 48)) ds e.
Proof.
  induction 1 as [|b ds Hb Hd IH]; intros e E; [cbn; lia|]. unfold digit in Hb. unfold satur in *. cbn [fold_left].
  destruct (IH (e * 10 + (b - 48)) ltac:(lia)) as [I1 I2]. destruct (IH e E) as [I3 _].
  split; [|lia]. destruct (e <? 10000); lia.
Qed.
Lemma satur_exact ds : digits ds -> decimal ds < 10000 -> satur ds 0 = decimal ds.
Proof.
  intros D. unfold decimal. assert (G : forall e, 0 <= e -> fold_left (fun a b => a * 10 + (b - 48)) ds e < 10000 ->
    satur ds e = fold_left (fun a b => a * 10 + (b - 48)) ds e).
  { induction D as [|b ds Hb Hd IH]; intros e E L; [reflexivity|]. unfold satur in *. cbn [fold_left] in *. unfold digit in Hb.
    destruct (satur_grows ds Hd (e * 10 + (b - 48)) ltac:(lia)) as [_ G]. replace (e <? 10000) with true by lia.
    apply IH; lia. }
  apply G. lia.
Qed.

Lemma isd_digits ds : forallb (isd false) ds = true <-> digits ds.
Proof.
  unfold digits. rewrite forallb_forall, Forall_forall. unfold isd, is_digit, digit. split; intros H x I; specialize (H x I); lia.
Qed.
Lemma isd_hex ds : forallb (isd true) ds = true <-> hex_digits ds.
Proof.
  unfold hex_digits. rewrite forallb_forall, Forall_forall. unfold isd, is_digit, is_hex_letter, to_lower.
  split; intros H x I; specialize (H x I); cbn [andb] in *.
  - destruct ((65 <=? x) && (x <=? 90)) eqn:E; lia.
  - destruct ((65 <=? x) && (x <=? 90)) eqn:E; lia.
Qed.
Lemma val_decimal ds : digits ds -> val false ds 0 = decimal ds.
Proof.
  intros D. unfold val, decimal. cbn [base]. generalize 0. induction D as [|b ds Hb Hd IH]; intros v; [reflexivity|].
  cbn [fold_left]. rewrite IH. unfold digit_val, is_digit, digit in *. replace ((48 <=? b) && (b <=? 57)) with true by lia. reflexivity.
Qed.
Lemma val_hex ds : hex_digits ds -> val true ds 0 = fold_left (fun a b => a * 16 + hex_value b) ds 0.
Proof.
  intros D. unfold val. cbn [base]. generalize 0. induction D as [|b ds Hb Hd IH]; intros v; [reflexivity|].
  cbn [fold_left]. rewrite IH. replace (digit_val b) with (hex_value b); [reflexivity|].
  unfold digit_val, hex_value, is_digit, to_lower. cbv beta in Hb. destruct (b <=? 57) eqn:E1.
  - replace ((48 <=? b) && true) with true by lia. reflexivity.
  - rewrite andb_false_r. destruct (b <=? 70) eqn:E2.
    + replace ((65 <=? b) && (b <=? 90)) with true by lia. lia.
    + replace ((65 <=? b) && (b <=? 90)) with false by lia. reflexivity.
Qed.

(** ** The whole text *)

(** A sign and what follows it. *)
Definition split_sign (s : bytes) : bool * bytes :=
  match s with
  | b :: r => if b =? 45 then (true, r) else if b =? 43 then (false, r) else (false, s)
  | [] => (false, [])
  end.

(** What follows the mantissa: nothing, or an exponent; [e] is the value that is used. *)
Definition tail_value (h : bool) (r : bytes) : option Z :=
  match r with
  | [] => if h then None else Some 0
  | c :: r =>
      if to_lower c =? (if h then 112 else 101) then
        let '(eneg, ds) := split_sign r in
        match ds with
        | d :: _ =>
            if is_digit d then
              let '(e, _, tail) := read_exp ds 0 false in
              match tail with [] => Some (if eneg : bool then - e else e) | _ => None end
            else None
        | [] => None
        end
      else None
  end.

Lemma read_exp_und s : ~ In 95 s -> forall e u, read_exp s e u = (fst (fst (read_exp s e false)), u, snd (read_exp s e false)).
Proof.
  induction s as [|b s IH]; intros N e u; [reflexivity|]. cbn [read_exp]. cbn [In] in N.
  replace (b =? 95) with false by (symmetry; apply Z.eqb_neq; auto).
  destruct (is_digit b); [apply IH; auto|reflexivity].
Qed.

(** The number behind the sign. *)
Definition unsigned (neg : bool) (h : bool) (body : bytes) : option f64 :=
  let '(v, frac, dig, und, rest) := read_mant h body 0 0 false false false in
  if dig then
    match tail_value h rest with
    | Some e =>
        let x := if h then round_scaled neg v (e - 4 * frac) 2 else round_scaled neg v (e - frac) 10 in
        if f_finite x then Some x else None
    | None => None
    end
  else None.

Definition split_base (t : bytes) : bool * bytes :=
  match t with
  | z :: x :: r => if (z =? 48) && (to_lower x =? 120) && (0 <? len r) then (true, r) else (false, t)
  | _ => (false, t)
  end.

Lemma in_split_sign x s : In x (snd (split_sign s)) -> In x s.
Proof.
  destruct s as [|b r]; cbn [split_sign snd]; [auto|].
  destruct (b =? 45); cbn [snd In]; [auto|]. destruct (b =? 43); cbn [snd In]; auto.
Qed.
Lemma in_split_base x t : In x (snd (split_base t)) -> In x t.
Proof.
  destruct t as [|a [|b r]]; cbn [split_base snd]; auto. destruct (_ && _); cbn [snd In]; auto.
Qed.

(** The code behind the prefix. *)
Definition finish (neg hex : bool) (body : bytes) : option f64 :=
  let '(v, frac, dig, und, rest) := read_mant hex body 0 0 false false false in
  if negb dig then None else
  let exp_char := if hex then 112 else 101 in
  let fin (e : Z) (und : bool) :=
    if und && negb (underscore_ok hex body (if hex then UDigit else UStart)) then None
    else
      let x := if hex then round_scaled neg v (e - 4 * frac) 2
               else round_scaled neg v (e - frac) 10 in
      if f_finite x then Some x else None in
  match rest with
  | [] => if hex then None else fin 0 und
  | c :: r =>
      if to_lower c =? exp_char then
        let '(eneg, ds) := split_sign r in
        match ds with
        | d :: _ =>
            if is_digit d then
              let '(e, und', tail) := read_exp ds 0 und in
              match tail with
              | [] => fin (if eneg : bool then - e else e) und'
              | _ => None
              end
            else None
        | [] => None
        end
      else None
  end.
Lemma parse_number_finish s :
  parse_number s = let '(neg, t) := split_sign s in let '(h, body) := split_base t in finish neg h body.
Proof. reflexivity. Qed.

Lemma parse_number_unsigned s : ~ In 95 s ->
  parse_number s = let '(neg, t) := split_sign s in let '(h, body) := split_base t in unsigned neg h body.
Proof.
  intros U. rewrite parse_number_finish.
  pose proof (fun x => in_split_sign x s) as I1. destruct (split_sign s) as [neg t]. cbn [snd] in I1.
  pose proof (fun x => in_split_base x t) as I2. destruct (split_base t) as [h body]. cbn [snd] in I2.
  assert (Ub : ~ In 95 body) by auto.
  unfold unsigned, finish. destruct (find_mantissa h body Ub) as (ip & dot & fp & r & -> & M & S).
  rewrite (read_mantissa h ip dot fp r M S). destruct (some (ip ++ fp)); cbn [negb]; [|reflexivity].
  destruct r as [|c r]; cbn [tail_value].
  - destruct h; reflexivity.
  - destruct (to_lower c =? (if h then 112 else 101)); [|reflexivity].
    assert (Ur : ~ In 95 r) by (intros X; apply Ub; rewrite !in_app_iff; cbn [In]; auto).
    assert (Us : ~ In 95 (snd (split_sign r))) by (intros X; apply Ur, in_split_sign, X).
    destruct (split_sign r) as [eneg ds]. cbn [snd] in Us. destruct ds as [|d ds]; [reflexivity|]. destruct (is_digit d); [|reflexivity].
    destruct (read_exp (d :: ds) 0 false) as [[e u] tl] eqn:R.
    pose proof (read_exp_und _ Us 0 false) as Ru. rewrite R in Ru. cbn [fst snd] in Ru. injection Ru as ->.
    destruct tl; reflexivity.
Qed.

(** ** Literals *)

Lemma split_sign_spec sg neg t : a_sign sg neg -> match t with b :: _ => b <> 43 /\ b <> 45 | [] => True end ->
  split_sign (sg ++ t) = (neg, t).
Proof.
  intros [(-> & [->| ->])|(-> & ->)] H; try reflexivity. cbn [app]. destruct t as [|b t]; [reflexivity|]. cbn [split_sign].
  replace (b =? 45) with false by lia. replace (b =? 43) with false by lia. reflexivity.
Qed.
Lemma split_sign_parts s : exists sg, s = sg ++ snd (split_sign s) /\ a_sign sg (fst (split_sign s)).
Proof.
  destruct s as [|b r]; cbn [split_sign]; [exists []; unfold a_sign; auto|].
  destruct (Z.eqb_spec b 45) as [->|N1]; [exists (str "-"); unfold a_sign; auto|].
  destruct (Z.eqb_spec b 43) as [->|N2]; [exists (str "+"); unfold a_sign; auto|]. exists []. unfold a_sign. auto.
Qed.

(** An exponent and the value that is read. *)
Definition letters (h : bool) : list Z := if h then [112; 80] else [101; 69].

Lemma letter_in (h : bool) c : (to_lower c =? (if h then 112 else 101)) = true <-> In c (letters h).
Proof.
  unfold to_lower, letters. destruct h; cbn [In]; destruct ((65 <=? c) && (c <=? 90)) eqn:E; split; intros H; lia.
Qed.

Lemma read_exp_all ds : digits ds -> read_exp ds 0 false = (satur ds 0, false, []).
Proof.
  intros D. rewrite <- (app_nil_r ds) at 1. rewrite read_exp_digits by (apply isd_digits, D). reflexivity.
Qed.

Lemma tail_some h r e : tail_value h r = Some e -> ~ In 95 r ->
  (r = [] /\ h = false /\ e = 0) \/ (exists x, exponent (letters h) r x).
Proof.
  destruct r as [|c r]; cbn [tail_value]; intros H U.
  - left. destruct h; [discriminate|]. injection H as <-. auto.
  - right. destruct (to_lower c =? (if h then 112 else 101)) eqn:L; [|discriminate]. apply letter_in in L.
    destruct (split_sign_parts r) as (sg & Er & Sg). 
    assert (Us : ~ In 95 (snd (split_sign r))) by (intros X; apply U; right; apply in_split_sign, X).
    destruct (split_sign r) as [neg ds]. cbn [fst snd] in *.
    destruct ds as [|d ds]; [discriminate|]. destruct (is_digit d) eqn:D; [|discriminate].
    destruct (span_digits false (d :: ds)) as (a & b & Ed & A & B). rewrite Ed in *.
    rewrite read_exp_digits in H by exact A.
    assert (b = []) as ->.
    { destruct b as [|z b]; [reflexivity|exfalso]. cbn [read_exp] in H. unfold isd in B. cbn [andb] in B. rewrite orb_false_r in B.
      replace (z =? 95) with false in H by (symmetry; apply Z.eqb_neq; intros ->; apply Us; rewrite in_app_iff; cbn [In]; auto).
      rewrite B in H. discriminate. }
    rewrite app_nil_r in *. exists (if neg then - decimal a else decimal a). exists c, sg, neg, a.
    split; [rewrite Er; reflexivity|]. split; [exact L|]. split; [exact Sg|]. split; [rewrite <- Ed; discriminate|]. split; [apply isd_digits, A|reflexivity].
Qed.

Lemma tail_exponent h r x : exponent (letters h) r x -> Z.abs x < 10000 -> tail_value h r = Some x.
Proof.
  intros (c & sg & neg & ds & -> & L & Sg & N & D & ->) B. cbn [tail_value]. apply letter_in in L. rewrite L.
  rewrite (split_sign_spec sg neg ds Sg).
  2:{ destruct D as [|b ds Hb]; [exact I|]. unfold digit in Hb. lia. }
  destruct ds as [|d ds]; [contradiction|].
  assert (is_digit d = true) as ->. { inversion D as [|? ? Hd]; subst. unfold digit in Hd. unfold is_digit. lia. }
  rewrite (read_exp_all _ D). pose proof (decimal_bounds _ D). rewrite satur_exact by (try exact D; destruct neg; lia). reflexivity.
Qed.

Lemma stops_exponent h dot r x : exponent (letters h) r x -> stops h dot r.
Proof.
  intros (c & sg & neg & ds & -> & L & _). unfold stops, isd, is_digit, is_hex_letter, to_lower.
  destruct h; cbn [letters In] in L; destruct L as [<-|[<-|[]]]; cbn; repeat split; lia.
Qed.

Lemma some_neq ds : some ds = true <-> ds <> [].
Proof. destruct ds; cbn; split; congruence. Qed.

(** The body behind sign and prefix. *)
Lemma unsigned_some neg h body v : unsigned neg h body = Some v -> ~ In 95 body ->
  exists ip dot fp ep, body = ip ++ dot ++ fp ++ ep /\ mantissa h ip dot fp /\ ip ++ fp <> [] /\
    ((ep = [] /\ h = false) \/ exists x, exponent (letters h) ep x).
Proof.
  intros H U. destruct (find_mantissa h body U) as (ip & dot & fp & r & -> & M & S).
  unfold unsigned in H. rewrite (read_mantissa h ip dot fp r M S) in H.
  destruct (some (ip ++ fp)) eqn:N; [|discriminate]. apply some_neq in N.
  destruct (tail_value h r) as [e|] eqn:T; [|discriminate].
  exists ip, dot, fp, r. split; [reflexivity|]. split; [exact M|]. split; [exact N|].
  apply tail_some in T; [|intros X; apply U; rewrite !in_app_iff; auto]. destruct T as [(-> & -> & _)|X]; auto.
Qed.

Lemma unsigned_value neg h ip dot fp ep x : mantissa h ip dot fp -> ip ++ fp <> [] ->
  ((ep = [] /\ h = false /\ x = 0) \/ exponent (letters h) ep x) -> Z.abs x < 10000 ->
  unsigned neg h (ip ++ dot ++ fp ++ ep) =
  let v := if h then round_scaled neg (val h (ip ++ fp) 0) (x - 4 * len fp) 2
           else round_scaled neg (val h (ip ++ fp) 0) (x - len fp) 10 in
  if f_finite v then Some v else None.
Proof.
  intros M N E B. unfold unsigned. rewrite (read_mantissa h ip dot fp ep M).
  2:{ destruct E as [(-> & _)|E]; [exact I|apply stops_exponent with x, E]. }
  apply some_neq in N. rewrite N.
  assert (tail_value h ep = Some x) as ->; [|reflexivity].
  destruct E as [(-> & -> & ->)|E]; [reflexivity|apply tail_exponent; assumption].
Qed.

(** The prefix of hexadecimal numbers. *)
Lemma split_base_hex c r : (c = 120 \/ c = 88) -> r <> [] -> split_base (48 :: c :: r) = (true, r).
Proof.
  intros C N. cbn [split_base]. replace (to_lower c =? 120) with true by (destruct C as [->| ->]; reflexivity).
  destruct r as [|b r]; [contradiction|]. replace (0 <? len (b :: r)) with true by (unfold len; cbn [List.length]; lia). reflexivity.
Qed.
Lemma split_base_true t r : split_base t = (true, r) -> exists c, t = 48 :: c :: r /\ (c = 120 \/ c = 88).
Proof.
  destruct t as [|z [|c t]]; cbn [split_base]; try discriminate.
  destruct ((z =? 48) && (to_lower c =? 120) && (0 <? len t)) eqn:E; [|discriminate]. intros H; injection H as <-.
  exists c. unfold to_lower in E. destruct ((65 <=? c) && (c <=? 90)) eqn:L; split; try lia; do 2 f_equal; lia.
Qed.
Lemma split_base_false t r : split_base t = (false, r) -> r = t.
Proof.
  destruct t as [|z [|c t]]; cbn [split_base]; try congruence.
  destruct (_ && _); congruence.
Qed.
Lemma split_base_dec t : (forall c r, t = 48 :: c :: r -> c <> 120 /\ c <> 88) -> split_base t = (false, t).
Proof.
  intros H. destruct (split_base t) as [[|] r] eqn:E.
  - apply split_base_true in E. destruct E as (c & -> & C). destruct (H c r eq_refl). lia.
  - apply split_base_false in E. subst. reflexivity.
Qed.

Lemma parse_number_syntax s v : ~ In 95 s -> parse_number s = Some v ->
  (exists neg n k x, decimal_number s neg n k x) \/ (exists neg n k x, hex_number s neg n k x).
Proof.
  intros U H. rewrite parse_number_unsigned in H by exact U.
  destruct (split_sign_parts s) as (sg & Es & Sg). pose proof (fun x => in_split_sign x s) as I1.
  destruct (split_sign s) as [neg t]. cbn [fst snd] in *.
  pose proof (fun x => in_split_base x t) as I2. destruct (split_base t) as [h body] eqn:Eb. cbn [snd] in I2.
  destruct (unsigned_some neg h body v H ltac:(auto)) as (ip & dot & fp & ep & -> & (M1 & M2 & M3) & N & T).
  destruct h.
  - right. apply split_base_true in Eb. destruct Eb as (c & -> & C). apply isd_hex in M1, M2.
    destruct T as [(_ & T)|(x & T)]; [discriminate|]. exists neg. do 2 eexists. exists x.
    exists sg, c, ip, dot, fp, ep. split; [exact Es|]. repeat (split; [assumption|]). split; reflexivity.
  - left. apply split_base_false in Eb. subst t. apply isd_digits in M1, M2.
    destruct T as [(T & _)|(x & T)]; [exists neg; do 2 eexists; exists 0|exists neg; do 2 eexists; exists x];
      exists sg, ip, dot, fp, ep; (split; [exact Es|]); repeat (split; [assumption|]); (split; [auto|]); split; reflexivity.
Qed.

(** The characters of a decimal number. *)
Lemma decimal_first ip dot fp ep : digits ip -> digits fp -> ip ++ fp <> [] -> (dot = str "." \/ (dot = [] /\ fp = [])) ->
  match ip ++ dot ++ fp ++ ep with b :: _ => b <> 43 /\ b <> 45 | [] => True end.
Proof.
  intros D1 D2 N [->|(-> & ->)]; destruct D1 as [|b ip Hb D1]; cbn [app]; unfold digit in *; try lia.
  - change (str ".") with [46]. cbn. lia.
  - contradiction N. reflexivity.
Qed.

Lemma decimal_no_x ip dot fp ep x : digits ip -> digits fp -> ip ++ fp <> [] -> (dot = str "." \/ (dot = [] /\ fp = [])) ->
  ((ep = [] /\ x = 0) \/ exponent [101; 69] ep x) ->
  forall c r, ip ++ dot ++ fp ++ ep = 48 :: c :: r -> c <> 120 /\ c <> 88.
Proof.
  intros D1 D2 N M E c r H. destruct D1 as [|b ip Hb D1].
  - destruct M as [->|(-> & ->)]; [discriminate H|contradiction N; reflexivity].
  - cbn [app] in H. injection H as -> H. destruct D1 as [|b' ip Hb' D1].
    + destruct M as [->|(-> & ->)]; [injection H as <- _; lia|]. cbn [app] in H.
      destruct E as [(-> & _)|(c' & sg & neg & ds & -> & L & _)]; [discriminate|]. injection H as -> _. cbn [In] in L. lia.
    + injection H as -> _. unfold digit in Hb'. lia.
Qed.

Lemma no_underscore_exp ls ep x : ~ In 95 ls -> exponent ls ep x -> ~ In 95 ep.
Proof.
  intros NL (c & sg & neg & ds & -> & L & Sg & _ & D & _) [->|I]; [contradiction|]. apply in_app_iff in I. destruct I as [I|I].
  - destruct Sg as [(_ & [->| ->])|(_ & ->)]; cbn in I; lia.
  - unfold digits in D. rewrite Forall_forall in D. specialize (D _ I). unfold digit in D. lia.
Qed.

Lemma parse_decimal t neg n k x : decimal_number t neg n k x -> Z.abs x < 10000 ->
  parse_number t = let v := round_scaled neg n (x - k) 10 in if f_finite v then Some v else None.
Proof.
  intros (sg & ip & dot & fp & ep & -> & Sg & D1 & D2 & N & M & E & -> & ->) B.
  assert (U : ~ In 95 (sg ++ ip ++ dot ++ fp ++ ep)).
  { unfold digits, digit in D1, D2. rewrite Forall_forall in D1, D2. rewrite !in_app_iff. intros [I|[I|[I|[I|I]]]].
    - destruct Sg as [(_ & [->| ->])|(_ & ->)]; cbn in I; lia.
    - specialize (D1 _ I). lia.
    - destruct M as [->|(-> & _)]; cbn in I; lia.
    - specialize (D2 _ I). lia.
    - destruct E as [(-> & _)|E]; [contradiction I|]. revert I. apply no_underscore_exp with [101; 69] x; [cbn; lia|exact E]. }
  rewrite parse_number_unsigned by exact U.
  rewrite (split_sign_spec sg neg _ Sg) by (apply decimal_first; assumption).
  rewrite split_base_dec by (eapply decimal_no_x; eassumption).
  rewrite (unsigned_value neg false ip dot fp ep x).
  - cbv iota. rewrite val_decimal by (apply Forall_app; auto). reflexivity.
  - split; [apply isd_digits, D1|]. split; [apply isd_digits, D2|exact M].
  - exact N.
  - destruct E as [(-> & ->)|E]; auto.
  - exact B.
Qed.

Lemma parse_hex t neg n k x : hex_number t neg n k x -> Z.abs x < 10000 ->
  parse_number t = let v := round_scaled neg n (x - 4 * k) 2 in if f_finite v then Some v else None.
Proof.
  intros (sg & c & ip & dot & fp & ep & -> & Sg & C & D1 & D2 & N & M & E & -> & ->) B.
  assert (U : ~ In 95 (sg ++ [48; c] ++ ip ++ dot ++ fp ++ ep)).
  { unfold hex_digits in D1, D2. rewrite Forall_forall in D1, D2. rewrite !in_app_iff. intros [I|[I|[I|[I|[I|I]]]]].
    - destruct Sg as [(_ & [->| ->])|(_ & ->)]; cbn in I; lia.
    - cbn in I. lia.
    - specialize (D1 _ I). cbv beta in D1. lia.
    - destruct M as [->|(-> & _)]; cbn in I; lia.
    - specialize (D2 _ I). cbv beta in D2. lia.
    - revert I. apply no_underscore_exp with [112; 80] x; [cbn; lia|exact E]. }
  rewrite parse_number_unsigned by exact U.
  rewrite (split_sign_spec sg neg _ Sg) by (cbn; lia). cbn [app].
  rewrite split_base_hex; [|exact C|].
  2:{ intros X. apply app_eq_nil in X. destruct X as [-> X]. apply app_eq_nil in X. destruct X as [_ X]. apply app_eq_nil in X. destruct X as [-> _]. contradiction N. reflexivity. }
  rewrite (unsigned_value neg true ip dot fp ep x).
  - cbv iota. rewrite val_hex by (apply Forall_app; auto). reflexivity.
  - split; [apply isd_hex, D1|]. split; [apply isd_hex, D2|exact M].
  - exact N.
  - right. exact E.
  - exact B.
Qed.

(** ** strconv.ParseFloat *)

Lemma special_no_digit t c : In c t -> 48 <= c <= 57 -> parse_special t = None.
Proof.
  intros I D. destruct (parse_special t) as [x|] eqn:E; [exfalso|reflexivity].
  assert (S : not_a_rate t) by (apply special_spec; eauto).
  assert (L : In c (lower t)).
  { unfold lower. replace c with (to_lower c); [apply in_map, I|]. unfold to_lower. replace ((65 <=? c) && (c <=? 90)) with false by lia. reflexivity. }
  destruct S as [S|(sg & bd & A & B & S)]; rewrite S in L.
  - cbn in L. lia.
  - destruct A as [<-|[<-|[<-|[]]]]; destruct B as [<-|[<-|[]]]; cbn in L; lia.
Qed.

Lemma digits_in ds : digits ds -> ds <> [] -> exists c, In c ds /\ 48 <= c <= 57.
Proof. intros [|b r H D] N; [contradiction|]. exists b. split; [left; reflexivity|exact H]. Qed.

Lemma decimal_not_special t neg n k x : decimal_number t neg n k x -> parse_special t = None.
Proof.
  intros (sg & ip & dot & fp & ep & -> & _ & D1 & D2 & N & _).
  destruct (digits_in (ip ++ fp)) as (c & I & C); [apply Forall_app; auto|exact N|].
  apply special_no_digit with c; [|exact C]. rewrite in_app_iff in I. rewrite !in_app_iff. tauto.
Qed.
Lemma hex_not_special t neg n k x : hex_number t neg n k x -> parse_special t = None.
Proof.
  intros (sg & c & ip & dot & fp & ep & -> & _). apply special_no_digit with 48; [|lia]. rewrite in_app_iff. right. left. reflexivity.
Qed.

Lemma rounded_finite v neg x : rounded_to v neg x -> f_finite v = true.
Proof. intros (m & e & -> & _). reflexivity. Qed.

Lemma decimal_read t neg n k x : decimal_number t neg n k x -> Z.abs x < 10000 ->
  let q := (inject_Z n * (10 # 1) ^ (x - k))%Q in
  (n = 0 -> parse_float t = Some (S754_zero neg)) /\
  (((2 # 1) ^ (-999) <= q <= (2 # 1) ^ 999)%Q -> exists v, parse_float t = Some v /\ rounded_to v neg q).
Proof.
  intros H B q. unfold parse_float. rewrite (decimal_not_special _ _ _ _ _ H), (parse_decimal _ _ _ _ _ H B).
  assert (N0 : 0 <= n).
  { destruct H as (sg & ip & dot & fp & ep & _ & _ & D1 & D2 & _ & _ & _ & -> & _). apply decimal_bounds, Forall_app. auto. }
  cbv zeta. split.
  - intros ->. reflexivity.
  - intros R. assert (Np : 0 < n).
    { destruct (Z.eq_dec n 0) as [->|?]; [exfalso|lia]. destruct R as [R _]. apply (Qlt_not_le 0 ((2 # 1) ^ (-999))); [reflexivity|].
      eapply Qle_trans; [exact R|]. unfold q. change (inject_Z 0) with 0%Q. rewrite Qmult_0_l. apply Qle_refl. }
    pose proof (round_scaled_rounded neg n (x - k) 10 Np ltac:(lia) R) as X. rewrite (rounded_finite _ _ _ X). eauto.
Qed.

Lemma hex_read t neg n k x : hex_number t neg n k x -> Z.abs x < 10000 ->
  let q := (inject_Z n * (2 # 1) ^ (x - 4 * k))%Q in
  (n = 0 -> parse_float t = Some (S754_zero neg)) /\
  (((2 # 1) ^ (-999) <= q <= (2 # 1) ^ 999)%Q -> exists v, parse_float t = Some v /\ rounded_to v neg q).
Proof.
  intros H B q. unfold parse_float. rewrite (hex_not_special _ _ _ _ _ H), (parse_hex _ _ _ _ _ H B).
  assert (N0 : 0 <= n).
  { destruct H as (sg & c & ip & dot & fp & ep & _ & _ & _ & D1 & D2 & _ & _ & _ & -> & _).
    assert (D : hex_digits (ip ++ fp)) by (apply Forall_app; auto).
    assert (G : forall v, 0 <= v -> 0 <= fold_left (fun a b => a * 16 + hex_value b) (ip ++ fp) v).
    { induction D as [|b l Hb D IH]; intros v V; [exact V|]. cbn [fold_left]. apply IH. cbv beta in Hb. unfold hex_value.
      destruct (b <=? 57) eqn:E1; [lia|]. destruct (b <=? 70) eqn:E2; lia. }
    apply G. lia. }
  cbv zeta. split.
  - intros ->. reflexivity.
  - intros R. assert (Np : 0 < n).
    { destruct (Z.eq_dec n 0) as [->|?]; [exfalso|lia]. destruct R as [R _]. apply (Qlt_not_le 0 ((2 # 1) ^ (-999))); [reflexivity|].
      eapply Qle_trans; [exact R|]. unfold q. change (inject_Z 0) with 0%Q. rewrite Qmult_0_l. apply Qle_refl. }
    pose proof (round_scaled_rounded neg n (x - 4 * k) 2 Np ltac:(lia) R) as X. rewrite (rounded_finite _ _ _ X). eauto.
Qed.

Lemma read_syntax t v : ~ In 95 t -> parse_float t = Some v -> f_finite v = true ->
  (exists neg n k x, decimal_number t neg n k x) \/ (exists neg n k x, hex_number t neg n k x).
Proof.
  intros U H F. unfold parse_float in H. destruct (parse_special t) as [x|] eqn:E.
  - injection H as ->. apply special_infinite in E. destruct E as [E _]. congruence.
  - eapply parse_number_syntax; eassumption.
Qed.
