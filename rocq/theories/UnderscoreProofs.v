(** Proofs about numbers that are written with underscores. *)
From Coq Require Import String ZArith List Bool Lia.
From Coq Require Import ZifyBool ZifyNat.
From Coq Require Import Floats.SpecFloat.
From Verif Require Import Base BaseFacts JsonSpec GoFloat RateSpec RateSpec2 FloatFinite RateProofs NumberSpec NumberProofs NumberParse UnderscoreSpec.
Import ListNotations.
Open Scope Z_scope.

Definition dig (h : bool) (b : Z) : Prop := isd h b = true.
Lemma dig_decimal b : dig false b <-> decimal_digit b.
Proof. unfold dig, isd, is_digit, decimal_digit. cbn [andb]. lia. Qed.
Lemma dig_hex b : dig true b <-> hex_digit_char b.
Proof.
  unfold dig, isd, is_digit, is_hex_letter, to_lower, hex_digit_char. cbn [andb].
  destruct ((65 <=? b) && (b <=? 90)) eqn:E; lia.
Qed.
Lemma between_ext (d e : Z -> Prop) t : (forall b, d b -> e b) -> between d t -> between e t.
Proof.
  intros H B a b E. destruct (B a b E) as [(a' & x & -> & X) (y & b' & -> & Y)]. split; eauto 6.
Qed.

(** The first character decides nothing about the rest but whether an underscore may follow. *)
Lemma between_cons (d : Z -> Prop) x s : ~ d 95 -> x <> 95 ->
  (between d (x :: s) <->
   match s with
   | [] => True
   | b :: r => if b =? 95 then d x /\ match r with [] => False | y :: _ => d y end /\ between d r else between d s
   end).
Proof.
  intros D N. split.
  - intros B. destruct s as [|b r]; [exact I|]. destruct (Z.eqb_spec b 95) as [->|Nb].
    + destruct (B [x] r eq_refl) as [(a' & z & E & Z) (y & b' & -> & Y)].
      destruct a' as [|? [|]]; try discriminate. injection E as <-. split; [exact Z|]. split; [exact Y|].
      intros a b E. destruct a as [|y' a]; [injection E as -> ->; contradiction|].
      destruct (B (x :: 95 :: y' :: a) b) as [(a' & z & E1 & Z1) R]; [cbn [app]; rewrite E; reflexivity|]. split; [|exact R].
      injection E as <- E. destruct a as [|w a] using rev_ind; [exists [], y; auto|]. clear IHa.
      exists (y :: a), w. split; [reflexivity|].
      change (x :: 95 :: y :: a ++ [w]) with ((x :: 95 :: y :: a) ++ [w]) in E1. apply app_inj_tail in E1. destruct E1 as [_ ->]. exact Z1.
    + intros a b' E. destruct a as [|b0 a]; [injection E as -> ->; contradiction|].
      destruct (B (x :: b0 :: a) b') as [(a' & z & E1 & Z1) R]; [cbn [app]; rewrite E; reflexivity|]. split; [|exact R].
      destruct a' as [|? a']; [discriminate|]. injection E1 as <- E1. exists a', z. auto.
  - intros H. intros a b E. destruct a as [|x' a]; [injection E as -> _; contradiction|]. injection E as <- E.
    destruct s as [|c r]; [destruct a; discriminate|]. destruct (Z.eqb_spec c 95) as [->|Nb].
    + destruct H as (Hx & Hr & B). destruct a as [|c' a].
      * injection E as ->. split; [exists [], x; auto|]. destruct b as [|y b]; [contradiction|]. exists y, b. auto.
      * injection E as <- E. destruct r as [|y r]; [destruct a; discriminate|].
        destruct a as [|y' a]; [injection E as -> _; contradiction|].
        destruct (B (y' :: a) b E) as [(a' & z & E1 & Z1) R]. split; [|exact R]. exists (x :: 95 :: a'), z. rewrite E1. auto.
    + destruct (H a b E) as [(a' & z & -> & Z1) R]. split; [|exact R]. exists (x :: a'), z. auto.
Qed.

Lemma dig_95 h : ~ dig h 95.
Proof. intros H. apply isd_other in H. lia. Qed.

Lemma ok_between h s : forall l, l <> UUnder ->
  (underscore_ok h s l = true <->
   match s with
   | [] => True
   | b :: r => if b =? 95 then l = UDigit /\ match r with [] => False | y :: _ => dig h y end /\ between (dig h) r else between (dig h) s
   end).
Proof.
  assert (G : forall n s, (List.length s <= n)%nat -> forall l, l <> UUnder ->
    (underscore_ok h s l = true <->
     match s with
     | [] => True
     | b :: r => if b =? 95 then l = UDigit /\ match r with [] => False | y :: _ => dig h y end /\ between (dig h) r else between (dig h) s
     end)); [|intros; eapply G; eauto].
  clear s. induction n as [|n IH]; intros s L l Hl.
  - destruct s; [|cbn in L; lia]. cbn [underscore_ok]. destruct l; tauto.
  - destruct s as [|b r]; [cbn [underscore_ok]; destruct l; tauto|]. cbn [List.length] in L.
    cbn [underscore_ok]. change (is_digit b || h && is_hex_letter b) with (isd h b). destruct (isd h b) eqn:Eb.
    + pose proof (isd_other h b Eb) as (N & _). replace (b =? 95) with false by lia.
      rewrite (IH r ltac:(lia) UDigit ltac:(discriminate)), (between_cons _ b r (dig_95 h) N).
      destruct r as [|c r]; [tauto|]. destruct (c =? 95); [|tauto]. fold (dig h b) in Eb. split; intros (A & B); split; auto.
    + destruct (Z.eqb_spec b 95) as [->|N].
      * destruct l; try (split; [discriminate|intros (A & _); discriminate A]).
        destruct r as [|c r]; [cbn [underscore_ok]; split; [discriminate|tauto]|]. cbn [underscore_ok List.length] in *.
        change (is_digit c || h && is_hex_letter c) with (isd h c). destruct (isd h c) eqn:Ec.
        -- pose proof (isd_other h c Ec) as (Nc & _). rewrite (IH r ltac:(lia) UDigit ltac:(discriminate)), (between_cons _ c r (dig_95 h) Nc).
           fold (dig h c) in Ec. destruct r as [|d r]; [tauto|]. destruct (d =? 95); tauto.
        -- split; [destruct (c =? 95); discriminate|]. intros (_ & D & _). unfold dig in D. congruence.
      * destruct l; try contradiction;
        (rewrite (IH r ltac:(lia) UOther ltac:(discriminate)), (between_cons _ b r (dig_95 h) N);
         destruct r as [|c r]; [tauto|]; destruct (c =? 95); [|tauto];
         split; intros (A & _); [discriminate A|unfold dig in A; congruence]).
Qed.

(** ** Reading with and without underscores *)

Lemma mant_plain h s : forall v f dot dg u,
  let '(v1, f1, d1, u1, r1) := read_mant h s v f dot dg u in
  read_mant h (plain_text s) v f dot dg false = (v1, f1, d1, false, plain_text r1) /\
  exists p, s = p ++ r1 /\ (u1 = true <-> u = true \/ In 95 p) /\ match r1 with 95 :: _ => False | _ => True end.
Proof.
  induction s as [|b s IH]; intros v f dot dg u.
  - cbn [read_mant plain_text filter]. split; [reflexivity|]. exists []. split; [reflexivity|]. cbn [In]. tauto.
  - cbn [read_mant]. unfold plain_text at 1. cbn [filter]. fold (plain_text s).
    assert (St : b <> 95 -> exists p, b :: s = p ++ b :: s /\ (u = true <-> u = true \/ In 95 p) /\ match b :: s with 95 :: _ => False | _ => True end).
    { intros N. exists []. split; [reflexivity|]. cbn [In]. split; [tauto|]. destruct (Z.eq_dec b 95); [contradiction|].
      repeat match goal with |- context [match ?x with _ => _ end] => is_var x; destruct x end; auto; lia. }
    assert (Sp : b <> 95 -> plain_text (b :: s) = b :: plain_text s).
    { intros N. unfold plain_text. cbn [filter]. replace (b =? 95) with false by lia. reflexivity. }
    assert (Step : forall v' f' dot' dg' u', (u' = true <-> u = true \/ b = 95) ->
      let '(v1, f1, d1, u1, r1) := read_mant h s v' f' dot' dg' u' in
      read_mant h (plain_text s) v' f' dot' dg' false = (v1, f1, d1, false, plain_text r1) /\
      exists p, b :: s = p ++ r1 /\ (u1 = true <-> u = true \/ In 95 p) /\ match r1 with 95 :: _ => False | _ => True end).
    { intros v' f' dot' dg' u' Hu. specialize (IH v' f' dot' dg' u'). destruct (read_mant h s v' f' dot' dg' u') as [[[[v1 f1] d1] u1] r1].
      destruct IH as (A & p & -> & U & R). split; [exact A|]. exists (b :: p). split; [reflexivity|]. split; [|exact R].
      cbn [In]. rewrite U, Hu. tauto. }
    destruct (Z.eqb_spec b 95) as [->|N]; cbn [negb].
    + apply Step. tauto.
    + cbn [read_mant]. replace (b =? 95) with false by lia. destruct (b =? 46).
      * destruct dot; [split; [rewrite Sp by exact N; reflexivity|auto]|]. apply Step. tauto.
      * destruct (is_digit b || h && is_hex_letter b); [apply Step; tauto|]. split; [rewrite Sp by exact N; reflexivity|auto].
Qed.

Lemma exp_plain s : forall e u,
  let '(e1, u1, r1) := read_exp s e u in
  read_exp (plain_text s) e false = (e1, false, plain_text r1) /\ (r1 = [] -> (u1 = true <-> u = true \/ In 95 s)) /\
  match r1 with b :: _ => b <> 95 | [] => True end.
Proof.
  induction s as [|b s IH]; intros e u.
  - cbn. split; [reflexivity|]. split; [tauto|exact I].
  - cbn [read_exp]. unfold plain_text at 1. cbn [filter]. fold (plain_text s).
    destruct (Z.eqb_spec b 95) as [->|N]; cbn [negb].
    + specialize (IH e true). destruct (read_exp s e true) as [[e1 u1] r1]. destruct IH as (A & U & R). split; [exact A|].
      split; [|exact R]. intros Z. rewrite (U Z). cbn [In]. tauto.
    + cbn [read_exp]. replace (b =? 95) with false by lia. destruct (is_digit b).
      * specialize (IH (if e <? 10000 then e * 10 + (b - 48) else e) u). destruct (read_exp s _ u) as [[e1 u1] r1].
        destruct IH as (A & U & R). split; [exact A|]. split; [|exact R]. intros Z. rewrite (U Z). cbn [In]. tauto.
      * split; [|split; [discriminate|exact N]]. unfold plain_text. cbn [filter]. replace (b =? 95) with false by lia. reflexivity.
Qed.

Definition first_kind (h : bool) : ukind := if h then UDigit else UStart.
Lemma first_kind_not h : first_kind h <> UUnder.
Proof. destruct h; discriminate. Qed.

(** Only digits come before underscores. *)
Lemma ok_before h s l a x b : l <> UUnder -> underscore_ok h s l = true -> s = a ++ x :: 95 :: b -> dig h x.
Proof.
  intros Hl H E. apply (ok_between h s l Hl) in H.
  assert (B : forall a', between (dig h) (a' ++ x :: 95 :: b) -> dig h x).
  { intros a' B. destruct (B (a' ++ [x]) b) as [(a2 & z & E2 & Z) _]; [rewrite <- app_assoc; reflexivity|].
    apply app_inj_tail in E2. destruct E2 as [_ ->]. exact Z. }
  destruct s as [|c r]; [destruct a; discriminate|]. destruct (Z.eqb_spec c 95) as [->|N].
  - destruct H as (_ & Hr & Br). destruct a as [|? a]; injection E as E1 E2.
    + subst. exfalso. apply (dig_95 h). exact Hr.
    + subst. apply (B a Br).
  - rewrite E in H. apply (B a H).
Qed.

Lemma plain_cons b s : b <> 95 -> plain_text (b :: s) = b :: plain_text s.
Proof. intros N. unfold plain_text. cbn [filter]. replace (b =? 95) with false by lia. reflexivity. Qed.

Lemma sign_plain s : match s with b :: _ => b <> 95 | [] => True end ->
  split_sign (plain_text s) = (fst (split_sign s), plain_text (snd (split_sign s))).
Proof.
  destruct s as [|b s]; [reflexivity|]. intros N. rewrite plain_cons by exact N. cbn [split_sign].
  destruct (b =? 45); [reflexivity|]. destruct (b =? 43); [reflexivity|]. cbn [fst snd]. now rewrite plain_cons.
Qed.

Lemma in_sign s : In 95 s -> In 95 (snd (split_sign s)).
Proof.
  destruct s as [|b s]; [auto|]. cbn [split_sign]. intros [->|H]; [left; reflexivity|].
  destruct (b =? 45); [exact H|]. destruct (b =? 43); [exact H|right; exact H].
Qed.

Lemma finish_plain neg h body : In 95 body ->
  finish neg h body = if underscore_ok h body (first_kind h) then finish neg h (plain_text body) else None.
Proof.
  intros I. unfold finish. pose proof (mant_plain h body 0 0 false false false) as M.
  destruct (read_mant h body 0 0 false false false) as [[[[v f] d] u] r]. destruct M as (-> & p & E & U & R).
  destruct d; cbn [negb]; [|destruct (underscore_ok _ _ _); reflexivity].
  change (if h then UDigit else UStart) with (first_kind h).
  destruct r as [|c r].
  - cbn [plain_text filter]. destruct h; [destruct (underscore_ok _ _ _); reflexivity|].
    assert (Hu : u = true) by (apply U; right; rewrite E, app_nil_r in I; exact I). rewrite Hu.
    cbn [andb]. destruct (underscore_ok _ _ _); reflexivity.
  - assert (N : c <> 95) by (intros ->; exact R). rewrite plain_cons by exact N.
    destruct (to_lower c =? (if h then 112 else 101)) eqn:Ec; [|destruct (underscore_ok _ _ _); reflexivity].
    assert (Nc : ~ dig h c).
    { unfold dig, isd, is_digit, is_hex_letter, to_lower in *. destruct ((65 <=? c) && (c <=? 90)) eqn:?; destruct h; lia. }
    assert (Ib : In 95 p \/ In 95 (snd (split_sign r))).
    { rewrite E in I. apply in_app_iff in I. destruct I as [I|[I|I]]; [auto|congruence|right; apply in_sign, I]. }
    destruct (underscore_ok h body (first_kind h)) eqn:Ok.
    + assert (Hr : match r with b :: _ => b <> 95 | [] => True end).
      { destruct r as [|b r]; [exact Logic.I|]. intros ->. apply Nc. eapply ok_before; [apply first_kind_not|exact Ok|exact E]. }
      rewrite (sign_plain r Hr).
      assert (Hs : match snd (split_sign r) with b :: _ => b <> 95 | [] => True end).
      { destruct r as [|b r]; [exact Logic.I|]. cbn [split_sign].
        assert (G : ~ dig h b -> match r with b' :: _ => b' <> 95 | [] => True end).
        { intros Nb. destruct r as [|b' r]; [exact Logic.I|]. intros ->. apply Nb.
          eapply (ok_before h body (first_kind h) (p ++ [c])); [apply first_kind_not|exact Ok|rewrite <- app_assoc; exact E]. }
        destruct (Z.eqb_spec b 45) as [->|]; [apply G; intros X; apply isd_other in X; lia|].
        destruct (Z.eqb_spec b 43) as [->|]; [apply G; intros X; apply isd_other in X; lia|exact Hr]. }
      destruct (split_sign r) as [eneg ds]. cbn [fst snd] in *. destruct ds as [|x ds]; [reflexivity|].
      rewrite (plain_cons x ds Hs). destruct (is_digit x); [|reflexivity].
      pose proof (exp_plain (x :: ds) 0 u) as X. rewrite (plain_cons x ds Hs) in X.
      destruct (read_exp (x :: ds) 0 u) as [[e1 u1] r1]. destruct X as (-> & _ & Hr1).
      destruct r1 as [|b1 r1]; [|rewrite plain_cons by exact Hr1; reflexivity].
      cbn [plain_text filter negb]. rewrite andb_false_r. reflexivity.
    + destruct (split_sign r) as [eneg ds]. cbn [fst snd] in *. destruct ds as [|x ds]; [reflexivity|].
      destruct (is_digit x); [|reflexivity]. pose proof (exp_plain (x :: ds) 0 u) as X.
      destruct (read_exp (x :: ds) 0 u) as [[e1 u1] r1]. destruct X as (_ & U1 & _).
      destruct r1 as [|b1 r1]; [|reflexivity]. replace u1 with true; [reflexivity|]. symmetry. apply U1; [reflexivity|]. tauto.
Qed.

(** ** The whole text *)

Definition placed_ok (t : bytes) : bool :=
  let '(_, t') := split_sign t in let '(h, body) := split_base t' in underscore_ok h body (first_kind h).

Lemma base_parts t : match split_base t with
  | (true, body) => exists c, t = 48 :: c :: body /\ (c = 120 \/ c = 88) /\ body <> []
  | (false, body) => body = t /\ forall c r, t = 48 :: c :: r -> (c = 120 \/ c = 88) -> r = []
  end.
Proof.
  destruct t as [|z [|x r]]; cbn [split_base]; [split; [reflexivity|discriminate]|split; [reflexivity|discriminate]|].
  destruct ((z =? 48) && (to_lower x =? 120) && (0 <? len r)) eqn:E.
  - exists x. assert (z = 48) by lia. subst. split; [reflexivity|]. split.
    + unfold to_lower in E. destruct ((65 <=? x) && (x <=? 90)) eqn:E2; lia.
    + intros ->. cbn in E. lia.
  - split; [reflexivity|]. intros c r' H C. injection H as -> -> ->. destruct r'; [reflexivity|exfalso].
    pose proof (len_nonneg r'). unfold len in *. cbn [List.length] in E. destruct C; subst; cbn in E; lia.
Qed.

Lemma in_base t : In 95 t -> In 95 (snd (split_base t)).
Proof.
  intros I. pose proof (base_parts t) as B. destruct (split_base t) as [[] body]; cbn [snd].
  - destruct B as (c & -> & C & _). destruct I as [|[|]]; [lia|lia|assumption].
  - destruct B as [-> _]. exact I.
Qed.

Lemma start_between h s : underscore_ok h s UStart = true <-> between (dig h) s.
Proof.
  rewrite ok_between by discriminate. destruct s as [|b r].
  - split; [|auto]. intros _ a b E. destruct a; discriminate.
  - destruct (Z.eqb_spec b 95) as [->|]; [|tauto]. split; [intros (A & _); discriminate|].
    intros B. destruct (B [] r eq_refl) as [(a & x & E & _) _]. destruct a; discriminate.
Qed.

Lemma number_plain t : In 95 t ->
  parse_number t = if placed_ok t then parse_number (plain_text t) else None.
Proof.
  intros I. rewrite parse_number_finish. unfold placed_ok. pose proof (in_base _ (in_sign _ I)) as Ib.
  pose proof (base_parts (snd (split_sign t))) as B.
  destruct (split_sign t) as [neg t'] eqn:Es. cbn [snd] in *. destruct (split_base t') as [h body] eqn:Eb. cbn [snd] in Ib.
  rewrite (finish_plain neg h body Ib). destruct (underscore_ok h body (first_kind h)) eqn:Ok; [|reflexivity].
  assert (Ht : match t with b :: _ => b <> 95 | [] => True end).
  { destruct t as [|b t]; [exact Logic.I|]. intros ->. cbn in Es. injection Es as <- <-.
    destruct h; [destruct B as (c & E & _); discriminate E|]. destruct B as [-> _]. cbn in Ok. discriminate. }
  rewrite parse_number_finish, (sign_plain t Ht), Es. cbn [fst snd].
  destruct h.
  - destruct B as (c & -> & C & _). rewrite !plain_cons by lia. cbn [split_base].
    replace (to_lower c =? 120) with true by (destruct C; subst; reflexivity). cbn [andb].
    destruct (0 <? len (plain_text body)) eqn:L; [reflexivity|].
    assert (P : plain_text body = []) by (destruct (plain_text body); [reflexivity|unfold len in L; cbn in L; lia]). rewrite P.
    destruct C; subst; reflexivity.
  - destruct B as [-> B]. replace (split_base (plain_text t')) with (false, plain_text t'); [reflexivity|].
    destruct t' as [|z r]; [reflexivity|].
    assert (Nz : z <> 95) by (intros ->; cbn in Ok; discriminate). rewrite plain_cons by exact Nz.
    destruct r as [|x r]; [reflexivity|]. destruct (Z.eq_dec x 95) as [->|Nx].
    + cbn [first_kind] in Ok. apply start_between in Ok.
      apply (between_cons _ z _ (dig_95 false) Nz) in Ok. cbn [Z.eqb Pos.eqb] in Ok. destruct Ok as (_ & D & _).
      destruct r as [|y r]; [contradiction|]. unfold plain_text. cbn [filter Z.eqb Pos.eqb negb].
      pose proof (isd_other _ _ D) as (Ny & _). replace (y =? 95) with false by lia. cbn [negb split_base].
      replace (to_lower y =? 120) with false; [rewrite andb_false_r; reflexivity|].
      apply dig_decimal in D. unfold decimal_digit, to_lower in *. replace ((65 <=? y) && (y <=? 90)) with false by lia. lia.
    + rewrite plain_cons by exact Nx. cbn [split_base].
      destruct ((z =? 48) && (to_lower x =? 120)) eqn:E; [|reflexivity].
      assert (r = []) as ->; [|reflexivity]. apply (B x); [f_equal; lia|].
      unfold to_lower in E. destruct ((65 <=? x) && (x <=? 90)) eqn:E2; lia.
Qed.

Lemma ok_weaker h s : underscore_ok h s UOther = true -> underscore_ok h s UDigit = true.
Proof.
  rewrite !ok_between by discriminate. destruct s as [|b r]; [auto|]. destruct (b =? 95); [|auto]. intros (A & _). discriminate.
Qed.

Lemma prefix_between body : underscore_ok true body UDigit = true <-> between hex_digit_char (48 :: body).
Proof.
  change (underscore_ok true body UDigit) with (underscore_ok true (48 :: body) UStart). rewrite start_between.
  split; apply between_ext; intros b; apply dig_hex.
Qed.

Lemma sign_between d sg neg t : a_sign sg neg -> ~ d 43 -> ~ d 45 -> (between d (sg ++ t) <-> between d t).
Proof.
  intros S P M.
  assert (G : forall x, ~ d x -> x <> 95 -> (between d (x :: t) <-> between d t)).
  { intros x D N. split; intros B a b E.
    - subst t. destruct (B (x :: a) b eq_refl) as [(a' & z & E & Z) R]. split; [|exact R].
      destruct a' as [|? a']; injection E as -> E; [subst; contradiction|]. exists a', z. auto.
    - destruct a as [|y a]; injection E as E1 E; [congruence|]. subst y. destruct (B a b E) as [(a' & z & -> & Z) R]. split; [|exact R].
      exists (x :: a'), z. auto. }
  destruct S as [(_ & [->| ->])|(_ & ->)]; [tauto| |]; apply G; auto; discriminate.
Qed.

Lemma placed_spec t : In 95 t -> (placed_ok t = true <-> well_placed t).
Proof.
  intros I. unfold placed_ok. destruct (split_sign_parts t) as (sg & E & S).
  pose proof (in_sign t I) as It. destruct (split_sign t) as [neg t'] eqn:Es. cbn [fst snd] in *.
  pose proof (base_parts t') as B. pose proof (in_base t' It) as Ib. destruct (split_base t') as [h body]. cbn [snd] in Ib.
  assert (D : between decimal_digit t <-> between decimal_digit t').
  { rewrite E. apply sign_between with neg; [exact S| |]; unfold decimal_digit; lia. }
  destruct h; cbn [first_kind].
  - destruct B as (c & -> & C & Nb). rewrite prefix_between. split.
    + intros H. right. exists sg, neg, c, body. auto.
    + intros [H|(sg' & neg' & c' & body' & E' & S' & C' & H)].
      * apply D in H. apply prefix_between. apply ok_weaker.
        assert (X : underscore_ok true (48 :: c :: body) UStart = true).
        { apply start_between. revert H. apply between_ext. intros b Hb. apply dig_hex. left. exact Hb. }
        destruct C; subst; exact X.
      * assert (X : split_sign t = (neg', [48; c'] ++ body')).
        { rewrite E'. apply split_sign_spec; [exact S'|]. cbn. lia. }
        rewrite Es in X. injection X as _ _ ->. exact H.
  - destruct B as [-> B]. rewrite start_between. split.
    + intros H. left. apply D. revert H. apply between_ext. intros b. apply dig_decimal.
    + intros [H|(sg' & neg' & c' & body' & E' & S' & C' & H)].
      * apply D in H. revert H. apply between_ext. intros b. apply dig_decimal.
      * exfalso. assert (X : split_sign t = (neg', [48; c'] ++ body')).
        { rewrite E'. apply split_sign_spec; [exact S'|]. cbn. lia. }
        rewrite Es in X. injection X as _ X. rewrite (B c' body' X C') in X. rewrite X in It. cbn in It. lia.
Qed.

Lemma special_no_char t c : In c t -> (48 <= c <= 57 \/ c = 95) -> parse_special t = None.
Proof.
  intros I C. destruct (parse_special t) as [v|] eqn:E; [exfalso|reflexivity].
  assert (S : not_a_rate t) by (apply special_spec; eauto).
  assert (L : In c (lower t)).
  { unfold lower. replace c with (to_lower c); [apply in_map, I|]. unfold to_lower. replace ((65 <=? c) && (c <=? 90)) with false by lia. reflexivity. }
  destruct S as [S|(sg & bd & A & B & S)]; rewrite S in L.
  - cbn in L. lia.
  - destruct A as [<-|[<-|[<-|[]]]]; destruct B as [<-|[<-|[]]]; cbn in L; lia.
Qed.

Lemma placed_digit t : In 95 t -> well_placed t -> exists c, In c (plain_text t) /\ 48 <= c <= 57.
Proof.
  intros I W.
  assert (K : forall c, In c t -> 48 <= c <= 57 -> exists c, In c (plain_text t) /\ 48 <= c <= 57).
  { intros c Ic C. exists c. split; [|exact C]. apply filter_In. split; [exact Ic|lia]. }
  destruct W as [B|(sg & neg & c & body & -> & _)].
  - apply in_split in I. destruct I as (a & b & ->). destruct (B a b eq_refl) as [(a' & x & -> & X) _].
    apply (K x); [rewrite !in_app_iff; cbn; auto|exact X].
  - apply (K 48); [rewrite in_app_iff; cbn; auto|lia].
Qed.

Lemma underscores t v : In 95 t -> (parse_float t = Some v <-> well_placed t /\ parse_float (plain_text t) = Some v).
Proof.
  intros I. unfold parse_float at 1. rewrite (special_no_char t 95 I ltac:(auto)), (number_plain t I), <- (placed_spec t I).
  destruct (placed_ok t) eqn:P; [|split; [discriminate|intros (X & _); discriminate]].
  apply (placed_spec t I) in P. destruct (placed_digit t I P) as (c & Ic & C).
  unfold parse_float. rewrite (special_no_char _ c Ic ltac:(auto)). tauto.
Qed.
