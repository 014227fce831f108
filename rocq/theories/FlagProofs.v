(** Proofs of C82. *)
From Coq Require Import String ZArith List Bool Lia.
From Verif Require Import Base BaseFacts MainModel FlagModel FlagSpec.
Import ListNotations.
Open Scope Z_scope.

(** ** Words *)
Lemma cut_inv s : forall n v, cut_equals s = (n, v) ->
  ~ In 61 n /\ match v with Some x => s = n ++ 61 :: x | None => s = n end.
Proof.
  induction s as [|b r IH]; intros n v H; cbn [cut_equals] in H.
  - injection H as <- <-. split; [intros []|reflexivity].
  - destruct (b =? 61) eqn:E.
    + apply Z.eqb_eq in E. subst b. injection H as <- <-. split; [intros []|reflexivity].
    + destruct (cut_equals r) as [n' v'] eqn:C. injection H as <- <-. destruct (IH _ _ eq_refl) as [N S].
      split; [intros [->|I]; [discriminate|contradiction]|]. destruct v'; cbn [app]; congruence.
Qed.
Lemma cut_none n : ~ In 61 n -> cut_equals n = (n, None).
Proof.
  induction n as [|b n IH]; intros N; [reflexivity|]. cbn [cut_equals].
  destruct (b =? 61) eqn:E; [apply Z.eqb_eq in E; exfalso; apply N; left; exact E|].
  rewrite IH; [reflexivity|]. intros I. apply N. right. exact I.
Qed.
Lemma cut_some n x : ~ In 61 n -> cut_equals (n ++ 61 :: x) = (n, Some x).
Proof.
  induction n as [|b n IH]; intros N; [reflexivity|]. cbn [cut_equals app].
  destruct (b =? 61) eqn:E; [apply Z.eqb_eq in E; exfalso; apply N; left; exact E|].
  rewrite IH; [reflexivity|]. intros I. apply N. right. exact I.
Qed.
Lemma memq x l : existsb (beqb x) l = true <-> In x l.
Proof.
  rewrite existsb_exists. split.
  - intros (y & I & E). apply beqb_spec in E. subst. exact I.
  - intros I. exists x. split; [exact I|apply beqb_refl].
Qed.
Lemma memq_false x l : existsb (beqb x) l = false <-> ~ In x l.
Proof. rewrite <- memq. destruct (existsb _ _); split; congruence. Qed.

Lemma shell_capital name n' : Forall2 capital name n' <-> n' = shell_name name.
Proof.
  assert (G : forall b c, capital b c <-> c = shell_char b).
  { intros b c. unfold capital, shell_char.
    destruct ((97 <=? b) && (b <=? 122)) eqn:E1; [lia|]. destruct ((65 <=? b) && (b <=? 90) || (48 <=? b) && (b <=? 57)) eqn:E2; lia. }
  split.
  - induction 1 as [|b c l l' H F IH]; [reflexivity|]. apply G in H. cbn [shell_name map]. fold (shell_name l). congruence.
  - intros ->. induction name as [|b name IH]; constructor; [apply G; reflexivity|exact IH].
Qed.
Lemma sources_fun env name l vs vs' : sources env name l vs -> sources env name l vs' -> vs = vs'.
Proof.
  intros [[A ->]|(A & n1 & F1 & ->)] [[B ->]|(B & n2 & F2 & ->)]; try congruence.
  apply shell_capital in F1, F2. subst n1 n2. reflexivity.
Qed.
Lemma sources_exist env name l : exists vs, sources env name l vs.
Proof.
  destruct (values_for name l) as [|v r] eqn:E.
  - eexists. right. split; [exact E|]. exists (shell_name name). split; [apply shell_capital; reflexivity|reflexivity].
  - exists (v :: r). left. rewrite E. split; [discriminate|reflexivity].
Qed.

Section Flags.
  Variable V : Type.
  Variable flags : list bytes.
  Variable is_bool : bytes -> bool.
  Variable set : bytes -> V -> bytes -> option V.
  Hypothesis proper : Forall proper_name flags.
  Notation parse := (parse V flags is_bool set).
  Notation says := (says flags is_bool).

  Fixpoint applied (l : list (bytes * bytes)) (st : store V) : option (store V) :=
    match l with
    | [] => Some st
    | (n, v) :: r => match set n (st n) v with Some x => applied r (update st n x) | None => None end
    end.

  (** A word with an option, taken apart. *)
  Lemma word_shape w : (exists d name, dash d /\ proper_name name /\ (w = d ++ name \/ exists v, w = d ++ name ++ str "=" ++ v)) ->
    exists b w' text, w = 45 :: b :: w' /\ ((b =? 45) && beqb w' []) = false /\
      text = (if b =? 45 then w' else b :: w') /\ exists d, dash d /\ w = d ++ text.
  Proof.
    intros (d & name & D & (N1 & N2 & N3) & W).
    assert (X : exists c rest, w = d ++ c :: rest /\ c <> 45).
    { destruct name as [|c name]; [contradiction|].
      assert (Hc : c <> 45) by (intros ->; apply (N2 name); reflexivity).
      destruct W as [->|(v & ->)]; [exists c, name|exists c, (name ++ str "=" ++ v)]; auto. }
    destruct X as (c & rest & -> & Hc). apply Z.eqb_neq in Hc. destruct D as [->| ->].
    - exists c, rest, (c :: rest). rewrite Hc. split; [reflexivity|]. split; [reflexivity|]. split; [reflexivity|].
      exists (str "-"). split; [left; reflexivity|reflexivity].
    - exists 45, (c :: rest), (c :: rest). split; [reflexivity|]. split; [reflexivity|]. split; [reflexivity|].
      exists (str "--"). split; [right; reflexivity|reflexivity].
  Qed.
  Lemma dash_inj d d' t t' : dash d -> dash d' -> (forall r, t <> 45 :: r) -> (forall r, t' <> 45 :: r) -> d ++ t = d' ++ t' -> t = t'.
  Proof.
    intros [->| ->] [->| ->] A B E; cbn in E.
    - congruence.
    - exfalso. injection E as E. apply (A _ E).
    - exfalso. injection E as E. symmetry in E. apply (B _ E).
    - congruence.
  Qed.

  (** One step of the parser at an option. *)
  Definition option_step (text : bytes) (rest : list bytes) (st : store V) (actual : list bytes) : configured (store V * list bytes) :=
    let '(name, value) := cut_equals text in
    if defined flags name then
      match value with
      | Some v => match set name (st name) v with
                  | Some x => parse rest (update st name x) (name :: actual) | None => Exits 2 end
      | None =>
          if is_bool name then
            match set name (st name) (str "true") with
            | Some x => parse rest (update st name x) (name :: actual) | None => Exits 2 end
          else match rest with
               | [] => Exits 2
               | v :: rest' => match set name (st name) v with
                               | Some x => parse rest' (update st name x) (name :: actual) | None => Exits 2 end
               end
      end
    else if beqb name (str "help") || beqb name (str "h") then Exits 0 else Exits 2.
  Lemma parse_option d text rest st actual : dash d -> text <> [] -> (forall r, text <> 45 :: r) -> (forall r, text <> 61 :: r) ->
    parse ((d ++ text) :: rest) st actual = option_step text rest st actual.
  Proof.
    intros D T N1 N2. destruct text as [|c text]; [contradiction|].
    assert (H1 : c =? 45 = false) by (apply Z.eqb_neq; intros ->; apply (N1 text); reflexivity).
    assert (H2 : c =? 61 = false) by (apply Z.eqb_neq; intros ->; apply (N2 text); reflexivity).
    destruct D as [->| ->].
    - change (str "-" ++ c :: text) with (45 :: c :: text). unfold option_step. cbn [FlagModel.parse]. rewrite ?H1, ?H2.
      change (negb (45 =? 45)) with false. cbn iota. rewrite andb_false_l. cbn iota. rewrite ?H1, ?H2. cbn [orb]. cbn iota.
      destruct (cut_equals (c :: text)) as [name value]. destruct (defined flags name); [|reflexivity].
      destruct value; [reflexivity|]. destruct (is_bool name); reflexivity.
    - change (str "--" ++ c :: text) with (45 :: 45 :: c :: text). unfold option_step. cbn [FlagModel.parse].
      change (negb (45 =? 45)) with false. change ((45 =? 45) && beqb (c :: text) []) with false. change (45 =? 45) with true. cbn iota.
      rewrite H1, H2. cbn [orb]. cbn iota.
      destruct (cut_equals (c :: text)) as [name value]. destruct (defined flags name); [|reflexivity].
      destruct value; [reflexivity|]. destruct (is_bool name); reflexivity.
  Qed.
  Lemma parse_plain w rest st actual : plain_word w -> parse (w :: rest) st actual = Runs (st, actual).
  Proof.
    intros [->|N]; [reflexivity|]. destruct w as [|a [|b w]]; try reflexivity. cbn [FlagModel.parse].
    destruct (a =? 45) eqn:E; [|reflexivity]. apply Z.eqb_eq in E. subst a. exfalso. apply (N (b :: w)). reflexivity.
  Qed.
  (** Every word is of one of these kinds. *)
  Lemma word_cases w : plain_word w \/ w = str "--" \/
    (exists d text, dash d /\ w = d ++ text /\ text <> [] /\ (forall r, text <> 45 :: r) /\ (forall r, text <> 61 :: r)) \/
    (forall rest st actual, parse (w :: rest) st actual = Exits 2).
  Proof.
    destruct w as [|a w]; [left; right; intros r; discriminate|].
    destruct (Z.eq_dec a 45) as [->|Na]; [|left; right; intros r E; injection E as E; contradiction].
    destruct w as [|b w]; [left; left; reflexivity|].
    destruct (Z.eq_dec b 45) as [->|Nb].
    - destruct w as [|c w]; [right; left; reflexivity|].
      destruct (Z.eq_dec c 45) as [->|Nc]; [right; right; right; reflexivity|].
      destruct (Z.eq_dec c 61) as [->|Nd]; [right; right; right; reflexivity|].
      right. right. left. exists (str "--"), (c :: w). split; [right; reflexivity|]. split; [reflexivity|].
      split; [discriminate|]. split; intros r E; injection E as E; contradiction.
    - destruct (Z.eq_dec b 61) as [->|Nd]; [right; right; right; reflexivity|].
      right. right. left. exists (str "-"), (b :: w). split; [left; reflexivity|]. split; [reflexivity|].
      split; [discriminate|]. split; intros r E; injection E as E; contradiction.
  Qed.
  Lemma defined_in name : defined flags name = true <-> In name flags.
  Proof. apply memq. Qed.
  Lemma name_proper name : In name flags -> proper_name name.
  Proof. rewrite Forall_forall in proper. apply proper. Qed.
  Lemma name_text name : In name flags -> forall x, (name ++ x) <> [] /\ (forall r, name ++ x <> 45 :: r) /\ (forall r, name ++ x <> 61 :: r).
  Proof.
    intros I x. destruct (name_proper name I) as (N1 & N2 & N3). destruct name as [|c name]; [contradiction|].
    split; [discriminate|]. split; intros r E; injection E as E _; subst c; [apply (N2 name); reflexivity|apply N3; left; reflexivity].
  Qed.

  Lemma parse_of_says args l ignored : says args l ignored -> forall st actual,
    parse args st actual = match applied l st with Some st' => Runs (st', rev (map fst l) ++ actual) | None => Exits 2 end.
  Proof.
    induction 1 as [|w rest P|rest|d name v rest l ignored D I S IH|d name rest l ignored D I B S IH|d name v rest l ignored D I B S IH];
      intros st actual; cbn [applied map fst rev].
    - reflexivity.
    - apply parse_plain, P.
    - reflexivity.
    - destruct (name_text name I (str "=" ++ v)) as (T1 & T2 & T3). rewrite parse_option by assumption. unfold option_step.
      destruct (name_proper name I) as (_ & _ & N3).
      change (str "=" ++ v) with (61 :: v). rewrite (cut_some name v N3), (proj2 (defined_in name) I).
      destruct (set name (st name) v) as [x|]; [|reflexivity]. rewrite IH, <- app_assoc. reflexivity.
    - destruct (name_text name I []) as (T1 & T2 & T3). rewrite app_nil_r in *. rewrite parse_option by assumption. unfold option_step.
      destruct (name_proper name I) as (_ & _ & N3). rewrite (cut_none name N3), (proj2 (defined_in name) I), B.
      destruct (set name (st name) (str "true")) as [x|]; [|reflexivity]. rewrite IH, <- app_assoc. reflexivity.
    - destruct (name_text name I []) as (T1 & T2 & T3). rewrite app_nil_r in *. rewrite parse_option by assumption. unfold option_step.
      destruct (name_proper name I) as (_ & _ & N3). rewrite (cut_none name N3), (proj2 (defined_in name) I), B.
      destruct (set name (st name) v) as [x|]; [|reflexivity]. rewrite IH, <- app_assoc. reflexivity.
  Qed.
  Lemma says_of_parse args : forall st actual st' actual', parse args st actual = Runs (st', actual') ->
    exists l ignored, says args l ignored.
  Proof.
    remember (List.length args) as n eqn:L. assert (L' : (List.length args <= n)%nat) by lia. clear L.
    revert args L'. induction n as [|n IH]; intros args L st actual st' actual' H.
    { destruct args; [exists [], []; constructor|cbn in L; lia]. }
    destruct args as [|w rest]; [exists [], []; constructor|]. cbn [List.length] in L.
    destruct (word_cases w) as [P|[->|[(d & text & D & -> & T1 & T2 & T3)|X]]].
    - exists [], (w :: rest). constructor. exact P.
    - exists [], rest. constructor.
    - rewrite parse_option in H by assumption. unfold option_step in H. destruct (cut_equals text) as [name value] eqn:C.
      apply cut_inv in C as [N C]. destruct (defined flags name) eqn:Df; [|destruct (_ || _); discriminate].
      apply defined_in in Df. destruct value as [v|].
      + destruct (set name (st name) v) as [x|]; [|discriminate]. destruct (IH rest ltac:(lia) _ _ _ _ H) as (l & ig & S).
        exists ((name, v) :: l), ig. subst text. change (61 :: v) with (str "=" ++ v). constructor; assumption.
      + subst text. destruct (is_bool name) eqn:B.
        * destruct (set name (st name) (str "true")) as [x|]; [|discriminate]. destruct (IH rest ltac:(lia) _ _ _ _ H) as (l & ig & S).
          exists ((name, str "true") :: l), ig. constructor; assumption.
        * destruct rest as [|v rest]; [discriminate|]. destruct (set name (st name) v) as [x|]; [|discriminate]. cbn [List.length] in L.
          destruct (IH rest ltac:(lia) _ _ _ _ H) as (l & ig & S). exists ((name, v) :: l), ig. constructor; assumption.
    - rewrite X in H. discriminate.
  Qed.

  (** ** Values *)
  Lemma update_same (st : store V) n x : update st n x n = x.
  Proof. unfold update. rewrite beqb_refl. reflexivity. Qed.
  Lemma update_other (st : store V) n x m : m <> n -> update st n x m = st m.
  Proof. intros N. unfold update. destruct (beqb m n) eqn:E; [apply beqb_spec in E; contradiction|reflexivity]. Qed.
  Lemma applied_becomes l : forall st st', applied l st = Some st' -> forall name, becomes (set name) (st name) (values_for name l) (st' name).
  Proof.
    induction l as [|[n v] l IH]; intros st st' H name; cbn [applied] in H.
    - injection H as <-. constructor.
    - destruct (set n (st n) v) as [x|] eqn:E; [|discriminate]. specialize (IH _ _ H name). cbn [values_for flat_map fst snd].
      destruct (beqb n name) eqn:B.
      + apply beqb_spec in B. subst name. rewrite update_same in IH. cbn [app]. econstructor; [exact E|exact IH].
      + rewrite update_other in IH; [exact IH|]. intros ->. rewrite beqb_refl in B. discriminate.
  Qed.
  Lemma becomes_applied l : forall st, (forall name, In name (map fst l) -> exists v, becomes (set name) (st name) (values_for name l) v) ->
    exists st', applied l st = Some st'.
  Proof.
    induction l as [|[n v] l IH]; intros st H; [exists st; reflexivity|]. cbn [applied].
    destruct (H n ltac:(left; reflexivity)) as (w & Bw). cbn [values_for flat_map fst snd] in Bw. rewrite beqb_refl in Bw.
    cbn [app] in Bw. inversion Bw as [|? ? x ? ? E Bx]; subst. rewrite E. apply IH. intros name I.
    destruct (beqb n name) eqn:B.
    - apply beqb_spec in B. subst name. rewrite update_same. exists w. exact Bx.
    - rewrite update_other by (intros ->; rewrite beqb_refl in B; discriminate).
      destruct (H name ltac:(right; exact I)) as (w' & Bw'). cbn [values_for flat_map fst snd] in Bw'. rewrite B in Bw'. exists w'. exact Bw'.
  Qed.
  Lemma values_in name l : values_for name l <> [] <-> In name (map fst l).
  Proof.
    induction l as [|[n v] l IH]; [split; [intros H; exfalso; apply H; reflexivity|intros []]|].
    cbn [values_for flat_map map fst snd]. destruct (beqb n name) eqn:B.
    - apply beqb_spec in B. split; [left; exact B|discriminate].
    - cbn [app]. fold (values_for name l). rewrite IH. split; [right; assumption|]. intros [->|I]; [rewrite beqb_refl in B; discriminate|exact I].
  Qed.
  Lemma becomes_nil {W} (f : W -> bytes -> option W) v w : becomes f v [] w -> w = v.
  Proof. intros H. inversion H. reflexivity. Qed.
  Lemma becomes_fun {W} (f : W -> bytes -> option W) v vs w w' : becomes f v vs w -> becomes f v vs w' -> w = w'.
  Proof.
    intros H. revert w'. induction H as [v|v s x r w E H IH]; intros w' H'; inversion H'; subst; [reflexivity|].
    apply IH. congruence.
  Qed.

  (** ** The environment *)
  Variable env : bytes -> option bytes.
  Notation from_env := (from_env V set env).
  Lemma env_out names : forall st actual st', from_env names st actual = Some st' -> forall n, ~ In n names -> st' n = st n.
  Proof.
    induction names as [|m names IH]; intros st actual st' H n N; cbn [FlagModel.from_env] in H; [congruence|].
    assert (Nm : n <> m) by (intros ->; apply N; left; reflexivity). assert (Nr : ~ In n names) by (intros I; apply N; right; exact I).
    destruct (env (shell_name m)) as [v|]; [|apply (IH _ _ _ H n Nr)].
    destruct (existsb (beqb m) actual); [apply (IH _ _ _ H n Nr)|].
    destruct (set m (st m) v) as [x|]; [|discriminate]. rewrite (IH _ _ _ H n Nr). apply update_other, Nm.
  Qed.
  Lemma env_in names : NoDup names -> forall st actual st', from_env names st actual = Some st' -> forall n, In n names ->
    becomes (set n) (st n) (if existsb (beqb n) actual then [] else match env (shell_name n) with Some v => [v] | None => [] end) (st' n).
  Proof.
    induction names as [|m names IH]; intros ND st actual st' H n I; [destruct I|]. apply NoDup_cons_iff in ND as [N1 ND].
    cbn [FlagModel.from_env] in H. destruct I as [->|I].
    - destruct (env (shell_name n)) as [v|] eqn:E.
      + destruct (existsb (beqb n) actual) eqn:A; [rewrite (env_out _ _ _ _ H n N1); constructor|].
        destruct (set n (st n) v) as [x|] eqn:S; [|discriminate]. rewrite (env_out _ _ _ _ H n N1), update_same.
        econstructor; [exact S|constructor].
      + rewrite (env_out _ _ _ _ H n N1). destruct (existsb (beqb n) actual); constructor.
    - assert (Nm : n <> m) by (intros ->; contradiction).
      destruct (env (shell_name m)) as [v|]; [|apply (IH ND _ _ _ H n I)].
      destruct (existsb (beqb m) actual); [apply (IH ND _ _ _ H n I)|].
      destruct (set m (st m) v) as [x|]; [|discriminate]. rewrite <- (update_other st m x n Nm). apply (IH ND _ _ _ H n I).
  Qed.
  Lemma env_exists names : NoDup names -> forall st actual,
    (forall n, In n names -> exists w,
       becomes (set n) (st n) (if existsb (beqb n) actual then [] else match env (shell_name n) with Some v => [v] | None => [] end) w) ->
    exists st', from_env names st actual = Some st'.
  Proof.
    induction names as [|m names IH]; intros ND st actual H; [exists st; reflexivity|]. apply NoDup_cons_iff in ND as [N1 ND].
    cbn [FlagModel.from_env]. destruct (H m ltac:(left; reflexivity)) as (w & B).
    assert (K : forall n, In n names -> n <> m) by (intros n I ->; contradiction).
    destruct (env (shell_name m)) as [v|]; [|apply (IH ND); intros n I; apply H; right; exact I].
    destruct (existsb (beqb m) actual); [apply (IH ND); intros n I; apply H; right; exact I|].
    inversion B as [|? ? x ? ? S _]; subst. rewrite S. apply (IH ND). intros n I. rewrite update_other by (apply K, I). apply H. right. exact I.
  Qed.

  (** ** The configuration *)
  Hypothesis distinct : NoDup flags.
  Notation configure := (configure V flags is_bool set env).
  Lemma says_flags args l ignored : says args l ignored -> forall n, In n (map fst l) -> In n flags.
  Proof. induction 1; intros n In'; cbn [map fst] in In'; try (destruct In'; fail); destruct In' as [<-|I']; auto. Qed.
  Lemma actual_in name l : existsb (beqb name) (rev (map fst l) ++ []) = true <-> values_for name l <> [].
  Proof. rewrite app_nil_r, memq, <- in_rev, values_in. reflexivity. Qed.
  Lemma becomes_app {W} (f : W -> bytes -> option W) v a x : becomes f v a x -> forall b w, becomes f x b w -> becomes f v (a ++ b) w.
  Proof. induction 1; intros b w' H'; [exact H'|]. cbn [app]. econstructor; eauto. Qed.

  Lemma configure_runs args st st' : configure args st = Runs st' ->
    exists l ignored, says args l ignored /\
      forall name, In name flags -> exists vs, sources env name l vs /\ becomes (set name) (st name) vs (st' name).
  Proof.
    unfold FlagModel.configure. destruct (parse args st []) as [c|[st1 actual]] eqn:P; [discriminate|].
    destruct (says_of_parse _ _ _ _ _ P) as (l & ig & S). rewrite (parse_of_says _ _ _ S) in P.
    destruct (applied l st) as [st2|] eqn:A; [|discriminate]. injection P as <- <-.
    destruct (from_env flags st2 _) as [st3|] eqn:E; [|discriminate]. intros [= <-].
    exists l, ig. split; [exact S|]. intros name I. pose proof (applied_becomes _ _ _ A name) as B.
    pose proof (env_in _ distinct _ _ _ E name I) as C.
    destruct (existsb (beqb name) (rev (map fst l) ++ [])) eqn:X.
    - exists (values_for name l). split; [left; split; [apply actual_in, X|reflexivity]|].
      apply becomes_nil in C. rewrite C. exact B.
    - assert (Y : values_for name l = []).
      { destruct (values_for name l) eqn:Z; [reflexivity|]. assert (W : values_for name l <> []) by (rewrite Z; discriminate). apply actual_in in W. congruence. }
      rewrite Y in B. apply becomes_nil in B. rewrite B in C.
      eexists. split; [|exact C]. right. split; [exact Y|]. exists (shell_name name). split; [apply shell_capital; reflexivity|reflexivity].
  Qed.
  Lemma says_fun args l l' ig ig' : says args l ig -> says args l' ig' -> l = l' /\ ig = ig'.
  Proof.
    intros S. revert l' ig'.
    assert (Dp : forall d t r, dash d -> plain_word (d ++ t) -> t <> [] -> d ++ t = r -> False).
    { intros d t r [-> | ->] [E|E] T _; [destruct t; [contradiction|discriminate]|apply (E t); reflexivity|discriminate|apply (E (45 :: t)); reflexivity]. }
    assert (Dd : forall d name t, dash d -> In name flags -> d ++ name ++ t = str "--" -> False).
    { intros d name t D I E. destruct (name_text name I t) as (T1 & T2 & _). destruct D as [-> | ->].
      - injection E as E. apply (T2 [] E).
      - injection E as E. contradiction. }
    assert (Ee : forall d d' a b x y, dash d -> dash d' -> In a flags -> In b flags -> d ++ a ++ x = d' ++ b ++ y -> a ++ x = b ++ y).
    { intros d d' a b x y D D' Ia Ib E. destruct (name_text a Ia x) as (_ & A & _), (name_text b Ib y) as (_ & B & _).
      apply (dash_inj _ _ _ _ D D' A B E). }
    assert (Cc : forall a b x y, In a flags -> In b flags -> (x = [] \/ exists v, x = 61 :: v) -> (y = [] \/ exists v, y = 61 :: v) ->
      a ++ x = b ++ y -> a = b /\ x = y).
    { intros a b x y Ia Ib X Y E. destruct (name_proper a Ia) as (_ & _ & A), (name_proper b Ib) as (_ & _ & B).
      assert (C : cut_equals (a ++ x) = cut_equals (b ++ y)) by congruence.
      destruct X as [-> |(v & ->)], Y as [-> |(v' & ->)]; rewrite ?app_nil_r in *; rewrite ?(cut_none _ A), ?(cut_none _ B), ?(cut_some _ _ A), ?(cut_some _ _ B) in C;
        try discriminate; injection C; intros; subst; auto. }
    assert (Pl : forall d a x, dash d -> In a flags -> plain_word (d ++ a ++ x) -> False).
    { intros d a x D I P. destruct (name_text a I x) as (T & _ & _). apply (Dp d (a ++ x) _ D P T eq_refl). }
    induction S as [|w rest P|rest|d name v rest l ig D I S IH|d name rest l ig D I B S IH|d name v rest l ig D I B S IH];
      intros l' ig' S'.
    - inversion S'; auto.
    - inversion S' as [|? ? P'| |d' n' v' ? ? ? D' I' S2 E|d' n' ? ? ? D' I' B' S2 E|d' n' v' ? ? ? D' I' B' S2 E]; subst; auto.
      + destruct P as [P|P]; [discriminate|]. exfalso. apply (P [45]). reflexivity.
      + exfalso. apply (Pl d' n' (str "=" ++ v') D' I' P).
      + exfalso. apply (Pl d' n' [] D' I'). rewrite app_nil_r. exact P.
      + exfalso. apply (Pl d' n' [] D' I'). rewrite app_nil_r. exact P.
    - inversion S' as [|? ? P'| |d' n' v' ? ? ? D' I' S2 E|d' n' ? ? ? D' I' B' S2 E|d' n' v' ? ? ? D' I' B' S2 E]; subst; auto.
      + destruct P' as [P|P]; [discriminate|]. exfalso. apply (P [45]). reflexivity.
      + exfalso. apply (Dd d' n' (str "=" ++ v') D' I'). exact E.
      + exfalso. apply (Dd d' n' [] D' I'). rewrite app_nil_r. exact E.
      + exfalso. apply (Dd d' n' [] D' I'). rewrite app_nil_r. exact E.
    - remember (d ++ name ++ str "=" ++ v) as w eqn:W.
      inversion S' as [|? ? P' E0|? E0|d' n' v' ? l2 ? D' I' S2 E|d' n' ? ? ? D' I' B' S2 E|d' n' v' ? ? ? D' I' B' S2 E].
      + exfalso. subst w. apply (Pl d name (str "=" ++ v) D I P').
      + exfalso. apply (Dd d name (str "=" ++ v) D I). rewrite <- W. symmetry. exact E0.
      + rewrite W in E. apply Ee in E; try assumption. apply Cc in E as [En Ev]; [|assumption|assumption|right; exists v'; reflexivity|right; exists v; reflexivity].
        injection Ev as Ev. destruct (IH _ _ S2) as [Hl Hi]. subst. auto.
      + exfalso. rewrite W in E. rewrite <- (app_nil_r n') in E. apply Ee in E; try assumption.
        apply Cc in E as [_ E]; [discriminate|assumption|assumption|left; reflexivity|right; exists v; reflexivity].
      + exfalso. rewrite W in E. rewrite <- (app_nil_r n') in E. apply Ee in E; try assumption.
        apply Cc in E as [_ E]; [discriminate|assumption|assumption|left; reflexivity|right; exists v; reflexivity].
    - remember (d ++ name) as w eqn:W. rewrite <- (app_nil_r name) in W.
      inversion S' as [|? ? P' E0|? E0|d' n' v' ? l2 ? D' I' S2 E|d' n' ? ? ? D' I' B' S2 E|d' n' v' ? ? ? D' I' B' S2 E].
      + exfalso. subst w. apply (Pl d name [] D I P').
      + exfalso. apply (Dd d name [] D I). rewrite <- W. symmetry. exact E0.
      + exfalso. rewrite W in E. apply Ee in E; try assumption.
        apply Cc in E as [_ E]; [discriminate|assumption|assumption|right; exists v'; reflexivity|left; reflexivity].
      + rewrite W in E. rewrite <- (app_nil_r n') in E. apply Ee in E; try assumption. rewrite !app_nil_r in E.
        destruct (IH _ _ S2) as [Hl Hi]. subst. auto.
      + exfalso. rewrite W in E. rewrite <- (app_nil_r n') in E. apply Ee in E; try assumption. rewrite !app_nil_r in E. congruence.
    - remember (d ++ name) as w eqn:W. rewrite <- (app_nil_r name) in W. remember (v :: rest) as more eqn:M.
      inversion S' as [|? ? P' E0|? E0|d' n' v' ? l2 ? D' I' S2 E|d' n' ? ? ? D' I' B' S2 E|d' n' v' ? ? ? D' I' B' S2 E].
      + exfalso. subst w. apply (Pl d name [] D I P').
      + exfalso. apply (Dd d name [] D I). rewrite <- W. symmetry. exact E0.
      + exfalso. rewrite W in E. apply Ee in E; try assumption.
        apply Cc in E as [_ E]; [discriminate|assumption|assumption|right; exists v'; reflexivity|left; reflexivity].
      + exfalso. rewrite W in E. rewrite <- (app_nil_r n') in E. apply Ee in E; try assumption. rewrite !app_nil_r in E. congruence.
      + rewrite W in E. rewrite <- (app_nil_r n') in E. apply Ee in E; try assumption. rewrite !app_nil_r in E.
        rewrite M in *. match goal with K : _ :: _ = _ :: _ |- _ => injection K as K1 K2 end.
        subst. destruct (IH _ _ S2) as [Hl Hi]. subst. auto.
  Qed.
  Lemma configure_runs_at args st st' l ignored : says args l ignored -> configure args st = Runs st' ->
    forall name, In name flags -> exists vs, sources env name l vs /\ becomes (set name) (st name) vs (st' name).
  Proof.
    intros S C. destruct (configure_runs _ _ _ C) as (l' & ig' & S' & H). destruct (says_fun _ _ _ _ _ S S') as [-> _]. exact H.
  Qed.
  Lemma runs_configure args st l ignored : says args l ignored ->
    (forall name, In name flags -> exists vs w, sources env name l vs /\ becomes (set name) (st name) vs w) ->
    exists st', configure args st = Runs st'.
  Proof.
    intros S H. unfold FlagModel.configure. rewrite (parse_of_says _ _ _ S).
    destruct (becomes_applied l st) as (st1 & A).
    { intros name I. destruct (H name (says_flags _ _ _ S name I)) as (vs & w & So & B). apply values_in in I.
      destruct So as [[_ ->]|[So _]]; [eauto|contradiction]. }
    rewrite A. destruct (env_exists flags distinct st1 (rev (map fst l) ++ [])) as (st2 & E).
    { intros name I. destruct (H name I) as (vs & w & So & B). pose proof (applied_becomes _ _ _ A name) as C.
      destruct (existsb (beqb name) (rev (map fst l) ++ [])) eqn:X; [exists (st1 name); constructor|].
      assert (Y : values_for name l = []).
      { destruct (values_for name l) eqn:Z; [reflexivity|]. assert (W : values_for name l <> []) by (rewrite Z; discriminate). apply actual_in in W. congruence. }
      rewrite Y in C. apply becomes_nil in C. rewrite C. destruct So as [[So _]|(_ & n' & F & ->)]; [contradiction|].
      apply shell_capital in F. subst n'. exists w. exact B. }
    rewrite E. exists st2. reflexivity.
  Qed.
  Lemma configure_status args st c : configure args st = Exits c ->
    (c = 1 /\ exists l ignored st1, says args l ignored /\ applied l st = Some st1 /\
       exists name v, In name flags /\ values_for name l = [] /\ env (shell_name name) = Some v /\ set name (st name) v = None) \/
    ((c = 0 \/ c = 2) /\ forall l ignored, says args l ignored -> c = 2 /\
       exists name, In name flags /\ forall w, ~ becomes (set name) (st name) (values_for name l) w).
  Proof.
    unfold FlagModel.configure. destruct (parse args st []) as [c'|[st1 actual]] eqn:P.
    - intros [= <-]. right. split.
      + clear -P proper. revert args st P. assert (G : forall n args st actual, (List.length args <= n)%nat -> parse args st actual = Exits c' -> c' = 0 \/ c' = 2).
        { induction n as [|n IH]; intros args st actual L P.
          { destruct args; [discriminate|cbn in L; lia]. }
          destruct args as [|w rest]; [discriminate|]. cbn [List.length] in L.
          destruct (word_cases w) as [Pl|[->|[(d & text & D & -> & T1 & T2 & T3)|X]]].
          - rewrite parse_plain in P by exact Pl. discriminate.
          - discriminate.
          - rewrite parse_option in P by assumption. unfold option_step in P. destruct (cut_equals text) as [name value].
            destruct (defined flags name); [|destruct (_ || _); injection P as <-; auto]. destruct value as [v|].
            + destruct (set name (st name) v); [apply (IH rest) in P; [exact P|lia]|injection P as <-; auto].
            + destruct (is_bool name).
              * destruct (set name (st name) (str "true")); [apply (IH rest) in P; [exact P|lia]|injection P as <-; auto].
              * destruct rest as [|v rest]; [injection P as <-; auto|]. cbn [List.length] in L.
                destruct (set name (st name) v); [apply (IH rest) in P; [exact P|lia]|injection P as <-; auto].
          - rewrite X in P. injection P as <-. auto. }
        intros args st. apply (G (List.length args) args st []). lia.
      + intros l ig S. rewrite (parse_of_says _ _ _ S) in P. destruct (applied l st) as [st2|] eqn:A; [discriminate|]. injection P as <-.
        split; [reflexivity|]. clear -A S proper. pose proof (says_flags _ _ _ S) as F. clear S.
        assert (G : forall l st, applied l st = None -> exists name, In name (map fst l) /\ forall w, ~ becomes (set name) (st name) (values_for name l) w).
        { clear. induction l as [|[n v] l IH]; intros st A; [discriminate|]. cbn [applied] in A. destruct (set n (st n) v) as [x|] eqn:E.
          - destruct (IH _ A) as (name & I & N). exists name. split; [right; exact I|]. intros w B. cbn [values_for flat_map fst snd] in B.
            destruct (beqb n name) eqn:Q.
            + apply beqb_spec in Q. subst name. cbn [app] in B. inversion B as [|? ? y ? ? E' B']; subst. apply (N w). rewrite update_same.
              replace x with y by congruence. exact B'.
            + apply (N w). rewrite update_other; [exact B|]. intros ->. rewrite beqb_refl in Q. discriminate.
          - exists n. split; [left; reflexivity|]. intros w B. cbn [values_for flat_map fst snd] in B. rewrite beqb_refl in B. cbn [app] in B.
            inversion B; subst. congruence. }
        destruct (G l st A) as (name & I & N). exists name. split; [apply F, I|exact N].
    - destruct (says_of_parse _ _ _ _ _ P) as (l & ig & S). rewrite (parse_of_says _ _ _ S) in P.
      destruct (applied l st) as [st2|] eqn:A; [|discriminate]. injection P as <- <-.
      destruct (from_env flags st2 _) as [st3|] eqn:E; [discriminate|]. intros [= <-]. left. split; [reflexivity|].
      exists l, ig, st2. split; [exact S|]. split; [exact A|].
      assert (G : forall names st0, NoDup names -> from_env names st0 (rev (map fst l) ++ []) = None ->
        exists name v, In name names /\ existsb (beqb name) (rev (map fst l) ++ []) = false /\ env (shell_name name) = Some v /\ set name (st0 name) v = None).
      { clear. induction names as [|m names IH]; intros st0 ND E; [discriminate|]. cbn [FlagModel.from_env] in E. apply NoDup_cons_iff in ND as [N1 ND].
        destruct (env (shell_name m)) as [v|] eqn:Ev.
        - destruct (existsb (beqb m) _) eqn:X.
          + destruct (IH _ ND E) as (n & v' & I & R). exists n, v'. split; [right; exact I|exact R].
          + destruct (set m (st0 m) v) as [x|] eqn:Sx.
            * destruct (IH _ ND E) as (n & v' & I & R). exists n, v'. split; [right; exact I|].
              rewrite update_other in R by (intros ->; contradiction). exact R.
            * exists m, v. split; [left; reflexivity|auto].
        - destruct (IH _ ND E) as (n & v' & I & R). exists n, v'. split; [right; exact I|exact R]. }
      destruct (G flags st2 distinct E) as (name & v & I & X & Ev & Sn). exists name, v. split; [exact I|].
      assert (Y : values_for name l = []).
      { destruct (values_for name l) eqn:Z; [reflexivity|]. assert (W : values_for name l <> []) by (rewrite Z; discriminate). apply actual_in in W. congruence. }
      split; [exact Y|]. split; [exact Ev|]. pose proof (applied_becomes _ _ _ A name) as B. rewrite Y in B. apply becomes_nil in B. rewrite B in Sn. exact Sn.
  Qed.

  (** ** The words one after the other *)
  Notation options := (options flags is_bool).
  Notation help_word := (help_word flags).
  Lemma parse_front front l : options front l -> forall rest st actual,
    parse (front ++ rest) st actual =
    match applied l st with Some st' => parse rest st' (rev (map fst l) ++ actual) | None => Exits 2 end.
  Proof.
    induction 1 as [|d name v front l D I S IH|d name front l D I B S IH|d name v front l D I B S IH];
      intros rest st actual; cbn [applied map fst rev app].
    - reflexivity.
    - destruct (name_text name I (str "=" ++ v)) as (T1 & T2 & T3). rewrite parse_option by assumption. unfold option_step.
      destruct (name_proper name I) as (_ & _ & N3).
      change (str "=" ++ v) with (61 :: v). rewrite (cut_some name v N3), (proj2 (defined_in name) I).
      destruct (set name (st name) v) as [x|]; [|reflexivity]. rewrite IH, <- app_assoc. reflexivity.
    - destruct (name_text name I []) as (T1 & T2 & T3). rewrite app_nil_r in *. rewrite parse_option by assumption. unfold option_step.
      destruct (name_proper name I) as (_ & _ & N3). rewrite (cut_none name N3), (proj2 (defined_in name) I), B.
      destruct (set name (st name) (str "true")) as [x|]; [|reflexivity]. rewrite IH, <- app_assoc. reflexivity.
    - destruct (name_text name I []) as (T1 & T2 & T3). rewrite app_nil_r in *. rewrite parse_option by assumption. unfold option_step.
      destruct (name_proper name I) as (_ & _ & N3). rewrite (cut_none name N3), (proj2 (defined_in name) I), B.
      destruct (set name (st name) v) as [x|]; [|reflexivity]. rewrite IH, <- app_assoc. reflexivity.
  Qed.
  Lemma says_parts args l ignored : says args l ignored -> exists front, options front l /\
    ((args = front /\ ignored = []) \/ (exists w rest, plain_word w /\ args = front ++ w :: rest /\ ignored = w :: rest) \/
     args = front ++ str "--" :: ignored).
  Proof.
    induction 1 as [|w rest P|rest|d name v rest l ig D I S IH|d name rest l ig D I B S IH|d name v rest l ig D I B S IH].
    - exists []. split; [constructor|left; auto].
    - exists []. split; [constructor|right; left; exists w, rest; auto].
    - exists []. split; [constructor|right; right; reflexivity].
    - destruct IH as (f & O & IH). exists ((d ++ name ++ str "=" ++ v) :: f). split; [constructor; assumption|].
      destruct IH as [[-> ->]|[(w & r & P & -> & ->)| ->]]; [left; auto|right; left; exists w, r; auto|right; right; reflexivity].
    - destruct IH as (f & O & IH). exists ((d ++ name) :: f). split; [constructor; assumption|].
      destruct IH as [[-> ->]|[(w & r & P & -> & ->)| ->]]; [left; auto|right; left; exists w, r; auto|right; right; reflexivity].
    - destruct IH as (f & O & IH). exists ((d ++ name) :: v :: f). split; [constructor; assumption|].
      destruct IH as [[-> ->]|[(w & r & P & -> & ->)| ->]]; [left; auto|right; left; exists w, r; auto|right; right; reflexivity].
  Qed.
  Lemma ignored_words args st l w more : says args l (w :: more) ->
    exists front, args = front ++ w :: more /\ forall more', configure (front ++ w :: more') st = configure args st.
  Proof.
    intros S. destruct (says_parts _ _ _ S) as (f & O & [[_ H]|[(w' & r & P & -> & [= -> ->])| ->]]); [discriminate| |].
    - exists f. split; [reflexivity|]. intros more'. unfold FlagModel.configure. rewrite !(parse_front _ _ O).
      destruct (applied l st); [|reflexivity]. rewrite !parse_plain by exact P. reflexivity.
    - exists (f ++ [str "--"]). rewrite <- app_assoc. split; [reflexivity|]. intros more'. unfold FlagModel.configure.
      rewrite <- app_assoc. rewrite !(parse_front _ _ O). destruct (applied l st); reflexivity.
  Qed.
  Lemma parse_help w rest st actual : help_word w -> parse (w :: rest) st actual = Exits 0.
  Proof.
    intros (d & name & D & Hn & N & W).
    assert (X : exists text x, w = d ++ text /\ cut_equals text = (name, x) /\ text <> [] /\ (forall r, text <> 45 :: r) /\ (forall r, text <> 61 :: r)).
    { assert (E : ~ In 61 name /\ exists c n, name = c :: n /\ c <> 45 /\ c <> 61).
      { destruct Hn as [-> | ->]; (split; [cbn; intuition discriminate|]);
          [exists 104, (str "elp")|exists 104, []]; (split; [reflexivity|split; discriminate]). }
      destruct E as (E & c & n & -> & C1 & C2). destruct W as [-> |(v & ->)].
      - exists (c :: n), None. split; [reflexivity|]. split; [apply cut_none, E|]. split; [discriminate|].
        split; intros r K; injection K as K _; contradiction.
      - exists ((c :: n) ++ str "=" ++ v), (Some v). split; [reflexivity|]. split; [apply cut_some, E|]. split; [discriminate|].
        split; intros r K; injection K as K _; contradiction. }
    destruct X as (text & x & -> & C & T1 & T2 & T3). rewrite parse_option by assumption. unfold option_step. rewrite C.
    destruct (defined flags name) eqn:Df; [apply defined_in in Df; contradiction|].
    replace (beqb name (str "help") || beqb name (str "h")) with true; [reflexivity|]. symmetry. apply orb_true_iff.
    destruct Hn as [-> | ->]; [left|right]; apply beqb_refl.
  Qed.
  Lemma help_parse args : forall st actual, parse args st actual = Exits 0 ->
    exists front l w more st', args = front ++ w :: more /\ options front l /\ applied l st = Some st' /\ help_word w.
  Proof.
    remember (List.length args) as n eqn:L. assert (L' : (List.length args <= n)%nat) by lia. clear L.
    revert args L'. induction n as [|n IH]; intros args L st actual H.
    { destruct args; [discriminate|cbn in L; lia]. }
    destruct args as [|w rest]; [discriminate|]. cbn [List.length] in L.
    destruct (word_cases w) as [P|[-> |[(d & text & D & -> & T1 & T2 & T3)|X]]].
    - rewrite parse_plain in H by exact P. discriminate.
    - discriminate.
    - rewrite parse_option in H by assumption. unfold option_step in H. destruct (cut_equals text) as [name value] eqn:C.
      apply cut_inv in C as [N C]. destruct (defined flags name) eqn:Df.
      + apply defined_in in Df. destruct value as [v|].
        * destruct (set name (st name) v) as [x|] eqn:Sx; [|discriminate].
          destruct (IH rest ltac:(lia) _ _ H) as (f & l & w & more & st' & -> & O & A & Hw). subst text.
          exists ((d ++ name ++ str "=" ++ v) :: f), ((name, v) :: l), w, more, st'. split; [reflexivity|]. split; [constructor; assumption|].
          split; [|exact Hw]. cbn [applied]. rewrite Sx. exact A.
        * subst text. destruct (is_bool name) eqn:B.
          -- destruct (set name (st name) (str "true")) as [x|] eqn:Sx; [|discriminate].
             destruct (IH rest ltac:(lia) _ _ H) as (f & l & w & more & st' & -> & O & A & Hw).
             exists ((d ++ name) :: f), ((name, str "true") :: l), w, more, st'. split; [reflexivity|]. split; [constructor; assumption|].
             split; [|exact Hw]. cbn [applied]. rewrite Sx. exact A.
          -- destruct rest as [|v rest]; [discriminate|]. destruct (set name (st name) v) as [x|] eqn:Sx; [|discriminate]. cbn [List.length] in L.
             destruct (IH rest ltac:(lia) _ _ H) as (f & l & w & more & st' & -> & O & A & Hw).
             exists ((d ++ name) :: v :: f), ((name, v) :: l), w, more, st'. split; [reflexivity|]. split; [constructor; assumption|].
             split; [|exact Hw]. cbn [applied]. rewrite Sx. exact A.
      + destruct (beqb name (str "help") || beqb name (str "h")) eqn:E; [|discriminate].
        exists [], [], (d ++ text), rest, st. split; [reflexivity|]. split; [constructor|]. split; [reflexivity|].
        exists d, name. split; [exact D|]. split.
        { apply orb_true_iff in E as [E|E]; apply beqb_spec in E; auto. }
        split; [intros I; apply defined_in in I; congruence|]. destruct value as [v|]; [right; exists v|left]; rewrite C; reflexivity.
    - rewrite X in H. discriminate.
  Qed.
  Lemma options_flags args l : options args l -> forall n, In n (map fst l) -> In n flags.
  Proof. induction 1; intros n In'; cbn [map fst] in In'; try (destruct In'; fail); destruct In' as [<-|I']; auto. Qed.
  (** Exactly when the process ends with each status. *)
  Definition settable (st : store V) l : Prop := forall name, In name flags -> exists w, becomes (set name) (st name) (values_for name l) w.
  Lemma settable_applied st l : (forall n, In n (map fst l) -> In n flags) -> settable st l <-> exists st', applied l st = Some st'.
  Proof.
    intros F. split.
    - intros H. apply becomes_applied. intros n I. apply H, F, I.
    - intros (st' & A) n _. exists (st' n). apply applied_becomes. exact A.
  Qed.
  Lemma status_help args st : configure args st = Exits 0 <->
    exists front l w more, args = front ++ w :: more /\ options front l /\ settable st l /\ help_word w.
  Proof.
    unfold FlagModel.configure. split.
    - destruct (parse args st []) as [c|[st1 a]] eqn:P; [|destruct (from_env flags st1 a); discriminate]. intros [= ->].
      destruct (help_parse _ _ _ P) as (f & l & w & more & st' & -> & O & A & Hw). exists f, l, w, more.
      split; [reflexivity|]. split; [exact O|]. split; [|exact Hw]. apply (settable_applied st l (options_flags _ _ O)). eauto.
    - intros (f & l & w & more & -> & O & A & Hw). apply (settable_applied st l (options_flags _ _ O)) in A as (st' & A).
      rewrite (parse_front _ _ O), A, (parse_help _ _ _ _ Hw). reflexivity.
  Qed.
  Lemma status_env args st : configure args st = Exits 1 <->
    exists l ignored, says args l ignored /\ settable st l /\
      exists name n' v, In name flags /\ values_for name l = [] /\ Forall2 capital name n' /\ env n' = Some v /\ set name (st name) v = None.
  Proof.
    split.
    - intros H. apply configure_status in H as [(_ & l & ig & st1 & S & A & name & v & I & Y & E & Sn)|[[H|H] _]]; try discriminate.
      exists l, ig. split; [exact S|]. split; [apply (settable_applied st l (says_flags _ _ _ S)); eauto|].
      exists name, (shell_name name), v. split; [exact I|]. split; [exact Y|]. split; [apply shell_capital; reflexivity|auto].
    - intros (l & ig & S & A & name & n' & v & I & Y & F & E & Sn). destruct (configure args st) as [c|st'] eqn:C.
      + pose proof C as C'. apply configure_status in C' as [(-> & _)|(_ & H)]; [reflexivity|].
        exfalso. destruct (H _ _ S) as (_ & n & In' & Hn). destruct (A n In') as (w & B). apply (Hn w B).
      + exfalso. unfold FlagModel.configure in C. rewrite (parse_of_says _ _ _ S) in C.
        destruct (applied l st) as [st1|] eqn:A1; [|discriminate]. destruct (from_env flags st1 _) as [st2|] eqn:En; [|discriminate].
        pose proof (env_in _ distinct _ _ _ En name I) as B. apply shell_capital in F. subst n'.
        destruct (existsb (beqb name) (rev (map fst l) ++ [])) eqn:X; [apply actual_in in X; contradiction|].
        rewrite E in B. inversion B as [|? ? x ? ? Sx _]; subst.
        pose proof (applied_becomes _ _ _ A1 name) as B1. rewrite Y in B1. apply becomes_nil in B1. rewrite B1 in Sx. congruence.
  Qed.
  Lemma status_other args st c : configure args st = Exits c -> c = 0 \/ c = 1 \/ c = 2.
  Proof. intros H. apply configure_status in H as [(-> & _)|[[-> | ->] _]]; auto. Qed.
End Flags.

(** ** The flags of ndt-server.go *)
Definition proper_check (n : bytes) : bool :=
  match n with [] => false | c :: _ => negb (c =? 45) && negb (existsb (fun b => b =? 61) n) end.
Lemma proper_check_spec n : proper_check n = true -> proper_name n.
Proof.
  destruct n as [|c n]; [discriminate|]. cbn [proper_check]. rewrite andb_true_iff, !negb_true_iff. intros [A B].
  split; [discriminate|]. split.
  - intros r E. injection E as -> _. discriminate.
  - intros I. assert (X : existsb (fun b => b =? 61) (c :: n) = true) by (apply existsb_exists; exists 61; split; [exact I|reflexivity]). congruence.
Qed.
Fixpoint nodup_check (l : list bytes) : bool :=
  match l with [] => true | x :: r => negb (existsb (beqb x) r) && nodup_check r end.
Lemma nodup_check_spec l : nodup_check l = true -> NoDup l.
Proof.
  induction l as [|x l IH]; [constructor|]. cbn [nodup_check]. rewrite andb_true_iff, negb_true_iff. intros [A B].
  constructor; [apply memq_false, A|apply IH, B].
Qed.
Lemma NoDup_map_inv_eq {A B} (f : A -> B) l : NoDup (map f l) -> forall a b, In a l -> In b l -> f a = f b -> a = b.
Proof.
  induction l as [|x l IH]; intros N a b Ia Ib E; [destruct Ia|]. cbn [map] in N. apply NoDup_cons_iff in N as [N1 N2].
  destruct Ia as [-> |Ia], Ib as [-> |Ib]; [reflexivity| | |apply (IH N2 a b Ia Ib E)]; exfalso; apply N1.
  - rewrite E. apply in_map, Ib.
  - rewrite <- E. apply in_map, Ia.
Qed.
Lemma own_proper : Forall proper_name own_flags.
Proof.
  apply Forall_forall. intros n I. apply proper_check_spec. revert n I. apply forallb_forall. vm_compute. reflexivity.
Qed.
Lemma own_distinct : NoDup own_flags.
Proof. apply nodup_check_spec. vm_compute. reflexivity. Qed.
Lemma own_variables : NoDup (map shell_name own_flags).
Proof. apply nodup_check_spec. vm_compute. reflexivity. Qed.

Lemma existsb_perm {A} (f : A -> bool) l l' : (forall x, In x l <-> In x l') -> existsb f l = existsb f l'.
Proof.
  intros H. apply eq_true_iff_eq. rewrite !existsb_exists. split; intros (x & I & F); exists x; (split; [apply H, I|exact F]).
Qed.
Lemma switch_values ok name old s : own_bool name = true -> own_set ok name old s =
    (if existsb (beqb s) [str "1"; str "t"; str "T"; str "true"; str "True"; str "TRUE"] then Some (Truth true)
     else if existsb (beqb s) [str "0"; str "f"; str "F"; str "false"; str "False"; str "FALSE"] then Some (Truth false) else None).
Proof.
  intros B. unfold own_bool in B. unfold own_set. destruct (default name); try discriminate. unfold parse_bool.
  rewrite (existsb_perm (beqb s) [str "1"; str "t"; str "T"; str "TRUE"; str "true"; str "True"]
    [str "1"; str "t"; str "T"; str "true"; str "True"; str "TRUE"]) by (intros x; cbn [In]; tauto).
  rewrite (existsb_perm (beqb s) [str "0"; str "f"; str "F"; str "FALSE"; str "false"; str "False"]
    [str "0"; str "f"; str "F"; str "false"; str "False"; str "FALSE"]) by (intros x; cbn [In]; tauto).
  destruct (existsb _ _); [reflexivity|]. destruct (existsb _ _); reflexivity.
Qed.

(** What a flag of each kind becomes. *)
Lemma last_dflt {A} (l : list A) : forall x d, last (x :: l) d = last l x.
Proof. induction l as [|y l IH]; intros x d; [reflexivity|]. change (last (x :: y :: l) d) with (last (y :: l) d). rewrite !IH. reflexivity. Qed.
Lemma text_becomes ok name d0 : default name = Text d0 -> forall vs d w,
  becomes (own_set ok name) (Text d) vs w -> w = Text (last vs d).
Proof.
  intros D vs. induction vs as [|s vs IH]; intros d w B; [apply becomes_nil in B; exact B|].
  inversion B as [|? ? x ? ? S B']; subst. unfold own_set in S. rewrite D in S. injection S as <-. rewrite last_dflt. apply IH, B'.
Qed.
Lemma given_becomes ok name d0 : default name = Given d0 -> forall vs l w,
  becomes (own_set ok name) (Given l) vs w -> w = Given (l ++ vs).
Proof.
  intros D vs. induction vs as [|s vs IH]; intros l w B; [apply becomes_nil in B; rewrite app_nil_r; exact B|].
  inversion B as [|? ? x ? ? S B']; subst. unfold own_set in S. rewrite D in S. destruct (ok name l s); [|discriminate].
  injection S as <-. apply IH in B'. rewrite <- app_assoc in B'. exact B'.
Qed.
Definition true_words : list bytes := [str "1"; str "t"; str "T"; str "TRUE"; str "true"; str "True"].
Lemma truth_becomes ok name d0 : default name = Truth d0 -> forall vs b w,
  becomes (own_set ok name) (Truth b) vs w -> w = Truth (match vs with [] => b | _ => existsb (beqb (last vs [])) true_words end).
Proof.
  intros D vs. induction vs as [|s vs IH]; intros b w B; [apply becomes_nil in B; exact B|].
  inversion B as [|? ? x ? ? S B']; subst. unfold own_set in S. rewrite D in S. unfold parse_bool in S. rewrite last_dflt.
  assert (X : x = Truth (existsb (beqb s) true_words)).
  { unfold true_words. destruct (existsb (beqb s) [str "1"; str "t"; str "T"; str "TRUE"; str "true"; str "True"]); [injection S as <-; reflexivity|].
    destruct (existsb (beqb s) [str "0"; str "f"; str "F"; str "FALSE"; str "false"; str "False"]); [|discriminate]. injection S as <-. reflexivity. }
  subst x. apply IH in B'. destruct vs as [|y vs]; [exact B'|]. rewrite !last_dflt in *. exact B'.
Qed.
Lemma truth_of_becomes ok name vs w : default name = Truth false -> becomes (own_set ok name) (default name) vs w ->
  (truth_of w = true <-> vs <> [] /\ In (last vs []) true_words).
Proof.
  intros D B. rewrite D in B. apply (truth_becomes ok name false D) in B. subst w. cbn [truth_of]. destruct vs as [|v vs].
  - split; [discriminate|intros [N _]; contradiction].
  - rewrite memq. split; [intros H; split; [discriminate|exact H]|intros [_ H]; exact H].
Qed.
Lemma own_value ok env args st l ignored : configure fvalue own_flags own_bool (own_set ok) env args default = Runs st ->
  says own_flags own_bool args l ignored -> forall name vs, In name own_flags -> sources env name l vs ->
  becomes (own_set ok name) (default name) vs (st name).
Proof.
  intros C S name vs I So.
  destruct (configure_runs_at _ _ _ _ own_proper env own_distinct _ _ _ _ _ S C name I) as (vs' & So' & B).
  rewrite (sources_fun _ _ _ _ _ So So'). exact B.
Qed.
Lemma settings_right : forall ok contents env args st l ignored,
  configure fvalue own_flags own_bool (own_set ok) env args default = Runs st -> says own_flags own_bool args l ignored ->
  let f := settings_of contents st in
  (forall name value d vs, sources env name l vs ->
     In (name, value, d)
       [(str "ndt7_addr", f_ndt7 f, str ":443"); (str "ndt7_addr_cleartext", f_ndt7_cleartext f, str ":80");
        (str "ndt5_addr", f_ndt5 f, str ":3001"); (str "ndt5_ws_addr", f_ndt5_ws f, str "127.0.0.1:3002");
        (str "ndt5_wss_addr", f_ndt5_wss f, str ":3010"); (str "health_addr", f_health f, str "127.0.0.1:8000");
        (str "cert", f_cert f, []); (str "key", f_key f, []); (str "tls.version", f_tls_version f, [])] ->
     value = last vs d) /\
  (forall name value vs, sources env name l vs ->
     In (name, value)
       [(str "autocert.enabled", f_autocert f); (str "ndt5.token.required", f_required5 f); (str "ndt7.token.required", f_required7 f)] ->
     value = true <-> vs <> [] /\ In (last vs []) [str "1"; str "t"; str "T"; str "TRUE"; str "true"; str "True"]) /\
  (forall vs, sources env (str "autocert.hostname") l vs -> f_hostname f = if (List.length vs =? 0)%nat then [] else contents (last vs [])) /\
  (forall name vs, In name [str "label"; str "token.verify-key"; str "token.machine"] -> sources env name l vs -> st name = Given vs).
Proof.
  intros ok contents env args st l ig C S f. pose proof (own_value ok env args st l ig C S) as H.
  assert (T : forall name d vs, existsb (beqb name) own_flags = true -> default name = Text d -> sources env name l vs -> text_of (st name) = last vs d).
  { intros name d vs I D So. apply memq in I. pose proof (H name vs I So) as B. rewrite D in B.
    apply (text_becomes ok name d D) in B. rewrite B. reflexivity. }
  assert (G : forall name vs, existsb (beqb name) own_flags = true -> default name = Given [] -> sources env name l vs -> st name = Given vs).
  { intros name vs I D So. apply memq in I. pose proof (H name vs I So) as B. rewrite D in B.
    apply (given_becomes ok name [] D) in B. exact B. }
  assert (B : forall name vs, existsb (beqb name) own_flags = true -> default name = Truth false -> sources env name l vs ->
    truth_of (st name) = true <-> vs <> [] /\ In (last vs []) true_words).
  { intros name vs I D So. apply memq in I. apply (truth_of_becomes ok name vs _ D), (H name vs I So). }
  split; [|split; [|split]].
  - intros name value d vs So I. cbn [In] in I.
    destruct I as [I|[I|[I|[I|[I|[I|[I|[I|[I|[]]]]]]]]]]; injection I as <- <- <-; apply T; try exact So; vm_compute; reflexivity.
  - intros name value vs So I. cbn [In] in I.
    destruct I as [I|[I|[I|[]]]]; injection I as <- <-; apply B; try exact So; vm_compute; reflexivity.
  - intros vs So. unfold f, settings_of. cbn [f_hostname]. rewrite (G _ vs) by (try exact So; vm_compute; reflexivity).
    destruct vs as [|v vs]; [reflexivity|]. cbn [last_of List.length Nat.eqb]. rewrite last_dflt. reflexivity.
  - intros name vs I So. cbn [In] in I.
    destruct I as [<-|[<-|[<-|[]]]]; apply G; try exact So; vm_compute; reflexivity.
Qed.
