(** Reading JSON: documents written by the server can be read back, and which measurements of
    a client are accepted. *)
From Coq Require Import String ZArith List Bool Lia.
From Coq Require Import ZifyBool ZifyNat ZifyN.
From Verif Require Import Base BaseFacts GoStrings TextSpec TextProofs JsonSpec GoJSON JsonProofs GoFloat
  MessagerModel MessagerSpec MessagerProofs Web100Model Effect QueryModel ControlModel Ndt7Model Ndt7Spec ReceiverProofs ArchiveModel
  CodecModel CodecSpec CodecProofs CodecShape CodecFacts.
Import ListNotations.
Open Scope Z_scope.
Ltac Zify.zify_post_hook ::= Z.div_mod_to_equations.

Fixpoint names (fs : gfields) : list bytes :=
  match fs with FNil => [] | FCons name _ _ r => name :: names r end.

Lemma rev_case {A} (l : list A) : l = [] \/ exists r x, l = r ++ [x].
Proof. destruct l as [|x l] using rev_ind; [left; reflexivity|right; exists l, x; reflexivity]. Qed.

Definition letterb (s : bytes) : bool := forallb (fun b => (65 <=? b) && (b <=? 90) || (97 <=? b) && (b <=? 122)) s.
Lemma letterb_spec s : letterb s = true -> Forall letter s.
Proof. unfold letterb, letter. rewrite forallb_forall, Forall_forall. intros H b I. specialize (H b I). lia. Qed.

Lemma pair_false {A} (p : A * bool) : snd p = false -> p = (fst p, false).
Proof. destruct p. cbn. now intros ->. Qed.

Section Read.
  Variable k : codec.

  (** ** Unfolding *)
  Definition start (fs : gfields) (old : option (dens fs)) : dens fs := match old with Some v => v | None => zeros fs end.
  Lemma dect_ptr fs (old : option (dens fs)) j : dect k (TPtr fs) old j =
    match j with
    | JNull => (None, false)
    | JObj l => let '(v, bad) := store_all (decs k fs) l (start fs old, false) in (Some v, bad)
    | _ => (old, true)
    end.
  Proof. reflexivity. Qed.
  Lemma dect_slice fs old js : dect k (TSlice fs) old (JArr js) =
    fold_right (fun j (a : list (dens fs) * bool) =>
      let '(l, bad) := a in
      match j with
      | JNull => (zeros fs :: l, bad)
      | JObj ms => let '(v, e) := store_all (decs k fs) ms (zeros fs, false) in (v :: l, e || bad)
      | _ => (zeros fs :: l, true)
      end) ([], false) js.
  Proof. reflexivity. Qed.
  Lemma decs_cons name o t r p v j : decs k (FCons name o t r) p v j =
    if p name then let '(x, e) := dect k t (fst v) j in Some ((x, snd v), e)
    else match decs k r p (snd v) j with Some (y, e) => Some ((fst v, y), e) | None => None end.
  Proof. reflexivity. Qed.

  Lemma store_all_cons {A} (dec : (bytes -> bool) -> A -> json -> option (A * bool)) m l a :
    store_all dec (m :: l) a = store_all dec l (let '(v, e) := store dec (fst a) m in (v, snd a || e)).
  Proof. reflexivity. Qed.
  Lemma store_all_app {A} (dec : (bytes -> bool) -> A -> json -> option (A * bool)) l l' a :
    store_all dec (l ++ l') a = store_all dec l' (store_all dec l a).
  Proof. apply fold_left_app. Qed.
  Lemma store_all_flag {A} (dec : (bytes -> bool) -> A -> json -> option (A * bool)) l : forall v b,
    store_all dec l (v, b) = (fst (store_all dec l (v, false)), b || snd (store_all dec l (v, false))).
  Proof.
    induction l as [|m l IH]; intros v b; [cbn; now rewrite orb_false_r|]. rewrite !store_all_cons. cbn [fst snd].
    destruct (store dec v m) as [v' e]. rewrite IH. rewrite (IH v' (false || e)). cbn [fst snd].
    rewrite orb_assoc. cbn [orb]. reflexivity.
  Qed.

  (** ** Reading back *)
  Section Back.
    Fixpoint distt (t : gtype) : Prop :=
      match t with TPtr fs | TSlice fs => dists fs | TInt lo hi => - 2 ^ 63 <= lo /\ hi < 2 ^ 63 | _ => True end
    with dists (fs : gfields) : Prop :=
      match fs with FNil => True | FCons name _ t r => ~ In name (names r) /\ distt t /\ dists r end.

    Lemma trees_keys fs : forall v l, trees k fs v l -> Forall (fun kv => In (fst kv) (names fs)) l.
    Proof.
      induction fs as [|name o t r IH]; intros v l H.
      - cbn in H. subst. constructor.
      - cbn [trees] in H. cbn [names]. destruct (o && empty t (fst v)).
        + eapply Forall_impl; [|apply (IH _ _ H)]. intros kv. right. assumption.
        + destruct H as (j & l' & -> & _ & H). constructor; [left; reflexivity|].
          eapply Forall_impl; [|apply (IH _ _ H)]. intros kv. right. assumption.
    Qed.

    Lemma decs_in key fs : forall v j, In key (names fs) -> decs k fs (beqb key) v j <> None.
    Proof.
      induction fs as [|name o t r IH]; intros v j H; [destruct H|]. rewrite decs_cons.
      destruct (beqb key name) eqn:E; [destruct (dect k t (fst v) j); discriminate|].
      destruct H as [->|H]; [rewrite (proj2 (beqb_spec key key)) in E by reflexivity; discriminate|].
      specialize (IH (snd v) j H). destruct (decs k r (beqb key) (snd v) j) as [[y e]|]; [discriminate|congruence].
    Qed.

    Lemma store_skip name o t r (x : dent t) (y : dens r) m : ~ In name (names r) -> In (fst m) (names r) ->
      store (decs k (FCons name o t r)) (x, y) m = let '(y', e) := store (decs k r) y m in ((x, y'), e).
    Proof.
      intros N I. unfold store. rewrite decs_cons. destruct (beqb (fst m) name) eqn:E.
      - apply beqb_spec in E. rewrite E in I. contradiction.
      - cbn [fst snd]. pose proof (decs_in (fst m) r y (snd m) I) as D.
        destruct (decs k r (beqb (fst m)) y (snd m)) as [[y' e]|]; [reflexivity|congruence].
    Qed.
    Lemma store_all_skip name o t r (x : dent t) l : ~ In name (names r) -> Forall (fun kv : bytes * json => In (fst kv) (names r)) l ->
      forall (y : dens r) b, store_all (decs k (FCons name o t r)) l ((x, y), b) =
                  let '(y', e) := store_all (decs k r) l (y, b) in ((x, y'), e).
    Proof.
      intros N F. induction F as [|m l H F IH]; intros y b; [reflexivity|]. rewrite !store_all_cons. cbn [fst snd].
      rewrite store_skip by assumption. destruct (store (decs k r) y m) as [y' e]. apply IH.
    Qed.

    Lemma empty_zero t v : empty t v = true -> v = zerot t.
    Proof.
      destruct t; cbn [empty zerot]; try discriminate.
      - destruct v; [reflexivity|discriminate].
      - intros H. apply Z.eqb_eq, H.
      - destruct v; [discriminate|reflexivity].
      - destruct v; [reflexivity|discriminate].
    Qed.

    Lemma itoa_sign n : 0 <= n -> has_prefix (str "-") (itoa n) = false.
    Proof.
      intros H. unfold itoa. replace (n <? 0) with false by lia.
      destruct (dec_nonneg_spec n H) as (_ & D & N). destruct (dec_nonneg n) as [|b r]; [congruence|].
      inversion D as [|? ? Hb _]; subst. destruct (has_prefix (str "-") (b :: r)) eqn:E; [|reflexivity].
      apply has_prefix_true in E. cbn in E. injection E as E. lia.
    Qed.
    Lemma read_itoa lo hi n : - 2 ^ 63 <= lo -> hi < 2 ^ 63 -> lo <= n <= hi -> read_int lo hi (itoa n) = Some n.
    Proof.
      intros L H R. unfold read_int. rewrite atoi_itoa by (unfold int64_ok, min_int64, max_int64; lia).
      replace ((lo <=? n) && (n <=? hi)) with true by lia. cbn [andb]. destruct (lo =? 0) eqn:E; [|reflexivity].
      rewrite itoa_sign by lia. reflexivity.
    Qed.

    Lemma valid_repaired s t : utf8_valid s -> repaired s t -> t = s.
    Proof.
      intros (cs & F & ->) R. symmetry. eapply repaired_fun; [apply repaired_valid, F|exact R].
    Qed.

    Lemma read_back :
      (forall t v j, distt t -> fitt k t v -> treet k t v j -> dect k t (zerot t) j = (v, false)) /\
      (forall fs v l, dists fs -> fits_fields k fs v -> trees k fs v l -> store_all (decs k fs) l (zeros fs, false) = (v, false)).
    Proof.
      apply (schema_ind
        (fun t => forall v j, distt t -> fitt k t v -> treet k t v j -> dect k t (zerot t) j = (v, false))
        (fun fs => forall v l, dists fs -> fits_fields k fs v -> trees k fs v l ->
           store_all (decs k fs) l (zeros fs, false) = (v, false))).
      - intros s j _ V (s' & R & ->). cbn [dect]. rewrite (valid_repaired s s' V R). reflexivity.
      - intros lo hi n j [L H] R T. unfold treet, is_int in T. subst j. cbn [dect].
        rewrite read_itoa by assumption. reflexivity.
      - intros x j _ V [Fi ->]. cbn [dect]. cbn [fitt] in V. rewrite V. reflexivity.
      - intros n j _ V (w & E & ->). cbn [dect]. rewrite (V w E). reflexivity.
      - intros fs IH o j D F T. rewrite dect_ptr. destruct o as [v|].
        + destruct T as (l & -> & T). change (zerot (TPtr fs)) with (@None (dens fs)). change (start fs None) with (zeros fs). rewrite (IH v l D F T). reflexivity.
        + cbn [treet] in T. subst j. reflexivity.
      - intros fs IH l j D F T. destruct l as [|v l].
        + cbn [treet array] in T. subst j. reflexivity.
        + destruct T as (js & T & ->). rewrite dect_slice. cbn [fitt] in F.
          revert js T. revert F. generalize (v :: l). clear v l. intros vs F.
          induction F as [|v vs Fv F IHF]; intros js T; inversion T as [|? j ? js' Tj T']; subst; [reflexivity|].
          destruct Tj as (l & -> & Tl). cbn [fold_right]. rewrite (IHF js' T'). rewrite (IH v l D Fv Tl). reflexivity.
      - intros v l _ _ T. cbn [trees] in T. subst l. destruct v. reflexivity.
      - intros name o t IHt r IHr v l (N & Dt & Dr) [Ft Fr] T. cbn [trees] in T. change (zeros (FCons name o t r)) with (@pair (dent t) (dens r) (zerot t) (zeros r)).
        destruct v as [x y]. cbn [fst snd] in *. destruct (o && empty t x) eqn:E.
        + rewrite store_all_skip; [|exact N|apply (trees_keys _ _ _ T)]. rewrite (IHr y l Dr Fr T).
          destruct o; [|discriminate]. rewrite (empty_zero t x E). reflexivity.
        + destruct T as (j & l' & -> & Tj & T). rewrite store_all_cons. cbn [fst snd].
          unfold store. rewrite decs_cons. cbn [fst snd]. rewrite (proj2 (beqb_spec name name) eq_refl).
          rewrite (IHt x j Dt Ft Tj). cbn [orb].
          rewrite store_all_skip; [|exact N|apply (trees_keys _ _ _ T)]. rewrite (IHr y l' Dr Fr T). reflexivity.
    Qed.
  End Back.

  (** ** Keys of bytes *)
  Fixpoint jok (j : json) : Prop :=
    match j with
    | JArr l => (fix go (l : list json) : Prop := match l with [] => True | x :: r => jok x /\ go r end) l
    | JObj l => (fix go (l : list (bytes * json)) : Prop :=
                   match l with [] => True | (key, x) :: r => bytes_ok key /\ jok x /\ go r end) l
    | _ => True
    end.
  Definition joks (l : list (bytes * json)) : Prop := Forall (fun kv => bytes_ok (fst kv) /\ jok (snd kv)) l.
  Lemma jok_obj l : jok (JObj l) <-> joks l.
  Proof.
    unfold joks. induction l as [|[key x] l IH]; [cbn; split; [constructor|auto]|].
    change (jok (JObj ((key, x) :: l))) with (bytes_ok key /\ jok x /\ jok (JObj l)). rewrite IH, Forall_cons_iff. cbn [fst snd]. tauto.
  Qed.
  Lemma jok_arr l : jok (JArr l) <-> Forall jok l.
  Proof.
    induction l as [|x l IH]; [cbn; split; [constructor|auto]|].
    change (jok (JArr (x :: l))) with (jok x /\ jok (JArr l)). rewrite IH, Forall_cons_iff. tauto.
  Qed.
  Lemma jval_jok d x j : jval d x j -> jok j.
  Proof.
    assert (G : forall d, (forall x j, jval d x j -> jok j) /\ (forall x l, jelems d x l -> jok (JArr l)) /\
                (forall x l, jmembers d x l -> jok (JObj l))).
    { apply (jval_mutind (fun _ _ j _ => jok j) (fun _ _ l _ => jok (JArr l)) (fun _ _ l _ => jok (JObj l)));
        intros; try exact I; try assumption; cbn; eauto using jchars_value_ok. }
    apply G.
  Qed.
  Lemma text_jok s j : json_text s j -> jok j.
  Proof. intros (w1 & x & w2 & _ & _ & _ & J). apply (jval_jok _ _ _ J). Qed.

  (** ** Selection of fields *)
  Lemma fold_letters name : Forall letter name -> forall fuel, (length name <= fuel)%nat ->
    fold_name fuel name = map (fun c => c - 32) (map lower_case name).
  Proof.
    induction 1 as [|c name H F IH]; intros fuel L; destruct fuel as [|f]; try reflexivity; [cbn in L; lia|].
    cbn [fold_name map]. unfold letter in H. replace (c <? 128) with true by lia. rewrite IH by (cbn in L; lia).
    f_equal. unfold in_range, lower_case. destruct ((97 <=? c) && (c <=? 122)) eqn:E1, ((65 <=? c) && (c <=? 90)) eqn:E2; lia.
  Qed.
  Lemma lower_letters name : Forall letter name -> lower (map lower_case name).
  Proof.
    intros F. unfold lower. apply Forall_map. revert F. apply Forall_impl. unfold letter, lower_case. intros c H.
    destruct ((65 <=? c) && (c <=? 90)) eqn:E; lia.
  Qed.
  Lemma matches_selects name key : Forall letter name -> bytes_ok key ->
    (key_matches name key = true <-> selects name key).
  Proof.
    intros L B. unfold key_matches, selects. rewrite beqb_spec, (fold_letters name) by auto.
    apply fold_spells; auto. apply lower_letters, L.
  Qed.
  Lemma selects_self name : Forall letter name -> selects name name.
  Proof.
    intros L. apply matches_selects; [exact L|eapply Forall_impl; [|exact L]; unfold letter, byte_ok; intros; lia|].
    unfold key_matches. apply beqb_spec. reflexivity.
  Qed.
  Lemma selects_one n1 n2 key : Forall letter n1 -> Forall letter n2 -> bytes_ok key ->
    selects n1 key -> selects n2 key -> map lower_case n1 = map lower_case n2.
  Proof.
    intros L1 L2 B H1 H2. unfold selects in *.
    apply (fold_spells _ (lower_letters _ L1) key (length key)) in H1; auto.
    apply (fold_spells _ (lower_letters _ L2) key (length key)) in H2; auto.
    rewrite H1 in H2. revert H2. generalize (map lower_case n1) (map lower_case n2). clear.
    induction l as [|a l IH]; intros [|b m] H; try discriminate; [reflexivity|]. cbn [map] in H. injection H as H1 H2.
    f_equal; [lia|auto].
  Qed.

  (** Field names of letters, different without regard to case; no numbers with a fraction
      and no slices; integers of at most 64 bits. *)
  Fixpoint foldt (t : gtype) : Prop :=
    match t with
    | TPtr fs => folds fs
    | TInt lo hi => - 2 ^ 63 <= lo /\ hi < 2 ^ 63
    | TSlice _ | TFloat => False
    | _ => True
    end
  with folds (fs : gfields) : Prop :=
    match fs with
    | FNil => True
    | FCons name _ t r =>
        Forall letter name /\ ~ In (map lower_case name) (map (map lower_case) (names r)) /\ foldt t /\ folds r
    end.

  Lemma names_letters fs : folds fs -> Forall (Forall letter) (names fs).
  Proof. induction fs as [|name o t r IH]; cbn [folds names]; [constructor|]. intros (L & _ & _ & F). constructor; auto. Qed.

  Lemma decs_none fs p : forall v j, (forall n, In n (names fs) -> p n = false) -> decs k fs p v j = None.
  Proof.
    induction fs as [|name o t r IH]; intros v j H; [reflexivity|]. rewrite decs_cons.
    rewrite (H name) by (left; reflexivity). rewrite IH; [reflexivity|]. intros n I. apply H. right. exact I.
  Qed.

  Lemma exact_selects name key : Forall letter name -> beqb key name = true -> selects name key.
  Proof. intros L E. apply beqb_spec in E. subst. apply selects_self, L. Qed.

  Lemma store_other fs v m : folds fs -> bytes_ok (fst m) -> (forall n, In n (names fs) -> ~ selects n (fst m)) ->
    store (decs k fs) v m = (v, false).
  Proof.
    intros F B N. pose proof (names_letters fs F) as L. rewrite Forall_forall in L. unfold store.
    rewrite decs_none.
    - rewrite decs_none; [reflexivity|]. intros n I. destruct (key_matches n (fst m)) eqn:E; [|reflexivity].
      exfalso. apply (N n I), matches_selects; auto.
    - intros n I. destruct (beqb (fst m) n) eqn:E; [|reflexivity]. exfalso. apply (N n I), exact_selects; auto.
  Qed.

  Lemma store_here name o t r (x : dent t) (y : dens r) m : folds (FCons name o t r) -> bytes_ok (fst m) -> selects name (fst m) ->
    store (decs k (FCons name o t r)) (x, y) m = (let '(x', e) := dect k t x (snd m) in ((x', y), e)) /\
    store (decs k r) y m = (y, false).
  Proof.
    intros F B S. pose proof F as (L & D & _ & Fr).
    assert (O : forall n, In n (names r) -> ~ selects n (fst m)).
    { intros n I S'. apply D. pose proof (names_letters r Fr) as Lr. rewrite Forall_forall in Lr.
      rewrite (selects_one name n (fst m) L (Lr n I) B S S'). apply in_map, I. }
    split; [|apply store_other; assumption].
    unfold store. rewrite !decs_cons. cbn [fst snd]. destruct (dect k t x (snd m)) as [x' e].
    destruct (beqb (fst m) name) eqn:E; [reflexivity|].
    rewrite decs_none.
    - rewrite (proj2 (matches_selects name (fst m) L B) S). reflexivity.
    - intros n I. destruct (beqb (fst m) n) eqn:En; [|reflexivity]. exfalso.
      pose proof (names_letters r Fr) as Lr. rewrite Forall_forall in Lr. apply (O n I), exact_selects; auto.
  Qed.
  Lemma store_there name o t r (x : dent t) (y : dens r) m : Forall letter name -> bytes_ok (fst m) -> ~ selects name (fst m) ->
    store (decs k (FCons name o t r)) (x, y) m = let '(y', e) := store (decs k r) y m in ((x, y'), e).
  Proof.
    intros L B S. unfold store. rewrite !decs_cons. cbn [fst snd].
    destruct (beqb (fst m) name) eqn:E; [exfalso; apply S, exact_selects; auto|].
    destruct (decs k r (beqb (fst m)) y (snd m)) as [[y' e]|]; [reflexivity|].
    destruct (key_matches name (fst m)) eqn:Em; [exfalso; apply S, matches_selects; auto|].
    destruct (decs k r (fun n => key_matches n (fst m)) y (snd m)) as [[y' e]|]; reflexivity.
  Qed.

  (** The values stored into one field, one after the other. *)
  Definition runt (t : gtype) (js : list json) (a : dent t * bool) : dent t * bool :=
    fold_left (fun a j => let '(v, e) := dect k t (fst a) j in (v, snd a || e)) js a.
  Lemma runt_flag t js : forall x b, runt t js (x, b) = (fst (runt t js (x, false)), b || snd (runt t js (x, false))).
  Proof.
    induction js as [|j js IH]; intros x b; [cbn; now rewrite orb_false_r|]. cbn [runt fold_left fst snd].
    destruct (dect k t x j) as [x' e]. change (runt t js (x', b || e) = (fst (runt t js (x', false || e)), b || snd (runt t js (x', false || e)))).
    rewrite IH, (IH x' (false || e)). cbn [fst snd orb]. rewrite orb_assoc. reflexivity.
  Qed.

  Lemma store_all_split name o t r l js : folds (FCons name o t r) -> Forall (fun kv : bytes * json => bytes_ok (fst kv)) l ->
    selected name l js -> forall (x : dent t) (y : dens r),
    store_all (decs k (FCons name o t r)) l (@pair (dens (FCons name o t r)) bool (x, y) false) =
      ((fst (runt t js (x, false)), fst (store_all (decs k r) l (y, false))),
       snd (runt t js (x, false)) || snd (store_all (decs k r) l (y, false))).
  Proof.
    intros F B S. induction S as [|key j l js Sk S IH|key j l js Sk S IH]; intros x y.
    - reflexivity.
    - inversion B as [|? ? Bk Bl]; subst. cbn [fst] in Bk.
      destruct (store_here name o t r x y (key, j) F Bk Sk) as [E1 E2]. rewrite !store_all_cons. cbn [fst snd orb].
      rewrite E1, E2. cbn [snd]. cbn [runt fold_left fst snd orb]. destruct (dect k t x j) as [x' e].
      change (fold_left (fun a j => let '(v, e) := dect k t (fst a) j in (v, snd a || e)) js (x', e)) with (runt t js (x', e)).
      rewrite store_all_flag, (IH Bl x' y), (runt_flag t js x' e). cbn [fst snd]. rewrite orb_assoc. reflexivity.
    - inversion B as [|? ? Bk Bl]; subst. cbn [fst] in Bk. rewrite !store_all_cons. cbn [fst snd].
      rewrite (store_there name o t r x y (key, j)) by (auto; apply F). destruct (store (decs k r) y (key, j)) as [y' e].
      cbn [orb]. rewrite store_all_flag, (IH Bl x y'), (store_all_flag (decs k r) l y' e). cbn [fst snd].
      f_equal. destruct e, (snd (runt t js (x, false))); reflexivity.
  Qed.

  Lemma selected_total name l : Forall letter name -> Forall (fun kv : bytes * json => bytes_ok (fst kv)) l ->
    exists js, selected name l js.
  Proof.
    intros L. induction 1 as [|[key j] l B F [js IH]]; [exists []; constructor|]. cbn [fst] in B.
    destruct (key_matches name key) eqn:E.
    - exists (j :: js). constructor; [apply matches_selects; auto|exact IH].
    - exists js. apply sel_no; [|exact IH]. intros S. apply matches_selects in S; auto. congruence.
  Qed.
  Lemma selected_fun name l js : selected name l js -> forall js', selected name l js' -> js = js'.
  Proof.
    induction 1 as [|key j l js S H IH|key j l js S H IH]; intros js' H'; inversion H'; subst; try contradiction; auto.
    f_equal. auto.
  Qed.
  Lemma selected_in name l js : selected name l js -> Forall (fun j => exists key, In (key, j) l) js.
  Proof.
    induction 1 as [|key j l js S H IH|key j l js S H IH]; [constructor|constructor|].
    - exists key. left. reflexivity.
    - eapply Forall_impl; [|exact IH]. intros j' [key' I]. exists key'. right. exact I.
    - eapply Forall_impl; [|exact IH]. intros j' [key' I]. exists key'. right. exact I.
  Qed.

  (** Whether an error is reported does not depend on the old value. *)
  Lemma flag_indep :
    (forall t a b j, snd (dect k t a j) = snd (dect k t b j)) /\
    (forall fs p a b j, option_map snd (decs k fs p a j) = option_map snd (decs k fs p b j)).
  Proof.
    apply (schema_ind
      (fun t => forall a b j, snd (dect k t a j) = snd (dect k t b j))
      (fun fs => forall p a b j, option_map snd (decs k fs p a j) = option_map snd (decs k fs p b j))).
    - intros a b j. cbn [dect]. destruct j; reflexivity.
    - intros lo hi a b j. cbn [dect]. destruct j; try reflexivity. destruct (read_int lo hi w); reflexivity.
    - intros a b j. cbn [dect]. destruct j; try reflexivity. destruct (parse_float w); reflexivity.
    - intros a b j. cbn [dect]. destruct j; try reflexivity. destruct (k_read_time k s); reflexivity.
    - intros fs IH a b j. rewrite !dect_ptr. destruct j; try reflexivity.
      assert (G : forall l x y bx, snd (store_all (decs k fs) l (x, bx)) = snd (store_all (decs k fs) l (y, bx))).
      { clear l. induction l as [|m l IHl]; intros x y bx; [reflexivity|]. rewrite !store_all_cons. cbn [fst snd].
        assert (E : snd (store (decs k fs) x m) = snd (store (decs k fs) y m)).
        { unfold store. pose proof (IH (beqb (fst m)) x y (snd m)) as I1.
          pose proof (IH (fun name => key_matches name (fst m)) x y (snd m)) as I2.
          destruct (decs k fs (beqb (fst m)) x (snd m)), (decs k fs (beqb (fst m)) y (snd m)); cbn [option_map] in I1; try discriminate.
          - injection I1 as I1. exact I1.
          - destruct (decs k fs (fun name => key_matches name (fst m)) x (snd m)),
              (decs k fs (fun name => key_matches name (fst m)) y (snd m)); cbn [option_map] in I2; try discriminate.
            + injection I2 as I2. exact I2.
            + reflexivity. }
        destruct (store (decs k fs) x m) as [x' e], (store (decs k fs) y m) as [y' e']. cbn [snd] in E. subst e'. apply IHl. }
      specialize (G l (start fs a) (start fs b) false).
      destruct (store_all _ l (start fs a, false)),
        (store_all _ l (start fs b, false)). exact G.
    - intros fs IH a b j. destruct j; reflexivity.
    - reflexivity.
    - intros name o t IHt r IHr p a b j. rewrite !decs_cons. destruct (p name).
      + specialize (IHt (fst a) (fst b) j). destruct (dect k t (fst a) j), (dect k t (fst b) j). cbn in *. congruence.
      + specialize (IHr p (snd a) (snd b) j).
        destruct (decs k r p (snd a) j) as [[]|], (decs k r p (snd b) j) as [[]|]; cbn in *; congruence.
  Qed.
  Lemma store_all_indep fs l x y b : snd (store_all (decs k fs) l (x, b)) = snd (store_all (decs k fs) l (y, b)).
  Proof.
    pose proof (proj1 flag_indep (TPtr fs) (Some x) (Some y) (JObj l)) as H. rewrite !dect_ptr in H. cbn [start] in H.
    rewrite (store_all_flag _ l x b), (store_all_flag _ l y b). cbn [snd]. f_equal.
    destruct (store_all _ l (x, false)), (store_all _ l (y, false)). exact H.
  Qed.

  (** ** What is accepted *)
  Fixpoint fillt (t : gtype) : list json -> dent t -> Prop :=
    match t with
    | TStr => text_field
    | TInt lo hi => int_field lo hi
    | TTime => scalar_field (time_value k) zero_time
    | TPtr fs => struct_field (fills fs)
    | TFloat | TSlice _ => fun _ _ => False
    end
  with fills (fs : gfields) : list (bytes * json) -> dens fs -> Prop :=
    match fs with
    | FNil => fun _ _ => True
    | FCons name _ t r => fun l v => has name (fillt t) l (fst v) /\ fills r l (snd v)
    end.

  (** A decoder of scalars. *)
  Lemma scalar_run {A} (P : json -> A -> Prop) (dec : A -> json -> A * bool) (zero : A) :
    (forall j x y, P j x -> P j y -> x = y) -> (forall x, ~ P JNull x) ->
    (forall a, dec a JNull = (a, false)) ->
    (forall a j, j <> JNull -> (exists x, P j x /\ dec a j = (x, false)) \/ (~ (exists x, P j x) /\ dec a j = (a, true))) ->
    forall js v, fold_left (fun a j => let '(v, e) := dec (fst a) j in (v, snd a || e)) js (zero, false) = (v, false) <->
                 scalar_field P zero js v.
  Proof.
    intros PF PN DN DV js. induction js as [|j js IH] using rev_ind; intros v.
    - cbn. split.
      + intros [= <-]. split; [constructor|left; split; [constructor|reflexivity]].
      + intros [_ [[_ ->]|(js1 & j & js2 & E & _)]]; [reflexivity|]. destruct js1; discriminate.
    - rewrite fold_left_app. cbn [fold_left].
      destruct (fold_left (fun a j => let '(v, e) := dec (fst a) j in (v, snd a || e)) js (zero, false)) as [a b] eqn:E.
      cbn [fst snd].
      assert (NJ : {j = JNull} + {j <> JNull}) by (destruct j; auto; right; discriminate).
      destruct NJ as [->|NJ].
      + rewrite DN. rewrite orb_false_r.
        assert (G : (a, b) = (v, false) <-> scalar_field P zero js v) by apply IH. rewrite G. unfold scalar_field.
        rewrite Forall_app. split.
        * intros [F [[Z ->]|(js1 & j & js2 & -> & Pj & N2)]].
          -- split; [split; [exact F|constructor; [left; reflexivity|constructor]]|].
             left. split; [apply Forall_app; split; [exact Z|repeat constructor]|reflexivity].
          -- split; [split; [exact F|constructor; [left; reflexivity|constructor]]|].
             right. exists js1, j, (js2 ++ [JNull]). split; [now rewrite <- app_assoc|]. split; [exact Pj|].
             apply Forall_app. split; [exact N2|repeat constructor].
        * intros [[F _] [[Z ->]|(js1 & j & js2 & Ej & Pj & N2)]].
          -- split; [exact F|]. left. apply Forall_app in Z as [Z _]. auto.
          -- split; [exact F|]. right. destruct (rev_case js2) as [->|(js3 & j3 & ->)].
             ++ apply app_inj_tail in Ej as [_ <-]. exfalso. apply (PN _ Pj).
             ++ rewrite app_comm_cons, app_assoc in Ej. apply app_inj_tail in Ej as [-> _]. exists js1, j, js3.
                split; [reflexivity|]. split; [exact Pj|]. apply Forall_app in N2 as [N2 _]. exact N2.
      + destruct (DV a j NJ) as [(x & Px & ->)|[NP ->]].
        * rewrite orb_false_r. unfold scalar_field. rewrite Forall_app. split.
          -- intros [= <- ->]. assert (G : scalar_field P zero js a) by (apply IH; reflexivity).
             split; [split; [apply G|constructor; [right; exists x; exact Px|constructor]]|].
             right. exists js, j, []. auto.
          -- intros [[F _] H].
             assert (Hb : exists a', scalar_field P zero js a').
             { clear -F PF. induction js as [|j' js' IHj] using rev_ind; [exists zero; split; [constructor|left; split; [constructor|reflexivity]]|].
               apply Forall_app in F as [F1 F2]. inversion F2 as [|? ? H _]; subst. destruct H as [->|[y Py]].
               - destruct (IHj F1) as (a' & _ & H). exists a'. split; [apply Forall_app; split; [exact F1|repeat constructor]|].
                 destruct H as [[Z ->]|(js1 & j & js2 & -> & Pj & N2)].
                 + left. split; [apply Forall_app; split; [exact Z|repeat constructor]|reflexivity].
                 + right. exists js1, j, (js2 ++ [JNull]). split; [now rewrite <- app_assoc|]. split; [exact Pj|].
                   apply Forall_app. split; [exact N2|repeat constructor].
               - exists y. split; [apply Forall_app; split; [exact F1|constructor; [right; exists y; exact Py|constructor]]|].
                 right. exists js', j', []. auto. }
             destruct Hb as [a' Ha']. apply IH in Ha'. injection Ha' as -> ->. f_equal.
             destruct H as [[Z _]|(js1 & j' & js2 & Ej & Pj & N2)].
             ++ apply Forall_app in Z as [_ Z]. inversion Z; subst. congruence.
             ++ destruct (rev_case js2) as [->|(js3 & j3 & ->)].
                ** apply app_inj_tail in Ej as [_ <-]. apply (PF j x v Px Pj).
                ** apply Forall_app in N2 as [_ N2]. inversion N2; subst.
                   rewrite app_comm_cons, app_assoc in Ej. apply app_inj_tail in Ej as [_ ->]. congruence.
        * rewrite orb_true_r. split; [discriminate|]. intros [F _]. apply Forall_app in F as [_ F].
          inversion F as [|? ? H _]; subst. destruct H as [->|H]; [congruence|contradiction].
  Qed.

  Lemma read_int_value lo hi w n : read_int lo hi w = Some n <-> int_value lo hi (JNum w) n.
  Proof.
    unfold read_int, int_value. split.
    - destruct (atoi w) as [m|] eqn:E; [|discriminate]. destruct (_ && _) eqn:C; [|discriminate]. intros [= ->].
      exists w. split; [reflexivity|]. split; [apply atoi_numeral, E|]. apply andb_true_iff in C as [C1 C2].
      split; [lia|]. intros -> r ->. assert (P : has_prefix (str "-") (45 :: r) = true) by reflexivity. rewrite P in C2. discriminate.
    - intros (w' & [= <-] & N & R & S). apply atoi_numeral in N. rewrite N.
      replace ((lo <=? n) && (n <=? hi)) with true by lia. cbn [andb].
      destruct (lo =? 0) eqn:E; [|reflexivity]. apply Z.eqb_eq in E. cbn [andb].
      destruct (has_prefix (str "-") w) eqn:P; [|reflexivity]. exfalso.
      apply has_prefix_spec in P as [r ->]. apply (S E r). reflexivity.
  Qed.

  Lemma merge_app js j : merge (js ++ [j]) =
    match j with JObj l => Some (match merge js with Some m => m ++ l | None => l end) | _ => None end.
  Proof. unfold merge. rewrite fold_left_app. reflexivity. Qed.
  Lemma merge_joks js : Forall jok js -> match merge js with Some l => joks l | None => True end.
  Proof.
    induction js as [|j js IH] using rev_ind; intros F; [exact I|]. apply Forall_app in F as [F Fj].
    inversion Fj as [|? ? Hj _]; subst. specialize (IH F). rewrite merge_app. destruct j; try exact I.
    apply jok_obj in Hj. destruct (merge js); [apply Forall_app; split; assumption|assumption].
  Qed.
  Lemma runt_app t js j a : runt t (js ++ [j]) a =
    let '(v, e) := dect k t (fst (runt t js a)) j in (v, snd (runt t js a) || e).
  Proof. unfold runt. rewrite fold_left_app. reflexivity. Qed.

  Section Pointer.
    Variable fs : gfields.
    Hypothesis IH : forall l v, joks l -> (store_all (decs k fs) l (zeros fs, false) = (v, false) <-> fills fs l v).
    Definition okj (j : json) : Prop := j = JNull \/ exists l x, j = JObj l /\ fills fs l x.

    Lemma ptr_run js : Forall jok js ->
      (snd (runt (TPtr fs) js (None, false)) = false <-> Forall okj js) /\
      (Forall okj js ->
         fst (runt (TPtr fs) js (None, false)) =
           option_map (fun l => fst (store_all (decs k fs) l (zeros fs, false))) (merge js) /\
         match merge js with Some l => snd (store_all (decs k fs) l (zeros fs, false)) = false | None => True end).
    Proof.
      induction js as [|j js IHj] using rev_ind; intros F.
      - split; [split; [constructor|reflexivity]|]. intros _. split; [reflexivity|exact I].
      - apply Forall_app in F as [F Fj]. inversion Fj as [|? ? Hj _]; subst. destruct (IHj F) as [A B].
        rewrite runt_app, merge_app, Forall_app.
        destruct (runt (TPtr fs) js (None, false)) as [o b]. cbn [fst snd] in *. rewrite dect_ptr.
        assert (NO : forall j', okj j' -> j' = JNull \/ exists l, j' = JObj l).
        { intros j' [->|(l & x & -> & _)]; eauto. }
        assert (OS : Forall okj [j] <-> okj j) by (split; [inversion 1; auto|constructor; auto]). rewrite OS.
        destruct j as [|b'|w|s|js'|l];
          try (cbn [fst snd]; rewrite orb_true_r; split; [split; [discriminate|intros [_ N]; destruct (NO _ N) as [E|[l E]]; discriminate]|
                 intros [_ N]; destruct (NO _ N) as [E|[l E]]; discriminate]).
        + cbn [fst snd]. rewrite orb_false_r. split; [rewrite A; split; [intros H; split; [exact H|left; reflexivity]|tauto]|].
          intros _. split; [reflexivity|exact I].
        + apply jok_obj in Hj.
          assert (OJ : okj (JObj l) <-> snd (store_all (decs k fs) l (zeros fs, false)) = false).
          { split.
            - intros [E|(l' & x & [= <-] & Fx)]; [discriminate|]. apply IH in Fx; [|exact Hj]. rewrite Fx. reflexivity.
            - intros E. right. exists l, (fst (store_all (decs k fs) l (zeros fs, false))). split; [reflexivity|].
              apply IH; [exact Hj|]. apply pair_false, E. }
          rewrite OJ. rewrite (store_all_indep fs l (zeros fs) (start fs o) false).
          destruct (store_all (decs k fs) l (start fs o, false)) as [v e] eqn:Es. cbn [fst snd].
          split; [rewrite orb_false_iff, A; tauto|]. intros [Hjs He]. destruct (B Hjs) as [Bo Bm].
          destruct (merge js) as [m|]; cbn [option_map] in *.
          * rewrite store_all_app. subst o. destruct (store_all (decs k fs) m (zeros fs, false)) as [vm em]. cbn [fst snd start] in *.
            subst em. rewrite Es. cbn [fst snd]. auto.
          * subst o. cbn [start] in Es. rewrite Es. cbn [fst snd]. auto.
    Qed.

    Lemma ptr_field js (o : option (dens fs)) : Forall jok js ->
      (runt (TPtr fs) js (None, false) = (o, false) <-> struct_field (fills fs) js o).
    Proof.
      intros F. destruct (ptr_run js F) as [A B]. pose proof (merge_joks js F) as M. unfold struct_field.
      change (Forall (fun j => j = JNull \/ exists l x, j = JObj l /\ fills fs l x) js) with (Forall okj js).
      split.
      - intros E. rewrite E in A, B. cbn [fst snd] in *. pose proof (proj1 A eq_refl) as G. split; [exact G|].
        destruct (B G) as [Bo Bm]. destruct (merge js) as [l|]; [|exact Bo]. cbn [option_map] in Bo.
        exists (fst (store_all (decs k fs) l (zeros fs, false))). split; [|exact Bo]. apply IH; [exact M|].
        apply pair_false, Bm.
      - intros [G H]. destruct (B G) as [Bo Bm]. apply A in G.
        destruct (runt (TPtr fs) js (None, false)) as [o' b]. cbn [fst snd] in *. subst b o'. f_equal.
        destruct (merge js) as [l|]; cbn [option_map]; [|congruence].
        destruct H as (x & Hx & ->). apply IH in Hx; [|exact M]. rewrite Hx. reflexivity.
    Qed.
  End Pointer.

  Lemma joks_keys l : joks l -> Forall (fun kv : bytes * json => bytes_ok (fst kv)) l.
  Proof. apply Forall_impl. tauto. Qed.

  Lemma fill_run :
    (forall t, foldt t -> forall js v, Forall jok js -> (runt t js (zerot t, false) = (v, false) <-> fillt t js v)) /\
    (forall fs, folds fs -> forall l v, joks l -> (store_all (decs k fs) l (zeros fs, false) = (v, false) <-> fills fs l v)).
  Proof.
    apply (schema_ind
      (fun t => foldt t -> forall js v, Forall jok js -> (runt t js (zerot t, false) = (v, false) <-> fillt t js v))
      (fun fs => folds fs -> forall l v, joks l -> (store_all (decs k fs) l (zeros fs, false) = (v, false) <-> fills fs l v))).
    - intros _ js v _. cbn [fillt]. apply (scalar_run text_value (dect k TStr)).
      + unfold text_value. congruence.
      + unfold text_value. discriminate.
      + reflexivity.
      + intros a j N. destruct j; try congruence; cbn [dect];
          try (right; split; [intros [x Hx]; discriminate|reflexivity]). left. eexists. split; reflexivity.
    - intros lo hi [L H] js v _. cbn [fillt]. apply (scalar_run (int_value lo hi) (dect k (TInt lo hi))).
      + intros j x y (w & -> & Hx) Hy. assert (G : read_int lo hi w = Some x) by (apply read_int_value; exists w; auto).
        apply read_int_value in Hy. congruence.
      + intros x (w & E & _). discriminate.
      + reflexivity.
      + intros a j N. destruct j; try congruence; cbn [dect];
          try (right; split; [intros [x (w' & Hx & _)]; discriminate|reflexivity]).
        destruct (read_int lo hi w) as [n|] eqn:E.
        * left. exists n. split; [apply read_int_value, E|reflexivity].
        * right. split; [|reflexivity]. intros [x Hx]. apply read_int_value in Hx. congruence.
    - intros [].
    - intros _ js v _. cbn [fillt]. apply (scalar_run (time_value k) (dect k TTime)).
      + intros j x y (s & -> & Hx) (s' & [= <-] & Hy). congruence.
      + intros x (s & E & _). discriminate.
      + reflexivity.
      + intros a j N. destruct j; try congruence; cbn [dect];
          try (right; split; [intros [x (s' & Hx & _)]; discriminate|reflexivity]).
        destruct (k_read_time k s) as [n|] eqn:E.
        * left. exists n. split; [exists s; auto|reflexivity].
        * right. split; [|reflexivity]. intros [x (s' & [= <-] & Hx)]. congruence.
    - intros fs IH F js v J. cbn [fillt]. apply ptr_field; [apply IH, F|exact J].
    - intros fs IH [].
    - intros _ l [] J. split; [exact (fun _ => I)|]. intros _. clear J.
      induction l as [|m l IHl]; [reflexivity|]. rewrite store_all_cons. exact IHl.
    - intros name o t IHt r IHr F l v J. pose proof F as (L & D & Ft & Fr).
      destruct (selected_total name l L (joks_keys l J)) as [js S].
      change (zeros (FCons name o t r)) with (@pair (dent t) (dens r) (zerot t) (zeros r)).
      rewrite (store_all_split name o t r l js F (joks_keys l J) S).
      assert (Jjs : Forall jok js).
      { eapply Forall_impl; [|apply (selected_in _ _ _ S)]. intros j [key I]. unfold joks in J. rewrite Forall_forall in J.
        apply (J _ I). }
      specialize (IHt Ft js (fst v) Jjs). specialize (IHr Fr l (snd v) J). cbn [fills]. rewrite <- IHr.
      assert (HS : has name (fillt t) l (fst v) <-> fillt t js (fst v)).
      { split; [intros (js' & S' & H); rewrite (selected_fun _ _ _ S _ S'); exact H|intros H; exists js; auto]. }
      rewrite HS, <- IHt. destruct v as [x y]. cbn [fst snd].
      destruct (runt t js (zerot t, false)) as [x' b1], (store_all (decs k r) l (zeros r, false)) as [y' b2]. cbn [fst snd].
      split.
      + intros E. assert (G : x' = x /\ y' = y /\ b1 || b2 = false) by (split; [congruence|split; congruence]).
        destruct G as (-> & -> & G). apply orb_false_iff in G as [-> ->]. auto.
      + intros [E1 E2]. assert (G : x' = x /\ b1 = false) by (split; congruence). assert (G2 : y' = y /\ b2 = false) by (split; congruence).
        destruct G as [-> ->], G2 as [-> ->]. reflexivity.
  Qed.

  Lemma unmarshal_spec fs text v : folds fs -> bytes_ok text ->
    (unmarshal_into k fs (zeros fs) text = Some v <->
     (json_text text JNull /\ v = zeros fs) \/ (exists l, json_text text (JObj l) /\ fills fs l v)).
  Proof.
    intros F B. unfold unmarshal_into. destruct (json_parse text) as [j|] eqn:E.
    - apply (json_parse_spec _ _ B) in E. pose proof (fun j' => json_text_fun text j j' B E) as U.
      split.
      + destruct j; try discriminate.
        * intros [= <-]. left. auto.
        * pose proof (text_jok _ _ E) as J. apply jok_obj in J.
          destruct (store_all (decs k fs) l (zeros fs, false)) as [v' bad] eqn:Es. destruct bad; [discriminate|].
          intros [= <-]. right. exists l. split; [exact E|]. apply (proj2 fill_run fs F l v' J), Es.
      + intros [[H ->]|(l & H & Hf)].
        * rewrite <- (U _ H). reflexivity.
        * rewrite <- (U _ H). rewrite <- (U _ H) in E. pose proof (text_jok _ _ E) as J. apply jok_obj in J.
          apply (proj2 fill_run fs F l v J) in Hf. rewrite Hf. reflexivity.
    - split; [discriminate|]. intros [[H _]|(l & H & _)]; apply (json_parse_spec _ _ B) in H; congruence.
  Qed.

  (** ** Measurements *)
  Lemma has_map {A B} name (P : list json -> A -> Prop) (Q : list json -> B -> Prop) (f : A -> B) :
    (forall js b, Q js b <-> exists a, P js a /\ f a = b) ->
    forall l b, has name Q l b <-> exists a, has name P l a /\ f a = b.
  Proof.
    intros H l b. unfold has. split.
    - intros (js & S & Hq). apply H in Hq as (a & Hp & E). exists a. split; [exists js; auto|exact E].
    - intros (a & (js & S & Hp) & E). exists js. split; [exact S|]. apply H. exists a. auto.
  Qed.
  Lemma struct_map {A B} (P : list (bytes * json) -> A -> Prop) (Q : list (bytes * json) -> B -> Prop) (f : A -> B) :
    (forall l b, Q l b <-> exists a, P l a /\ f a = b) ->
    forall js o, struct_field Q js o <-> exists a, struct_field P js a /\ option_map f a = o.
  Proof.
    intros H js o. unfold struct_field.
    assert (G : Forall (fun j => j = JNull \/ exists l x, j = JObj l /\ Q l x) js <->
                Forall (fun j => j = JNull \/ exists l x, j = JObj l /\ P l x) js).
    { split; apply Forall_impl; intros j [->|(l & x & -> & Hx)]; auto; right.
      - apply H in Hx as (a & Ha & _). exists l, a. auto.
      - exists l, (f x). split; [reflexivity|]. apply H. exists x. auto. }
    rewrite G. split.
    - intros [F M]. destruct (merge js) as [l|].
      + destruct M as (x & Hx & ->). apply H in Hx as (a & Ha & <-). exists (Some a). split; [|reflexivity].
        split; [exact F|]. exists a. auto.
      + subst o. exists None. auto.
    - intros (a & [F M] & <-). split; [exact F|]. destruct (merge js) as [l|].
      + destruct M as (x & Hx & ->). exists (f x). split; [apply H; exists x; auto|reflexivity].
      + subst a. reflexivity.
  Qed.

  Definition app_of (a : dens app_fields) : Z * Z := let '(n, (e, _)) := a in (n, e).
  Definition conn_of (c : dens conn_fields) : conn_info := let '(x, (y, (u, (s, _)))) := c in ConnInfo x y u s.
  Definition bbr_of (b : dens bbr_fields) : bbr_info * Z :=
    let '(bw, (rtt, (pg, (cg, (e, _))))) := b in (BBRInfo bw rtt pg cg, e).
  Definition tcp7_of (t : dens (tcp7_fields k)) : tcp_info * Z :=
    let '(l, (e, _)) := unpack (k_tcp k) elapsed_fields t in (tcp_of l, e).

  Lemma app_part l a : app_members l a <-> exists v, fills app_fields l v /\ app_of v = a.
  Proof.
    unfold app_members. cbn [app_fields fills]. split.
    - intros (H1 & H2). exists (fst a, (snd a, tt)). split; [|destruct a; reflexivity]. split; [exact H1|]. split; [exact H2|exact I].
    - intros ((n & e & u) & (H1 & H2 & _) & <-). split; [exact H1|exact H2].
  Qed.
  Lemma conn_part l c : conn_members k l c <-> exists v, fills conn_fields l v /\ conn_of v = c.
  Proof.
    unfold conn_members. cbn [conn_fields fills]. split.
    - intros (H1 & H2 & H3 & H4). exists (conn_struct c). split; [|destruct c; reflexivity].
      split; [exact H1|]. split; [exact H2|]. split; [exact H3|]. split; [exact H4|exact I].
    - intros ((x & y & u & s & t) & (H1 & H2 & H3 & H4 & _) & <-).
      split; [exact H1|]. split; [exact H2|]. split; [exact H3|exact H4].
  Qed.
  Lemma bbr_part l b : bbr_members l b <-> exists v, fills bbr_fields l v /\ bbr_of v = b.
  Proof.
    unfold bbr_members. cbn [bbr_fields elapsed_fields fills]. split.
    - intros (H1 & H2 & H3 & H4 & H5). exists (bbr_struct b). split; [|destruct b as [[] ?]; reflexivity].
      split; [exact H1|]. split; [exact H2|]. split; [exact H3|]. split; [exact H4|]. split; [exact H5|exact I].
    - intros ((x & y & u & s & t & w) & (H1 & H2 & H3 & H4 & H5 & _) & <-).
      split; [exact H1|]. split; [exact H2|]. split; [exact H3|]. split; [exact H4|exact H5].
  Qed.
  Definition tcp_rel (l : list (bytes * json)) (f : bytes * (Z * Z)) (v : bytes * Z) : Prop :=
    fst v = fst f /\ has (fst f) (int_field (fst (snd f)) (snd (snd f))) l (snd v).
  Lemma ints_part l rest q : forall vs (w : dens rest),
    (Forall2 (tcp_rel l) q vs /\ fills rest l w) <->
    exists v, fills (ints q rest) l v /\ unpack q rest v = (vs, w).
  Proof.
    induction q as [|[name [lo hi]] q IH]; intros vs w.
    - cbn [ints unpack]. split.
      + intros [F H]. inversion F; subst. exists w. auto.
      + intros (v & H & [= <- <-]). split; [constructor|exact H].
    - cbn [ints]. split.
      + intros [F H]. inversion F as [|? v ? vs' [E Hv] F']; subst. cbn [fst snd] in E, Hv.
        destruct (proj1 (IH vs' w) (conj F' H)) as (v' & Hf & Eu). exists (snd v, v'). cbn [fills fst snd]. split; [split; [exact Hv|exact Hf]|].
        cbn [unpack snd fst]. rewrite Eu. destruct v as [n z]. cbn [fst snd] in *. subst n. reflexivity.
      + intros ((z & v') & [Hz Hf] & Eu). cbn [fst snd] in Hz, Hf. cbn [unpack snd fst] in Eu.
        destruct (unpack q rest v') as [a b] eqn:E. pose proof (f_equal fst Eu) as G1. pose proof (f_equal snd Eu) as G2. cbn [fst snd] in G1, G2.
        subst vs b. destruct (proj2 (IH a w) (ex_intro _ v' (conj Hf E))) as [F H].
        split; [|exact H]. constructor; [split; [reflexivity|exact Hz]|exact F].
  Qed.
  Lemma tcp_part l t : tcp_members k l t <-> exists v, fills (tcp7_fields k) l v /\ tcp7_of v = t.
  Proof.
    unfold tcp_members. split.
    - intros ((vs & F & E) & H).
      destruct (proj1 (ints_part l elapsed_fields (k_tcp k) vs (snd t, tt))) as (v & Hf & Eu).
      { split; [exact F|]. cbn [elapsed_fields fills fst snd]. split; [exact H|exact I]. }
      exists v. split; [exact Hf|]. unfold tcp7_of. rewrite Eu. destruct t as [t e]. cbn [fst] in E. rewrite E. reflexivity.
    - intros (v & Hf & <-). unfold tcp7_of. destruct (unpack (k_tcp k) elapsed_fields v) as [vs [e u]] eqn:E.
      destruct (proj2 (ints_part l elapsed_fields (k_tcp k) vs (e, u)) (ex_intro _ v (conj Hf E))) as [F [H _]].
      cbn [fst snd]. split; [exists vs; auto|exact H].
  Qed.

  Lemma measurement_part l m : measurement_members k l m <->
    exists v, fills (measurement_fields k) l v /\ measurement_of k v = m.
  Proof.
    unfold measurement_members.
    rewrite (has_map _ _ _ _ (struct_map _ _ _ app_part)), (has_map _ _ _ _ (struct_map _ _ _ conn_part)),
      (has_map _ _ _ _ (struct_map _ _ _ bbr_part)), (has_map _ _ _ _ (struct_map _ _ _ tcp_part)).
    split.
    - intros ((a & Ha & Ea) & (c & Hc & Ec) & (b & Hb & Eb) & (t & Ht & Et)). exists (a, (c, (b, (t, tt)))). split.
      + cbn [measurement_fields fills fst snd fillt].
        split; [exact Ha|]. split; [exact Hc|]. split; [exact Hb|]. split; [exact Ht|exact I].
      + destruct m as [ma mc mb mt]. cbn in Ea, Ec, Eb, Et. rewrite <- Ea, <- Ec, <- Eb, <- Et. reflexivity.
    - intros ((a & c & b & t & u) & (Ha & Hc & Hb & Ht & _) & <-). cbn [fst snd] in *.
      split; [exists a; split; [exact Ha|reflexivity]|]. split; [exists c; split; [exact Hc|reflexivity]|].
      split; [exists b; split; [exact Hb|reflexivity]|exists t; split; [exact Ht|reflexivity]].
  Qed.

  Section Accepted.
    Hypothesis K : codec_ok k.

    Lemma names_ints q rest : names (ints q rest) = map fst q ++ names rest.
    Proof. induction q as [|[n [a b]] q IH]; [reflexivity|]. cbn [ints names map app fst]. f_equal. exact IH. Qed.
    Lemma folds_ints q : Forall (fun f => fst f <> [] /\ Forall letter (fst f) /\
        - 2 ^ 63 <= fst (snd f) <= 0 /\ 0 <= snd (snd f) < 2 ^ 63) q ->
      NoDup (map (map lower_case) (map fst q ++ [str "ElapsedTime"])) -> folds (ints q elapsed_fields).
    Proof.
      induction 1 as [|[name [lo hi]] q (_ & L & Lo & Hi) F IH]; intros N.
      - cbn [ints elapsed_fields folds]. split; [apply letterb_spec; reflexivity|]. split; [cbn; tauto|]. split; [cbn; lia|exact I].
      - cbn [map app] in N. apply NoDup_cons_iff in N as [N1 N2]. cbn [ints folds fst snd] in *. split; [exact L|].
        split; [|split; [cbn [foldt]; lia|apply IH, N2]]. intros C. apply N1. rewrite names_ints in C. exact C.
    Qed.
    Lemma folds_measurement : folds (measurement_fields k).
    Proof.
      assert (T : folds (tcp7_fields k)) by (destruct K as (_ & _ & K3 & K4 & _); apply folds_ints; assumption).
      assert (L : forall s, letterb s = true -> Forall letter s) by exact letterb_spec.
      cbn [measurement_fields folds foldt]. 
      assert (D : forall x l, negb (existsb (beqb x) l) = true -> ~ In x l).
      { intros x l H C. apply negb_true_iff in H. rewrite <- not_true_iff_false in H. apply H, existsb_exists.
        exists x. split; [exact C|]. apply beqb_spec. reflexivity. }
      assert (R : - 2 ^ 63 <= - 2 ^ 63 /\ 2 ^ 63 - 1 < 2 ^ 63) by lia.
      assert (R2 : - 2 ^ 63 <= 0 /\ 2 ^ 32 - 1 < 2 ^ 63) by lia.
      split; [apply L; reflexivity|]. split; [apply D; reflexivity|]. split.
      { split; [apply L; reflexivity|]. split; [apply D; reflexivity|]. split; [exact R|].
        split; [apply L; reflexivity|]. split; [apply D; reflexivity|]. split; [exact R|exact I]. }
      split; [apply L; reflexivity|]. split; [apply D; reflexivity|]. split.
      { repeat (split; [apply L; reflexivity|]; split; [apply D; reflexivity|]; split; [exact I|]). exact I. }
      split; [apply L; reflexivity|]. split; [apply D; reflexivity|]. split.
      { repeat (split; [apply L; reflexivity|]; split; [apply D; reflexivity|]; split; [first [exact R|exact R2]|]). exact I. }
      split; [apply L; reflexivity|]. split; [apply D; reflexivity|]. split; [exact T|exact I].
    Qed.

    Lemma decode_spec text m : bytes_ok text -> (decode_measurement k text = Some m <-> measurement_text k text m).
    Proof.
      intros B. unfold decode_measurement, measurement_text.
      assert (U : forall v, _) by exact (fun v => unmarshal_spec (measurement_fields k) text v folds_measurement B).
      split.
      - destruct (unmarshal_into k (measurement_fields k) (zeros (measurement_fields k)) text) as [v|] eqn:E; [|discriminate].
        intros [= <-]. destruct (proj1 (U v) eq_refl) as [[J ->]|(l & J & F)]; [left; split; [exact J|reflexivity]|].
        right. exists l. split; [exact J|]. apply measurement_part. exists v. auto.
      - intros [[J ->]|(l & J & M)].
        + rewrite (proj2 (U (zeros (measurement_fields k)))); [reflexivity|]. left. auto.
        + apply measurement_part in M as (v & F & <-). rewrite (proj2 (U v)); [reflexivity|]. right. exists l. auto.
    Qed.
  End Accepted.

  (** ** The documents *)
  Section Documents.
    Hypothesis K : codec_ok k.

    Lemma nodup_lower (l : list bytes) : NoDup (map (map lower_case) l) -> NoDup l.
    Proof. apply NoDup_map_inv. Qed.
    Lemma dists_ints q rest : Forall (fun f => fst f <> [] /\ Forall letter (fst f) /\
        - 2 ^ 63 <= fst (snd f) <= 0 /\ 0 <= snd (snd f) < 2 ^ 63) q ->
      NoDup (map fst q ++ names rest) -> dists rest -> dists (ints q rest).
    Proof.
      induction 1 as [|[name [lo hi]] q (_ & L & Lo & Hi) F IH]; intros N R; [exact R|].
      cbn [map app] in N. apply NoDup_cons_iff in N as [N1 N2]. cbn [ints dists distt fst snd] in *.
      split; [rewrite names_ints; exact N1|]. split; [lia|apply IH; assumption].
    Qed.
    Lemma dists_tcp : dists (tcp_fields k) /\ dists (tcp7_fields k).
    Proof.
      destruct K as (_ & _ & K3 & K4 & _). apply nodup_lower in K4. split; apply dists_ints; auto.
      - cbn [names]. rewrite app_nil_r. apply NoDup_remove_1 in K4. rewrite app_nil_r in K4. exact K4.
      - exact I.
      - cbn [elapsed_fields dists distt]. split; [intros []|]. split; [cbn; lia|exact I].
    Qed.
    Ltac notin := let C := fresh in intros C; cbn [names In] in C;
      repeat match type of C with _ \/ _ => destruct C as [C|C]; [revert C; vm_compute; discriminate|] end; destruct C.
    Ltac dst := repeat first [assumption | exact I | notin | (split; lia) | split].
    Lemma R64 : - 2 ^ 63 <= - 2 ^ 63 /\ 2 ^ 63 - 1 < 2 ^ 63. Proof. lia. Qed.
    Lemma R32 : - 2 ^ 63 <= 0 /\ 2 ^ 32 - 1 < 2 ^ 63. Proof. lia. Qed.
    Ltac level := repeat (split; [notin|]; split; [first [exact I|exact R64|exact R32|assumption|idtac]|]); try exact I.

    Lemma dists_nv : dists name_value_fields.
    Proof. cbn [name_value_fields dists distt]. level. Qed.
    Lemma dists_measurement : dists (measurement_fields k).
    Proof.
      destruct dists_tcp as [_ T].
      assert (A : dists app_fields) by (unfold app_fields; cbn [dists distt int64]; level).
      assert (C : dists conn_fields) by (unfold conn_fields; cbn [dists distt]; level).
      assert (B : dists bbr_fields) by (unfold bbr_fields, elapsed_fields; cbn [dists distt int64 uint32]; level).
      unfold measurement_fields. cbn [dists distt]. level.
    Qed.
    Lemma dists_archival : dists (archival_fields k).
    Proof.
      pose proof dists_nv as N. pose proof dists_measurement as M. unfold archival_fields. cbn [dists distt]. level.
    Qed.
    Lemma dists7 : dists (ndt7_fields k).
    Proof.
      pose proof dists_archival as A. unfold ndt7_fields, header_fields. cbn [dists distt int64]. level.
    Qed.
    Lemma dists5 : dists (ndt5_fields k).
    Proof.
      destruct dists_tcp as [T _]. pose proof dists_nv as N.
      assert (C : dists control_fields) by (unfold control_fields; cbn [dists distt]; level).
      assert (U : dists c2s_fields) by (unfold c2s_fields; cbn [dists distt int64]; level).
      assert (D : dists (s2c_fields k)) by (unfold s2c_fields; cbn [dists distt int64 uint32]; level).
      unfold ndt5_fields, header_fields. cbn [dists distt int64]. level.
    Qed.

    Lemma unmarshal_tree fs v d j l w : dists fs -> fits_fields k fs v -> bytes_ok (d ++ w) -> ws w ->
      jval 0 d (JObj l) -> trees k fs v l -> j = d ++ w -> unmarshal_into k fs (zeros fs) j = Some v.
    Proof.
      intros D F B W J T ->. unfold unmarshal_into.
      assert (P : json_parse (d ++ w) = Some (JObj l)) by (apply json_parse_spec; [exact B|apply text_of_val; assumption]).
      rewrite P. rewrite (proj2 read_back fs v l D F T). reflexivity.
    Qed.

    Lemma back5 text r doc : record_bytes text r -> encode5 k text r = Some doc ->
      fits_fields k (ndt5_fields k) (ndt5_struct k text r) ->
      unmarshal_into k (ndt5_fields k) (zeros (ndt5_fields k)) doc = Some (ndt5_struct k text r).
    Proof.
      intros B H F. unfold encode5 in H. destruct (marshal _ _ _) as [d|] eqn:E; [|discriminate].
      cbn [option_map] in H. injection H as <-.
      destruct (marshal_tree k _ _ _ (k_text k K) (named5 k K) (depth5 k) (bys5 k K text r B) E) as (l & J & T & Bd).
      eapply unmarshal_tree with (w := [10]); eauto using dists5.
      - apply bytes_ok_app. split; [exact Bd|bok].
      - repeat constructor; right; right; left; reflexivity.
    Qed.
    Lemma back7 r doc : result7_bytes r -> encode7 k r = Some doc ->
      fits_fields k (ndt7_fields k) (ndt7_struct k r) ->
      unmarshal_into k (ndt7_fields k) (zeros (ndt7_fields k)) doc = Some (ndt7_struct k r).
    Proof.
      intros B E F. unfold encode7 in E.
      destruct (marshal_tree k _ _ _ (k_text k K) (named7 k K) (depth7 k) (bys7 k K r B) E) as (l & J & T & Bd).
      eapply unmarshal_tree with (w := []); eauto using dists7; try rewrite app_nil_r; auto. constructor.
    Qed.
    Lemma back_message m doc : measurement_bytes m -> encode_measurement k m = Some doc ->
      fits_fields k (measurement_fields k) (measurement_struct k m) ->
      decode_measurement k doc = Some (measurement_of k (measurement_struct k m)).
    Proof.
      intros B H F. unfold encode_measurement in H. destruct (marshal _ _ _) as [d|] eqn:E; [|discriminate].
      cbn [option_map] in H. injection H as <-.
      destruct (marshal_tree k _ _ _ (k_text k K) (named_measurement k K) ltac:(rewrite depth_measurement; lia) (bys_measurement k m B) E)
        as (l & J & T & Bd).
      unfold decode_measurement. erewrite unmarshal_tree with (w := [10]); eauto using dists_measurement; [reflexivity| |].
      - apply bytes_ok_app. split; [exact Bd|bok].
      - repeat constructor; right; right; left; reflexivity.
    Qed.

    Lemma unpack_pack value q rest (w : dens rest) :
      unpack q rest (pack value q rest w) = (map (fun f => (fst f, value (fst f))) q, w).
    Proof.
      induction q as [|[n [lo hi]] q IH]; [reflexivity|]. cbn [unpack pack map fst snd]. rewrite IH. reflexivity.
    Qed.
    Lemma value_of vs name : tcp_value (tcp_of vs) name = int_of vs name.
    Proof.
      unfold tcp_value, int_of, tcp_of. cbn [ti_fields]. induction vs as [|[n z] vs IH]; [reflexivity|].
      cbn [map find fst snd]. destruct (beqb n name); [reflexivity|exact IH].
    Qed.
    Lemma int_of_self vs : NoDup (map fst vs) -> map (fun f => (f, int_of vs f)) (map fst vs) = vs.
    Proof.
      intros N. rewrite map_map.
      assert (G : forall l, (forall f, In f l -> In f vs) -> map (fun x : bytes * Z => (fst x, int_of vs (fst x))) l = l).
      { induction l as [|[n z] l IH]; intros I; [reflexivity|]. cbn [map fst]. f_equal; [|apply IH; intros f Hf; apply I; right; exact Hf].
        f_equal. assert (J : In (n, z) vs) by (apply I; left; reflexivity). clear -N J. unfold int_of.
        induction vs as [|[a b] vs IH]; [destruct J|]. cbn [map fst] in N. apply NoDup_cons_iff in N as [N1 N2].
        cbn [find fst]. destruct (beqb a n) eqn:E.
        - apply beqb_spec in E. subst a. destruct J as [J|J]; [congruence|]. exfalso. apply N1, (in_map fst _ _ J).
        - destruct J as [J|J]; [|auto]. injection J as -> ->. rewrite (proj2 (beqb_spec n n) eq_refl) in E. discriminate. }
      apply G. auto.
    Qed.
    Lemma measurement_self m : (forall t e, m_tcp m = Some (t, e) -> tcp_like k t) -> measurement_of k (measurement_struct k m) = m.
    Proof.
      intros H. destruct m as [a c b t]. unfold measurement_of, measurement_struct. cbn [m_app m_conn m_bbr m_tcp] in *. f_equal.
      - destruct a as [[n e]|]; reflexivity.
      - destruct c as [[]|]; reflexivity.
      - destruct b as [[[] e]|]; reflexivity.
      - destruct t as [[t e]|]; [|reflexivity]. cbn [option_map]. unfold tcp7_struct. cbn [fst snd]. rewrite unpack_pack.
        destruct (H t e eq_refl) as (vs & E & ->).
        assert (N : NoDup (map fst vs)).
        { rewrite E. destruct K as (_ & _ & _ & K4 & _). apply nodup_lower in K4.
          apply NoDup_remove_1 in K4. rewrite app_nil_r in K4. exact K4. }
        assert (V : map (fun f => (fst f, tcp_value (tcp_of vs) (fst f))) (k_tcp k) = vs); [|rewrite V; reflexivity].
        transitivity (map (fun f => (f, int_of vs f)) (map fst vs)); [|apply int_of_self, N].
        rewrite E, map_map. apply map_ext. intros f. rewrite value_of. reflexivity.
    Qed.
  End Documents.

  (** ** What clients send cannot keep a result from being stored *)
  Section Storable.
    Hypothesis K : codec_ok k.
    Hypothesis RT : forall s n, k_read_time k s = Some n -> k_time k n <> None.
    Hypothesis ZT : k_time k zero_time <> None.

    Lemma decoded_times text m : bytes_ok text -> decode_measurement k text = Some m -> Forall (printable k) (measurement_times m).
    Proof.
      intros B H. apply (decode_spec K text m B) in H. unfold measurement_times.
      destruct H as [[_ ->]|(l & _ & _ & C & _)]; [constructor|].
      destruct (m_conn m) as [c|]; [|constructor]. constructor; [|constructor].
      destruct C as (js & _ & _ & M). destruct (merge js) as [l'|]; [|discriminate].
      destruct M as (c' & (_ & _ & _ & T) & [= <-]). destruct T as (js' & _ & _ & [[_ E]|(j1 & j & j2 & _ & (s & _ & E) & _)]).
      - unfold printable. rewrite E. exact ZT.
      - apply (RT _ _ E).
    Qed.
    Lemma storable r : Forall (printable k) (server_times r) ->
      Forall (fun m => exists text, bytes_ok text /\ decode_measurement k text = Some m) (client_measurements r) ->
      encode7 k r <> None.
    Proof.
      intros S C E. apply fails7 in E. apply Exists_exists in E as (t & It & E).
      unfold server_times in S. unfold client_measurements in C. apply Forall_app in C as [C1 C2].
      rewrite !Forall_app in S. destruct S as (S0 & S1 & S2). unfold times7 in It. rewrite !in_app_iff in It.
      assert (G : forall o, Forall (printable k) (part_times o) ->
        Forall (fun m => exists text, bytes_ok text /\ decode_measurement k text = Some m) (part_client o) ->
        In t (archival_times o) -> printable k t).
      { intros [a|] P Q I; [|destruct I]. cbn [part_times part_client archival_times] in *. rewrite Forall_app in P. destruct P as [P1 P2].
        rewrite !in_app_iff in I. destruct I as [I|[I|I]].
        - rewrite Forall_forall in P1. apply P1, I.
        - rewrite Forall_forall in P2. apply P2, I.
        - apply in_flat_map in I as (m & Im & I). rewrite Forall_forall in Q. destruct (Q m Im) as (text & B & D).
          pose proof (decoded_times text m B D) as F. rewrite Forall_forall in F. apply F, I. }
      destruct It as [It|[It|It]].
      - rewrite Forall_forall in S0. apply (S0 t It E).
      - apply (G _ S1 C1 It E).
      - apply (G _ S2 C2 It E).
    Qed.
  End Storable.
End Read.

(** ** The receiver *)
Lemma texts_app a b : texts_of (a ++ b) = texts_of a ++ texts_of b.
Proof. apply flat_map_app. Qed.
Lemma texts_in d l : In d (texts_of l) -> In (IText d) l.
Proof.
  unfold texts_of. rewrite in_flat_map. intros (i & I & H). destruct i; try destruct H as [].
  - subst. exact I.
  - destruct H.
Qed.
Lemma measurements_texts k kind l : codec_ok k -> (forall d, In (IText d) l -> bytes_ok d) ->
  Forall (fun i => ~ fatal (decode_measurement k) kind i) l ->
  Forall2 (measurement_text k) (texts_of l) (measurements_of (decode_measurement k) l).
Proof.
  intros K B F. induction F as [|i l H F IH]; [constructor|].
  assert (IH' := IH (fun d I => B d (or_intror I))). destruct i; try exact IH'.
  cbn [texts_of measurements_of flat_map app]. cbn [fatal] in H.
  destruct (decode_measurement k data) as [m|] eqn:E; [|contradiction H; reflexivity].
  cbn [app]. constructor; [|exact IH']. apply (decode_spec k K); [apply B; left; reflexivity|exact E].
Qed.
Lemma receiver_texts : forall k fuel proto kind s tr s' r, codec_ok k ->
  run (receiver (decode_measurement k) fuel proto kind s) tr (s', r) ->
  (forall p, In (IPong p) (inputs tr) -> bytes_ok p) ->
  (forall d, In (IText d) (inputs tr) -> bytes_ok d) ->
  exists texts bad, texts_of (inputs tr) = texts ++ bad /\ Forall2 (measurement_text k) texts (stored tr) /\
    (bad = [] \/ exists d, bad = [d] /\ r = Ok tt /\ forall m, ~ measurement_text k d m).
Proof.
  intros k fuel proto kind s tr s' r K H P B.
  destruct (receiver_facts _ _ _ _ _ _ _ _ H P) as (t0 & e & rest & -> & [(_ & -> & ->)|(_ & S & D)]).
  - exists [], []. split; [reflexivity|]. split; [constructor|left; reflexivity].
  - cbn [inputs stored flat_map input_of_event app] in *. fold (inputs rest) in *. fold (stored rest) in *. rewrite S.
    destruct D as [(_ & F & _)|(-> & l & i & ws & E & F & Fi & _ & _)].
    + exists (texts_of (inputs rest)), []. rewrite app_nil_r. split; [reflexivity|].
      split; [apply (measurements_texts k kind); assumption|left; reflexivity].
    + rewrite E in *. exists (texts_of l), (texts_of [i]). split; [apply texts_app|].
      assert (Bl : forall d, In (IText d) l -> bytes_ok d) by (intros d I; apply B, in_or_app; left; exact I).
      assert (M : measurements_of (decode_measurement k) (l ++ [i]) = measurements_of (decode_measurement k) l).
      { unfold measurements_of. rewrite flat_map_app. cbn [flat_map]. destruct i; try (now rewrite !app_nil_r).
        cbn [fatal] in Fi. rewrite Fi. now rewrite !app_nil_r. }
      rewrite M. split; [apply (measurements_texts k kind); assumption|].
      destruct i; try (left; reflexivity). right. exists data. split; [reflexivity|]. split; [reflexivity|].
      intros m Hm. cbn [fatal] in Fi. apply (decode_spec k K data m) in Hm; [congruence|].
      apply B, in_or_app. right. left. reflexivity.
Qed.
