(** The encoder writes JSON texts of the specified shape. *)
From Coq Require Import String ZArith List Bool Lia.
From Coq Require Import ZifyBool ZifyNat ZifyN.
From Verif Require Import Base BaseFacts GoStrings TextSpec TextProofs JsonSpec GoJSON JsonProofs GoFloat
  MessagerModel MessagerSpec MessagerProofs ReceiverProofs Web100Model Effect QueryModel ControlModel Ndt7Model
  CodecModel CodecSpec.
Import ListNotations.
Open Scope Z_scope.
Ltac Zify.zify_post_hook ::= Z.div_mod_to_equations.

Scheme gtype_rect2 := Induction for gtype Sort Prop
  with gfields_rect2 := Induction for gfields Sort Prop.
Combined Scheme schema_ind from gtype_rect2, gfields_rect2.

Ltac bok := apply bytes_okb_spec; reflexivity.

(** ** Plain texts *)

Definition plain (s : bytes) : Prop := Forall (fun b => 32 <= b < 128) s.

Lemma plain_scalars s : plain s -> Forall scalar s /\ flat_map utf8_char s = s.
Proof.
  induction 1 as [|b s H HF [IH1 IH2]]; [split; [constructor|reflexivity]|]. split.
  - constructor; [unfold scalar; lia|exact IH1].
  - cbn [flat_map]. rewrite IH2. unfold utf8_char. replace (b <? 128) with true by lia. reflexivity.
Qed.
Lemma plain_repaired s : plain s -> repaired s s.
Proof.
  intros P. destruct (plain_scalars s P) as [H1 H2]. pose proof (repaired_valid s H1) as R.
  rewrite H2 in R. exact R.
Qed.
Lemma plain_bytes s : plain s -> bytes_ok s.
Proof. apply Forall_impl. unfold byte_ok. intros. lia. Qed.

Lemma plain_jchars s : plain s -> Forall (fun b => b <> 34 /\ b <> 92) s -> jchars s s.
Proof.
  induction 1 as [|b s H HF IH]; intros N; [constructor|]. inversion N as [|? ? [N1 N2] Ns]; subst.
  assert (E : forall t, b :: t = utf8_char b ++ t).
  { intros t. unfold utf8_char. replace (b <? 128) with true by lia. reflexivity. }
  rewrite (E s). apply jc_char; [unfold scalar; lia|lia|exact N1|exact N2|apply IH, Ns].
Qed.

Lemma time_chars w : Forall time_char w -> plain w /\ Forall (fun b => b <> 34 /\ b <> 92) w.
Proof.
  unfold time_char. cbn [In]. induction 1 as [|b w H HF [I1 I2]]; split; constructor; auto; lia.
Qed.

(** ** Trees *)

Section Trees.
  Variable k : codec.

  (** The JSON value of a Go value, by type. *)
  Fixpoint treet (t : gtype) : dent t -> json -> Prop :=
    match t with
    | TStr => is_text
    | TInt _ _ => is_int
    | TFloat => is_float k
    | TTime => is_time k
    | TPtr fs => fun o j =>
        match o with None => j = JNull | Some v => exists l, j = JObj l /\ trees fs v l end
    | TSlice fs => array (fun v j => exists l, j = JObj l /\ trees fs v l)
    end
  with trees (fs : gfields) : dens fs -> list (bytes * json) -> Prop :=
    match fs with
    | FNil => fun _ l => l = []
    | FCons name omit t r => fun v l =>
        if omit && empty t (fst v) then trees r (snd v) l
        else exists j l', l = (name, j) :: l' /\ treet t (fst v) j /\ trees r (snd v) l'
    end.

  (** Strings of bytes; plain names. *)
  Fixpoint byt (t : gtype) : dent t -> Prop :=
    match t with
    | TStr => bytes_ok
    | TInt _ _ | TFloat | TTime => fun _ => True
    | TPtr fs => fun o => match o with None => True | Some v => bys fs v end
    | TSlice fs => Forall (bys fs)
    end
  with bys (fs : gfields) : dens fs -> Prop :=
    match fs with
    | FNil => fun _ => True
    | FCons _ _ t r => fun v => byt t (fst v) /\ bys r (snd v)
    end.
  Fixpoint namedt (t : gtype) : Prop :=
    match t with TPtr fs | TSlice fs => nameds fs | _ => True end
  with nameds (fs : gfields) : Prop :=
    match fs with FNil => True | FCons name _ t r => plain name /\ namedt t /\ nameds r end.

  (** Nesting. *)
  Fixpoint deptht (t : gtype) : Z :=
    match t with TPtr fs => 1 + depths fs | TSlice fs => 2 + depths fs | _ => 0 end
  with depths (fs : gfields) : Z :=
    match fs with FNil => 0 | FCons _ _ t r => Z.max (deptht t) (depths r) end.

  Lemma depth_nonneg : (forall t, 0 <= deptht t) /\ (forall fs, 0 <= depths fs).
  Proof. apply schema_ind; intros; cbn [deptht depths]; lia. Qed.
  Definition depths_nonneg := proj2 depth_nonneg.

  Definition ktext : Prop :=
    (forall x, f_finite x = true -> jnumber (k_float k x)) /\
    (forall n w, k_time k n = Some w -> Forall time_char w).

  (** The text of a member. *)
  Definition member_text (d : Z) (m : bytes) (kv : bytes * json) : Prop :=
    exists raw x, m = 34 :: raw ++ 34 :: 58 :: x /\ jchars raw (fst kv) /\ jval d x (snd kv) /\ bytes_ok m.

  Lemma join_members d ms l : Forall2 (member_text d) ms l -> l <> [] -> jmembers d (join (str ",") ms) l.
  Proof.
    induction 1 as [|m kv ms l (raw & x & -> & J & V & _) F IH]; [congruence|]. intros _. destruct kv as [key j]. cbn [fst snd] in *.
    destruct ms as [|m' ms'].
    - inversion F; subst. cbn [join].
      replace (34 :: raw ++ 34 :: 58 :: x) with (34 :: raw ++ 34 :: [] ++ 58 :: [] ++ x ++ [])
        by (cbn; now rewrite app_nil_r).
      apply jm_one; auto; constructor.
    - destruct l as [|kv' l']; [inversion F|].
      change (join (str ",") ((34 :: raw ++ 34 :: 58 :: x) :: m' :: ms'))
        with ((34 :: raw ++ 34 :: 58 :: x) ++ str "," ++ join (str ",") (m' :: ms')).
      replace ((34 :: raw ++ 34 :: 58 :: x) ++ str "," ++ join (str ",") (m' :: ms'))
        with (34 :: raw ++ 34 :: [] ++ 58 :: [] ++ x ++ [] ++ 44 :: [] ++ join (str ",") (m' :: ms'))
        by (cbn [app]; rewrite <- !app_assoc; reflexivity).
      apply jm_more; auto; try constructor. apply IH. discriminate.
  Qed.

  Lemma join_elems d es js : Forall2 (jval d) es js -> js <> [] -> jelems d (join (str ",") es) js.
  Proof.
    induction 1 as [|e j es js V F IH]; [congruence|]. intros _. destruct es as [|e' es'].
    - inversion F; subst. cbn [join]. rewrite <- (app_nil_r e). apply je_one; [exact V|constructor].
    - destruct js as [|j' js']; [inversion F|].
      change (join (str ",") (e :: e' :: es')) with (e ++ str "," ++ join (str ",") (e' :: es')).
      change (e ++ str "," ++ join (str ",") (e' :: es')) with (e ++ [] ++ 44 :: [] ++ join (str ",") (e' :: es')).
      apply je_more; [exact V|constructor|constructor|apply IH; discriminate].
  Qed.

  Lemma join_bytes (ms : list bytes) : Forall bytes_ok ms -> bytes_ok (join (str ",") ms).
  Proof.
    induction 1 as [|m ms H F IH]; [constructor|]. destruct ms as [|m' ms']; [exact H|].
    change (join (str ",") (m :: m' :: ms')) with (m ++ str "," ++ join (str ",") (m' :: ms')).
    apply bytes_ok_app. split; [exact H|]. apply bytes_ok_app. split; [|exact IH].
    bok.
  Qed.

  Lemma object_val d ms l : d < 10000 -> Forall2 (member_text (d + 1)) ms l -> jval d (object_text ms) (JObj l).
  Proof.
    intros D F. unfold object_text. destruct l as [|kv l].
    - inversion F; subst. change (str "{" ++ join (str ",") [] ++ str "}") with (123 :: [] ++ [125]).
      apply jv_obj0; [exact D|constructor].
    - change (str "{" ++ join (str ",") ms ++ str "}") with (123 :: [] ++ join (str ",") ms ++ [125]).
      apply jv_obj; [exact D|constructor|]. apply join_members; [exact F|discriminate].
  Qed.
  Lemma object_bytes d ms l : Forall2 (member_text d) ms l -> bytes_ok (object_text ms).
  Proof.
    intros F. unfold object_text. apply bytes_ok_app. split; [bok|].
    apply bytes_ok_app. split; [|bok]. apply join_bytes.
    induction F as [|m kv ms l (raw & x & E & _ & _ & B) F IH]; constructor; auto.
  Qed.

  Lemma itoa_bytes n : bytes_ok (itoa n).
  Proof.
    destruct (itoa_plain n) as [_ H]. rewrite <- H.
    destruct (itoa_plain n) as [S _]. clear H. induction S as [|c l Hc F IH]; [constructor|].
    cbn [flat_map]. apply bytes_ok_app. split; [apply utf8_char_ok, Hc|exact IH].
  Qed.

  Lemma jnumber_bytes w : jnumber w -> bytes_ok w.
  Proof.
    assert (D : forall ds, digits ds -> bytes_ok ds).
    { intros ds. apply Forall_impl. unfold digit, byte_ok. intros. lia. }
    assert (C : forall c, 0 <= c < 256 -> byte_ok c) by (unfold byte_ok; lia).
    intros (sg & int & frac & exp & -> & S & I & F & E). repeat rewrite bytes_ok_app. repeat split.
    - destruct S as [->| ->]; bok.
    - destruct I as [->|(d & ds & -> & H & Hd)]; [bok|]. apply bytes_ok_cons. split; [apply C; lia|auto].
    - destruct F as [->|(ds & -> & H & _)]; [constructor|]. apply bytes_ok_cons. split; [apply C; lia|auto].
    - destruct E as [->|(e & s & ds & -> & He & Hs & H & _)]; [constructor|]. apply bytes_ok_cons.
      split; [apply C; lia|]. apply bytes_ok_app. split; [|auto].
      destruct Hs as [->|[->| ->]]; bok.
  Qed.

  Lemma collect_forall2 {A B} (f : A -> option B) l : forall r, collect (map f l) = Some r ->
    Forall2 (fun a b => f a = Some b) l r.
  Proof.
    induction l as [|a l IH]; intros r H; cbn [map collect] in H; [injection H as <-; constructor|].
    destruct (f a) as [b|] eqn:E; [|discriminate]. destruct (collect (map f l)) as [r'|]; [|discriminate].
    cbn [option_map] in H. injection H as <-. constructor; auto.
  Qed.

  Lemma enct_ptr fs (o : option (dens fs)) :
    enct k (TPtr fs) o = match o with None => Some (str "null") | Some v => option_map object_text (encs k fs v) end.
  Proof. reflexivity. Qed.
  Lemma enct_slice fs (l : list (dens fs)) :
    enct k (TSlice fs) l = match l with [] => Some (str "null")
      | _ => option_map array_text (collect (map (fun v => option_map object_text (encs k fs v)) l)) end.
  Proof. reflexivity. Qed.
  Lemma encs_cons name omit t r v :
    encs k (FCons name omit t r) v =
      if omit && empty t (fst v) then encs k r (snd v)
      else match enct k t (fst v) with
           | None => None
           | Some x => option_map (cons (json_string name ++ str ":" ++ x)) (encs k r (snd v))
           end.
  Proof. reflexivity. Qed.

  (** Every encoding is the text of a tree. *)
  Lemma enc_tree : ktext ->
    (forall t v x d, namedt t -> byt t v -> enct k t v = Some x -> 0 <= d -> d + deptht t <= 10000 ->
       exists j, jval d x j /\ treet t v j /\ bytes_ok x) /\
    (forall fs v ms d, nameds fs -> bys fs v -> encs k fs v = Some ms -> 0 <= d -> d + depths fs <= 10000 ->
       exists l, trees fs v l /\ Forall2 (member_text d) ms l).
  Proof.
    intros [KF KT].
    apply (schema_ind
      (fun t => forall v x d, namedt t -> byt t v -> enct k t v = Some x -> 0 <= d -> d + deptht t <= 10000 ->
         exists j, jval d x j /\ treet t v j /\ bytes_ok x)
      (fun fs => forall v ms d, nameds fs -> bys fs v -> encs k fs v = Some ms -> 0 <= d -> d + depths fs <= 10000 ->
         exists l, trees fs v l /\ Forall2 (member_text d) ms l)).
    - intros s x d _ B H _ _. cbn [enct] in H. injection H as <-. cbn [byt] in B.
      destruct (repaired_total s B) as [s' R]. exists (JStr s'). split; [|split].
      + apply json_string_jval; auto.
      + exists s'. auto.
      + apply json_string_ok, B.
    - intros lo hi n x d _ _ H _ _. cbn [enct] in H. injection H as <-. exists (JNum (itoa n)).
      split; [apply jv_num, itoa_jnumber|split; [reflexivity|apply itoa_bytes]].
    - intros f x d _ _ H _ _. cbn [enct] in H. destruct (f_finite f) eqn:Fi; [|discriminate]. injection H as <-.
      exists (JNum (k_float k f)). split; [apply jv_num, KF, Fi|split; [split; [exact Fi|reflexivity]|apply jnumber_bytes, KF, Fi]].
    - intros n x d _ _ H _ _. cbn [enct] in H. destruct (k_time k n) as [w|] eqn:E; [|discriminate].
      cbn [option_map] in H. injection H as <-. destruct (time_chars w (KT n w E)) as [P Q].
      exists (JStr w). split; [|split].
      + apply jv_str. apply plain_jchars; assumption.
      + exists w. auto.
      + apply bytes_ok_cons. split; [unfold byte_ok; lia|]. apply bytes_ok_app. split; [apply plain_bytes, P|].
        bok.
    - intros fs IH o x d N B H D L. rewrite enct_ptr in H. destruct o as [v|].
      + destruct (encs k fs v) as [ms|] eqn:E; [|discriminate]. cbn [option_map] in H. injection H as <-.
        cbn [namedt byt deptht] in *. pose proof (depths_nonneg fs).
        destruct (IH v ms (d + 1) N B E ltac:(lia) ltac:(lia)) as (l & T & F).
        exists (JObj l). split; [apply object_val; [lia|exact F]|split; [exists l; auto|apply (object_bytes _ _ _ F)]].
      + injection H as <-. exists JNull. split; [constructor|split; [reflexivity|bok]].
    - intros fs IH o x d N B H D L. rewrite enct_slice in H. destruct o as [|v o].
      + injection H as <-. exists JNull. split; [constructor|split; [reflexivity|bok]].
      + destruct (collect (map (fun v => option_map object_text (encs k fs v)) (v :: o))) as [es|] eqn:E; [|discriminate].
        cbn [option_map] in H. injection H as <-. apply collect_forall2 in E.
        cbn [namedt byt deptht] in *. pose proof (depths_nonneg fs).
        assert (G : exists js, Forall2 (jval (d + 1)) es js /\
                    Forall2 (fun v j => exists l, j = JObj l /\ trees fs v l) (v :: o) js /\ Forall bytes_ok es).
        { revert B E. generalize (v :: o). clear v o. intros vs B E.
          induction E as [|v e vs es Hv E IHE]; [exists []; auto|].
          inversion B as [|? ? Bv Bs]; subst. destruct (IHE Bs) as (js & F1 & F2 & F3).
          destruct (encs k fs v) as [ms|] eqn:Em; [|discriminate]. cbn [option_map] in Hv. injection Hv as <-.
          destruct (IH v ms (d + 1 + 1) N Bv Em ltac:(lia) ltac:(lia)) as (l & T & F).
          exists (JObj l :: js). split; [|split]; constructor; auto.
          - apply object_val; [lia|exact F].
          - exists l. auto.
          - apply (object_bytes _ _ _ F). }
        destruct G as (js & F1 & F2 & F3). exists (JArr js). split; [|split].
        * unfold array_text. destruct js as [|j js]; [inversion F2|].
          change (str "[" ++ join (str ",") es ++ str "]") with (91 :: [] ++ join (str ",") es ++ [93]).
          apply jv_arr; [lia|constructor|]. apply join_elems; [exact F1|discriminate].
        * exists js. auto.
        * unfold array_text. apply bytes_ok_app. split; [bok|].
          apply bytes_ok_app. split; [apply join_bytes, F3|bok].
    - intros v ms d _ _ H _ _. cbn [encs] in H. injection H as <-. exists []. split; [reflexivity|constructor].
    - intros name omit t IHt r IHr v ms d (Nn & Nt & Nr) [Bt Br] H D L. rewrite encs_cons in H. cbn [depths trees] in *.
      pose proof (proj1 depth_nonneg t). pose proof (depths_nonneg r).
      destruct (omit && empty t (fst v)).
      + apply IHr; auto. lia.
      + destruct (enct k t (fst v)) as [x|] eqn:E1; [|discriminate].
        destruct (encs k r (snd v)) as [ms'|] eqn:E2; [|discriminate]. cbn [option_map] in H. injection H as <-.
        destruct (IHt (fst v) x d Nt Bt E1 D ltac:(lia)) as (j & J & T & Bx).
        destruct (IHr (snd v) ms' d Nr Br E2 D ltac:(lia)) as (l & Tl & F).
        exists ((name, j) :: l). split; [exists j, l; auto|]. constructor; [|exact F].
        exists (json_escape (length name) name), x. cbn [fst snd]. split; [|split; [|split]].
        * unfold json_string. cbn [app]. rewrite <- app_assoc. reflexivity.
        * apply json_escape_jchars; [apply plain_bytes, Nn|apply plain_repaired, Nn].
        * exact J.
        * change (bytes_ok (json_string name ++ 58 :: x)).
          apply bytes_ok_app. split; [apply json_string_ok, plain_bytes, Nn|]. apply bytes_ok_cons.
          split; [unfold byte_ok; lia|exact Bx].
  Qed.

  Lemma marshal_tree fs v doc : ktext -> nameds fs -> depths fs < 10000 -> bys fs v ->
    marshal k fs v = Some doc ->
    exists l, jval 0 doc (JObj l) /\ trees fs v l /\ bytes_ok doc.
  Proof.
    intros K N D B H. unfold marshal in H. destruct (encs k fs v) as [ms|] eqn:E; [|discriminate].
    cbn [option_map] in H. injection H as <-. pose proof (depths_nonneg fs).
    destruct (proj2 (enc_tree K) fs v ms 1 N B E ltac:(lia) ltac:(lia)) as (l & T & F).
    exists l. split; [apply object_val; [lia|exact F]|split; [exact T|apply (object_bytes _ _ _ F)]].
  Qed.

  (** When the encoder fails. *)
  Fixpoint goodt (t : gtype) : dent t -> Prop :=
    match t with
    | TStr | TInt _ _ => fun _ => True
    | TFloat => fun x => f_finite x = true
    | TTime => fun n => k_time k n <> None
    | TPtr fs => fun o => match o with None => True | Some v => goods fs v end
    | TSlice fs => Forall (goods fs)
    end
  with goods (fs : gfields) : dens fs -> Prop :=
    match fs with
    | FNil => fun _ => True
    | FCons _ _ t r => fun v => goodt t (fst v) /\ goods r (snd v)
    end.

  Lemma empty_good t v : empty t v = true -> goodt t v.
  Proof.
    destruct t; cbn [empty goodt]; try discriminate; auto.
    - destruct v; [discriminate|auto].
    - destruct v; [auto|discriminate].
  Qed.

  Lemma collect_some {A B} (f : A -> option B) l :
    collect (map f l) <> None <-> Forall (fun a => f a <> None) l.
  Proof.
    induction l as [|a l IH]; cbn [map collect]; [split; [constructor|discriminate]|].
    split.
    - intros H. destruct (f a) as [b|] eqn:E; [|congruence]. constructor; [congruence|].
      apply IH. intros C. rewrite C in H. apply H. reflexivity.
    - intros H. inversion H as [|? ? Ha Hl]; subst. destruct (f a) as [b|]; [|congruence].
      apply IH in Hl. destruct (collect (map f l)); [discriminate|congruence].
  Qed.

  Lemma enc_good :
    (forall t v, enct k t v <> None <-> goodt t v) /\ (forall fs v, encs k fs v <> None <-> goods fs v).
  Proof.
    assert (OM : forall A B (f : A -> B) o, option_map f o <> None <-> o <> None).
    { intros A B f [a|]; cbn; split; congruence. }
    apply (schema_ind (fun t => forall v, enct k t v <> None <-> goodt t v)
                      (fun fs => forall v, encs k fs v <> None <-> goods fs v)).
    - intros v. cbn. split; [auto|discriminate].
    - intros lo hi v. cbn. split; [auto|discriminate].
    - intros v. cbn. destruct (f_finite v); split; auto; try discriminate; congruence.
    - intros v. cbn [enct goodt]. apply OM.
    - intros fs IH [v|]; rewrite enct_ptr; cbn [goodt]; [rewrite OM; apply IH|split; [auto|discriminate]].
    - intros fs IH [|v l]; rewrite enct_slice; cbn [goodt]; [split; [constructor|discriminate]|].
      rewrite OM, collect_some. split; intros H; (eapply Forall_impl; [|exact H]); intros a Ha; cbn beta in *.
      + apply IH. rewrite OM in Ha. exact Ha.
      + rewrite OM. apply IH, Ha.
    - intros v. cbn. split; [auto|discriminate].
    - intros name omit t IHt r IHr v. rewrite encs_cons. cbn [goods]. destruct (omit && empty t (fst v)) eqn:E.
      + rewrite IHr. split; [|tauto]. intros H. split; [|exact H]. apply empty_good. destruct omit; [exact E|discriminate].
      + rewrite <- IHt, <- IHr. destruct (enct k t (fst v)) as [x|]; [rewrite OM|]; split; try tauto; try congruence.
        intros H. split; [discriminate|exact H].
  Qed.
End Trees.
