(** Lemmas about the messager and login models. *)
From Coq Require Import String ZArith List Bool Lia.
From Coq Require Import ZifyBool ZifyNat ZifyN.
From Verif Require Import Base BaseFacts TextSpec JsonSpec GoJSON TextProofs JsonProofs
  WireModel WireSpec WireProofs MessagerModel MessagerSpec.
Import ListNotations.
Open Scope Z_scope.
Ltac Zify.zify_post_hook ::= Z.div_mod_to_equations.

(** ** Values produced by the JSON grammar are byte strings *)

Lemma simple_escape_ok e x : simple_escape e x -> byte_ok x.
Proof.
  unfold simple_escape. cbn [In]. unfold byte_ok.
  intros H; repeat destruct H as [H|H]; try (injection H as <- <-; lia); contradiction.
Qed.

Lemma replacement_ok : bytes_ok replacement.
Proof. apply utf8_char_ok. unfold scalar. lia. Qed.

Lemma jchars_value_ok raw v : jchars raw v -> bytes_ok v.
Proof.
  induction 1 as [|c r v Hc H1 H2 H3 Hr IH|b r v Hb N Hr IH|e x r v E Hr IH|h c r v Hh Hs Hr IH
    |h1 hi h2 lo r v Hh1 Hhi Hh2 Hlo Hr IH|h c r v Hh Hs N Hr IH];
    try (apply bytes_ok_app; split; auto using replacement_ok).
  - constructor.
  - now apply utf8_char_ok.
  - apply bytes_ok_cons. split; auto. eapply simple_escape_ok; eauto.
  - apply utf8_char_ok. apply hex4_range in Hh. unfold scalar, surrogate in *. lia.
  - apply utf8_char_ok. now apply scalar_pair.
Qed.

Lemma jmembers_keys_ok d m l : jmembers d m l -> Forall (fun kv => bytes_ok (fst kv)) l.
Proof. induction 1; constructor; cbn [fst]; eauto using jchars_value_ok. Qed.

Lemma obj_keys_ok s l : json_text s (JObj l) -> Forall (fun kv => bytes_ok (fst kv)) l.
Proof.
  intros (w1 & x & w2 & _ & _ & _ & J). inversion J; subst.
  - constructor.
  - eauto using jmembers_keys_ok.
Qed.

(** ** Field names *)

Definition lower (name : bytes) : Prop := Forall (fun c => 97 <= c <= 122) name.

Lemma fold_lower name : lower name -> forall fuel, (length name <= fuel)%nat ->
  fold_name fuel name = map (fun c => c - 32) name.
Proof.
  induction 1 as [|c name Hc HF IH]; intros fuel L; destruct fuel as [|f]; try reflexivity;
    [cbn in L; lia|].
  cbn [fold_name map]. replace (c <? 128) with true by lia.
  replace (in_range 97 122 c) with true by (unfold in_range; lia).
  f_equal. apply IH. cbn in L. lia.
Qed.

Lemma fold_name_char f c t : scalar c -> 128 <= c ->
  fold_name (S f) (utf8_char c ++ t) =
  (if c =? 383 then [83] else if c =? 8490 then [75] else utf8_char c) ++ fold_name f t.
Proof.
  intros Hc H.
  destruct (utf8_char_high c Hc ltac:(lia)) as (b & r' & Eb & Hb).
  assert (S1 : fold_name (S f) (utf8_char c ++ t) =
    let '(c0, n) := decode_rune (utf8_char c ++ t) in
    (if c0 =? 383 then [83] else if c0 =? 8490 then [75] else encode_rune c0)
    ++ fold_name f (drop n (utf8_char c ++ t))).
  { rewrite Eb. cbn [app fold_name]. replace (b <? 128) with false by lia. reflexivity. }
  rewrite S1, decode_utf8_char by auto. cbv beta iota.
  rewrite drop_app_exact, encode_rune_scalar by auto. reflexivity.
Qed.

Lemma fold_spells name : lower name -> forall k fuel, bytes_ok k -> (length k <= fuel)%nat ->
  (fold_name fuel k = map (fun c => c - 32) name <-> spells name k).
Proof.
  induction 1 as [|c name Hc HF IH]; intros k fuel OK L.
  - cbn [map]. split.
    + intros H. exists []. split; [constructor|]. cbn [concat].
      destruct k as [|b r]; [reflexivity|exfalso].
      destruct fuel as [|f]; [cbn in L; lia|]. cbn [fold_name] in H.
      destruct (b <? 128); [discriminate|].
      destruct (decode_rune (b :: r)) as [c n].
      apply app_eq_nil in H as [H _].
      unfold encode_rune in H. dcond; discriminate.
    + intros (parts & F & ->). inversion F; subst. destruct fuel; reflexivity.
  - cbn [map]. split.
    + intros H. destruct k as [|b r]; [destruct fuel; discriminate|].
      destruct fuel as [|f]; [discriminate|].
      destruct (decode_view b r OK) as [(x & t & Hx & E)|(Hb & D & N)].
      * destruct (x <? 128) eqn:Ex.
        -- unfold utf8_char in E. rewrite Ex in E. cbn [app] in E. injection E as -> ->.
           cbn [fold_name] in H. rewrite Ex in H. injection H as H1 H2.
           apply bytes_ok_cons in OK as [_ OK].
           apply IH in H2 as (parts & F & ->); [|auto|cbn in L; lia].
           exists ([x] :: parts). split; [|reflexivity]. constructor; auto.
           unfold letter_variants. unfold in_range in H1. cbn [app In].
           destruct ((97 <=? x) && (x <=? 122)) eqn:R; [left|right; left]; f_equal; lia.
        -- rewrite E in H, OK, L. rewrite fold_name_char in H by (auto; lia).
           apply bytes_ok_app in OK as [_ OK].
           rewrite app_length in L. pose proof (utf8_char_len x) as Lx. unfold len in Lx.
           rewrite E. destruct (x =? 383) eqn:E1.
           ++ cbn [app] in H. injection H as H1 H2.
              apply IH in H2 as (parts & F & ->); [|auto|lia].
              exists (utf8_char x :: parts). split; [|reflexivity]. constructor; auto.
              apply Z.eqb_eq in E1. subst x. replace c with 115 by lia.
              unfold letter_variants. cbn. auto.
           ++ destruct (x =? 8490) eqn:E2.
              ** cbn [app] in H. injection H as H1 H2.
                 apply IH in H2 as (parts & F & ->); [|auto|lia].
                 exists (utf8_char x :: parts). split; [|reflexivity]. constructor; auto.
                 apply Z.eqb_eq in E2. subst x. replace c with 107 by lia.
                 unfold letter_variants. cbn. auto.
              ** exfalso. destruct (utf8_char_high x Hx ltac:(lia)) as (y & z & Ey & Hy).
                 rewrite Ey in H. cbn [app] in H. injection H as H1 _. lia.
      * exfalso. cbn [fold_name] in H. replace (b <? 128) with false in H by lia.
        rewrite D in H. cbn in H. injection H as H1 _. lia.
    + intros (parts & F & ->). inversion F as [|? p ? ps Hp Fp]; subst. cbn [concat] in *.
      apply bytes_ok_app in OK as [OKp OK].
      rewrite app_length in L.
      assert (SP : spells name (concat ps)) by (exists ps; auto).
      assert (H1 : p = [c] \/ p = [c - 32] \/ (c = 115 /\ p = utf8_char 383) \/ (c = 107 /\ p = utf8_char 8490)).
      { unfold letter_variants in Hp. rewrite !in_app_iff in Hp. cbn [In] in Hp.
        destruct Hp as [[Hp|[Hp|[]]]|[Hp|Hp]]; auto.
        - destruct (c =? 115) eqn:E1; cbn [In] in Hp; [destruct Hp as [Hp|[]]|destruct Hp].
          right; right; left. split; [lia|auto].
        - destruct (c =? 107) eqn:E1; cbn [In] in Hp; [destruct Hp as [Hp|[]]|destruct Hp].
          right; right; right. split; [lia|auto]. }
      destruct H1 as [->|[->|[[-> ->]|[-> ->]]]].
      * cbn [length] in L. destruct fuel as [|f]; [lia|]. cbn [app fold_name].
        replace (c <? 128) with true by lia.
        replace (in_range 97 122 c) with true by (unfold in_range; lia).
        f_equal. apply IH; auto. lia.
      * cbn [length] in L. destruct fuel as [|f]; [lia|]. cbn [app fold_name].
        replace (c - 32 <? 128) with true by lia.
        replace (in_range 97 122 (c - 32)) with false by (unfold in_range; lia).
        f_equal. apply IH; auto. lia.
      * change (length (utf8_char 383)) with 2%nat in L. destruct fuel as [|f]; [lia|].
        rewrite fold_name_char by (unfold scalar; lia).
        change (383 =? 383) with true. cbv iota. cbn [app].
        f_equal. apply IH; auto. lia.
      * change (length (utf8_char 8490)) with 3%nat in L. destruct fuel as [|f]; [lia|].
        rewrite fold_name_char by (unfold scalar; lia).
        change (8490 =? 383) with false. change (8490 =? 8490) with true. cbv iota. cbn [app].
        f_equal. apply IH; auto. lia.
Qed.

Lemma lower_msg : lower (str "msg").
Proof. apply Forall_forall. cbn. intros x H. repeat destruct H as [<-|H]; try lia; contradiction. Qed.
Lemma lower_tests : lower (str "tests").
Proof. apply Forall_forall. cbn. intros x H. repeat destruct H as [<-|H]; try lia; contradiction. Qed.

Lemma key_matches_spec name k : lower name -> bytes_ok k ->
  (key_matches name k = true <-> spells name k).
Proof.
  intros Hn Hk. unfold key_matches. rewrite beqb_spec, (fold_lower name) by auto.
  apply fold_spells; auto.
Qed.

Lemma msg_not_tests k : bytes_ok k -> spells (str "msg") k -> ~ spells (str "tests") k.
Proof.
  intros OK H1 H2.
  apply (fold_spells _ lower_msg k (length k)) in H1; auto.
  apply (fold_spells _ lower_tests k (length k)) in H2; auto.
  rewrite H1 in H2. discriminate.
Qed.

(** ** Storing members *)

(** field_value with an initial value. *)
Definition fval_from (name : bytes) (d : bytes) (l : list (bytes * json)) (s : bytes) : Prop :=
  (exists l1 k l2, l = l1 ++ (k, JStr s) :: l2 /\ spells name k /\
     forall k' s', In (k', JStr s') l2 -> ~ spells name k') \/
  (s = d /\ forall k' s', In (k', JStr s') l -> ~ spells name k').

Lemma fval_from_skip name d k v l s :
  (forall x, v = JStr x -> ~ spells name k) -> fval_from name d l s -> fval_from name d ((k, v) :: l) s.
Proof.
  intros N [(l1 & k1 & l2 & -> & Hs & Hn)|(-> & Hn)].
  - left. exists ((k, v) :: l1), k1, l2. auto.
  - right. split; auto. intros k' s' [E|I]; eauto. injection E as -> ->. eauto.
Qed.

Lemma fval_from_set name d k x l s :
  spells name k -> fval_from name x l s -> fval_from name d ((k, JStr x) :: l) s.
Proof.
  intros S [(l1 & k1 & l2 & -> & Hs & Hn)|(-> & Hn)].
  - left. exists ((k, JStr x) :: l1), k1, l2. auto.
  - left. exists [], k, l. auto.
Qed.

Lemma well_typed_cons k v l : well_typed ((k, v) :: l) -> well_typed l.
Proof. intros H k' v' I. apply H. now right. Qed.

Lemma store_members_bad l : forall m t, snd (store_members l m t true) = true.
Proof.
  induction l as [|[k v] l IH]; intros m t; cbn [store_members]; auto.
  destruct (key_matches _ _); [|destruct (key_matches _ _)]; auto.
  - destruct (store_string m v). cbn [orb]. apply IH.
  - destruct (store_string t v). cbn [orb]. apply IH.
Qed.

Lemma store_members_good l : Forall (fun kv => bytes_ok (fst kv)) l -> well_typed l ->
  forall m t, exists m' t', store_members l m t false = (m', t', false) /\
    fval_from (str "msg") m l m' /\ fval_from (str "tests") t l t'.
Proof.
  induction 1 as [|[k v] l Hk HF IH]; intros WT m t; cbn [store_members fst] in *.
  - exists m, t. repeat split; right; split; auto; intros ? ? [].
  - specialize (IH (well_typed_cons _ _ _ WT)).
    destruct (key_matches (str "msg") k) eqn:E1.
    + apply key_matches_spec in E1; auto using lower_msg.
      pose proof (msg_not_tests k Hk E1) as NT.
      destruct (WT k v (or_introl eq_refl) (or_introl E1)) as [->|[x ->]]; cbn [store_string orb].
      * destruct (IH m t) as (m' & t' & E & F1 & F2). exists m', t'.
        repeat split; auto; apply fval_from_skip; auto; discriminate.
      * destruct (IH x t) as (m' & t' & E & F1 & F2). exists m', t'.
        repeat split; auto; [now apply fval_from_set|apply fval_from_skip; auto].
    + assert (NM : ~ spells (str "msg") k).
      { intros S. apply key_matches_spec in S; auto using lower_msg. congruence. }
      destruct (key_matches (str "tests") k) eqn:E2.
      * apply key_matches_spec in E2; auto using lower_tests.
        destruct (WT k v (or_introl eq_refl) (or_intror E2)) as [->|[x ->]]; cbn [store_string orb].
        -- destruct (IH m t) as (m' & t' & E & F1 & F2). exists m', t'.
           repeat split; auto; apply fval_from_skip; auto; discriminate.
        -- destruct (IH m x) as (m' & t' & E & F1 & F2). exists m', t'.
           repeat split; auto; [apply fval_from_skip; auto|now apply fval_from_set].
      * assert (NT : ~ spells (str "tests") k).
        { intros S. apply key_matches_spec in S; auto using lower_tests. congruence. }
        destruct (IH m t) as (m' & t' & E & F1 & F2). exists m', t'.
        repeat split; auto; apply fval_from_skip; auto.
Qed.

Lemma store_members_ill l : Forall (fun kv => bytes_ok (fst kv)) l ->
  forall m t, snd (store_members l m t false) = false -> well_typed l.
Proof.
  induction 1 as [|[k v] l Hk HF IH]; intros m t H; cbn [store_members fst] in *.
  - intros ? ? [].
  - destruct (key_matches (str "msg") k) eqn:E1.
    { destruct (store_string m v) as [m' e] eqn:St. cbn [orb] in H.
      destruct e; [rewrite store_members_bad in H; discriminate|].
      apply IH in H. intros k' v' [E|I] S; [|eapply H; eauto].
      injection E as <- <-. destruct v; cbn in St; try discriminate; eauto. }
    destruct (key_matches (str "tests") k) eqn:E2.
    { destruct (store_string t v) as [t' e] eqn:St. cbn [orb] in H.
      destruct e; [rewrite store_members_bad in H; discriminate|].
      apply IH in H. intros k' v' [E|I] S; [|eapply H; eauto].
      injection E as <- <-. destruct v; cbn in St; try discriminate; eauto. }
    apply IH in H. intros k' v' [E|I] S; [|eapply H; eauto].
    injection E as <- <-. exfalso.
    destruct S as [S|S]; apply key_matches_spec in S; auto using lower_msg, lower_tests; congruence.
Qed.

Lemma fval_from_fun name d l s s' : fval_from name d l s -> fval_from name d l s' -> s = s'.
Proof.
  revert d. induction l as [|[k v] l IH]; intros d H H'.
  - destruct H as [(l1 & ? & ? & E & _)|(-> & _)]; [now destruct l1|].
    destruct H' as [(l1 & ? & ? & E & _)|(-> & _)]; [now destruct l1|reflexivity].
  - assert (V : forall x, fval_from name d ((k, v) :: l) x ->
       fval_from name d l x \/ (exists y, v = JStr y /\ spells name k /\ fval_from name y l x)).
    { intros x [(l1 & k1 & l2 & E & Hs & Hn)|(-> & Hn)].
      - destruct l1 as [|a l1]; cbn [app] in E.
        + injection E as -> -> ->. right. exists x. repeat split; auto. right. auto.
        + injection E as <- ->. left. left. exists l1, k1, l2. auto.
      - left. right. split; auto. intros k' s'' I. apply (Hn k' s''). now right. }
    destruct H as [(l1 & k1 & l2 & E & Hs & Hn)|(-> & Hn)];
    destruct H' as [(l1' & k1' & l2' & E' & Hs' & Hn')|(-> & Hn')].
    + destruct l1 as [|a l1], l1' as [|a' l1']; cbn [app] in E, E'.
      * congruence.
      * exfalso. injection E as -> -> ->. injection E' as <- ->.
        apply (Hn k1' s'); [apply in_or_app; right; now left|auto].
      * exfalso. injection E' as -> -> ->. injection E as <- ->.
        apply (Hn' k1 s); [apply in_or_app; right; now left|auto].
      * injection E as <- ->. injection E' as <- E'. apply (IH d).
        -- left. exists l1, k1, l2. auto.
        -- left. exists l1', k1', l2'. auto.
    + exfalso. apply (Hn' k1 s); auto. rewrite E. apply in_or_app. right. now left.
    + exfalso. apply (Hn k1' s'); auto. rewrite E'. apply in_or_app. right. now left.
    + reflexivity.
Qed.

Lemma ndt_message_fun body m t m' t' : bytes_ok body ->
  ndt_message body m t -> ndt_message body m' t' -> m = m' /\ t = t'.
Proof.
  intros OK (l & J & _ & F1 & F2) (l' & J' & _ & F1' & F2').
  assert (E := json_text_fun _ _ _ OK J J'). injection E as <-.
  split; eapply fval_from_fun; eauto.
Qed.

(** json.Unmarshal into a JSONMessage, characterised. *)
Lemma unmarshal_msg body m t : bytes_ok body ->
  (unmarshal body = UMsg m t <-> ndt_message body m t).
Proof.
  intros OK. unfold unmarshal, ndt_message. split.
  - destruct (json_parse body) as [v|] eqn:P; [|discriminate].
    apply json_parse_spec in P; auto.
    destruct v as [| | | | |l]; try discriminate.
    pose proof (obj_keys_ok _ _ P) as KO.
    destruct (store_members l [] [] false) as [[m' t'] bad] eqn:S.
    destruct bad; [discriminate|]. intros H; injection H as -> ->.
    exists l. split; auto.
    assert (WT : well_typed l) by (apply (store_members_ill l KO [] []); now rewrite S).
    split; auto.
    destruct (store_members_good l KO WT [] []) as (m2 & t2 & S2 & F1 & F2).
    rewrite S in S2. injection S2 as <- <-. auto.
  - intros (l & J & WT & F1 & F2).
    pose proof (obj_keys_ok _ _ J) as KO.
    apply json_parse_spec in J; auto. rewrite J.
    destruct (store_members_good l KO WT [] []) as (m2 & t2 & S2 & G1 & G2).
    rewrite S2. f_equal; eapply fval_from_fun; eauto.
Qed.

Lemma unmarshal_null body : bytes_ok body -> (unmarshal body = UNull <-> json_text body JNull).
Proof.
  intros OK. rewrite <- json_parse_spec by auto. unfold unmarshal.
  destruct (json_parse body) as [[| | | | |l]|]; try (split; congruence).
  destruct (store_members l [] [] false) as [[m' t'] []]; split; discriminate.
Qed.

(** ** Sending JSON *)

Lemma json_escape_ascii_ok c : 0 <= c < 128 -> bytes_ok (json_escape_ascii c).
Proof.
  intros H. unfold json_escape_ascii, hexl. unfold byte_ok.
  dcond; repeat (constructor; [unfold byte_ok; dcond; lia|]); constructor.
Qed.

Lemma esc_piece_ok p : piece_ok p -> bytes_ok (esc_piece p).
Proof.
  destruct p as [c|b]; cbn [piece_ok esc_piece]; intros H.
  - unfold esc_char. destruct (c <? 128) eqn:E.
    + apply json_escape_ascii_ok. unfold scalar in H. lia.
    + destruct (_ || _) eqn:E2.
      * assert (H8 : c = 8232 \/ c = 8233) by lia. destruct H8 as [-> | ->];
        apply bytes_okb_spec; reflexivity.
      * now apply utf8_char_ok.
  - apply bytes_okb_spec. reflexivity.
Qed.

Lemma json_escape_ok s : bytes_ok s -> bytes_ok (json_escape (length s) s).
Proof.
  intros H. destruct (pieces_exist s H) as [ps Hp].
  rewrite (json_escape_pieces s ps Hp) by lia.
  pose proof (pieces_ok s ps Hp) as OK. clear Hp.
  induction OK; cbn [flat_map]; [constructor|]. apply bytes_ok_app. split; auto.
  now apply esc_piece_ok.
Qed.

Lemma json_escape_jchars s t : bytes_ok s -> repaired s t -> jchars (json_escape (length s) s) t.
Proof.
  intros OK R. destruct (pieces_exist s OK) as [ps Hp].
  assert (t = flat_map piece_value ps) by (eapply repaired_fun; eauto using pieces_repaired).
  subst t. pose proof (pstring_escape s ps [] Hp) as P.
  apply pstring_sound in P as (raw & E & J).
  - apply app_inv_tail in E. now rewrite E.
  - apply bytes_ok_app. split; [now apply json_escape_ok|]. apply bytes_okb_spec. reflexivity.
Qed.

Lemma jchars_lit s : bytes_ok (s ++ [34]) -> pstring (s ++ [34]) = Some (s, []) -> jchars s s.
Proof.
  intros OK P. apply pstring_sound in P as (raw & E & J); auto. apply app_inv_tail in E. subst raw. exact J.
Qed.

Lemma json_string_jval d s t : bytes_ok s -> repaired s t -> jval d (json_string s) (JStr t).
Proof. intros OK R. apply jv_str. now apply json_escape_jchars. Qed.

Lemma json_string_ok s : bytes_ok s -> bytes_ok (json_string s).
Proof.
  intros H. unfold json_string. apply bytes_ok_cons. split; [unfold byte_ok; lia|].
  apply bytes_ok_app. split; [now apply json_escape_ok|apply bytes_okb_spec; reflexivity].
Qed.

Lemma json_message_ok m : bytes_ok m -> bytes_ok (json_message_string m []).
Proof.
  intros H. unfold json_message_string.
  rewrite !bytes_ok_app. repeat match goal with |- _ /\ _ => split end;
    auto using json_string_ok; apply bytes_okb_spec; reflexivity.
Qed.

Lemma json_message_text m m' : bytes_ok m -> repaired m m' ->
  json_text (json_message_string m []) (JObj [(str "msg", JStr m')]).
Proof.
  intros OK R. exists [], (json_message_string m []), [].
  split; [now rewrite app_nil_r|]. split; [constructor|]. split; [constructor|].
  replace (json_message_string m []) with
    (123 :: [] ++ (34 :: str "msg" ++ 34 :: [] ++ 58 :: [] ++ json_string m ++ []) ++ [125]).
  2:{ unfold json_message_string. cbn [str app]. rewrite app_nil_r. reflexivity. }
  apply jv_obj; [lia|constructor|].
  apply jm_one; try constructor.
  - apply jchars_lit; [apply bytes_okb_spec; reflexivity|reflexivity].
  - now apply json_escape_jchars.
Qed.

Lemma spells_self name : spells name name.
Proof.
  exists (map (fun c => [c]) name). split.
  - induction name; cbn [map]; constructor; auto. unfold letter_variants. now left.
  - induction name; cbn [map concat app]; congruence.
Qed.

Lemma json_message_ndt m m' : bytes_ok m -> repaired m m' ->
  ndt_message (json_message_string m []) m' [].
Proof.
  intros OK R. exists [(str "msg", JStr m')]. split; [now apply json_message_text|].
  split; [|split].
  - intros k v [E|[]] _. injection E as <- <-. eauto.
  - left. exists [], (str "msg"), []. repeat split; auto using spells_self.
  - right. split; auto. intros k s [E|[]]. injection E as <- _.
    apply msg_not_tests; [apply bytes_okb_spec; reflexivity|apply spells_self].
Qed.

Lemma json_roundtrip kind m m' : bytes_ok m -> repaired m m' ->
  len (json_message_string m []) < 65536 ->
  json_receive (Some (json_send kind m)) kind = (Some m', None).
Proof.
  intros OK R F. unfold json_receive, receive_json, json_send.
  rewrite tlv_roundtrip; [|now left|exact F]. cbn [tlv_err tlv_payload].
  pose proof (json_message_ok m OK) as OKb.
  assert (U : unmarshal (json_message_string m []) = UMsg m' []).
  { apply unmarshal_msg; auto. now apply json_message_ndt. }
  now rewrite U.
Qed.

Lemma json_oversize kind m expected : 65536 <= len (json_message_string m []) ->
  exists e, json_receive (Some (json_send kind m)) expected = (None, Some (RecvFrame e)).
Proof.
  intros L. unfold json_receive, receive_json, json_send.
  destruct (tlv_oversize kind (json_message_string m []) [expected]) as [e E]; [lia|].
  rewrite E. cbn. eauto.
Qed.

(** ** Safety of the written text *)

Lemma hexl_safe d : 0 <= d < 16 -> 48 <= hexl d <= 57 \/ 97 <= hexl d <= 102.
Proof. unfold hexl. intros. dcond; lia. Qed.

(** Bytes that may appear inside an emitted JSON string. *)
Definition safe_byte (b : Z) : Prop := 32 <= b /\ b <> 60 /\ b <> 62 /\ b <> 38.

Lemma esc_ascii_safe c : 0 <= c < 128 -> Forall safe_byte (json_escape_ascii c).
Proof.
  intros H. unfold json_escape_ascii, html_safe, in_range, mem. cbn [existsb].
  pose proof (hexl_safe (c / 16)). pose proof (hexl_safe (c mod 16)).
  dcond; repeat (constructor; [unfold safe_byte; lia|]); constructor.
Qed.

Lemma esc_piece_safe p : piece_ok p -> Forall safe_byte (esc_piece p).
Proof.
  destruct p as [c|b]; cbn [piece_ok esc_piece]; intros H.
  - unfold esc_char. destruct (c <? 128) eqn:E.
    + apply esc_ascii_safe. unfold scalar in H. lia.
    + destruct (_ || _) eqn:E2.
      * change (str "\u202" ++ [hexl (c mod 16)]) with [92; 117; 50; 48; 50; hexl (c mod 16)].
        pose proof (hexl_safe (c mod 16)).
        repeat (constructor; [unfold safe_byte; lia|]); constructor.
      * eapply Forall_impl; [|apply utf8_char_all_high; auto; lia].
        cbn. unfold safe_byte. lia.
  - repeat (constructor; [unfold safe_byte; lia|]); constructor.
Qed.

Lemma json_escape_safe s : bytes_ok s -> Forall safe_byte (json_escape (length s) s).
Proof.
  intros H. destruct (pieces_exist s H) as [ps Hp].
  rewrite (json_escape_pieces s ps Hp) by lia.
  pose proof (pieces_ok s ps Hp) as OK. clear Hp.
  induction OK; cbn [flat_map]; [constructor|]. apply Forall_app. split; auto.
  now apply esc_piece_safe.
Qed.

(** No line or paragraph separator is written raw. *)
Lemma esc_ascii_low c : 0 <= c < 128 -> Forall (fun b => b < 128) (json_escape_ascii c).
Proof.
  intros H. unfold json_escape_ascii.
  pose proof (hexl_safe (c / 16)). pose proof (hexl_safe (c mod 16)).
  dcond; repeat (constructor; [lia|]); constructor.
Qed.

Lemma low_app_split q ps rest p t b0 : Forall (fun b => b < 128) ps -> 128 <= b0 ->
  ps ++ rest = p ++ b0 :: t -> q = b0 :: t -> exists p', rest = p' ++ q.
Proof.
  intros L H. revert p. induction L as [|x ps Hx HL IH]; intros p E Q; cbn [app] in E.
  - subst q. eauto.
  - destruct p as [|y p]; cbn [app] in E; injection E as E1 E2; [lia|]. eauto.
Qed.

Lemma tail_cont c : scalar c -> exists b r, utf8_char c = b :: r /\ Forall (fun x => 128 <= x <= 191) r.
Proof.
  unfold scalar, utf8_char. intros. dcond; do 2 eexists; (split; [reflexivity|]);
    repeat (constructor; [lia|]); constructor.
Qed.

Lemma cont_app_split (r rest p : bytes) t b0 : Forall (fun x => 128 <= x <= 191) r -> 192 <= b0 ->
  r ++ rest = p ++ b0 :: t -> exists p', rest = p' ++ b0 :: t.
Proof.
  intros L H. revert p. induction L as [|x r Hx HL IH]; intros p E; cbn [app] in E.
  - eauto.
  - destruct p as [|y p]; cbn [app] in E; injection E as E1 E2; [lia|]. eauto.
Qed.

Lemma no_separator d ps : d = 8232 \/ d = 8233 -> Forall piece_ok ps ->
  forall p q, flat_map esc_piece ps <> p ++ utf8_char d ++ q.
Proof.
  intros Hd. assert (Sd : scalar d) by (unfold scalar; lia).
  assert (Ed : exists t, utf8_char d = 226 :: t) by (destruct Hd as [-> | ->]; eexists; reflexivity).
  destruct Ed as [td Ed].
  induction 1 as [|x ps Hx HF IH]; intros p q E; cbn [flat_map] in E.
  - symmetry in E. apply app_eq_nil in E as [_ E]. rewrite Ed in E. discriminate.
  - assert (Low : forall e, Forall (fun b => b < 128) e ->
      e ++ flat_map esc_piece ps = p ++ utf8_char d ++ q -> False).
    { intros e L E'. rewrite Ed in E'. cbn [app] in E'.
      destruct (low_app_split _ e _ p _ 226 L ltac:(lia) E' eq_refl) as [p' Ep].
      apply (IH p' q). rewrite Ed. exact Ep. }
    destruct x as [c|b]; cbn [esc_piece piece_ok] in *.
    2:{ apply (Low [92; 117; 102; 102; 102; 100]); auto.
        repeat (constructor; [lia|]). constructor. }
    unfold esc_char in E. destruct (c <? 128) eqn:E1.
    { refine (Low _ _ E). apply esc_ascii_low. unfold scalar in Hx. lia. }
    destruct (_ || _) eqn:E2.
    { refine (Low _ _ E).
      change (str "\u202" ++ [hexl (c mod 16)]) with [92; 117; 50; 48; 50; hexl (c mod 16)].
      pose proof (hexl_safe (c mod 16)). repeat (constructor; [lia|]). constructor. }
    destruct p as [|y p].
    + cbn [app] in E. apply utf8_char_inj_app in E as [-> _]; auto. lia.
    + destruct (tail_cont c Hx) as (b & r & Eb & Hr). rewrite Eb in E. cbn [app] in E.
      injection E as _ E. rewrite Ed in E. cbn [app] in E.
      destruct (cont_app_split r _ p _ 226 Hr ltac:(lia) E) as [p' Ep].
      apply (IH p' q). rewrite Ed. exact Ep.
Qed.

Lemma json_escape_no_separator d s p q : d = 8232 \/ d = 8233 -> bytes_ok s ->
  json_escape (length s) s <> p ++ utf8_char d ++ q.
Proof.
  intros Hd H. destruct (pieces_exist s H) as [ps Hp].
  rewrite (json_escape_pieces s ps Hp) by lia.
  apply no_separator; auto. eapply pieces_ok; eauto.
Qed.

Lemma json_send_shape kind m : fits (json_message_string m []) ->
  json_send kind m = wire_frame (kind, str "{""msg"":""" ++ json_escape (length m) m ++ str """}").
Proof.
  intros F. unfold json_send. rewrite write_tlv_wire by auto. f_equal. f_equal.
  unfold json_message_string, json_string. cbn [str app]. rewrite <- app_assoc. reflexivity.
Qed.

Lemma json_message_shape m :
  json_message_string m [] = str "{""msg"":""" ++ json_escape (length m) m ++ str """}".
Proof. unfold json_message_string, json_string. cbn [str app]. rewrite <- app_assoc. reflexivity. Qed.

(** ** Receiving JSON *)

Lemma json_receive_frame kind body : bytes_ok body -> fits body ->
  json_receive (Some (wire_frame (kind, body))) kind =
  match unmarshal body with
  | UErr => (Some body, Some RecvJSON)
  | UNull => (None, Some RecvEmpty)
  | UMsg m _ => (Some m, None)
  end.
Proof.
  intros OK F. rewrite <- write_tlv_wire by auto.
  unfold json_receive, receive_json. rewrite tlv_roundtrip; [|now left|exact F].
  cbn [tlv_err tlv_payload]. destruct (unmarshal body); reflexivity.
Qed.

Lemma json_receive_bad inbuff kind ty e :
  read_tlv inbuff [kind] = TlvRes None ty (Some e) ->
  json_receive inbuff kind = (None, Some (RecvFrame e)).
Proof. intros H. unfold json_receive, receive_json. rewrite H. reflexivity. Qed.

(** ** The s2c result *)

Lemma itoa_no_blank n : ~ In 32 (itoa n).
Proof.
  intros H. pose proof (itoa_chars n) as F. rewrite Forall_forall in F.
  apply F in H. lia.
Qed.

Lemma split_blank (a b c d : bytes) : ~ In 32 a -> ~ In 32 c ->
  a ++ 32 :: b = c ++ 32 :: d -> a = c /\ b = d.
Proof.
  revert c. induction a as [|x a IH]; intros c Na Nc E; destruct c as [|y c]; cbn [app] in E.
  - injection E as ->. auto.
  - injection E as <- _. exfalso. apply Nc. now left.
  - injection E as -> _. exfalso. apply Na. now left.
  - injection E as -> E. apply IH in E as [-> ->]; auto.
    + intros I. apply Na. now right.
    + intros I. apply Nc. now right.
Qed.

Definition tlv_s2c_body (k u t : Z) : bytes := itoa k ++ [32] ++ itoa u ++ [32] ++ itoa t.

Lemma tlv_s2c_inj k u t k' u' t' : tlv_s2c_body k u t = tlv_s2c_body k' u' t' ->
  k = k' /\ u = u' /\ t = t'.
Proof.
  unfold tlv_s2c_body. cbn [app]. intros E.
  apply split_blank in E as [E1 E]; auto using itoa_no_blank.
  apply split_blank in E as [E2 E3]; auto using itoa_no_blank.
  apply itoa_inj in E1, E2, E3. auto.
Qed.

Lemma itoa_plain n : Forall scalar (itoa n) /\ flat_map utf8_char (itoa n) = itoa n.
Proof.
  pose proof (itoa_chars n) as F. induction F as [|x l Hx HF [IH1 IH2]].
  - split; [constructor|reflexivity].
  - split; [constructor; auto; unfold scalar; lia|].
    cbn [flat_map]. rewrite IH2. unfold utf8_char. replace (x <? 128) with true by lia. reflexivity.
Qed.

Lemma itoa_repaired n : repaired (itoa n) (itoa n).
Proof.
  destruct (itoa_plain n) as [F E]. pose proof (repaired_valid _ F) as R. rewrite E in R. exact R.
Qed.

Lemma s2c_text k u t : json_text (s2c_result_string (itoa k) (itoa u) (itoa t))
  (JObj [(str "ThroughputValue", JStr (itoa k)); (str "UnsentDataAmount", JStr (itoa u));
         (str "TotalSentByte", JStr (itoa t))]).
Proof.
  exists [], (s2c_result_string (itoa k) (itoa u) (itoa t)), [].
  split; [now rewrite app_nil_r|]. split; [constructor|]. split; [constructor|].
  replace (s2c_result_string (itoa k) (itoa u) (itoa t)) with
    (123 :: [] ++ (34 :: str "ThroughputValue" ++ 34 :: [] ++ 58 :: [] ++ json_string (itoa k) ++ [] ++ 44 :: [] ++
      (34 :: str "UnsentDataAmount" ++ 34 :: [] ++ 58 :: [] ++ json_string (itoa u) ++ [] ++ 44 :: [] ++
      (34 :: str "TotalSentByte" ++ 34 :: [] ++ 58 :: [] ++ json_string (itoa t) ++ []))) ++ [125]).
  2:{ unfold s2c_result_string. cbn [str app]. rewrite app_nil_r.
      repeat (rewrite <- app_assoc; cbn [app]). reflexivity. }
  apply jv_obj; [lia|constructor|].
  apply jm_more; try apply ws_nil;
    [apply jchars_lit; [apply bytes_okb_spec; reflexivity|reflexivity]
    |apply json_string_jval; auto using itoa_bytes_ok, itoa_repaired|].
  apply jm_more; try apply ws_nil;
    [apply jchars_lit; [apply bytes_okb_spec; reflexivity|reflexivity]
    |apply json_string_jval; auto using itoa_bytes_ok, itoa_repaired|].
  apply jm_one; try apply ws_nil;
    [apply jchars_lit; [apply bytes_okb_spec; reflexivity|reflexivity]
    |apply json_string_jval; auto using itoa_bytes_ok, itoa_repaired].
Qed.

Lemma s2c_string_ok k u t : bytes_ok (s2c_result_string (itoa k) (itoa u) (itoa t)).
Proof.
  unfold s2c_result_string.
  rewrite !bytes_ok_app. repeat match goal with |- _ /\ _ => split end;
    auto using json_string_ok, itoa_bytes_ok; apply bytes_okb_spec; reflexivity.
Qed.

Lemma write_tlv_inj ty ty' a b : write_tlv ty a = write_tlv ty' b -> a = b.
Proof. intros E. exact (f_equal (skipn 3) E). Qed.

Lemma json_s2c_inj k u t k' u' t' :
  s2c_result_string (itoa k) (itoa u) (itoa t) = s2c_result_string (itoa k') (itoa u') (itoa t') ->
  k = k' /\ u = u' /\ t = t'.
Proof.
  intros E. pose proof (s2c_text k u t) as J. rewrite E in J.
  pose proof (json_text_fun _ _ _ (s2c_string_ok k' u' t') J (s2c_text k' u' t')) as F.
  injection F as F1 F2 F3. apply itoa_inj in F1, F2, F3. auto.
Qed.

Lemma dec_nonneg_len n : 0 <= n <= 2 ^ 63 -> len (dec_nonneg n) <= 64.
Proof.
  intros H. unfold dec_nonneg.
  assert (G : forall f m acc, len (dec_digits f m acc) <= Z.of_nat f + len acc).
  { induction f as [|f IH]; intros m acc; cbn [dec_digits].
    - lia.
    - destruct (m / 10 =? 0); [rewrite len_cons; lia|].
      specialize (IH (m / 10) ((48 + m mod 10) :: acc)). rewrite len_cons in IH. lia. }
  specialize (G (S (Z.to_nat (Z.log2 n))) n []). rewrite len_nil in G.
  assert (Z.log2 n <= 63).
  { rewrite <- (Z.log2_pow2 63) by lia. apply Z.log2_le_mono. lia. }
  lia.
Qed.

Lemma itoa_len n : int64_ok n -> len (itoa n) <= 65.
Proof.
  intros H. unfold int64_ok, min_int64, max_int64 in H. unfold itoa. destruct (n <? 0) eqn:E.
  - rewrite len_cons. pose proof (dec_nonneg_len (- n)). lia.
  - pose proof (dec_nonneg_len n). lia.
Qed.

Lemma json_escape_id s : Forall (fun b => b = 45 \/ 48 <= b <= 57) s ->
  forall fuel, (length s <= fuel)%nat -> json_escape fuel s = s.
Proof.
  induction 1 as [|x s Hx HF IH]; intros fuel L; destruct fuel as [|f]; try reflexivity;
    [cbn in L; lia|].
  cbn [json_escape]. replace (x <? 128) with true by lia.
  unfold json_escape_ascii.
  replace (html_safe x) with true by (unfold html_safe, in_range, mem; cbn [existsb]; lia).
  cbn [app]. f_equal. apply IH. cbn in L. lia.
Qed.

Lemma json_string_itoa n : json_string (itoa n) = 34 :: itoa n ++ [34].
Proof. unfold json_string. rewrite json_escape_id; auto using itoa_chars. Qed.

Lemma tlv_s2c_fits k u t : int64_ok k -> int64_ok u -> int64_ok t -> fits (tlv_s2c_body k u t).
Proof.
  intros Hk Hu Ht. apply itoa_len in Hk, Hu, Ht. unfold fits, tlv_s2c_body.
  rewrite !len_app. cbn [len]. change (len [32]) with 1. lia.
Qed.

Lemma json_s2c_fits k u t : int64_ok k -> int64_ok u -> int64_ok t ->
  fits (s2c_result_string (itoa k) (itoa u) (itoa t)).
Proof.
  intros Hk Hu Ht. apply itoa_len in Hk, Hu, Ht. unfold fits, s2c_result_string.
  rewrite !json_string_itoa, !len_app, !len_cons, !len_app.
  repeat match goal with |- context [len (str ?x)] =>
    let n := eval vm_compute in (len (str x)) in change (len (str x)) with n end.
  change (len [34]) with 1. lia.
Qed.

(** ** Numerals *)

Lemma forallb_digit_spec s : forallb is_digit s = true <-> digits s.
Proof.
  unfold digits. rewrite forallb_forall, Forall_forall.
  split; intros H x I; apply is_digit_spec; auto.
Qed.

Lemma atoi_numeral s n : atoi s = Some n <-> numeral s n.
Proof.
  unfold atoi, numeral. split.
  - set (p := match s with [] => _ | b :: r => _ end).
    assert (P : exists sign : bytes, s = app sign (snd p) /\ ((fst p = false /\ (sign = [] \/ sign = str "+")) \/ (fst p = true /\ sign = str "-"))).
    { subst p. destruct s as [|b r]; [exists []; auto|].
      destruct (b =? 45) eqn:E1; [apply Z.eqb_eq in E1; subst; exists [45]; auto|].
      destruct (b =? 43) eqn:E2; [apply Z.eqb_eq in E2; subst; exists [43]; auto|].
      exists []. auto. }
    destruct P as (sign & Es & Hs). destruct p as [neg ds]. cbn [fst snd] in *.
    destruct ds as [|d ds]; [discriminate|].
    destruct (forallb is_digit (d :: ds)) eqn:D; [|discriminate].
    apply forallb_digit_spec in D.
    destruct (int64_okb _) eqn:I; [|discriminate]. intros H.
    apply int64_okb_spec in I. unfold int64_ok, min_int64, max_int64 in I.
    exists sign, (d :: ds). split; auto. split; [discriminate|]. split; auto.
    destruct Hs as [(-> & Hs)|(-> & Hs)]; injection H as <-; (split; [lia|]).
    + left. auto.
    + right. auto.
  - intros (sign & ds & -> & Ne & D & R & H).
    assert (G : forall neg : bool, match ds with
       | [] => None
       | _ :: _ => if forallb is_digit ds then
            let v := if neg then - dec_value ds else dec_value ds in
            if int64_okb v then Some v else None else None end =
       (if int64_okb (if neg then - dec_value ds else dec_value ds)
        then Some (if neg then - dec_value ds else dec_value ds) else None)).
    { intros neg. apply forallb_digit_spec in D. rewrite D. destruct ds; [congruence|reflexivity]. }
    assert (I : int64_okb n = true).
    { apply int64_okb_spec. unfold int64_ok, min_int64, max_int64. lia. }
    destruct H as [([->| ->] & E)|(-> & E)].
    + specialize (G false). cbn [app]. destruct ds as [|d ds]; [congruence|]. inversion D as [|? ? Hd]; subst.
      unfold digit in Hd. replace (d =? 45) with false by lia. replace (d =? 43) with false by lia.
      cbv beta iota zeta in G |- *. etransitivity; [exact G|]. unfold dec_value. rewrite I. reflexivity.
    + change (str "+" ++ ds) with (43 :: ds).
      change (43 =? 45) with false. change (43 =? 43) with true. cbv iota.
      etransitivity; [exact (G false)|]. unfold dec_value. rewrite <- E, I. reflexivity.
    + change (str "-" ++ ds) with (45 :: ds).
      change (45 =? 45) with true. cbv iota.
      etransitivity; [exact (G true)|]. unfold dec_value. rewrite <- E, I. reflexivity.
Qed.

Lemma atoi_nil : atoi [] = None. Proof. reflexivity. Qed.

(** ** Logins *)

Lemma login_plain_tlv first n : bytes_ok (match first with Some b => b | None => [] end) ->
  (login_plain first = (LoginOk n, TLV) <-> first = Some (wire_frame (MsgLogin, [n]))).
Proof.
  intros OK. split.
  - unfold login_plain. destruct (read_tlv_total first [MsgLogin; MsgExtendedLogin]) as [(p & ty & E)|(ty & e & E)];
      rewrite E; cbn [tlv_err tlv_payload tlv_type]; [|discriminate].
    apply read_tlv_accepts in E as [I (hi & lo & -> & L)].
    destruct (ty =? MsgExtendedLogin) eqn:T1.
    { destruct (unmarshal p) as [| |m t]; [discriminate|rewrite atoi_nil; discriminate|].
      destruct (atoi t); discriminate. }
    destruct (ty =? MsgLogin) eqn:T2; [|discriminate].
    destruct p as [|b [|b' p]]; try discriminate. intros H; injection H as <-.
    apply Z.eqb_eq in T2. subst ty.
    unfold wire_frame. cbn [fst snd]. change (len [b]) with 1 in *. cbn.
    rewrite !bytes_ok_cons in OK. unfold byte_ok in OK.
    replace hi with 0 by lia. replace lo with 1 by lia. reflexivity.
  - intros ->. unfold login_plain.
    rewrite <- write_tlv_wire by (unfold fits; change (len [n]) with 1; lia).
    rewrite tlv_roundtrip; [|now left|unfold fits; change (len [n]) with 1; lia].
    reflexivity.
Qed.

Lemma fits_frame (ty hi lo : Z) (p : bytes) : byte_ok hi -> byte_ok lo -> hi * 256 + lo = len p ->
  fits p /\ ty :: hi :: lo :: p = wire_frame (ty, p).
Proof.
  unfold byte_ok, fits, wire_frame. cbn [fst snd]. intros. split; [lia|]. do 2 f_equal; [|f_equal]; lia.
Qed.

Lemma login_plain_json first n : bytes_ok (match first with Some b => b | None => [] end) ->
  (login_plain first = (LoginOk n, JSON) <->
   exists body msg tests, first = Some (wire_frame (MsgExtendedLogin, body)) /\ fits body /\     ndt_message body msg tests /\ numeral tests n).
Proof.
  intros OK. split.
  - unfold login_plain. destruct (read_tlv_total first [MsgLogin; MsgExtendedLogin]) as [(p & ty & E)|(ty & e & E)];
      rewrite E; cbn [tlv_err tlv_payload tlv_type]; [|discriminate].
    apply read_tlv_accepts in E as [I (hi & lo & -> & L)].
    rewrite !bytes_ok_cons in OK. destruct OK as (Hty & Hhi & Hlo & OKp).
    destruct (ty =? MsgExtendedLogin) eqn:T1.
    2:{ destruct (ty =? MsgLogin) eqn:T2; [|discriminate].
        destruct p as [|b [|b' p]]; discriminate. }
    apply Z.eqb_eq in T1. subst ty.
    destruct (unmarshal p) as [| |m t] eqn:U; [discriminate|rewrite atoi_nil; discriminate|].
    destruct (atoi t) as [n'|] eqn:A; [|discriminate]. intros H; injection H as ->.
    apply unmarshal_msg in U; auto. apply atoi_numeral in A.
    destruct (fits_frame MsgExtendedLogin hi lo p) as [F W]; auto.
    exists p, m, t. rewrite W. auto.
  - intros (body & msg & tests & -> & F & N & A).
    assert (OKp : bytes_ok body).
    { unfold wire_frame in OK. cbn [fst snd] in OK. rewrite !bytes_ok_cons in OK. tauto. }
    unfold login_plain. rewrite <- write_tlv_wire by auto.
    rewrite tlv_roundtrip; [|cbn; auto|exact F].
    cbn [tlv_err tlv_payload tlv_type]. change (MsgExtendedLogin =? MsgExtendedLogin) with true. cbv iota.
    apply unmarshal_msg in N; auto. rewrite N.
    apply atoi_numeral in A. now rewrite A.
Qed.

Lemma login_plain_encoding first n e : login_plain first = (LoginOk n, e) -> e = JSON \/ e = TLV.
Proof.
  intros H. assert (E : snd (login_plain first) = e) by now rewrite H.
  assert (F : fst (login_plain first) = LoginOk n) by now rewrite H. clear H.
  revert E F. unfold login_plain.
  destruct (read_tlv _ _) as [[p|] ty [er|]]; cbn [tlv_err tlv_payload tlv_type fst snd]; try discriminate.
  destruct (ty =? MsgExtendedLogin).
  - destruct (unmarshal p); cbn [fst snd]; intros <- _; auto.
  - destruct (ty =? MsgLogin); [|discriminate].
    destruct p as [|b [|b' p]]; cbn [fst snd]; intros <- _; auto.
Qed.

Lemma login_plain_no_panic first : fst (login_plain first) <> LoginPanic.
Proof.
  unfold login_plain.
  destruct (read_tlv _ _) as [[p|] ty [er|]]; cbn [tlv_err tlv_payload tlv_type fst snd]; try discriminate.
  destruct (ty =? MsgExtendedLogin).
  - destruct (unmarshal p) as [| |m t]; cbn [fst]; try discriminate. destruct (atoi t); discriminate.
  - destruct (ty =? MsgLogin); [|discriminate]. destruct p as [|b [|b' p]]; discriminate.
Qed.

Lemma login_ws_ok first n : bytes_ok (match first with Some b => b | None => [] end) ->
  (login_ws first = LoginOk n <->
   exists body msg tests, first = Some (wire_frame (MsgExtendedLogin, body)) /\ fits body /\     ndt_message body msg tests /\ numeral tests n).
Proof.
  intros OK. split.
  - unfold login_ws, receive_json.
    destruct (read_tlv_total first [MsgExtendedLogin]) as [(p & ty & E)|(ty & e & E)];
      rewrite E; cbn [tlv_err tlv_payload tlv_type]; [|discriminate].
    apply read_tlv_accepts in E as [I (hi & lo & -> & L)].
    destruct I as [<-|[]].
    rewrite !bytes_ok_cons in OK. destruct OK as (Hty & Hhi & Hlo & OKp).
    destruct (unmarshal p) as [| |m t] eqn:U; [discriminate..|].
    destruct (atoi t) as [n'|] eqn:A; [|discriminate]. intros H; injection H as ->.
    apply unmarshal_msg in U; auto. apply atoi_numeral in A.
    destruct (fits_frame MsgExtendedLogin hi lo p) as [F W]; auto.
    exists p, m, t. rewrite W. auto.
  - intros (body & msg & tests & -> & F & N & A).
    assert (OKp : bytes_ok body).
    { unfold wire_frame in OK. cbn [fst snd] in OK. rewrite !bytes_ok_cons in OK. tauto. }
    unfold login_ws, receive_json. rewrite <- write_tlv_wire by auto.
    rewrite tlv_roundtrip; [|cbn; auto|exact F]. cbn [tlv_err tlv_payload].
    apply unmarshal_msg in N; auto. rewrite N.
    apply atoi_numeral in A. now rewrite A.
Qed.

Lemma login_ws_panic first : bytes_ok (match first with Some b => b | None => [] end) ->
  (login_ws first = LoginPanic <->
   exists body, first = Some (wire_frame (MsgExtendedLogin, body)) /\ fits body /\ json_text body JNull).
Proof.
  intros OK. split.
  - unfold login_ws, receive_json.
    destruct (read_tlv_total first [MsgExtendedLogin]) as [(p & ty & E)|(ty & e & E)];
      rewrite E; cbn [tlv_err tlv_payload tlv_type]; [|discriminate].
    apply read_tlv_accepts in E as [I (hi & lo & -> & L)].
    destruct I as [<-|[]].
    rewrite !bytes_ok_cons in OK. destruct OK as (Hty & Hhi & Hlo & OKp).
    destruct (unmarshal p) as [| |m t] eqn:U; [discriminate| |destruct (atoi t); discriminate].
    intros _. apply unmarshal_null in U; auto.
    destruct (fits_frame MsgExtendedLogin hi lo p) as [F W]; auto.
    exists p. rewrite W. auto.
  - intros (body & -> & F & N).
    assert (OKp : bytes_ok body).
    { unfold wire_frame in OK. cbn [fst snd] in OK. rewrite !bytes_ok_cons in OK. tauto. }
    unfold login_ws, receive_json. rewrite <- write_tlv_wire by auto.
    rewrite tlv_roundtrip; [|cbn; auto|exact F]. cbn [tlv_err tlv_payload].
    apply unmarshal_null in N; auto. now rewrite N.
Qed.

(** ** SendMetrics *)

(** Send a list of lines until the first failure. *)
Fixpoint send_all (send : list bytes -> bytes -> bool) (ls : list bytes) (sent : list bytes)
  : list bytes * sm_result :=
  match ls with
  | [] => (sent, SmOk)
  | l :: r => if send sent l then send_all send r (sent ++ [l]) else (sent ++ [l], SmErr)
  end.

Lemma send_all_app send a b sent :
  send_all send (a ++ b) sent =
  match send_all send a sent with (s, SmOk) => send_all send b s | stop => stop end.
Proof.
  revert sent. induction a as [|l a IH]; intros sent; cbn [app send_all]; auto.
  destruct (send sent l); auto.
Qed.

(** Induction principle that goes under the fields of a struct. *)
Section fval_rect.
  Variable P : fval -> Prop.
  Hypothesis HInt : forall n, P (FInt n).
  Hypothesis HNamed : forall s, P (FNamedInt s).
  Hypothesis HStr : forall s, P (FStr s).
  Hypothesis HStringer : forall s, P (FStringer s).
  Hypothesis HStruct : forall fs, Forall (fun f => P (snd f)) fs -> P (FStruct fs).
  Hypothesis HOther : P FOther.
  Fixpoint fval_deep (v : fval) : P v :=
    match v with
    | FInt n => HInt n
    | FNamedInt s => HNamed s
    | FStr s => HStr s
    | FStringer s => HStringer s
    | FStruct fs =>
        HStruct fs ((fix go (l : list (bytes * fval)) : Forall (fun f => P (snd f)) l :=
          match l with
          | [] => Forall_nil _
          | f :: r => Forall_cons f (fval_deep (snd f)) (go r)
          end) fs)
    | FOther => HOther
    end.
End fval_rect.

Lemma send_line_all send sent l : send_line send sent l = send_all send [l] sent.
Proof. unfold send_line. cbn [send_all]. destruct (send sent l); reflexivity. Qed.

Lemma metric_line_nl prefix name v :
  metric_line prefix (name, v) = prefix ++ name ++ str ": " ++ v ++ [10].
Proof. reflexivity. Qed.

Lemma send_field_spec send v : forall prefix name sent,
  send_field send prefix name v sent =
  send_all send (map (metric_line prefix) (map (fun l => (name ++ fst l, snd l)) (leaves_of v))) sent.
Proof.
  induction v as [n|s|s|s|fs IH|] using fval_deep; intros prefix name sent;
    try (cbn [send_field leaves_of map fst snd]; rewrite send_line_all, app_nil_r; reflexivity).
  - cbn [send_field leaves_of]. revert sent.
    induction IH as [|[n x] fs Hx HF IHfs]; intros sent; cbn [flat_map map]; [reflexivity|].
    cbn [fst snd] in *. rewrite !map_app, send_all_app, Hx.
    match goal with |- match ?a with _ => _ end = match ?b with _ => _ end =>
      replace b with a; [destruct a as [sent' []]; auto|] end.
    f_equal. rewrite !map_map. apply map_ext. intros [p y]. cbn [fst snd].
    unfold metric_line. cbn [fst snd]. rewrite <- !app_assoc. reflexivity.
  - reflexivity.
Qed.

Lemma send_fields_spec send prefix fs : forall sent,
  send_fields send prefix fs sent = send_all send (map (metric_line prefix) (leaves fs)) sent.
Proof.
  induction fs as [|[n x] fs IH]; intros sent; cbn [send_fields leaves flat_map map]; [reflexivity|].
  rewrite map_app, send_all_app, send_field_spec. cbn [fst snd].
  destruct (send_all _ _ sent) as [s' []]; auto.
Qed.

Lemma send_all_ok send ls : forall sent sent',
  send_all send ls sent = (sent', SmOk) <->
  sent' = sent ++ ls /\ forall a l b, ls = a ++ l :: b -> send (sent ++ a) l = true.
Proof.
  induction ls as [|x ls IH]; intros sent sent'; cbn [send_all].
  - rewrite app_nil_r. split.
    + intros H; injection H as ->. split; auto. intros [|] ? ? H; discriminate.
    + intros [-> _]. reflexivity.
  - destruct (send sent x) eqn:E.
    + rewrite IH. split.
      * intros [-> H]. split; [now rewrite <- app_assoc|].
        intros [|y a] l b H'; cbn [app] in H'; injection H' as <- ->.
        -- now rewrite app_nil_r.
        -- specialize (H a l b eq_refl). now rewrite <- app_assoc in H.
      * intros [-> H]. split; [now rewrite <- app_assoc|].
        intros a l b ->. rewrite <- app_assoc. cbn [app]. now apply (H (x :: a) l b).
    + split; [discriminate|]. intros [_ H].
      specialize (H [] x ls eq_refl). rewrite app_nil_r in H. congruence.
Qed.

Lemma send_all_err send ls : forall sent sent',
  send_all send ls sent = (sent', SmErr) <->
  exists a l b, ls = a ++ l :: b /\ sent' = sent ++ a ++ [l] /\ send (sent ++ a) l = false /\    forall a1 x a2, a = a1 ++ x :: a2 -> send (sent ++ a1) x = true.
Proof.
  induction ls as [|x ls IH]; intros sent sent'; cbn [send_all].
  - split; [discriminate|]. intros ([|] & ? & ? & H & _); discriminate.
  - destruct (send sent x) eqn:E.
    + rewrite IH. split.
      * intros (a & l & b & -> & -> & F & T). exists (x :: a), l, b.
        repeat split; auto.
        -- now rewrite <- app_assoc.
        -- now rewrite <- app_assoc in F.
        -- intros [|y a1] z a2 H; cbn [app] in H; injection H as <- ->.
           ++ now rewrite app_nil_r.
           ++ specialize (T a1 z a2 eq_refl). now rewrite <- app_assoc in T.
      * intros ([|y a] & l & b & H & -> & F & T); cbn [app] in H; injection H as <- ->.
        -- rewrite app_nil_r in F. congruence.
        -- exists a, l, b. repeat split; auto.
           ++ now rewrite <- app_assoc.
           ++ rewrite <- app_assoc. exact F.
           ++ intros a1 z a2 ->. rewrite <- app_assoc. cbn [app]. now apply (T (x :: a1) z a2).
    + split.
      * intros H; injection H as <-. exists [], x, ls. rewrite app_nil_r. repeat split; auto.
        intros [|] ? ? H; discriminate.
      * intros ([|y a] & l & b & H & -> & F & T); cbn [app] in H; injection H as <- ->.
        -- reflexivity.
        -- specialize (T [] x a eq_refl). rewrite app_nil_r in T. congruence.
Qed.

Lemma send_all_never_panics send ls : forall sent, snd (send_all send ls sent) <> SmPanic.
Proof.
  induction ls as [|x ls IH]; intros sent; cbn [send_all]; [discriminate|].
  destruct (send sent x); [apply IH|discriminate].
Qed.

Lemma send_metrics_struct send m fs prefix : points_to m fs ->
  send_metrics send m prefix = send_all send (map (metric_line prefix) (leaves fs)) [].
Proof. induction 1; cbn [send_metrics]; auto using send_fields_spec. Qed.

Lemma send_metrics_ok send m fs prefix sent : points_to m fs ->
  (send_metrics send m prefix = (sent, SmOk) <->
   sent = map (metric_line prefix) (leaves fs) /\
   forall a l b, sent = a ++ l :: b -> send a l = true).
Proof.
  intros H. rewrite (send_metrics_struct _ _ _ _ H), send_all_ok. cbn [app].
  split; intros [-> F]; auto.
Qed.

Lemma send_metrics_err send m fs prefix sent : points_to m fs ->
  (send_metrics send m prefix = (sent, SmErr) <->
   exists a l b, map (metric_line prefix) (leaves fs) = a ++ l :: b /\ sent = a ++ [l] /\
     first_failure send a l).
Proof.
  intros H. rewrite (send_metrics_struct _ _ _ _ H), send_all_err. cbn [app].
  unfold first_failure. split; intros (a & l & b & E & ? & ? & ?); exists a, l, b; tauto.
Qed.

Lemma send_metrics_panic send m prefix :
  snd (send_metrics send m prefix) = SmPanic <-> forall fs, ~ points_to m fs.
Proof.
  split.
  - intros P fs H. rewrite (send_metrics_struct _ _ _ _ H) in P.
    now apply send_all_never_panics in P.
  - assert (G : forall m, (exists fs, points_to m fs) \/ snd (send_metrics send m prefix) = SmPanic).
    { fix IH 1. intros [[m'|]|fs|]; cbn [send_metrics].
      - destruct (IH m') as [[fs H]|H]; [left; exists fs; now constructor|now right].
      - now right.
      - left. exists fs. constructor.
      - now right. }
    intros N. destruct (G m) as [[fs H]|H]; auto. now apply N in H.
Qed.

(** Bad bodies. *)
Lemma unmarshal_err body : bytes_ok body ->
  (unmarshal body = UErr <-> ~ json_text body JNull /\ forall m t, ~ ndt_message body m t).
Proof.
  intros OK. split.
  - intros U. split.
    + intros N. apply unmarshal_null in N; auto. congruence.
    + intros m t N. apply unmarshal_msg in N; auto. congruence.
  - intros [N1 N2]. destruct (unmarshal body) as [| |m t] eqn:U; auto; exfalso.
    + apply N1. now apply unmarshal_null.
    + apply (N2 m t). now apply unmarshal_msg.
Qed.
