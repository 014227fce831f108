(** Proofs of C81. *)
From Coq Require Import String ZArith List Bool Lia.
From Verif Require Import Base BaseFacts TextSpec TextProofs JsonSpec JsonProofs GoFloat Web100Model Effect QueryModel
  ControlModel Ndt7Model Ndt7Spec CodecModel CodecSpec CodecFacts CodecRead ToldSpec.
Import ListNotations.
Open Scope Z_scope.

(** ** Documents are functions of what they describe *)
Definition single {A} (P : A -> Prop) : Prop := forall x y, P x -> P y -> x = y.

Lemma object_single parts : Forall single parts -> single (object parts).
Proof.
  intros F j j' (ls & H & ->) (ls' & H' & ->). f_equal. f_equal.
  revert ls ls' H H'. induction F as [|p ps S F IH]; intros ls ls' H H'; inversion H; inversion H'; subst; [reflexivity|].
  f_equal; eauto.
Qed.
Lemma member_single name P : single P -> single (member name P).
Proof. intros S l l' (j & -> & H) (j' & -> & H'). rewrite (S j j'); auto. Qed.
Lemma optional_single {A} name (o : option A) P : (forall a, single (P a)) -> single (optional name o P).
Proof. intros S. destruct o; cbn [optional]; [apply member_single, S|]. intros l l' -> ->. reflexivity. Qed.
Lemma int_single n : single (is_int n).
Proof. intros j j' -> ->. reflexivity. Qed.
Lemma text_single s : single (is_text s).
Proof. intros j j' (t & H & ->) (t' & H' & ->). rewrite (repaired_fun s t H t' H'). reflexivity. Qed.
Lemma time_single k n : single (is_time k n).
Proof. intros j j' (w & H & ->) (w' & H' & ->). congruence. Qed.
Lemma measurement_single k m : single (measurement_doc k m).
Proof.
  unfold measurement_doc. apply object_single. repeat apply Forall_cons; try apply Forall_nil; apply optional_single; intros a.
  - apply object_single. repeat apply Forall_cons; try apply Forall_nil; apply member_single, int_single.
  - apply object_single. repeat apply Forall_cons; try apply Forall_nil.
    + apply member_single, text_single.
    + apply member_single, text_single.
    + apply optional_single, text_single.
    + apply member_single, time_single.
  - apply object_single. repeat apply Forall_cons; try apply Forall_nil; apply member_single, int_single.
  - apply object_single. apply Forall_app. split; [|repeat constructor; apply member_single, int_single].
    unfold tcp_parts. apply Forall_map, Forall_forall. intros f _. apply member_single, int_single.
Qed.

(** ** The parts of a document *)
Lemma object_inv parts j : object parts j -> exists ls, Forall2 (fun part l => part l) parts ls /\ j = JObj (concat ls).
Proof. auto. Qed.
Definition memb (name : bytes) (names : list bytes) : bool := existsb (beqb name) names.
Lemma memb_spec name names : memb name names = false -> ~ In name names.
Proof.
  unfold memb. intros H I. assert (E : existsb (beqb name) names = true); [|congruence].
  apply existsb_exists. exists name. split; [exact I|]. apply beqb_spec. reflexivity.
Qed.
(** The members of parts have the names of the parts. *)
Definition named (name : bytes) (part : list (bytes * json) -> Prop) : Prop := forall l, part l -> incl (map fst l) [name].
Lemma named_member name P : named name (member name P).
Proof. intros l (j & -> & _) y Hy. exact Hy. Qed.
Lemma named_optional {A} name (o : option A) P : named name (optional name o P).
Proof. destruct o; cbn [optional]; [apply named_member|]. intros l -> y Hy. destruct Hy. Qed.
Lemma object_member ps1 name P ps2 names1 names2 j :
  Forall2 named names1 ps1 -> Forall2 named names2 ps2 -> memb name (names1 ++ names2) = false ->
  object (ps1 ++ member name P :: ps2) j -> exists v, has_member name j v /\ P v.
Proof.
  intros N1 N2 M (ls & H & ->). apply Forall2_app_inv_l in H as (l1 & l2 & H1 & H2 & ->).
  inversion H2 as [|? x ? l3 Hv H3]; subst. destruct Hv as (v & -> & Pv). exists v. split; [|exact Pv].
  exists (concat l1), (concat l3). split; [rewrite concat_app; reflexivity|].
  apply memb_spec in M. intros I. apply M. rewrite map_app in I.
  assert (G : forall names ps ls, Forall2 named names ps -> Forall2 (fun part l => part l) ps ls ->
    incl (map fst (concat ls)) names).
  { clear. intros names ps ls N. revert ls. induction N as [|n p names ps Hn N IH]; intros ls H; inversion H; subst; [intros x []|].
    cbn [concat]. rewrite map_app. apply incl_app; [|apply incl_tl, IH; assumption].
    intros x I. destruct (Hn _ H2 x I) as [<-|[]]. left. reflexivity. }
  apply in_app_iff in I. apply in_app_iff. destruct I as [I|I]; [left; apply (G _ _ _ N1 H1 _ I)|right; apply (G _ _ _ N2 H3 _ I)].
Qed.
Ltac names_tac := first [apply Forall2_nil | apply Forall2_cons; [first [apply named_member|apply named_optional]|names_tac]].

Lemma archival_members k a j : archival_doc k a j ->
  exists sm cm, has_member (str "ServerMeasurements") j sm /\ array (measurement_doc k) (a_server a) sm /\
                has_member (str "ClientMeasurements") j cm /\ array (measurement_doc k) (a_client a) cm.
Proof.
  unfold archival_doc, meta_part. intros H.
  set (p1 := member (str "UUID") _) in H. set (p2 := member (str "StartTime") _) in H. set (p3 := member (str "EndTime") _) in H.
  set (p6 := optional (str "ClientMetadata") _ _) in H. set (p7 := optional (str "ServerMetadata") _ _) in H.
  assert (N1 : named (str "UUID") p1) by apply named_member. assert (N2 : named (str "StartTime") p2) by apply named_member.
  assert (N3 : named (str "EndTime") p3) by apply named_member.
  assert (N6 : named (str "ClientMetadata") p6) by apply named_optional. assert (N7 : named (str "ServerMetadata") p7) by apply named_optional.
  destruct (object_member [p1; p2; p3] (str "ServerMeasurements") (array (measurement_doc k) (a_server a))
              [member (str "ClientMeasurements") (array (measurement_doc k) (a_client a)); p6; p7]
              [str "UUID"; str "StartTime"; str "EndTime"] [str "ClientMeasurements"; str "ClientMetadata"; str "ServerMetadata"] j)
    as (sm & S1 & S2); [(repeat (apply Forall2_cons; [first [assumption|apply named_member]|]); apply Forall2_nil)|(repeat (apply Forall2_cons; [first [assumption|apply named_member]|]); apply Forall2_nil)|vm_compute; reflexivity|exact H|].
  destruct (object_member [p1; p2; p3; member (str "ServerMeasurements") (array (measurement_doc k) (a_server a))]
              (str "ClientMeasurements") (array (measurement_doc k) (a_client a)) [p6; p7]
              [str "UUID"; str "StartTime"; str "EndTime"; str "ServerMeasurements"] [str "ClientMetadata"; str "ServerMetadata"] j)
    as (cm & C1 & C2); [(repeat (apply Forall2_cons; [first [assumption|apply named_member]|]); apply Forall2_nil)|(repeat (apply Forall2_cons; [first [assumption|apply named_member]|]); apply Forall2_nil)|vm_compute; reflexivity|exact H|].
  exists sm, cm. auto.
Qed.
Lemma result_member k kind r d j : data_of kind r d -> ndt7_doc k r j ->
  exists part, has_member (part_name kind) j part /\ archival_doc k d part.
Proof.
  unfold ndt7_doc, header_parts. cbn [app].
  set (heads := [str "GitShortCommit"; str "Version"; str "ServerIP"; str "ServerPort"; str "ClientIP"; str "ClientPort"; str "StartTime"; str "EndTime"]).
  intros D H. destruct kind; destruct D as [D1 D2]; rewrite D1, D2 in H; cbn [optional part_name] in *.
  - match type of H with object (?a :: ?b :: ?c :: ?d :: ?e :: ?f :: ?g :: ?h :: ?u :: [?x]) _ =>
      apply (object_member [a; b; c; d; e; f; g; h; u] _ _ [] (heads ++ [str "Upload"]) []) in H end;
      [exact H| | |vm_compute; reflexivity].
    + unfold heads. cbn [app]. repeat (apply Forall2_cons; [first [apply named_member|intros l -> x []]|]). apply Forall2_nil.
    + apply Forall2_nil.
  - match type of H with object (?a :: ?b :: ?c :: ?d :: ?e :: ?f :: ?g :: ?h :: ?u :: [?x]) _ =>
      apply (object_member [a; b; c; d; e; f; g; h] _ _ [x] heads [str "Download"]) in H end;
      [exact H| | |vm_compute; reflexivity].
    + unfold heads. repeat (apply Forall2_cons; [apply named_member|]). apply Forall2_nil.
    + repeat (apply Forall2_cons; [intros l -> x0 []|]). apply Forall2_nil.
Qed.

(** ** What the client was told *)
Section Told.
  Variable k : codec.
  Hypothesis K : codec_ok k.

  Lemma document_times r doc : encode7 k r = Some doc -> Forall (printable k) (times7 r).
  Proof.
    intros E. apply Forall_forall. intros t I N. assert (X : encode7 k r = None); [|congruence].
    apply fails7, Exists_exists. eauto.
  Qed.
  Lemma part_printable kind r d doc : data_of kind r d -> encode7 k r = Some doc ->
    Forall (fun m => Forall (printable k) (measurement_times m)) (a_server d ++ a_client d).
  Proof.
    intros D E. apply document_times in E. unfold times7 in E. apply Forall_app in E as [_ E].
    assert (G : Forall (printable k) (archival_times (Some d))).
    { destruct kind; destruct D as [D1 D2]; rewrite D1, D2 in E; apply Forall_app in E; tauto. }
    unfold archival_times in G. apply Forall_app in G as [_ G]. rewrite <- flat_map_app in G.
    apply Forall_flat in G. exact G.
  Qed.
  Lemma told_doc m j : measurement_bytes m -> Forall (printable k) (measurement_times m) ->
    measurement_doc k m j -> told k m j.
  Proof.
    intros B P D. destruct (encode_measurement k m) as [text|] eqn:E.
    - destruct (message7 k K m text B E) as (Bt & j' & J & D'). assert (Ej : j = j') by (apply (measurement_single k m); assumption). subst j'.
      exists text. split; [exact E|]. intros j'. split; [apply (CodecFacts.json_text_fun text j j' Bt J)|intros ->; exact J].
    - exfalso. apply fails_message, Exists_exists in E as (t & I & E). rewrite Forall_forall in P. apply (P t I E).
  Qed.
  Lemma array_impl {A} (P Q : A -> json -> Prop) xs j : (forall x j, In x xs -> P x j -> Q x j) -> array P xs j -> array Q xs j.
  Proof.
    intros I. destruct xs as [|x xs]; [auto|]. unfold array. intros (js & F & ->). exists js. split; [|reflexivity].
    remember (x :: xs) as l eqn:El. clear El x xs. induction F as [|x j xs js H F IH]; constructor.
    - apply I; [left; reflexivity|exact H].
    - apply IH. intros y j' Iy. apply I. right. exact Iy.
  Qed.

  Lemma part_told kind r d doc : data_of kind r d -> result7_bytes r -> encode7 k r = Some doc ->
    exists j part sm cm, stands_for doc j /\ has_member (part_name kind) j part /\
      has_member (str "ServerMeasurements") part sm /\ array (told k) (a_server d) sm /\
      has_member (str "ClientMeasurements") part cm /\ array (told k) (a_client d) cm.
  Proof.
    intros D B E. destruct (document7 k K r doc B E) as (Bd & j & J & Dj).
    destruct (result_member k kind r d j D Dj) as (part & Hp & Pd).
    destruct (archival_members k d part Pd) as (sm & cm & S1 & S2 & C1 & C2).
    exists j, part, sm, cm. split; [intros j'; split; [apply (CodecFacts.json_text_fun doc j j' Bd J)|intros ->; exact J]|].
    pose proof (part_printable kind r d doc D E) as P. rewrite Forall_forall in P.
    assert (Ba : archival_bytes d).
    { destruct B as (_ & _ & B1 & B2). destruct kind; destruct D; auto. }
    destruct Ba as (_ & Bs & Bc & _). rewrite Forall_forall in Bs, Bc.
    split; [exact Hp|]. split; [exact S1|]. split; [|split; [exact C1|]].
    - revert S2. apply array_impl. intros m x I. apply told_doc; [apply Bs, I|apply P, in_app_iff; left; exact I].
    - revert C2. apply array_impl. intros m x I. apply told_doc; [apply Bc, I|apply P, in_app_iff; right; exact I].
  Qed.
End Told.

(** ** What the client sent *)

(** JSON values whose strings are text. *)
Inductive jgood : json -> Prop :=
| jg_null : jgood JNull
| jg_bool b : jgood (JBool b)
| jg_num w : jgood (JNum w)
| jg_str s : utf8_valid s -> jgood (JStr s)
| jg_arr l : Forall jgood l -> jgood (JArr l)
| jg_obj l : Forall (fun m => jgood (snd m)) l -> jgood (JObj l).
Lemma utf8_cons c s : scalar c -> utf8_valid s -> utf8_valid (utf8_char c ++ s).
Proof. intros H (cs & F & ->). exists (c :: cs). split; [constructor; assumption|reflexivity]. Qed.
Lemma jchars_valid raw v : jchars raw v -> utf8_valid v.
Proof.
  induction 1 as [|c r v Hc _ _ _ _ IH|b r v _ _ _ IH|e x r v He _ IH|h c r v Hh Hn _ IH|h1 hi h2 lo r v _ H1 _ H2 _ IH|h c r v _ _ _ _ IH].
  - exists []. split; [constructor|reflexivity].
  - apply utf8_cons; assumption.
  - apply utf8_cons; [unfold scalar; lia|exact IH].
  - assert (X : 0 <= x < 128).
    { unfold simple_escape in He. cbn [In] in He.
      repeat (destruct He as [He|He]; [injection He as <- <-; lia|]). destruct He. }
    change (x :: v) with ([x] ++ v). replace [x] with (utf8_char x); [apply utf8_cons; [unfold scalar; lia|exact IH]|].
    unfold utf8_char. replace (x <? 128) with true by lia. reflexivity.
  - apply utf8_cons; [|exact IH]. apply hex4_range in Hh. unfold scalar, surrogate in *. lia.
  - apply utf8_cons; [|exact IH]. unfold high_surrogate, low_surrogate, scalar in *. lia.
  - apply utf8_cons; [unfold scalar; lia|exact IH].
Qed.
Lemma jval_good d :
  (forall s j, jval d s j -> jgood j) /\ (forall s l, jelems d s l -> Forall jgood l) /\
  (forall s l, jmembers d s l -> Forall (fun m => jgood (snd m)) l).
Proof.
  revert d. apply (jval_mutind (fun _ _ j _ => jgood j) (fun _ _ l _ => Forall jgood l)
                     (fun _ _ l _ => Forall (fun m => jgood (snd m)) l)); intros; repeat (constructor; try assumption).
  eapply jchars_valid; eassumption.
Qed.
Lemma json_good s j : json_text s j -> jgood j.
Proof. intros (w1 & x & w2 & _ & _ & _ & H). eapply (proj1 (jval_good 0)), H. Qed.
Lemma utf8_bytes s : utf8_valid s -> bytes_ok s.
Proof.
  intros (cs & F & ->). induction F as [|c cs H F IH]; [constructor|]. cbn [flat_map]. apply bytes_ok_app. split; [apply utf8_char_ok, H|exact IH].
Qed.

Definition goodm (l : list (bytes * json)) : Prop := Forall (fun m => jgood (snd m)) l.
Lemma selected_good name l js : goodm l -> selected name l js -> Forall jgood js.
Proof.
  intros G S. induction S; [constructor| |]; inversion G; subst; [constructor; auto|auto].
Qed.
Lemma merge_good js l : Forall jgood js -> merge js = Some l -> goodm l.
Proof.
  unfold merge. intros F. assert (A : forall acc, (forall m, acc = Some m -> goodm m) ->
    fold_left (fun acc j => match j with JObj l => Some (match acc with Some m => m ++ l | None => l end) | _ => None end) js acc = Some l -> goodm l).
  { induction F as [|j js H F IH]; intros acc A; [cbn [fold_left]; apply A|]. cbn [fold_left]. apply IH.
    intros m E. destruct j; try discriminate. injection E as <-. inversion H; subst.
    destruct acc as [a|]; [apply Forall_app; split; [apply A; reflexivity|assumption]|assumption]. }
  apply A. discriminate.
Qed.
Lemma struct_good {A} (P : list (bytes * json) -> A -> Prop) name l a : goodm l -> has name (struct_field P) l (Some a) ->
  exists l', goodm l' /\ P l' a.
Proof.
  intros G (js & S & _ & M). destruct (merge js) as [l'|] eqn:E; [|discriminate].
  destruct M as (x & Px & [= <-]). exists l'. split; [|exact Px]. eapply merge_good; [|exact E]. eapply selected_good; eassumption.
Qed.
Lemma text_good name l s : goodm l -> has name text_field l s -> utf8_valid s.
Proof.
  intros G (js & S & _ & [[_ ->]|(j1 & j & j2 & E & T & _)]); [exists []; split; [constructor|reflexivity]|].
  apply (selected_good _ _ _ G) in S. rewrite E in S. apply Forall_app in S as [_ S]. inversion S as [|? ? H _]; subst.
  unfold text_value in T. subst j. inversion H. assumption.
Qed.
Lemma int_good name lo hi l n : lo <= 0 <= hi -> has name (int_field lo hi) l n -> lo <= n <= hi.
Proof. intros R (js & _ & _ & [[_ ->]|(j1 & j & j2 & _ & (w & _ & _ & H & _) & _)]); [exact R|exact H]. Qed.

Section Kept.
  Variable k : codec.
  Hypothesis K : codec_ok k.
  Hypothesis T : times_return k.

  Lemma time_good name l n w : has name (scalar_field (time_value k) zero_time) l n -> k_time k n = Some w -> k_read_time k w = Some n.
  Proof.
    destruct T as [T1 T2]. intros (js & _ & _ & [[_ ->]|(j1 & j & j2 & _ & (s & _ & H) & _)]); [apply T2|apply (T1 s), H].
  Qed.
  Lemma ints_fit value q rest (v : dens rest) : Forall (fun f => fst (snd f) <= value (fst f) <= snd (snd f)) q ->
    fits_fields k rest v -> fits_fields k (ints q rest) (pack value q rest v).
  Proof.
    intros F H. induction F as [|[name [lo hi]] q R F IH]; [exact H|]. cbn [ints pack fits_fields fst snd fitt] in *. split; [exact R|exact IH].
  Qed.
  Lemma int_of_fits (q : list (bytes * (Z * Z))) vs : NoDup (map fst q) ->
    Forall2 (fun f v => fst v = fst f /\ fst (snd f) <= snd v <= snd (snd f)) q vs ->
    Forall (fun f => fst (snd f) <= int_of vs (fst f) <= snd (snd f)) q.
  Proof.
    intros N F. induction F as [|f v q vs [E R] F IH]; [constructor|]. cbn [map] in N. apply NoDup_cons_iff in N as [N1 N2].
    constructor.
    - unfold int_of. cbn [find]. rewrite E, (proj2 (beqb_spec _ _) eq_refl). exact R.
    - apply Forall_forall. intros g I. specialize (IH N2). rewrite Forall_forall in IH. specialize (IH g I).
      unfold int_of in *. cbn [find]. destruct (beqb (fst v) (fst g)) eqn:B; [|exact IH].
      exfalso. apply beqb_spec in B. apply N1. rewrite <- E, B. apply in_map, I.
  Qed.
  Lemma tcp_names : NoDup (map fst (k_tcp k)).
  Proof. destruct K as (_ & _ & _ & K4 & _). apply nodup_lower in K4. apply NoDup_remove_1 in K4. rewrite app_nil_r in K4. exact K4. Qed.

  Lemma members_fit l m : goodm l -> measurement_members k l m ->
    measurement_bytes m /\ fits_fields k (measurement_fields k) (measurement_struct k m) /\
    (forall t e, m_tcp m = Some (t, e) -> tcp_like k t).
  Proof.
    assert (I64 : - 2 ^ 63 <= 0 <= 2 ^ 63 - 1) by lia. assert (U32 : 0 <= 0 <= 2 ^ 32 - 1) by lia.
    intros G (A & C & B & Tc). split; [|split].
    - intros c E. rewrite E in C. destruct (struct_good _ _ _ _ G C) as (l' & G' & C1 & C2 & C3 & _).
      apply (text_good _ _ _ G') in C1, C2, C3. auto using utf8_bytes.
    - unfold measurement_fields, measurement_struct. cbn [fits_fields fitt fst snd]. split; [|split; [|split; [|split; [|exact I]]]].
      + destruct (m_app m) as [a|]; [|exact I]. destruct (struct_good _ _ _ _ G A) as (l' & G' & A1 & A2).
        apply (int_good _ _ _ _ _ I64) in A1, A2. cbn [option_map app_fields fits_fields int64 fitt fst snd]. auto.
      + destruct (m_conn m) as [c|]; [|exact I]. destruct (struct_good _ _ _ _ G C) as (l' & G' & C1 & C2 & C3 & C4).
        apply (text_good _ _ _ G') in C1, C2, C3. cbn [option_map conn_fields conn_struct fits_fields fitt fst snd].
        repeat (split; [assumption|]). split; [|exact I]. intros w. apply (time_good _ _ _ _ C4).
      + destruct (m_bbr m) as [b|]; [|exact I]. destruct (struct_good _ _ _ _ G B) as (l' & G' & B1 & B2 & B3 & B4 & B5).
        apply (int_good _ _ _ _ _ I64) in B1, B5. apply (int_good _ _ _ _ _ U32) in B2, B3, B4.
        cbn [option_map bbr_fields bbr_struct elapsed_fields fits_fields int64 uint32 fitt fst snd]. auto 8.
      + destruct (m_tcp m) as [t|]; [|exact I]. destruct (struct_good _ _ _ _ G Tc) as (l' & G' & (vs & F & E) & L).
        apply (int_good _ _ _ _ _ I64) in L. cbn [option_map]. unfold tcp7_fields, tcp7_struct. apply ints_fit.
        * eapply Forall_impl; [|apply (int_of_fits (k_tcp k) vs tcp_names)].
          { intros f. cbn beta. rewrite E, value_of. auto. }
          destruct K as (_ & _ & K3 & _). clear -F K3. induction F as [|f v q vs [E R] F IH]; constructor; inversion K3 as [|? ? (_ & _ & Rf) Kf]; subst.
          { split; [exact E|]. refine (int_good (fst f) (fst (snd f)) (snd (snd f)) l' (snd v) _ R). destruct Rf as [[_ R1] [R2 _]]. split; assumption. }
          { apply IH. assumption. }
        * cbn [elapsed_fields fits_fields int64 fitt fst snd]. auto.
    - intros t e E. rewrite E in Tc. destruct (struct_good _ _ _ _ G Tc) as (l' & G' & (vs & F & Et) & _). exists vs. split; [|exact Et].
      clear -F. induction F as [|f v q vs [E _] F IH]; [reflexivity|]. cbn [map]. congruence.
  Qed.
  Lemma text_fits text m : measurement_text k text m ->
    measurement_bytes m /\ fits_fields k (measurement_fields k) (measurement_struct k m) /\
    (forall t e, m_tcp m = Some (t, e) -> tcp_like k t).
  Proof.
    intros [[_ ->]|(l & J & M)].
    - split; [intros c; discriminate|]. split; [cbn; tauto|discriminate].
    - apply (members_fit l m); [|exact M]. apply json_good in J. inversion J. assumption.
  Qed.
  Lemma told_agrees text m j : bytes_ok text -> measurement_text k text m -> told k m j -> agrees k text j.
  Proof.
    intros B M (out & E & S). destruct (text_fits text m M) as (Bm & F & L).
    assert (D : decode_measurement k out = Some m).
    { rewrite (back_message k K m out Bm E F). f_equal. apply (measurement_self k K), L. }
    destruct (message7 k K m out Bm E) as (Bo & j' & J & Dj). assert (X : j' = j) by (apply S; exact J). subst j'.
    destruct Dj as (ls & _ & Ej). exists m, (concat ls). split; [|split; [exact Ej|]].
    - intros m'. split; [|intros ->; exact M]. intros M'. apply (decode_spec k K text _ B) in M, M'. congruence.
    - intros m'. split.
      + intros M'. assert (Q : measurement_text k out m') by (right; exists (concat ls); split; [rewrite <- Ej; exact J|exact M']).
        apply (decode_spec k K out m' Bo) in Q. congruence.
      + intros ->. apply (decode_spec k K out m Bo) in D. destruct D as [[Jn _]|(l & Jl & Ml)].
        * apply S in Jn. congruence.
        * apply S in Jl. rewrite Ej in Jl. injection Jl as <-. exact Ml.
  Qed.
  Lemma array_agrees texts ms j : Forall bytes_ok texts -> Forall2 (measurement_text k) texts ms -> array (told k) ms j ->
    array (agrees k) texts j.
  Proof.
    intros B F. destruct F as [|t m texts ms M F]; [auto|]. cbn [array]. intros (js & H & ->). exists js. split; [|reflexivity].
    assert (G : Forall2 (measurement_text k) (t :: texts) (m :: ms)) by (constructor; assumption). clear M F.
    revert js H B. induction G as [|t' m' ts ms' M G IH]; intros js H B; inversion H; subst; constructor; inversion B; subst.
    - eapply told_agrees; eassumption.
    - apply IH; assumption.
  Qed.
End Kept.
