(** Archived documents load into the schema of their struct. *)
From Coq Require Import String ZArith List Bool Lia.
From Coq Require Import ZifyBool ZifyNat.
From Verif Require Import Base BaseFacts JsonSpec GoFloat TimeModel TimeSpec TimeFacts TimeProofs MessagerSpec Effect ControlModel Ndt7Model
  CodecModel CodecSpec CodecProofs CodecShape CodecFacts CodecRead ToldSpec ToldProofs ExactModel ExactProofs ExactCodec SchemaModel SchemaSpec.
Import ListNotations.
Open Scope Z_scope.

(** Field names that differ without regard to case, integers of at most 64 bits. *)
Fixpoint soundt (t : gtype) : bool :=
  match t with
  | TInt lo hi => (- 2 ^ 63 <=? lo) && (hi <? 2 ^ 63)
  | TPtr fs | TSlice fs => sounds fs
  | _ => true
  end
with sounds (fs : gfields) : bool :=
  match fs with
  | FNil => true
  | FCons name _ t r => negb (existsb (beqb (folded name)) (map folded (names r))) && soundt t && sounds r
  end.

(** Every time in a struct can be a TIMESTAMP. *)
Fixpoint datedt (t : gtype) : dent t -> Prop :=
  match t with
  | TTime => timestamp
  | TPtr fs => fun o => match o with None => True | Some v => dated fs v end
  | TSlice fs => Forall (dated fs)
  | _ => fun _ => True
  end
with dated (fs : gfields) : dens fs -> Prop :=
  match fs with
  | FNil => fun _ => True
  | FCons _ _ t r => fun v => datedt t (fst v) /\ dated r (snd v)
  end.

(** Which times these are in the results. *)
Lemma maybe_time o : timestamp (time_of o) <-> maybe o.
Proof.
  destruct o as [t|]; [reflexivity|]. cbn [time_of maybe]. split; [tauto|]. intros _. split; vm_compute; congruence.
Qed.
Lemma dated_ints f l rest v : dated (ints l rest) (pack f l rest v) <-> dated rest v.
Proof.
  induction l as [|[name [lo hi]] l IH]; [reflexivity|]. cbn [ints pack dated datedt fst snd]. tauto.
Qed.
Lemma dated_pairs l : Forall (dated name_value_fields) (map name_value l).
Proof. induction l as [|[a b] l IH]; constructor; [cbn; auto|exact IH]. Qed.
Lemma all_map {A B} (f : A -> B) (P : B -> Prop) (Q : A -> Prop) l : (forall x, P (f x) <-> Q x) -> (Forall P (map f l) <-> Forall Q l).
Proof.
  intros H. induction l as [|x l IH]; [split; constructor|]. cbn [map]. rewrite !Forall_cons_iff, H, IH. reflexivity.
Qed.
Section Dates.
  Variable k : codec.
  Lemma dated_measurement m : dated (measurement_fields k) (measurement_struct k m) <-> measurement_dated m.
  Proof.
    unfold measurement_fields, measurement_struct, measurement_dated. destruct m as [a c b t]. cbn [m_app m_conn m_bbr m_tcp].
    cbn [dated fst snd].
    assert (A : datedt (TPtr app_fields) (option_map (fun a => (fst a, (snd a, tt))) a)) by (destruct a; cbn; tauto).
    assert (B : datedt (TPtr bbr_fields) (option_map bbr_struct b)) by (destruct b; cbn; tauto).
    assert (T : datedt (TPtr (tcp7_fields k)) (option_map (tcp7_struct k) t)).
    { destruct t as [t|]; [|exact I]. cbn [option_map datedt]. unfold tcp7_fields, tcp7_struct. apply dated_ints. cbn. tauto. }
    assert (C : datedt (TPtr conn_fields) (option_map conn_struct c) <-> forall x, c = Some x -> timestamp (ci_start x)).
    { destruct c as [c|]; cbn [option_map datedt].
      - cbn [conn_fields conn_struct dated datedt fst snd]. split; [intros H x E; injection E as <-; tauto|].
        intros H. specialize (H c eq_refl). tauto.
      - split; [discriminate|tauto]. }
    tauto.
  Qed.
  Lemma dated_archival a : dated (archival_fields k) (archival_struct k a) <-> archival_dated a.
  Proof.
    unfold archival_fields, archival_struct, archival_dated. cbn [dated datedt fst snd]. rewrite !maybe_time, Forall_app.
    pose proof (dated_pairs (a_client_meta a)). pose proof (dated_pairs (a_server_meta a)).
    rewrite !(all_map (measurement_struct k) _ _ _ dated_measurement). tauto.
  Qed.
  Lemma dated_ptr {A} fs (f : A -> dens fs) (P : A -> Prop) o : (forall x, dated fs (f x) <-> P x) ->
    (datedt (TPtr fs) (option_map f o) <-> forall x, o = Some x -> P x).
  Proof.
    intros H. destruct o as [x|]; cbn [option_map datedt].
    - rewrite H. split; [intros X y E; injection E as <-; exact X|intros X; apply X; reflexivity].
    - split; [discriminate|tauto].
  Qed.
  Lemma dated7 r : dated (ndt7_fields k) (ndt7_struct k r) <-> result7_dated r.
  Proof.
    unfold ndt7_fields, header_fields, ndt7_struct, result7_dated. cbn [dated fst snd].
    rewrite !(dated_ptr (archival_fields k) (archival_struct k) archival_dated _ dated_archival). cbn [datedt]. split.
    - intros (_ & _ & _ & _ & _ & _ & S & E & U & D & _). split; [exact S|]. split; [exact E|]. intros a [A|A]; auto.
    - intros (S & E & A). repeat (split; [solve [exact I|exact S|exact E|auto]|]). exact I.
  Qed.
  Lemma dated5 text r : dated (ndt5_fields k) (ndt5_struct k text r) <-> record_dated r.
  Proof.
    unfold ndt5_fields, header_fields, ndt5_struct, record_dated. cbn [dated fst snd].
    assert (U : forall u, dated c2s_fields (c2s_struct text u) <-> maybe (u_start u) /\ maybe (u_end u)).
    { intros u. unfold c2s_fields, c2s_struct. cbn [dated datedt fst snd]. rewrite !maybe_time. split; [intros H; decompose [and] H; split; assumption|intros [H1 H2]; repeat (split; [solve [exact I|assumption]|]); exact I]. }
    assert (D : forall d, dated (s2c_fields k) (s2c_struct k text d) <-> maybe (d_start d) /\ maybe (d_end d)).
    { intros d. unfold s2c_fields, s2c_struct. cbn [dated fst snd].
      assert (T : datedt (TPtr (tcp_fields k)) (option_map (tcp_struct k) (d_tcp_info d))).
      { destruct (d_tcp_info d) as [t|]; [|exact I]. cbn [option_map datedt]. unfold tcp_fields, tcp_struct. apply dated_ints. exact I. }
      revert T. generalize (datedt (TPtr (tcp_fields k)) (option_map (tcp_struct k) (d_tcp_info d))). intros P T. cbn [datedt]. rewrite !maybe_time. split; [intros H; decompose [and] H; split; assumption|intros [H1 H2]; repeat (split; [solve [exact I|assumption]|]); exact I]. }
    rewrite (dated_ptr _ _ _ _ U), (dated_ptr _ _ _ _ D).
    assert (C : datedt (TPtr control_fields) (Some (control_struct r))).
    { cbn [datedt]. unfold control_fields, control_struct. cbn [dated datedt fst snd].
      pose proof (dated_pairs (r_client_meta r)). pose proof (dated_pairs (r_server_meta r)). tauto. }
    revert C. generalize (datedt (TPtr control_fields) (Some (control_struct r))). intros P C. cbn [datedt]. rewrite maybe_time.
    split; [intros H; decompose [and] H; split; [assumption|split; [assumption|split; assumption]]|intros (H1 & H2 & H3 & H4); repeat (split; [solve [exact I|assumption]|]); exact I].
  Qed.
End Dates.

Lemma relaxed cs : required_names (relax cs) = [].
Proof. induction cs as [|name rep req c r IH]; [reflexivity|]. cbn [relax required_names]. exact IH. Qed.
Lemma infer_cons name o t r : infers (FCons name o t r) =
  CCons name (fst (fst (infert t))) (snd (fst (infert t))) (snd (infert t)) (infers r).
Proof. cbn [infers]. destruct (infert t) as [[rep req] c]. reflexivity. Qed.

Section Loads.
  Variable k : codec.
  Variable K : codec_ok k.
  Variable KF : forall x, Floats.SpecFloat.valid_binary 53 1024 x = true -> f_finite x = true -> parse_float (k_float k x) = Some x.
  Variable KT : forall n w, timestamp n -> k_time k n = Some w -> denotes w n.

  Definition Pt (t : gtype) : Prop := forall v j, soundt t = true -> typedt t v -> datedt t v -> treet k t v j ->
    slot (fst (fst (infert t))) false (value_of (relax_col (snd (infert t)))) j.
  Definition Ps (fs : gfields) : Prop := forall v l, sounds fs = true -> typed fs v -> dated fs v -> trees k fs v l ->
    incl (map fst l) (names fs) /\ NoDup (map folded (map fst l)) /\
    Forall (fun m => cell (relax (infers fs)) (fst m) (snd m)) l.

  Lemma record_loads fs v l : Ps fs -> sounds fs = true -> typed fs v -> dated fs v -> trees k fs v l ->
    value_of (CRecord (relax (infers fs))) (JObj l).
  Proof.
    intros H S T D L. destruct (H v l S T D L) as (_ & N & F). cbn [value_of]. exists l. split; [reflexivity|]. split; [exact N|].
    split; [|exact F]. rewrite relaxed. intros x [].
  Qed.

  Lemma tree_loads : (forall t, Pt t) /\ (forall fs, Ps fs).
  Proof.
    apply (schema_ind Pt Ps).
    - intros v j _ _ _ (t & _ & ->). right. cbn. eauto.
    - intros lo hi v j S T _ ->. cbn [soundt typedt] in *. right. cbn [infert fst snd relax_col value_of]. exists v. split; [reflexivity|lia].
    - intros v j _ T _ [F ->]. cbn [typedt] in T. right. cbn [infert fst snd relax_col value_of]. eexists _, v. split; [reflexivity|].
      split; [|exact F]. apply KF; assumption.
    - intros v j _ _ T (w & W & ->). cbn [datedt] in T. right. cbn [infert fst snd relax_col value_of]. exists w, v. split; [reflexivity|].
      split; [|exact T]. apply KT; assumption.
    - intros fs IH v j S T D L. cbn [soundt typedt datedt treet infert fst snd relax_col] in *. destruct v as [v|]; [|left; auto].
      destruct L as (l & -> & L). right. eapply record_loads; eassumption.
    - intros fs IH v j S T D L. cbn [soundt typedt datedt treet infert fst snd relax_col] in *. unfold array in L.
      destruct v as [|v vs]; [left; auto|]. destruct L as (js & L & ->). right. exists js. split; [reflexivity|].
      revert T D. generalize (v :: vs) L. clear v vs L. induction 1 as [|x y xs ys H L IHL]; intros T D; [constructor|].
      apply Forall_cons_iff in T as [T1 T2]. apply Forall_cons_iff in D as [D1 D2].
      constructor; [|apply IHL; assumption]. destruct H as (l & -> & H). eapply record_loads; eassumption.
    - intros v l _ _ _ ->. repeat split; [intros x []|constructor|constructor].
    - intros name o t IHt r IHr [x y] l S [T1 T2] [D1 D2] L. cbn [sounds] in S. apply andb_prop in S as [S S3]. apply andb_prop in S as [S1 S2].
      cbn [fst snd] in *. rewrite infer_cons. cbn [relax names]. cbn [trees fst snd] in L.
      assert (Lift : forall l', incl (map fst l') (names r) -> Forall (fun m => cell (relax (infers r)) (fst m) (snd m)) l' ->
        Forall (fun m => cell (CCons name (fst (fst (infert t))) false (relax_col (snd (infert t))) (relax (infers r))) (fst m) (snd m)) l').
      { intros l' I F. apply Forall_forall. intros m Im. rewrite Forall_forall in F. cbn [cell].
        destruct (beqb (folded name) (folded (fst m))) eqn:E; [|apply F, Im]. exfalso. apply negb_true_iff in S1.
        assert (X : existsb (beqb (folded name)) (map folded (names r)) = true); [|congruence].
        apply existsb_exists. exists (folded (fst m)). split; [|exact E]. apply in_map, I, in_map, Im. }
      destruct (o && empty t x).
      + destruct (IHr y l S3 T2 D2 L) as (I & N & F). split; [intros z Z; right; apply I, Z|]. split; [exact N|]. apply Lift; assumption.
      + destruct L as (j & l' & -> & Lt & Lr). destruct (IHr y l' S3 T2 D2 Lr) as (I & N & F). cbn [map fst].
        split; [intros z [<-|Z]; [left; reflexivity|right; apply I, Z]|]. split.
        * constructor; [|exact N]. intros X. apply negb_true_iff in S1.
          assert (Y : existsb (beqb (folded name)) (map folded (names r)) = true); [|congruence].
          apply existsb_exists. exists (folded name). split; [|apply beqb_refl].
          apply in_map_iff in X as (z & <- & Z). apply in_map, I, Z.
        * constructor; [|apply Lift; assumption]. cbn [fst snd cell]. rewrite beqb_refl. apply IHt with x; assumption.
  Qed.

  (** And only if all its times can be loaded. *)
  Variable KN : forall n w t, - 10 ^ 27 <= n <= 10 ^ 27 -> k_time k n = Some w -> denotes w t -> timestamp t -> timestamp n.

  Lemma tree_names : forall fs v l, trees k fs v l -> incl (map fst l) (names fs).
  Proof.
    fix IH 1. intros [|name o t r]; intros v l L.
    - cbn [trees] in L. subst. intros x [].
    - cbn [trees names] in *. destruct (o && empty t (fst v)).
      + intros x X. right. exact (IH r _ _ L x X).
      + destruct L as (j & l' & -> & _ & L). intros x [<-|X]; [left; reflexivity|right; exact (IH r _ _ L x X)].
  Qed.
  Definition Qt (t : gtype) : Prop := forall v j, soundt t = true -> typedt t v -> treet k t v j ->
    slot (fst (fst (infert t))) false (value_of (relax_col (snd (infert t)))) j -> datedt t v.
  Definition Qs (fs : gfields) : Prop := forall v l, sounds fs = true -> typed fs v -> trees k fs v l ->
    Forall (fun m => cell (relax (infers fs)) (fst m) (snd m)) l -> dated fs v.
  Lemma record_dates fs v l : Qs fs -> sounds fs = true -> typed fs v -> trees k fs v l ->
    value_of (CRecord (relax (infers fs))) (JObj l) -> dated fs v.
  Proof. intros H S T L (l' & E & _ & _ & F). injection E as <-. eapply H; eassumption. Qed.
  Lemma empty_dated t v : empty t v = true -> datedt t v.
  Proof.
    destruct t as [|lo hi| | |fs|fs]; cbn [empty datedt]; try discriminate; try (intros; exact I).
    - destruct v; [discriminate|intros; exact I].
    - destruct v; [constructor|discriminate].
  Qed.
  Lemma tree_dates : (forall t, Qt t) /\ (forall fs, Qs fs).
  Proof.
    apply (schema_ind Qt Qs); try (unfold Qt, Qs; intros; exact I).
    - intros v j _ T (w & W & ->) X. cbn [infert fst snd relax_col value_of typedt datedt] in *.
      destruct X as [[X _]|(w' & t & E & D & R)]; [discriminate|]. injection E as <-.
      exact (KN v w t T W D R).
    - intros fs IH v j S T L X. cbn [soundt typedt datedt treet infert fst snd relax_col] in *. destruct v as [v|]; [|exact I].
      destruct L as (l & -> & L). destruct X as [[X _]|X]; [discriminate|]. eapply record_dates; eassumption.
    - intros fs IH v j S T L X. cbn [soundt typedt datedt treet infert fst snd relax_col] in *. unfold array in L.
      destruct v as [|v vs]; [constructor|]. destruct L as (js & L & ->). destruct X as [[X _]|(js' & E & X)]; [discriminate|].
      injection E as <-. revert T X. generalize (v :: vs) L. clear v vs L. induction 1 as [|x y xs ys H L IHL]; intros T X; [constructor|].
      apply Forall_cons_iff in T as [T1 T2]. apply Forall_cons_iff in X as [X1 X2]. constructor; [|apply IHL; assumption].
      destruct H as (l & -> & H). eapply record_dates; eassumption.
    - intros name o t IHt r IHr [x y] l S [T1 T2] L X. cbn [sounds] in S. apply andb_prop in S as [S S3]. apply andb_prop in S as [S1 S2].
      cbn [fst snd dated] in *. rewrite infer_cons in X. cbn [relax] in X. cbn [trees fst snd] in L.
      assert (Drop : forall l', incl (map fst l') (names r) ->
        Forall (fun m => cell (CCons name (fst (fst (infert t))) false (relax_col (snd (infert t))) (relax (infers r))) (fst m) (snd m)) l' ->
        Forall (fun m => cell (relax (infers r)) (fst m) (snd m)) l').
      { intros l' I F. apply Forall_forall. intros m Im. rewrite Forall_forall in F. specialize (F m Im). cbn [cell] in F.
        destruct (beqb (folded name) (folded (fst m))) eqn:E; [|exact F]. exfalso. apply negb_true_iff in S1.
        assert (Y : existsb (beqb (folded name)) (map folded (names r)) = true); [|congruence].
        apply existsb_exists. exists (folded (fst m)). split; [|exact E]. apply in_map, I, in_map, Im. }
      destruct (o && empty t x) eqn:E.
      + split; [apply empty_dated; apply andb_prop in E as [_ E]; exact E|].
        apply (IHr y l S3 T2 L), Drop; [eapply tree_names, L|exact X].
      + destruct L as (j & l' & -> & Lt & Lr). apply Forall_cons_iff in X as [X1 X2]. cbn [fst snd cell] in X1. rewrite beqb_refl in X1.
        split; [exact (IHt x j S2 T1 Lt X1)|]. apply (IHr y l' S3 T2 Lr), Drop; [eapply tree_names, Lr|exact X2].
  Qed.

  Lemma struct_loads fs v l : sounds fs = true -> typed fs v -> trees k fs v l -> (loads (schema_of fs) (JObj l) <-> dated fs v).
  Proof.
    intros S T L. unfold loads, schema_of. split.
    - intros X. eapply record_dates; try eassumption. apply tree_dates.
    - intros D. eapply record_loads; try eassumption. apply tree_loads.
  Qed.

  Variable sound7 : sounds (ndt7_fields k) = true.
  Variable sound5 : sounds (ndt5_fields k) = true.

  Lemma loads7 r doc : result7_bytes r -> typed (ndt7_fields k) (ndt7_struct k r) -> encode7 k r = Some doc ->
    exists j, stands_for doc j /\ (loads (schema_of (ndt7_fields k)) j <-> result7_dated r).
  Proof.
    intros B T E. unfold encode7 in E.
    destruct (marshal_tree k _ _ _ (k_text k K) (named7 k K) (depth7 k) (bys7 k K r B) E) as (l & J & L & Bd).
    exists (JObj l). split; [|rewrite <- (dated7 k); apply struct_loads; [exact sound7|exact T|exact L]].
    assert (X : json_text doc (JObj l)) by (rewrite <- (app_nil_r doc); apply text_of_val; [exact J|constructor]).
    intros j'. split; [apply (json_text_fun doc (JObj l) j' Bd X)|intros ->; exact X].
  Qed.
  Lemma loads5 text r doc : record_bytes text r -> typed (ndt5_fields k) (ndt5_struct k text r) -> encode5 k text r = Some doc ->
    exists j, stands_for doc j /\ (loads (schema_of (ndt5_fields k)) j <-> record_dated r).
  Proof.
    intros B T H. unfold encode5 in H. destruct (marshal _ _ _) as [d|] eqn:E; [|discriminate].
    cbn [option_map] in H. injection H as <-.
    destruct (marshal_tree k _ _ _ (k_text k K) (named5 k K) (depth5 k) (bys5 k K text r B) E) as (l & J & L & Bd).
    exists (JObj l). split; [|rewrite <- (dated5 k text); apply struct_loads; [exact sound5|exact T|exact L]].
    assert (W : ws [10]) by (repeat constructor; right; right; left; reflexivity).
    assert (X : json_text (d ++ [10]) (JObj l)) by (apply text_of_val; assumption).
    assert (Bx : bytes_ok (d ++ [10])) by (apply bytes_ok_app; split; [exact Bd|apply bytes_okb_spec; reflexivity]).
    intros j'. split; [apply (json_text_fun _ (JObj l) j' Bx X)|intros ->; exact X].
  Qed.

  Variable noControl : forall j, ~ cell (schema_of (ndt7_fields k)) (str "Control") j.
  (** The document of an NDT5 connection has a member Control. *)
  Lemma never5 text r doc : record_bytes text r -> encode5 k text r = Some doc ->
    exists j, stands_for doc j /\ ~ loads (schema_of (ndt7_fields k)) j.
  Proof.
    intros B E. destruct (document5 k K text r doc B E) as (Bd & j & J & (ls & F & ->)). exists (JObj (concat ls)). split.
    { intros j'. split; [apply (json_text_fun doc _ j' Bd J)|intros ->; exact J]. }
    intros (l & E1 & _ & _ & A). injection E1 as <-.
    assert (I : exists c, In (str "Control", c) (concat ls)).
    { unfold header_parts in F. cbn [app] in F.
      do 8 (let F' := fresh in inversion F as [|? ? ? ? _ F']; clear F; rename F' into F).
      inversion F as [|? ? ? ? Hc _]. unfold member in Hc. destruct Hc as (c & E2 & _). exists c. apply in_concat. exists [(str "Control", c)]. split; [|left; reflexivity]. subst. do 8 right. left. reflexivity. }
    destruct I as (c & I). rewrite Forall_forall in A. specialize (A _ I). cbn [fst snd] in A. exact (noControl c A).
  Qed.
End Loads.
