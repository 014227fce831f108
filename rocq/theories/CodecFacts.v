(** The documents of the archive: shape, failure, reading back. *)
From Coq Require Import String ZArith List Bool Lia.
From Coq Require Import ZifyBool ZifyNat ZifyN.
From Verif Require Import Base BaseFacts GoStrings TextSpec TextProofs JsonSpec GoJSON JsonProofs GoFloat
  MessagerModel MessagerSpec MessagerProofs Web100Model Effect QueryModel ControlModel Ndt7Model ArchiveModel
  CodecModel CodecSpec CodecProofs CodecShape.
Import ListNotations.
Open Scope Z_scope.
Ltac Zify.zify_post_hook ::= Z.div_mod_to_equations.

Definition plainb (s : bytes) : bool := forallb (fun b => (32 <=? b) && (b <? 128)) s.
Lemma plainb_spec s : plainb s = true -> plain s.
Proof. unfold plainb, plain. rewrite forallb_forall, Forall_forall. intros H b I. specialize (H b I). lia. Qed.

Section Facts.
  Variable k : codec.
  Variable K : codec_ok k.

  Lemma k_text : ktext k.
  Proof. destruct K as (K1 & K2 & _). split; assumption. Qed.

  Lemma letters_plain s : Forall letter s -> plain s.
  Proof. apply Forall_impl. unfold letter. intros. lia. Qed.

  Lemma nameds_ints l rest : Forall (fun f : bytes * (Z * Z) => plain (fst f)) l -> nameds rest -> nameds (ints l rest).
  Proof.
    intros F N. induction F as [|[name [lo hi]] l H F IH]; [exact N|]. cbn [ints nameds namedt].
    split; [exact H|]. split; [exact I|exact IH].
  Qed.
  Lemma tcp_plain : Forall (fun f : bytes * (Z * Z) => plain (fst f)) (k_tcp k).
  Proof. destruct K as (_ & _ & K3 & _). revert K3. apply Forall_impl. intros f (_ & L & _). apply letters_plain, L. Qed.
  Lemma depths_ints l rest : 0 <= depths rest -> depths (ints l rest) = depths rest.
  Proof.
    intros H. induction l as [|[name [lo hi]] l IH]; [reflexivity|]. cbn [ints depths deptht]. lia.
  Qed.

  Ltac named := repeat first [exact I | assumption | apply plainb_spec; reflexivity | split].

  Lemma named_measurement : nameds (measurement_fields k).
  Proof.
    assert (T : nameds (tcp7_fields k)) by (apply nameds_ints; [exact tcp_plain|named]).
    cbn [measurement_fields nameds namedt]. named.
  Qed.
  Lemma named7 : nameds (ndt7_fields k).
  Proof.
    pose proof named_measurement as M. unfold ndt7_fields, header_fields. cbn [nameds namedt].
    named.
  Qed.
  Lemma named5 : nameds (ndt5_fields k).
  Proof.
    assert (T : nameds (tcp_fields k)) by (apply nameds_ints; [exact tcp_plain|named]).
    unfold ndt5_fields, header_fields. cbn [nameds namedt]. named.
  Qed.
  Lemma depth_measurement : depths (measurement_fields k) = 1.
  Proof.
    unfold measurement_fields. cbn [depths deptht]. unfold tcp7_fields. rewrite depths_ints by (cbn; lia). reflexivity.
  Qed.
  Lemma depth7 : depths (ndt7_fields k) < 10000.
  Proof.
    unfold ndt7_fields, header_fields. cbn [depths deptht]. unfold archival_fields. cbn [depths deptht].
    rewrite depth_measurement. vm_compute. reflexivity.
  Qed.
  Lemma depth5 : depths (ndt5_fields k) < 10000.
  Proof.
    unfold ndt5_fields, header_fields. cbn [depths deptht]. unfold s2c_fields. cbn [depths deptht]. unfold tcp_fields.
    rewrite depths_ints by (cbn; lia). vm_compute. reflexivity.
  Qed.

  (** Bytes. *)
  Lemma bys_ints value l rest v : bys rest v -> bys (ints l rest) (pack value l rest v).
  Proof. intros H. induction l as [|[name [lo hi]] l IH]; [exact H|]. cbn [ints pack bys fst snd byt]. auto. Qed.
  Lemma bys_pairs m : pairs_bytes m -> Forall (bys name_value_fields) (map name_value m).
  Proof.
    intros F. apply Forall_map. revert F. apply Forall_impl. intros nv [H1 H2]. cbn. auto.
  Qed.
  Lemma bys_measurement m : measurement_bytes m -> bys (measurement_fields k) (measurement_struct k m).
  Proof.
    intros H. unfold measurement_fields, measurement_struct. cbn [bys byt fst snd].
    split; [destruct (m_app m); cbn; auto|]. split; [destruct (m_conn m) as [c|] eqn:E; [|exact I]; destruct (H c E) as (H1 & H2 & H3); cbn; auto|].
    split; [destruct (m_bbr m); cbn; auto 8|]. split; [|exact I].
    destruct (m_tcp m) as [t|]; cbn [option_map]; [|exact I]. apply bys_ints. cbn. auto.
  Qed.
  Lemma bys_archival a : archival_bytes a -> bys (archival_fields k) (archival_struct k a).
  Proof.
    intros (H1 & H2 & H3 & H4 & H5). unfold archival_fields, archival_struct. cbn [bys byt fst snd].
    split; [exact H1|]. split; [exact I|]. split; [exact I|].
    split; [apply Forall_map; revert H2; apply Forall_impl; exact bys_measurement|].
    split; [apply Forall_map; revert H3; apply Forall_impl; exact bys_measurement|].
    split; [apply bys_pairs, H4|]. split; [apply bys_pairs, H5|exact I].
  Qed.
  Lemma bys7 r : result7_bytes r -> bys (ndt7_fields k) (ndt7_struct k r).
  Proof.
    destruct K as (_ & _ & _ & _ & Kc & Kv). intros (H1 & H2 & H3 & H4).
    unfold ndt7_fields, header_fields, ndt7_struct. cbn [bys byt fst snd].
    do 8 (split; [assumption || exact I|]).
    split; [destruct (n_upload r) as [a|] eqn:E; cbn [option_map]; [apply bys_archival, H3, eq_refl|exact I]|].
    split; [destruct (n_download r) as [a|] eqn:E; cbn [option_map]; [apply bys_archival, H4, eq_refl|exact I]|exact I].
  Qed.
  Lemma bys5 text r : record_bytes text r -> bys (ndt5_fields k) (ndt5_struct k text r).
  Proof.
    destruct K as (_ & _ & _ & _ & Kc & Kv). intros (H1 & H2 & H3 & H4 & H5 & H6 & H7 & H8 & H9 & H10).
    assert (HE : forall e, bytes_ok (error_text text e)) by (intros [e|]; [apply H10|constructor]).
    unfold ndt5_fields, header_fields, ndt5_struct. cbn [bys byt fst snd].
    do 8 (split; [assumption || exact I|]).
    split.
    { unfold control_fields, control_struct. cbn [bys byt fst snd]. do 3 (split; [assumption|]).
      split; [apply bys_pairs, H4|]. split; [apply bys_pairs, H5|exact I]. }
    split.
    { destruct (r_c2s r) as [u|]; cbn [option_map]; [|exact I]. destruct (H8 u eq_refl) as (U1 & U2 & U3).
      unfold c2s_fields, c2s_struct. cbn [bys byt fst snd]. do 8 (split; [assumption || exact I|]). split; [apply HE|exact I]. }
    split; [|exact I].
    destruct (r_s2c r) as [d|]; cbn [option_map]; [|exact I]. destruct (H9 d eq_refl) as (U1 & U2 & U3).
    unfold s2c_fields, s2c_struct. cbn [bys byt fst snd]. do 13 (split; [assumption || exact I|]).
    split; [|split; [apply HE|exact I]]. destruct (d_tcp_info d) as [t|]; cbn [option_map]; [|exact I].
    apply bys_ints. exact I.
  Qed.

  (** ** Documents *)

  Lemma text_of_val d j w : jval 0 d j -> ws w -> json_text (d ++ w) j.
  Proof. intros J W. exists [], d, w. repeat split; auto. constructor. Qed.
  Lemma json_text_fun s j j' : bytes_ok s -> json_text s j -> json_text s j' -> j' = j.
  Proof.
    intros B H H'. apply (json_parse_spec _ _ B) in H. apply (json_parse_spec _ _ B) in H'. congruence.
  Qed.

  Lemma document5 text r doc : record_bytes text r -> encode5 k text r = Some doc ->
    bytes_ok doc /\ exists j, json_text doc j /\ ndt5_doc k text r j.
  Proof.
    intros B H. unfold encode5 in H. destruct (marshal _ _ _) as [d|] eqn:E; [|discriminate].
    cbn [option_map] in H. injection H as <-.
    destruct (marshal_tree k _ _ _ k_text named5 depth5 (bys5 text r B) E) as (l & J & T & Bd).
    split; [apply bytes_ok_app; split; [exact Bd|bok]|].
    exists (JObj l). split; [apply text_of_val; [exact J|repeat constructor; right; right; left; reflexivity]|apply ndt5_shape, T].
  Qed.
  Lemma document7 r doc : result7_bytes r -> encode7 k r = Some doc ->
    bytes_ok doc /\ exists j, json_text doc j /\ ndt7_doc k r j.
  Proof.
    intros B E. unfold encode7 in E.
    destruct (marshal_tree k _ _ _ k_text named7 depth7 (bys7 r B) E) as (l & J & T & Bd).
    split; [exact Bd|]. exists (JObj l). split; [rewrite <- (app_nil_r doc); apply text_of_val; [exact J|constructor]|].
    apply ndt7_shape, T.
  Qed.
  Lemma message7 m doc : measurement_bytes m -> encode_measurement k m = Some doc ->
    bytes_ok doc /\ exists j, json_text doc j /\ measurement_doc k m j.
  Proof.
    intros B H. unfold encode_measurement in H. destruct (marshal _ _ _) as [d|] eqn:E; [|discriminate].
    cbn [option_map] in H. injection H as <-.
    destruct (marshal_tree k _ _ _ k_text named_measurement ltac:(rewrite depth_measurement; lia) (bys_measurement m B) E)
      as (l & J & T & Bd).
    split; [apply bytes_ok_app; split; [exact Bd|bok]|].
    exists (JObj l). split; [apply text_of_val; [exact J|repeat constructor; right; right; left; reflexivity]|].
    apply measurement_shape, T.
  Qed.

  (** ** Failure *)

  Lemma map_some {A B} (f : A -> B) o : option_map f o <> None <-> o <> None.
  Proof. destruct o; cbn [option_map]; split; congruence. Qed.
  Lemma printable_dec t : {k_time k t <> None} + {~ k_time k t <> None}.
  Proof. destruct (k_time k t); [left; discriminate|right; congruence]. Defined.

  Lemma goods_ints value l rest v : goods k (ints l rest) (pack value l rest v) <-> goods k rest v.
  Proof. induction l as [|[name [lo hi]] l IH]; [reflexivity|]. cbn [ints pack goods fst snd goodt]. tauto. Qed.
  Lemma goods_pairs m : Forall (goods k name_value_fields) (map name_value m).
  Proof. apply Forall_map. apply Forall_forall. intros nv _. cbn. auto. Qed.
  Lemma goods_measurement m : goods k (measurement_fields k) (measurement_struct k m) <->
    Forall (printable k) (measurement_times m).
  Proof.
    unfold measurement_fields, measurement_struct. cbn [goods goodt fst snd]. unfold measurement_times.
    assert (A : match option_map (fun a => (fst a, (snd a, tt))) (m_app m) with
                | Some v => goods k app_fields v | None => True end) by (destruct (m_app m); cbn; auto).
    assert (B : match option_map bbr_struct (m_bbr m) with
                | Some v => goods k bbr_fields v | None => True end) by (destruct (m_bbr m); cbn; auto 8).
    assert (T : match option_map (tcp7_struct k) (m_tcp m) with
                | Some v => goods k (tcp7_fields k) v | None => True end).
    { destruct (m_tcp m); cbn [option_map]; [|exact I]. apply goods_ints. cbn. auto. }
    destruct (m_conn m) as [c|]; cbn [option_map].
    - cbn [conn_fields conn_struct goods goodt fst snd]. unfold printable. split.
      + intros (_ & (_ & _ & _ & H & _) & _). repeat constructor. exact H.
      + intros H. inversion H; subst. auto 12.
    - split; [constructor|auto].
  Qed.
  Lemma Forall_flat {A B} (P : B -> Prop) (f : A -> list B) l : Forall P (flat_map f l) <-> Forall (fun a => Forall P (f a)) l.
  Proof.
    induction l as [|a l IH]; cbn [flat_map]; [split; constructor|]. rewrite Forall_app, IH. split.
    - intros [H1 H2]. constructor; auto.
    - intros H. inversion H; subst. auto.
  Qed.
  Lemma goods_measurements ms : Forall (goods k (measurement_fields k)) (map (measurement_struct k) ms) <->
    Forall (printable k) (flat_map measurement_times ms).
  Proof.
    rewrite Forall_flat, Forall_map. split; apply Forall_impl; intros m; apply goods_measurement.
  Qed.
  Lemma goods_archival a : goods k (archival_fields k) (archival_struct k a) <->
    Forall (printable k) (archival_times (Some a)).
  Proof.
    unfold archival_fields, archival_struct. cbn [goods goodt fst snd]. unfold archival_times. cbn [app].
    rewrite !Forall_cons_iff, Forall_app, <- !goods_measurements. unfold printable.
    pose proof (goods_pairs (a_client_meta a)). pose proof (goods_pairs (a_server_meta a)). tauto.
  Qed.
  Lemma fails7 r : encode7 k r = None <-> Exists (fun t => k_time k t = None) (times7 r).
  Proof.
    assert (G : encode7 k r <> None <-> Forall (printable k) (times7 r)).
    { unfold encode7, marshal. rewrite map_some, (proj2 (enc_good k)). unfold ndt7_fields, header_fields, ndt7_struct, int64. cbn [goods goodt fst snd].
      unfold times7. cbn [app]. rewrite !Forall_cons_iff, Forall_app. unfold printable at 1 2.
      assert (A : forall o, match option_map (archival_struct k) o with Some v => goods k (archival_fields k) v | None => True end
                  <-> Forall (printable k) (archival_times o)).
      { intros [a|]; cbn [option_map]; [apply goods_archival|]. cbn. split; [constructor|auto]. }
      rewrite !A. tauto. }
    split.
    - intros H. apply Exists_exists. destruct (Forall_Exists_dec (fun t => k_time k t <> None) printable_dec (times7 r)) as [F|E].
      + apply G in F. contradiction.
      + apply Exists_exists in E as (t & It & E). exists t. split; [exact It|]. destruct (k_time k t); [|reflexivity].
        exfalso. apply E. discriminate.
    - intros E. destruct (encode7 k r) eqn:H; [|reflexivity]. exfalso. destruct G as [G _]. specialize (G ltac:(discriminate)). rewrite Forall_forall in G.
      apply Exists_exists in E as (t & It & E). apply (G t It). exact E.
  Qed.
  Lemma fails5 text r : encode5 k text r = None <->
    finite_record r = false \/ Exists (fun t => k_time k t = None) (times5 r).
  Proof.
    assert (G : encode5 k text r <> None <-> finite_record r = true /\ Forall (printable k) (times5 r)).
    { unfold encode5, marshal. rewrite !map_some, (proj2 (enc_good k)). unfold ndt5_fields, header_fields, ndt5_struct, int64. cbn [goods goodt fst snd].
      unfold times5. cbn [app]. rewrite !Forall_cons_iff, Forall_app. unfold printable at 1 2.
      assert (C : goods k control_fields (control_struct r)).
      { unfold control_fields, control_struct. cbn [goods goodt fst snd].
        pose proof (goods_pairs (r_client_meta r)). pose proof (goods_pairs (r_server_meta r)). tauto. }
      assert (U : match option_map (c2s_struct text) (r_c2s r) with Some v => goods k c2s_fields v | None => True end <->
                  match r_c2s r with Some u => f_finite (u_mean u) | None => true end = true /\
                  Forall (printable k) match r_c2s r with Some u => [time_of (u_start u); time_of (u_end u)] | None => [] end).
      { destruct (r_c2s r) as [u|]; cbn [option_map].
        - unfold c2s_fields, c2s_struct, int64. cbn [goods goodt fst snd]. rewrite !Forall_cons_iff. unfold printable.
          assert (Forall (fun n => k_time k n <> None) []) by constructor. tauto.
        - split; [split; constructor|auto]. }
      assert (D : match option_map (s2c_struct k text) (r_s2c r) with Some v => goods k (s2c_fields k) v | None => True end <->
                  match r_s2c r with Some d => f_finite (d_mean d) && f_finite (d_client_mbps d) | None => true end = true /\
                  Forall (printable k) match r_s2c r with Some d => [time_of (d_start d); time_of (d_end d)] | None => [] end).
      { destruct (r_s2c r) as [d|]; cbn [option_map].
        - unfold s2c_fields, s2c_struct, int64, uint32. cbn [goods goodt fst snd]. rewrite !Forall_cons_iff, andb_true_iff. unfold printable.
          assert (Forall (fun n => k_time k n <> None) []) by constructor.
          assert (T : match option_map (tcp_struct k) (d_tcp_info d) with Some v => goods k (tcp_fields k) v | None => True end).
          { destruct (d_tcp_info d); cbn [option_map]; [|exact I]. apply goods_ints. exact I. }
          tauto.
        - split; [split; constructor|auto]. }
      rewrite U, D. unfold finite_record. rewrite andb_true_iff. tauto. }
    split.
    - intros H. destruct (finite_record r); [right|left; reflexivity].
      destruct (Forall_Exists_dec (fun t => k_time k t <> None) printable_dec (times5 r)) as [F|E].
      + exfalso. apply G; [split; [reflexivity|exact F]|exact H].
      + apply Exists_exists in E as (t & It & E). apply Exists_exists. exists t. split; [exact It|].
        destruct (k_time k t); [|reflexivity]. exfalso. apply E. discriminate.
    - intros E. destruct (encode5 k text r) eqn:H; [|reflexivity]. exfalso.
      destruct G as [G _]. destruct (G ltac:(discriminate)) as [G1 G2]. destruct E as [E|E]; [congruence|].
      rewrite Forall_forall in G2. apply Exists_exists in E as (t & It & E). apply (G2 t It). exact E.
  Qed.
  Lemma fails_message m : encode_measurement k m = None <-> Exists (fun t => k_time k t = None) (measurement_times m).
  Proof.
    assert (G : encode_measurement k m <> None <-> Forall (printable k) (measurement_times m)).
    { unfold encode_measurement, marshal. rewrite !map_some, (proj2 (enc_good k)). apply goods_measurement. }
    unfold measurement_times in *. destruct (m_conn m) as [c|].
    - rewrite Forall_cons_iff in G. rewrite Exists_cons, Exists_nil. unfold printable in G.
      destruct (encode_measurement k m); destruct (k_time k (ci_start c)).
      + split; [discriminate|intros [H|[]]; discriminate].
      + exfalso. destruct G as [G _]. destruct (G ltac:(discriminate)) as [G' _]. apply G'. reflexivity.
      + exfalso. destruct G as [_ G]. apply G; [|reflexivity]. split; [discriminate|constructor].
      + split; auto.
    - rewrite Exists_nil. split; [|intros []]. intros H. apply G; [constructor|exact H].
  Qed.

  Lemma encoder5 text : exists body, forall r, Forall (printable k) (times5 r) -> encode5 k text r = encode body r.
  Proof.
    exists (fun r => match marshal k (ndt5_fields k) (ndt5_struct k text r) with Some d => d | None => [] end).
    intros r P. unfold encode. destruct (finite_record r) eqn:F.
    - destruct (encode5 k text r) as [d|] eqn:E.
      + unfold encode5 in E. destruct (marshal k (ndt5_fields k) (ndt5_struct k text r)); [|discriminate].
        cbn [option_map] in E. congruence.
      + exfalso. apply fails5 in E as [E|E]; [congruence|]. apply Exists_exists in E as (t & It & E).
        rewrite Forall_forall in P. apply (P t It E).
    - apply fails5. left. exact F.
  Qed.
End Facts.
