(** The encodings of the server's structs have the specified shape, and when they fail. *)
From Coq Require Import String ZArith List Bool Lia.
From Coq Require Import ZifyBool ZifyNat ZifyN.
From Verif Require Import Base BaseFacts GoStrings TextSpec TextProofs JsonSpec GoJSON JsonProofs GoFloat
  MessagerModel MessagerSpec MessagerProofs Web100Model Effect QueryModel ControlModel Ndt7Model ArchiveModel
  CodecModel CodecSpec CodecProofs.
Import ListNotations.
Open Scope Z_scope.

Section Shape.
  Variable k : codec.

  (** The parts of an object, by type. *)
  Definition part (name : bytes) (omit : bool) (t : gtype) (v : dent t) : list (bytes * json) -> Prop :=
    fun l => if omit && empty t v then l = [] else member name (treet k t v) l.
  Fixpoint parts (fs : gfields) : dens fs -> list (list (bytes * json) -> Prop) :=
    match fs with
    | FNil => fun _ => []
    | FCons name omit t r => fun v => part name omit t (fst v) :: parts r (snd v)
    end.

  Lemma trees_parts fs : forall v l, trees k fs v l -> object (parts fs v) (JObj l).
  Proof.
    induction fs as [|name omit t r IH]; intros v l H.
    - cbn in H. subst. exists []. split; [constructor|reflexivity].
    - cbn [trees] in H. cbn [parts]. unfold part. destruct (omit && empty t (fst v)) eqn:E.
      + destruct (IH _ _ H) as (ls & F & EQ). exists ([] :: ls). split; [|cbn; exact EQ].
        constructor; [reflexivity|exact F].
      + destruct H as (j & l' & -> & T & H). destruct (IH _ _ H) as (ls & F & EQ). injection EQ as ->.
        exists ([(name, j)] :: ls). split; [|reflexivity]. constructor; [|exact F]. exists j. auto.
  Qed.

  Lemma object_impl ps qs j : Forall2 (fun p q : list (bytes * json) -> Prop => forall l, p l -> q l) ps qs ->
    object ps j -> object qs j.
  Proof.
    intros F (ls & G & ->). exists ls. split; [|reflexivity]. revert ls G.
    induction F as [|p q ps qs H F IH]; intros ls G; inversion G; subst; constructor; auto.
  Qed.

  Lemma part_text name s : forall l, part name false TStr s l -> member name (is_text s) l.
  Proof. intros l H. exact H. Qed.
  Lemma part_int name lo hi n : forall l, part name false (TInt lo hi) n l -> member name (is_int n) l.
  Proof. intros l H. exact H. Qed.
  Lemma part_float name x : forall l, part name false TFloat x l -> member name (is_float k x) l.
  Proof. intros l H. exact H. Qed.
  Lemma part_time name n b : forall l, part name b TTime n l -> member name (is_time k n) l.
  Proof. intros l. unfold part. cbn [empty]. rewrite andb_false_r. auto. Qed.
  Lemma part_text_omit name s : forall l, part name true TStr s l -> optional name (if_any s) is_text l.
  Proof. intros l. unfold part. destruct s; cbn [empty andb beqb if_any optional]; auto. Qed.
  Lemma part_ptr {A} name fs (f : A -> dens fs) (P : A -> json -> Prop) o :
    (forall a l, trees k fs (f a) l -> P a (JObj l)) ->
    forall l, part name true (TPtr fs) (option_map f o) l -> optional name o P l.
  Proof.
    intros H l. unfold part. destruct o as [a|]; cbn [option_map empty is_some negb andb optional]; [|auto].
    intros (j & -> & T). destruct T as (m & -> & T). exists (JObj m). auto.
  Qed.
  Lemma array_impl {A B} (f : A -> B) (P : A -> json -> Prop) (Q : B -> json -> Prop) xs j :
    (forall a j, Q (f a) j -> P a j) -> array Q (map f xs) j -> array P xs j.
  Proof.
    intros H. destruct xs as [|x xs]; [auto|]. cbn [map array]. intros (js & F & ->). exists js. split; [|reflexivity].
    change (f x :: map f xs) with (map f (x :: xs)) in F. revert js F. generalize (x :: xs). clear x xs.
    induction l as [|x xs IH]; intros js F; inversion F; subst; constructor; auto.
  Qed.
  Lemma part_slice {A} name fs (f : A -> dens fs) (P : A -> json -> Prop) xs :
    (forall a l, trees k fs (f a) l -> P a (JObj l)) ->
    forall l, part name false (TSlice fs) (map f xs) l -> member name (array P xs) l.
  Proof.
    intros H l (j & -> & T). exists j. split; [reflexivity|]. cbn [treet] in T.
    eapply array_impl; [|exact T]. intros a j' (m & -> & Tm). apply H, Tm.
  Qed.
  Lemma part_slice_omit {A} name fs (f : A -> dens fs) (P : A -> json -> Prop) xs :
    (forall a l, trees k fs (f a) l -> P a (JObj l)) ->
    forall l, part name true (TSlice fs) (map f xs) l -> optional name (if_any xs) (array P) l.
  Proof.
    intros H l. unfold part. destruct xs as [|x xs]; [intros E; exact E|].
    cbn [map empty andb if_any optional]. intros (j & -> & T). exists j. split; [reflexivity|]. cbn [treet] in T.
    change (f x :: map f xs) with (map f (x :: xs)) in T.
    eapply array_impl; [|exact T]. intros a j' (m & -> & Tm). apply H, Tm.
  Qed.

  Ltac parts_tac :=
    repeat apply Forall2_cons;
    first [ apply part_time | apply part_text | apply part_int | apply part_float | apply part_text_omit
          | (apply part_ptr) | (apply part_slice) | (apply part_slice_omit) | apply Forall2_nil | idtac ].

  Lemma pair_shape nv l : trees k name_value_fields (name_value nv) l -> pair_doc nv (JObj l).
  Proof.
    intros H. apply trees_parts in H. revert H. apply object_impl. parts_tac.
  Qed.

  Lemma ints_parts value l rest v :
    Forall2 (fun p q : list (bytes * json) -> Prop => forall x, p x -> q x)
      (parts (ints l rest) (pack value l rest v))
      (map (fun f : bytes * (Z * Z) => member (fst f) (is_int (value (fst f)))) l ++ parts rest v).
  Proof.
    induction l as [|[name [lo hi]] l IH].
    - cbn [ints pack map app]. induction (parts rest v); constructor; auto.
    - cbn [ints pack map app parts fst snd]. constructor; [apply part_int|exact IH].
  Qed.

  Lemma tcp_shape t l : trees k (tcp_fields k) (tcp_struct k t) l -> object (tcp_parts k t) (JObj l).
  Proof.
    intros H. apply trees_parts in H. revert H. apply object_impl. unfold tcp_parts, tcp_fields, tcp_struct.
    pose proof (ints_parts (tcp_value t) (k_tcp k) FNil tt) as F. cbn [parts] in F. rewrite app_nil_r in F. exact F.
  Qed.
  Lemma Forall2_compose ps qs rs :
    Forall2 (fun p q : list (bytes * json) -> Prop => forall x, p x -> q x) ps qs ->
    Forall2 (fun p q : list (bytes * json) -> Prop => forall x, p x -> q x) qs rs ->
    Forall2 (fun p q : list (bytes * json) -> Prop => forall x, p x -> q x) ps rs.
  Proof.
    intros F. revert rs. induction F as [|p q ps qs H F IH]; intros rs G; inversion G; subst; constructor; auto.
  Qed.
  Lemma tcp7_shape t l : trees k (tcp7_fields k) (tcp7_struct k t) l -> tcp7_doc k t (JObj l).
  Proof.
    intros H. apply trees_parts in H. revert H. apply object_impl. unfold tcp_parts, tcp7_fields, tcp7_struct.
    eapply Forall2_compose; [apply ints_parts|]. apply Forall2_app.
    - unfold tcp_parts. induction (k_tcp k); cbn [map]; constructor; auto.
    - unfold elapsed_fields. cbn [parts fst snd]. parts_tac.
  Qed.
  Lemma measurement_shape m l : trees k (measurement_fields k) (measurement_struct k m) l -> measurement_doc k m (JObj l).
  Proof.
    intros H. apply trees_parts in H. revert H. apply object_impl.
    unfold measurement_fields, measurement_struct. cbn [parts fst snd]. parts_tac.
    - intros a l' T. apply trees_parts in T. revert T. apply object_impl. parts_tac.
    - intros c l' T. apply trees_parts in T. revert T. apply object_impl. parts_tac.
    - intros b l' T. apply trees_parts in T. revert T. apply object_impl. parts_tac.
    - apply tcp7_shape.
  Qed.
  Lemma archival_shape a l : trees k (archival_fields k) (archival_struct k a) l -> archival_doc k a (JObj l).
  Proof.
    intros H. apply trees_parts in H. revert H. apply object_impl.
    unfold archival_fields, archival_struct. cbn [parts fst snd]. parts_tac.
    - apply measurement_shape.
    - apply measurement_shape.
    - apply pair_shape.
    - apply pair_shape.
  Qed.
  Lemma ndt7_shape r l : trees k (ndt7_fields k) (ndt7_struct k r) l -> ndt7_doc k r (JObj l).
  Proof.
    intros H. apply trees_parts in H. revert H. apply object_impl.
    unfold ndt7_fields, header_fields, ndt7_struct. cbn [parts fst snd]. unfold header_parts. cbn [app]. parts_tac.
    - apply archival_shape.
    - apply archival_shape.
  Qed.
  Lemma control_shape r l : trees k control_fields (control_struct r) l -> control_doc r (JObj l).
  Proof.
    intros H. apply trees_parts in H. revert H. apply object_impl. parts_tac; apply pair_shape.
  Qed.
  Lemma part_error text e l : part (str "Error") true TStr (error_text text e) l -> error_part text e l.
  Proof.
    intros H. apply part_text_omit in H. unfold error_part. destruct e; exact H.
  Qed.
  Lemma c2s_shape text u l : trees k c2s_fields (c2s_struct text u) l -> c2s_doc k text u (JObj l).
  Proof.
    intros H. apply trees_parts in H. revert H. apply object_impl.
    unfold c2s_fields, c2s_struct. cbn [parts fst snd].
    repeat apply Forall2_cons; first [apply part_time | apply part_text | apply part_int | apply part_float | apply part_error | apply Forall2_nil].
  Qed.
  Lemma s2c_shape text d l : trees k (s2c_fields k) (s2c_struct k text d) l -> s2c_doc k text d (JObj l).
  Proof.
    intros H. apply trees_parts in H. revert H. apply object_impl.
    unfold s2c_fields, s2c_struct. cbn [parts fst snd].
    repeat apply Forall2_cons;
      first [apply part_time | apply part_text | apply part_int | apply part_float | apply part_error
            | apply Forall2_nil | apply part_ptr; apply tcp_shape].
  Qed.
  Lemma ndt5_shape text r l : trees k (ndt5_fields k) (ndt5_struct k text r) l -> ndt5_doc k text r (JObj l).
  Proof.
    intros H. apply trees_parts in H. revert H. apply object_impl.
    unfold ndt5_fields, header_fields, ndt5_struct. cbn [parts fst snd]. unfold header_parts. cbn [app].
    repeat apply Forall2_cons;
      first [apply part_time | apply part_text | apply part_int | apply part_float
            | apply Forall2_nil | apply part_ptr | idtac].
    - intros l' (j & -> & T). destruct T as (m & -> & T). exists (JObj m). split; [reflexivity|apply control_shape, T].
    - apply c2s_shape.
    - apply s2c_shape.
  Qed.
End Shape.
