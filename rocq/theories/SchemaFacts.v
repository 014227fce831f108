(** The published schemas. *)
From Coq Require Import String ZArith List Bool Lia.
From Coq Require Import ZifyBool.
From Verif Require Import Base BaseFacts JsonSpec GoFloat TimeModel TimeSpec TimeFacts TimeProofs Effect ControlModel Ndt7Model
  CodecModel CodecSpec CodecProps ToldSpec ExactModel ExactProofs ExactTime ExactCodec SchemaModel SchemaSpec SchemaProofs.
Import ListNotations.
Open Scope Z_scope.

Lemma k_time_is off commit version : k_time (go_codec off commit version) = marshal_time off.
Proof. reflexivity. Qed.
Lemma codec_time off commit version : off mod 60 = 0 -> forall n w, timestamp n -> k_time (go_codec off commit version) n = Some w -> denotes w n.
Proof.
  intros M n w [T _]. revert T. fold go_zero. intros T H. rewrite k_time_is in H. apply (marshal_denotes off n w); [exact T|exact M|exact H].
Qed.
Lemma codec_never off commit version : off mod 60 = 0 -> forall n w t, - 10 ^ 27 <= n <= 10 ^ 27 ->
  k_time (go_codec off commit version) n = Some w -> denotes w t -> timestamp t -> timestamp n.
Proof.
  intros M n w t R H D T. rewrite k_time_is in H.
  assert (L : - unix_days * day_ns <= local off n).
  { pose proof (proj1 (proj2 (marshal_year _ _ _ H))) as A. unfold local, day_ns.
    assert (U : - unix_days * (86400 * 10 ^ 9) <= - 10 ^ 27 - 86400 * 10 ^ 9) by (vm_compute; discriminate).
    change (10 ^ 9) with 1000000000 in *. lia. }
  pose proof (marshal_read off n w L M H) as X. apply denotes_read in D. rewrite X in D. injection D as ->. exact T.
Qed.
Lemma codec_float off commit version x : Floats.SpecFloat.valid_binary 53 1024 x = true -> f_finite x = true ->
  parse_float (k_float (go_codec off commit version) x) = Some x.
Proof. intros V F. cbn [k_float go_codec]. apply json_float_exact; assumption. Qed.
Lemma sound7 off commit version : sounds (ndt7_fields (go_codec off commit version)) = true.
Proof. vm_compute. reflexivity. Qed.
Lemma sound5 off commit version : sounds (ndt5_fields (go_codec off commit version)) = true.
Proof. vm_compute. reflexivity. Qed.
Lemma no_control off commit version j : ~ cell (schema_of (ndt7_fields (go_codec off commit version))) (str "Control") j.
Proof. intros H. vm_compute in H. exact H. Qed.

Lemma write_here path s f : write_file Written path s f path = Some s.
Proof. cbn [write_file]. rewrite beqb_refl. reflexivity. Qed.
Lemma write_other w path s f p : p <> path -> write_file w path s f p = f p.
Proof. intros N. destruct w; cbn [write_file]; try reflexivity; destruct (beqb p path) eqn:E; try reflexivity; apply beqb_spec in E; contradiction. Qed.

Lemma published7 : forall off commit version path7 path5 w5 f, off mod 60 = 0 -> bytes_ok commit -> bytes_ok version -> path5 <> path7 ->
  let k := go_codec off commit version in
  exists s, fst (generate k path7 path5 Written w5 f) path7 = Some s /\
    forall r doc, result7_bytes r -> typed (ndt7_fields k) (ndt7_struct k r) -> encode7 k r = Some doc ->
      exists j, stands_for doc j /\ (loads s j <-> result7_dated r).
Proof.
  intros off commit version path7 path5 w5 f M C V N. cbv zeta. exists (schema_of (ndt7_fields (go_codec off commit version))). split.
  - unfold generate. cbn [fst]. rewrite write_other by congruence. apply write_here.
  - apply loads7; [apply go_codec_ok; assumption|apply codec_float|apply codec_time, M|apply codec_never, M|apply sound7].
Qed.
Lemma published5 : forall off commit version path7 path5 w7 f, bytes_ok commit -> bytes_ok version ->
  let k := go_codec off commit version in
  exists s, fst (generate k path7 path5 w7 Written f) path5 = Some s /\
    forall text r doc, record_bytes text r -> encode5 k text r = Some doc ->
      exists j, stands_for doc j /\ ~ loads s j.
Proof.
  intros off commit version path7 path5 w7 f C V. cbv zeta. exists (schema_of (ndt7_fields (go_codec off commit version))). split.
  - unfold generate. cbn [fst]. apply write_here.
  - apply never5; [apply go_codec_ok; assumption|apply no_control].
Qed.
Lemma intended5 : forall off commit version, off mod 60 = 0 -> bytes_ok commit -> bytes_ok version ->
  let k := go_codec off commit version in
  forall text r doc, record_bytes text r -> typed (ndt5_fields k) (ndt5_struct k text r) -> encode5 k text r = Some doc ->
    exists j, stands_for doc j /\ (loads (schema_of (ndt5_fields k)) j <-> record_dated r).
Proof.
  intros off commit version M C V. cbv zeta.
  apply loads5; [apply go_codec_ok; assumption|apply codec_float|apply codec_time, M|apply codec_never, M|apply sound5].
Qed.

(** ** Legal schemas *)
Definition letter_b (b : Z) : bool := ((65 <=? b) && (b <=? 90)) || ((97 <=? b) && (b <=? 122)).
Definition name_b (name : bytes) : bool :=
  match name with
  | [] => false
  | b :: r => (letter_b b || (b =? 95)) && forallb (fun b => letter_b b || ((48 <=? b) && (b <=? 57)) || (b =? 95)) r
  end.
Lemma letter_b_spec b : letter_b b = true -> letter b.
Proof. unfold letter_b, letter. lia. Qed.
Lemma name_b_spec name : name_b name = true -> legal_name name.
Proof.
  destruct name as [|b r]; [discriminate|]. cbn [name_b legal_name]. intros H. apply andb_prop in H as [H F]. split.
  - apply orb_prop in H as [H|H]; [left; apply letter_b_spec, H|right; lia].
  - rewrite forallb_forall in F. apply Forall_forall. intros x I. specialize (F x I).
    apply orb_prop in F as [F|F]; [apply orb_prop in F as [F|F]; [left; apply letter_b_spec, F|right; left; lia]|right; right; lia].
Qed.
Fixpoint col_b (c : col) : bool :=
  match c with CRecord cs => match cs with CNil => false | _ => true end && nodupb (column_names cs) && cols_b cs | _ => true end
with cols_b (cs : cols) : bool :=
  match cs with CNil => true | CCons name _ _ c r => name_b name && col_b c && cols_b r end.
Scheme col_rect2 := Induction for col Sort Prop with cols_rect2 := Induction for cols Sort Prop.
Combined Scheme columns_ind from col_rect2, cols_rect2.
Lemma legal_b : (forall c, col_b c = true -> legal_col c) /\ (forall cs, cols_b cs = true -> legal cs).
Proof.
  apply columns_ind; try (intros; exact I).
  - intros cs IH H. cbn [col_b] in H. apply andb_prop in H as [H H3]. apply andb_prop in H as [H1 H2].
    cbn [legal_col]. split; [intros ->; discriminate|]. split; [apply nodupb_spec, H2|apply IH, H3].
  - intros name rep req c IHc r IHr H. cbn [cols_b] in H. apply andb_prop in H as [H H3]. apply andb_prop in H as [H1 H2].
    cbn [legal]. split; [apply name_b_spec, H1|]. split; [apply IHc, H2|apply IHr, H3].
Qed.
Lemma both_legal : forall off commit version,
  let k := go_codec off commit version in
  legal_col (CRecord (schema_of (ndt7_fields k))) /\ legal_col (CRecord (schema_of (ndt5_fields k))).
Proof.
  intros off commit version. cbv zeta. split; apply (proj1 legal_b); vm_compute; reflexivity.
Qed.

Lemma silent : forall k path7 path5 w7 w5 f, snd (generate k path7 path5 w7 w5 f) = 0 /\
  (w7 <> Written -> w5 <> Written -> forall p s, fst (generate k path7 path5 w7 w5 f) p = Some s -> f p = Some s).
Proof.
  intros k path7 path5 w7 w5 f. split; [reflexivity|]. intros N7 N5 p s. unfold generate. cbn [fst].
  destruct w7; [contradiction| |]; (destruct w5; [contradiction| |]); cbn [write_file]; auto;
    repeat match goal with |- context [if ?b then _ else _] => destruct b end; auto; discriminate.
Qed.

(** ** A check of the values of a struct *)
Fixpoint typedt_b (t : gtype) : dent t -> bool :=
  match t with
  | TStr => fun _ => true
  | TInt lo hi => fun n => (lo <=? n) && (n <=? hi)
  | TFloat => fun x => Floats.SpecFloat.valid_binary 53 1024 x
  | TTime => fun t => (- 10 ^ 27 <=? t) && (t <=? 10 ^ 27)
  | TPtr fs => fun o => match o with None => true | Some v => typed_b fs v end
  | TSlice fs => forallb (typed_b fs)
  end
with typed_b (fs : gfields) : dens fs -> bool :=
  match fs with
  | FNil => fun _ => true
  | FCons _ _ t r => fun v => typedt_b t (fst v) && typed_b r (snd v)
  end.
Scheme gtype_rect2 := Induction for gtype Sort Prop with gfields_rect2 := Induction for gfields Sort Prop.
Combined Scheme types_ind from gtype_rect2, gfields_rect2.
Lemma typed_check : (forall t v, typedt_b t v = true -> typedt t v) /\ (forall fs v, typed_b fs v = true -> typed fs v).
Proof.
  apply types_ind; cbn [typedt_b typedt typed_b typed]; try tauto.
  - intros lo hi n H. lia.
  - intros n H. apply andb_prop in H as [H1 H2]. apply Z.leb_le in H1. apply Z.leb_le in H2. split; assumption.
  - intros fs IH [v|] H; [apply IH, H|exact I].
  - intros fs IH l H. rewrite forallb_forall in H. apply Forall_forall. intros v I. apply IH, H, I.
  - intros name o t IHt r IHr [x y] H. cbn [fst snd] in *. apply andb_prop in H as [H1 H2]. split; [apply IHt, H1|apply IHr, H2].
Qed.

(** ** A time of the year 0 *)
Definition zero_text : bytes := str "{""ConnectionInfo"":{""StartTime"":""0000-06-01T00:00:00Z""}}".
Definition zero_sent : measurement := Measurement None (Some (ConnInfo [] [] [] (-62154086400 * 10 ^ 9))) None None.
Lemma year_zero : let k := go_codec 0 (str "4abf83c") (str "v0.22") in
  exists text m, measurement_text k text m /\
    (forall r a, n_upload r = Some a \/ n_download r = Some a -> In m (a_client a) -> ~ result7_dated r) /\
    exists r a, n_download r = Some a /\ a_client a = [m] /\ result7_bytes r /\
      typed (ndt7_fields k) (ndt7_struct k r) /\ encode7 k r <> None.
Proof.
  assert (B : forall s, bytes_okb s = true -> bytes_ok s) by (intros s; apply bytes_okb_spec).
  cbv zeta. exists zero_text, zero_sent. split; [|split].
  - apply C69_accepted; [apply go_codec_ok; apply B; reflexivity|apply B; reflexivity|vm_compute; reflexivity].
  - intros r a A I (_ & _ & H). destruct (H a A) as (_ & _ & F). rewrite Forall_forall in F.
    specialize (F zero_sent (in_or_app _ _ _ (or_intror I)) _ eq_refl). destruct F as [F _]. revert F. vm_compute. congruence.
  - exists (Result7 (str "10.0.0.2") 5000 (str "10.0.0.1") 443 5 70 (Some (Archival (str "u") (Some 20) (Some 60) [] [zero_sent] [] [])) None).
    eexists. split; [reflexivity|]. split; [reflexivity|]. split; [|split; [apply (proj2 typed_check); vm_compute; reflexivity|vm_compute; discriminate]].
    unfold result7_bytes. cbn [n_server_ip n_client_ip n_upload n_download]. do 2 (split; [apply B; reflexivity|]).
    split; [discriminate|]. intros a E. injection E as <-. unfold archival_bytes. cbn [a_uuid a_server a_client a_client_meta a_server_meta].
    split; [apply B; reflexivity|]. split; [constructor|]. split; [|split; constructor].
    constructor; [|constructor]. intros c E. injection E as <-. repeat split; constructor.
Qed.
