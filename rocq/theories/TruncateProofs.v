(** Proofs for TruncateProps: a document that was cut off is not JSON. *)
From Coq Require Import String ZArith List Bool Lia.
From Verif Require Import Base BaseFacts TextSpec JsonSpec GoJSON JsonProofs GoFloat MessagerSpec Web100Model Effect QueryModel
  ControlModel Ndt7Model Ndt7Spec ArchiveModel ArchiveProofs ArchiveProps CodecModel CodecSpec CodecProofs CodecShape CodecFacts.
Import ListNotations.
Open Scope Z_scope.

(** The text of an object ends itself: it is read the same way whatever follows. *)
Lemma object_ends d x l r fuel : jval d x (JObj l) -> bytes_ok x -> (2 * length x <= fuel)%nat ->
  pvalue fuel d (x ++ r) = Some (JObj l, r).
Proof.
  intros J B L. destruct fuel as [|f]; [inversion J; subst; cbn in L; lia|].
  inversion J as [| | | | | | |w Dd W E|w m l' Dd W M E]; subst.
  - cbn [app pvalue]. change (123 =? 123) with true. cbv iota. unfold max_depth.
    replace (10000 <=? d) with false by lia. rewrite <- app_assoc. cbn [app].
    rewrite skip_ws_complete; [reflexivity|exact W|cbn; unfold ws_char; lia].
  - cbn [app pvalue]. change (123 =? 123) with true. cbv iota. unfold max_depth.
    replace (10000 <=? d) with false by lia. rewrite <- !app_assoc. cbn [app].
    destruct (jmembers_head _ _ _ M) as (m' & Em).
    rewrite skip_ws_complete; [|exact W|rewrite Em; cbn [app]; unfold ws_char; lia].
    destruct (parse_complete (d + 1)) as (_ & _ & PC).
    assert (Bm : bytes_ok m).
    { change (123 :: w ++ m ++ [125]) with ([123] ++ w ++ m ++ [125]) in B.
      apply bytes_ok_app in B as [_ B]. apply bytes_ok_app in B as [_ B]. apply bytes_ok_app in B as [B _]. exact B. }
    assert (Lm : (2 * length m + 1 <= f)%nat) by (cbn [length] in L; rewrite !app_length in L; cbn [length] in L; lia).
    specialize (PC m l M Bm f r Lm). rewrite Em in *. cbn [app] in *. change (34 =? 125) with false. cbv iota.
    rewrite PC. reflexivity.
Qed.

Lemma brace_object d r j : jval d (123 :: r) j -> exists l, j = JObj l.
Proof.
  intros J. inversion J as [| | |w N| | | | |]; subst; eauto.
  destruct (jnumber_head _ N) as (b & r' & E & H). injection E as <- _. unfold digit in H. lia.
Qed.

Lemma skip_value w x r d j : ws w -> jval d x j -> skip_ws (w ++ x ++ r) = x ++ r.
Proof.
  intros W J. destruct (jval_head _ _ _ J) as (b & x' & -> & N & _). apply skip_ws_complete; [exact W|]. cbn. exact N.
Qed.

Lemma object_brace d x l : jval d x (JObj l) -> exists r, x = 123 :: r.
Proof. intros J. inversion J; subst; eauto. Qed.

(** A beginning of the text of an object is JSON only if nothing but white space is missing,
    and then it is the same object. *)
Lemma truncated doc l text rest j : bytes_ok doc -> json_text doc (JObj l) -> doc = text ++ rest ->
  json_text text j -> ws rest /\ j = JObj l.
Proof.
  intros B (w1 & x & w2 & E & W1 & W2 & J) D (v1 & y & v2 & E' & V1 & V2 & J').
  assert (S1 : skip_ws doc = x ++ w2) by (rewrite E; eapply skip_value; eassumption).
  assert (S2 : skip_ws doc = y ++ v2 ++ rest).
  { rewrite D, E', <- !app_assoc. eapply skip_value; eassumption. }
  destruct (object_brace _ _ _ J) as (x' & Ex).
  destruct (jval_head _ _ _ J') as (b & y' & Ey & _).
  assert (b = 123) as ->. { rewrite S1, Ex, Ey in S2. cbn [app] in S2. congruence. }
  assert (J2 := J'). rewrite Ey in J2. apply brace_object in J2 as (l' & ->).
  assert (Bx : bytes_ok x). { rewrite E in B. apply bytes_ok_app in B as [_ B]. apply bytes_ok_app in B as [B _]. exact B. }
  assert (By : bytes_ok y).
  { rewrite D, E' in B. apply bytes_ok_app in B as [B _]. apply bytes_ok_app in B as [_ B]. apply bytes_ok_app in B as [B _]. exact B. }
  set (n := (2 * length x + 2 * length y)%nat).
  assert (P1 : pvalue n 0 (skip_ws doc) = Some (JObj l, w2)) by (rewrite S1; apply object_ends; [exact J|exact Bx|unfold n; lia]).
  assert (P2 : pvalue n 0 (skip_ws doc) = Some (JObj l', v2 ++ rest)) by (rewrite S2; apply object_ends; [exact J'|exact By|unfold n; lia]).
  rewrite P1 in P2. injection P2 as <- Er. split; [|reflexivity].
  rewrite Er in W2. apply Forall_app in W2 as [_ W2]. exact W2.
Qed.

(** What follows an object that is the whole document, or all of it but a line feed. *)
Lemma object_last d x l : jval d x (JObj l) -> exists r, x = r ++ [125].
Proof.
  intros J. inversion J; subst.
  - exists (123 :: w). reflexivity.
  - exists (123 :: w ++ m). cbn [app]. rewrite <- app_assoc. reflexivity.
Qed.
Lemma no_blank_end d x l text rest : jval d x (JObj l) -> x = text ++ rest -> ws rest -> rest = [].
Proof.
  intros J E W. destruct (object_last _ _ _ J) as (r & E').
  induction rest as [|b rest IH] using rev_ind; [reflexivity|]. exfalso. clear IH.
  rewrite E', app_assoc in E. apply app_inj_tail in E as [_ <-]. apply Forall_app in W as [_ W].
  inversion W as [|? ? C _]. unfold ws_char in C. lia.
Qed.

Lemma whole7 k r doc : codec_ok k -> result7_bytes r -> encode7 k r = Some doc ->
  exists l, jval 0 doc (JObj l) /\ bytes_ok doc.
Proof.
  intros K B E. unfold encode7 in E.
  destruct (marshal_tree k _ _ _ (k_text k K) (named7 k K) (depth7 k) (bys7 k K r B) E) as (l & J & T & Bd). eauto.
Qed.
Lemma whole5 k text r doc : codec_ok k -> record_bytes text r -> encode5 k text r = Some doc ->
  exists d l, doc = d ++ [10] /\ jval 0 d (JObj l) /\ bytes_ok d.
Proof.
  intros K B H. unfold encode5 in H. destruct (marshal _ _ _) as [d|] eqn:E; [|discriminate].
  cbn [option_map] in H. injection H as <-.
  destruct (marshal_tree k _ _ _ (k_text k K) (named5 k K) (depth5 k) (bys5 k K text r B) E) as (l & J & T & Bd). eauto.
Qed.

Lemma cut7 k r doc n : codec_ok k -> result7_bytes r -> encode7 k r = Some doc ->
  firstn n doc = doc \/ forall j, ~ json_text (firstn n doc) j.
Proof.
  intros K B E. destruct (whole7 _ _ _ K B E) as (l & J & Bd).
  destruct (list_eq_dec Z.eq_dec (firstn n doc) doc) as [Q|N]; [left; exact Q|right]. intros j T.
  assert (D : json_text doc (JObj l)) by (rewrite <- (app_nil_r doc); apply text_of_val; [exact J|constructor]).
  destruct (truncated doc l (firstn n doc) (skipn n doc) j Bd D (eq_sym (firstn_skipn n doc)) T) as [W _].
  apply N. pose proof (no_blank_end _ _ _ _ _ J (eq_sym (firstn_skipn n doc)) W) as Z.
  rewrite <- (firstn_skipn n doc) at 2. rewrite Z, app_nil_r. reflexivity.
Qed.

Lemma cut5 k etext r doc n : codec_ok k -> record_bytes etext r -> encode5 k etext r = Some doc ->
  firstn n doc = doc \/
  (firstn n doc ++ [10] = doc /\ forall j, json_text (firstn n doc) j <-> json_text doc j) \/
  forall j, ~ json_text (firstn n doc) j.
Proof.
  intros K B E. destruct (whole5 _ _ _ _ K B E) as (d & l & -> & J & Bd).
  assert (Bdoc : bytes_ok (d ++ [10])) by (apply bytes_ok_app; split; [exact Bd|repeat constructor; unfold byte_ok; lia]).
  assert (D : json_text (d ++ [10]) (JObj l)) by (apply text_of_val; [exact J|repeat constructor; unfold ws_char; lia]).
  assert (D0 : json_text d (JObj l)) by (rewrite <- (app_nil_r d); apply text_of_val; [exact J|constructor]).
  destruct (Nat.le_gt_cases (length d) n) as [L|L].
  - destruct (Nat.le_gt_cases (S (length d)) n) as [L'|L'].
    + left. apply firstn_all2. rewrite app_length. cbn. lia.
    + right. left. assert (n = length d) as -> by lia. rewrite firstn_app, Nat.sub_diag, firstn_all. cbn [firstn]. rewrite app_nil_r.
      split; [reflexivity|]. intros j. split; intros H.
      * rewrite (json_text_fun _ _ _ Bd D0 H). exact D.
      * rewrite (json_text_fun _ _ _ Bdoc D H). exact D0.
  - right. right. intros j T. rewrite firstn_app in T. replace (n - length d)%nat with 0%nat in T by lia. cbn [firstn] in T. rewrite app_nil_r in T.
    destruct (truncated d l (firstn n d) (skipn n d) j Bd D0 (eq_sym (firstn_skipn n d)) T) as [W _].
    pose proof (no_blank_end _ _ _ _ _ J (eq_sym (firstn_skipn n d)) W) as Q.
    apply (f_equal (@length Z)) in Q. rewrite skipn_length in Q. cbn in Q. lia.
Qed.
