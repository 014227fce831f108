(** Proofs about the opening handshake of a websocket. *)
From Coq Require Import String ZArith List Bool Lia.
From Coq Require Import ZifyBool.
From Verif Require Import Base BaseFacts GoFloat GoStrings TextSpec ControlSpec StringsProofs
  HandshakeModel HandshakeSpec.
Import ListNotations.
Open Scope Z_scope.

(** ** Words up to case *)

Lemma to_lower_same a b : to_lower a = to_lower b <-> same_letter a b.
Proof.
  split.
  - unfold to_lower. intros H.
    destruct ((65 <=? a) && (a <=? 90)) eqn:A, ((65 <=? b) && (b <=? 90)) eqn:B.
    + replace b with a by lia. constructor.
    + replace b with (a + 32) by lia. constructor. lia.
    + replace a with (b + 32) by lia. constructor. lia.
    + subst. constructor.
  - intros []; unfold to_lower; [reflexivity| |];
      (destruct ((65 <=? b0) && (b0 <=? 90)) eqn:A; destruct ((65 <=? b0 + 32) && (b0 + 32 <=? 90)) eqn:B; lia).
Qed.

Lemma lower_same : forall a b, lower a = lower b <-> same_word a b.
Proof.
  unfold lower, same_word. induction a as [|x a IH]; intros [|y b]; cbn [map]; split; intros H;
    try discriminate; try (inversion H; fail); auto.
  - injection H as H1 H2. constructor; [apply to_lower_same; exact H1|apply IH; exact H2].
  - inversion H; subst. f_equal; [apply to_lower_same; assumption|apply IH; assumption].
Qed.

Lemma beqb_lower a b : beqb (lower a) (lower b) = true <-> same_word a b.
Proof. rewrite beqb_spec. apply lower_same. Qed.

(** ** Header lines *)

Lemma header_values r name : header name (hr_lines r) (values r name).
Proof.
  unfold values. induction (hr_lines r) as [|[n v] ls IH]; cbn [filter map fst]; [constructor|].
  destruct (beqb (lower n) (lower name)) eqn:E; cbn [map snd].
  - constructor; [apply beqb_lower; exact E|exact IH].
  - constructor; [|exact IH]. intros H. apply beqb_lower in H. congruence.
Qed.

Lemma header_unique name ls vs : header name ls vs -> forall ws, header name ls ws -> vs = ws.
Proof.
  induction 1; intros ws W; inversion W; subst; try contradiction; try reflexivity; auto.
  f_equal; auto.
Qed.

Lemma header_is r name vs : header name (hr_lines r) vs <-> vs = values r name.
Proof.
  split; [intros H; apply (header_unique _ _ _ H), header_values|intros ->; apply header_values].
Qed.

Lemma values_same r n m : lower n = lower m -> values r n = values r m.
Proof. unfold values. intros ->. reflexivity. Qed.
Lemma get_same r n m : lower n = lower m -> get r n = get r m.
Proof. unfold get. intros H. rewrite (values_same r n m H). reflexivity. Qed.

Lemma first_line_get r name v : v <> [] -> (get r name = v <-> first_line r name v).
Proof.
  intros Hv. unfold get, first_line. split.
  - destruct (values r name) as [|w vs] eqn:E; cbn [hd]; [congruence|]. intros <-.
    exists vs. apply header_is. congruence.
  - intros [vs H]. apply header_is in H. rewrite <- H. reflexivity.
Qed.

(** ** Lists of tokens *)

Definition marks : bytes := str "!#$%&'*+-.^_`|~".
Lemma marks_not_space b : In b marks -> 32 < b < 127 /\ b <> 44 /\ ~ (65 <= b <= 90) /\ ~ (97 <= b <= 122).
Proof.
  assert (forallb (fun b => (32 <? b) && (b <? 127) && negb (b =? 44) &&
    negb ((65 <=? b) && (b <=? 90)) && negb ((97 <=? b) && (b <=? 122))) marks = true) as H by reflexivity.
  intros Hb. rewrite forallb_forall in H. specialize (H b Hb). lia.
Qed.
Lemma mem_marks b : mem b marks = true <-> In b marks.
Proof. apply mem_spec. Qed.

Lemma octet b : is_token_octet b = true <-> tchar b.
Proof.
  unfold is_token_octet, tchar, to_lower, is_digit. fold marks. rewrite orb_true_iff, mem_marks.
  destruct ((65 <=? b) && (b <=? 90)) eqn:A; (split; [intros [H|H]; [|auto]|intros [H|[H|[H|H]]]; auto; left]);
    (lia || (assert (48 <= b <= 57 \/ 65 <= b <= 90 \/ 97 <= b <= 122) by lia; tauto)).
Qed.

Lemma tchar_not_space b : tchar b -> b <> 32 /\ b <> 9 /\ b <> 44.
Proof.
  unfold tchar. fold marks. intros [H|[H|[H|H]]]; [lia..|]. apply marks_not_space in H. lia.
Qed.

Lemma skip_space_split s : exists a, ows a /\ s = a ++ skip_space s /\
  match skip_space s with [] => True | b :: _ => b <> 32 /\ b <> 9 end.
Proof.
  induction s as [|b r IH]; cbn [skip_space]; [exists []; repeat split; constructor|].
  destruct ((b =? 32) || (b =? 9)) eqn:E.
  - destruct IH as (a & Ha & Er & Hh). exists (b :: a). repeat split; [constructor; [lia|exact Ha]| |exact Hh].
    cbn [app]. congruence.
  - exists []. repeat split; [constructor|lia|lia].
Qed.

Lemma skip_space_app a s : ows a -> match s with [] => True | b :: _ => b <> 32 /\ b <> 9 end ->
  skip_space (a ++ s) = s.
Proof.
  intros Ha Hs. induction Ha as [|b a Hb Ha IH]; cbn [app skip_space].
  - destruct s as [|b s]; cbn [skip_space]; [reflexivity|].
    destruct ((b =? 32) || (b =? 9)) eqn:E; [lia|reflexivity].
  - destruct ((b =? 32) || (b =? 9)) eqn:E; [exact IH|lia].
Qed.

Lemma next_token_split s : exists t u, next_token s = (t, u) /\ s = t ++ u /\ Forall tchar t /\
  match u with [] => True | b :: _ => ~ tchar b end.
Proof.
  induction s as [|b r IH]; cbn [next_token]; [exists [], []; repeat split; constructor|].
  destruct (is_token_octet b) eqn:E.
  - destruct IH as (t & u & -> & -> & Ht & Hu). exists (b :: t), u. repeat split; [|exact Hu].
    constructor; [apply octet; exact E|exact Ht].
  - exists [], (b :: r). repeat split; [constructor|]. intros H. apply octet in H. congruence.
Qed.

Lemma next_token_app t u : Forall tchar t -> match u with [] => True | b :: _ => ~ tchar b end ->
  next_token (t ++ u) = (t, u).
Proof.
  intros Ht Hu. induction Ht as [|b t Hb Ht IH]; cbn [app next_token].
  - destruct u as [|b u]; cbn [next_token]; [reflexivity|].
    destruct (is_token_octet b) eqn:E; [apply octet in E; contradiction|reflexivity].
  - apply octet in Hb. rewrite Hb, IH. reflexivity.
Qed.

Lemma same_letter_tchar a b : same_letter a b -> tchar b -> tchar a.
Proof.
  unfold tchar. fold marks. intros [c|c Hc|c Hc]; [auto| |].
  - intros _. lia.
  - intros _. lia.
Qed.
Lemma same_word_token a b : same_word a b -> token b -> token a.
Proof.
  intros H [Hn Hb]. split.
  - intros ->. inversion H; subst. congruence.
  - induction H; [constructor|]. inversion Hb; subst. constructor.
    + eapply same_letter_tchar; eassumption.
    + destruct l'; [inversion H0; constructor|]. apply IHForall2; [discriminate|assumption].
Qed.

(** The reading of one element: space, token, space. *)
Lemma read_element a t b u : ows a -> token t -> ows b -> (u = [] \/ exists rest, u = 44 :: rest) ->
  next_token (skip_space (a ++ t ++ b ++ u)) = (t, b ++ u) /\ skip_space (b ++ u) = u.
Proof.
  intros Ha [Htn Ht] Hb Hu.
  assert (match u with [] => True | c :: _ => c <> 32 /\ c <> 9 /\ ~ tchar c end) as Hu'.
  { destruct Hu as [->|[rest ->]]; [exact I|]. repeat split; try lia. intros H.
    apply tchar_not_space in H. lia. }
  split.
  - rewrite skip_space_app; [|exact Ha|].
    + apply next_token_app; [exact Ht|]. destruct Hb as [|c b Hc Hb]; cbn [app].
      * destruct u; [exact I|tauto].
      * intros H. apply tchar_not_space in H. lia.
    + destruct Ht as [|c t Hc Ht]; [congruence|]. cbn [app]. apply tchar_not_space in Hc. lia.
  - apply skip_space_app; [exact Hb|]. destruct u; [exact I|tauto].
Qed.

Lemma contains_names fuel s word : contains fuel s word = true -> token word -> names word s.
Proof.
  revert s. induction fuel as [|f IH]; intros s H Hw; cbn [contains] in H; [discriminate|].
  destruct (skip_space_split s) as (a & Ha & Es & _).
  destruct (next_token_split (skip_space s)) as (t & u & Et & Eu & Ht & _).
  rewrite Et in H. destruct t as [|t0 t]; [discriminate|].
  destruct (skip_space_split u) as (b & Hb & Eb & _).
  rewrite Es, Eu, Eb. destruct (skip_space u) as [|c rest].
  - apply beqb_lower in H. rewrite app_nil_r. apply names_last; assumption.
  - destruct (c =? 44) eqn:C; cbn [negb] in H; [|discriminate]. apply Z.eqb_eq in C. subst c.
    destruct (beqb (lower (t0 :: t)) (lower word)) eqn:W.
    + apply beqb_lower in W. apply names_here; assumption.
    + apply names_later; [exact Ha|split; [discriminate|exact Ht]|exact Hb|apply IH; assumption].
Qed.

Lemma names_contains word s : token word -> names word s -> forall fuel, (List.length s < fuel)%nat ->
  contains fuel s word = true.
Proof.
  intros Hw. induction 1 as [a t b Ha Ht Hb|a t b rest Ha Ht Hb|a t b rest Ha Ht Hb Hr IH];
    intros [|f] Hf; try lia; cbn [contains].
  - pose proof (same_word_token _ _ Ht Hw) as Tt.
    destruct (read_element a t b [] Ha Tt Hb (or_introl eq_refl)) as [E1 E2].
    rewrite app_nil_r in E1, E2. rewrite E1. destruct t as [|t0 t']; [destruct Tt; congruence|].
    rewrite E2. apply beqb_lower. exact Ht.
  - pose proof (same_word_token _ _ Ht Hw) as Tt.
    destruct (read_element a t b (44 :: rest) Ha Tt Hb (or_intror (ex_intro _ rest eq_refl))) as [E1 E2].
    rewrite E1. destruct t as [|t0 t']; [destruct Tt; congruence|].
    rewrite E2. cbn [Z.eqb Pos.eqb negb]. apply beqb_lower in Ht. rewrite Ht. reflexivity.
  - destruct (read_element a t b (44 :: rest) Ha Ht Hb (or_intror (ex_intro _ rest eq_refl))) as [E1 E2].
    rewrite E1. destruct t as [|t0 t']; [destruct Ht; congruence|].
    rewrite E2. cbn [Z.eqb Pos.eqb negb]. rewrite IH.
    + destruct (beqb (lower (t0 :: t')) (lower word)); reflexivity.
    + rewrite !app_length in Hf. cbn [List.length] in Hf. lia.
Qed.

Lemma has_word_iff r name word : token word ->
  (token_list_contains (values r name) word = true <-> has_word r name word).
Proof.
  intros Hw. unfold token_list_contains, has_word. rewrite existsb_exists. split.
  - intros (v & Hv & H). exists (values r name), v. split; [apply header_values|]. split; [exact Hv|].
    eapply contains_names; eassumption.
  - intros (vs & v & H & Hv & Hn). apply header_is in H. subst vs. exists v. split; [exact Hv|].
    eapply names_contains; eauto.
Qed.

(** ** Keys *)

Lemma is_base64_iff b : is_base64 b = true <-> base64_char b.
Proof.
  unfold is_base64, base64_char, to_lower, is_digit.
  destruct ((65 <=? b) && (b <=? 90)) eqn:A; lia.
Qed.

Lemma valid_key_iff s : is_valid_key s = true <-> nonce s.
Proof.
  unfold is_valid_key, nonce, len. rewrite !andb_true_iff, forallb_forall, beqb_spec, Z.eqb_eq. split.
  - intros [[H1 H2] H3]. exists (firstn 22 s). split; [rewrite firstn_length; lia|]. split.
    + apply Forall_forall. intros x Hx. apply is_base64_iff, H1, Hx.
    + rewrite <- H2. symmetry. apply firstn_skipn.
  - intros (k & L & F & ->). rewrite <- L, firstn_app, firstn_all, Nat.sub_diag, skipn_app, skipn_all, Nat.sub_diag.
    cbn [firstn skipn app]. rewrite app_nil_r, app_length. split; [split; [|reflexivity]|].
    + intros x Hx. apply is_base64_iff. rewrite Forall_forall in F. apply F, Hx.
    + rewrite L. reflexivity.
Qed.

Lemma nonce_nonempty k : nonce k -> k <> [].
Proof. intros (s & _ & _ & ->) H. apply app_eq_nil in H. destruct H. discriminate. Qed.

(** ** Trimming and splitting *)

Definition ws (cs : list Z) : Prop := incl cs white_space.
Definition good (p : bytes) : Prop := p <> [] /\ Forall (fun b => 33 <= b < 127 /\ b <> 44) p.

(** The bytes of white space. *)
Definition ws_byte (b : Z) : Prop := ~ (33 <= b < 127).

Lemma utf8_ws_bytes c : In c white_space -> Forall ws_byte (utf8_char c).
Proof.
  assert (forallb (fun c => forallb (fun b => negb ((33 <=? b) && (b <? 127))) (utf8_char c)) white_space = true)
    as H by reflexivity.
  intros Hc. rewrite forallb_forall in H. specialize (H c Hc). rewrite forallb_forall in H.
  apply Forall_forall. intros b Hb. specialize (H b Hb). unfold ws_byte. lia.
Qed.

Lemma ws_bytes cs : ws cs -> Forall ws_byte (flat_map utf8_char cs).
Proof.
  induction cs as [|c cs IH]; intros H; [constructor|]. cbn [flat_map]. apply Forall_app. split.
  - apply utf8_ws_bytes, H. left. reflexivity.
  - apply IH. intros x Hx. apply H. right. exact Hx.
Qed.

Lemma ws_no_comma cs : ws cs -> ~ In 44 (flat_map utf8_char cs).
Proof.
  intros H Hin. apply ws_bytes in H. rewrite Forall_forall in H. specialize (H _ Hin). unfold ws_byte in H. lia.
Qed.

(** No encoding of white space starts another, or ends another. *)
Lemma prefix_free c d x y : In c white_space -> In d white_space ->
  utf8_char c ++ x = utf8_char d ++ y -> c = d.
Proof.
  assert (forallb (fun c => forallb (fun d =>
            negb (has_prefix (utf8_char c) (utf8_char d)) || (c =? d)) white_space) white_space = true)
    as H by reflexivity.
  assert (forall c d, In c white_space -> In d white_space ->
            forall z, utf8_char d = utf8_char c ++ z -> c = d) as K.
  { intros c0 d0 Hc Hd z E. rewrite forallb_forall in H. specialize (H c0 Hc).
    rewrite forallb_forall in H. specialize (H d0 Hd). rewrite E, has_prefix_app in H. cbn in H. lia. }
  intros Hc Hd E. destruct (app_eq_app _ _ _ _ E) as (l & [[E1 _]|[E1 _]]).
  - symmetry. apply (K d c Hd Hc l E1).
  - apply (K c d Hc Hd l E1).
Qed.

Lemma suffix_free c d x y : In c white_space -> In d white_space ->
  x ++ utf8_char c = y ++ utf8_char d -> c = d.
Proof.
  assert (forallb (fun c => forallb (fun d =>
            negb (has_suffix (utf8_char c) (utf8_char d)) || (c =? d)) white_space) white_space = true)
    as H by reflexivity.
  assert (forall c d, In c white_space -> In d white_space ->
            forall z, utf8_char d = z ++ utf8_char c -> c = d) as K.
  { intros c0 d0 Hc Hd z E. rewrite forallb_forall in H. specialize (H c0 Hc).
    rewrite forallb_forall in H. specialize (H d0 Hd).
    assert (has_suffix (utf8_char c0) (utf8_char d0) = true) as S by (apply has_suffix_spec; exists z; exact E).
    rewrite S in H. cbn in H. lia. }
  intros Hc Hd E. destruct (app_eq_app _ _ _ _ E) as (l & [[_ E1]|[_ E1]]).
  - apply (K c d Hc Hd l E1).
  - symmetry. apply (K d c Hd Hc l E1).
Qed.

(** What is left of white space after white space at its start, or before white space at its
    end, is white space. *)
Lemma ws_rest : forall cs ds g, ws cs -> ws ds ->
  flat_map utf8_char cs = flat_map utf8_char ds ++ g -> exists es, ws es /\ g = flat_map utf8_char es.
Proof.
  intros cs ds. revert cs. induction ds as [|d ds IH]; intros cs g Hc Hd E.
  - exists cs. split; [exact Hc|]. symmetry. exact E.
  - cbn [flat_map] in E. rewrite <- app_assoc in E. destruct cs as [|c cs].
    + exfalso. cbn [flat_map] in E. symmetry in E. apply app_eq_nil in E. destruct E as [E _].
      assert (forallb (fun c => negb (beqb (utf8_char c) [])) white_space = true) as K by reflexivity.
      rewrite forallb_forall in K. specialize (K d (Hd d (or_introl eq_refl))). rewrite E in K. discriminate.
    + cbn [flat_map] in E.
      assert (c = d) as ->.
      { apply (prefix_free c d _ _ (Hc c (or_introl eq_refl)) (Hd d (or_introl eq_refl)) E). }
      apply app_inv_head in E. apply (IH cs g); [| |exact E]; intros x Hx; [apply Hc|apply Hd]; right; exact Hx.
Qed.

Lemma ws_start : forall cs ds g, ws cs -> ws ds ->
  flat_map utf8_char cs = g ++ flat_map utf8_char ds -> exists es, ws es /\ g = flat_map utf8_char es.
Proof.
  intros cs ds. revert cs. induction ds as [|d ds IH] using rev_ind; intros cs g Hc Hd E.
  - exists cs. split; [exact Hc|]. cbn [flat_map] in E. rewrite app_nil_r in E. symmetry. exact E.
  - rewrite flat_map_app in E. cbn [flat_map] in E. rewrite app_nil_r, app_assoc in E.
    assert (In d white_space) as Hdw by (apply Hd, in_or_app; right; left; reflexivity).
    destruct cs as [|c cs _] using rev_ind.
    + exfalso. cbn [flat_map] in E. symmetry in E. apply app_eq_nil in E. destruct E as [_ E].
      assert (forallb (fun c => negb (beqb (utf8_char c) [])) white_space = true) as K by reflexivity.
      rewrite forallb_forall in K. specialize (K d Hdw). rewrite E in K. discriminate.
    + rewrite flat_map_app in E. cbn [flat_map] in E. rewrite app_nil_r in E.
      assert (In c white_space) as Hcw by (apply Hc, in_or_app; right; left; reflexivity).
      assert (c = d) as -> by exact (suffix_free c d _ _ Hcw Hdw E).
      apply app_inv_tail in E.
      apply (IH cs g); [| |exact E]; intros x Hx; [apply Hc|apply Hd]; apply in_or_app; left; exact Hx.
Qed.

(** A stretch of white-space bytes at the start of a text that has other bytes further on. *)
Lemma ws_before a b x y c : Forall ws_byte a -> Forall ws_byte b -> ~ ws_byte c ->
  a ++ x = b ++ c :: y -> exists g, b = a ++ g /\ x = g ++ c :: y.
Proof.
  intros Ha Hb Hc E. destruct (app_eq_app _ _ _ _ E) as (l & [[E1 E2]|[E1 E2]]).
  - destruct l as [|z l].
    + rewrite app_nil_r in E1. subst. exists []. rewrite app_nil_r. auto.
    + cbn [app] in E2. injection E2 as <- _. exfalso. rewrite E1 in Ha. apply Forall_app in Ha.
      destruct Ha as [_ Ha]. inversion Ha; subst. contradiction.
  - exists l. auto.
Qed.

(** The white space around a word of printable characters is what trimming takes away. *)
Lemma trim_good e p : good p -> (trim_space e = p <-> exists cs ds, ws cs /\ ws ds /\
  e = flat_map utf8_char cs ++ p ++ flat_map utf8_char ds).
Proof.
  intros [Hp Hg]. split.
  - intros <-. destruct (trim_space_trimmed e) as ((cs & ds & H) & _). exists cs, ds. exact H.
  - intros (cs & ds & Hcs & Hds & E).
    destruct (trim_space_trimmed e) as ((cs' & ds' & Hcs' & Hds' & E') & Hl & Hr).
    set (t := trim_space e) in *. clearbody t.
    assert (forall b, In b p -> ~ ws_byte b) as Hnw.
    { intros b Hb Hw. rewrite Forall_forall in Hg. specialize (Hg b Hb). unfold ws_byte in Hw. lia. }
    destruct p as [|p0 p1] eqn:Ep; [congruence|]. rewrite E in E'.
    cbn [app] in E'. symmetry in E'.
    destruct (ws_before _ _ _ _ p0 (ws_bytes _ Hcs') (ws_bytes _ Hcs)
      (Hnw p0 (or_introl eq_refl)) E') as (g & Eg & Ex).
    destruct (ws_rest cs cs' g Hcs Hcs' Eg) as (es & Hes & ->).
    (* the right side, by reversal *)
    assert (exists p2 pz, p0 :: p1 = p2 ++ [pz]) as (p2 & pz & Epz)
      by (destruct (exists_last (l := p0 :: p1)) as (p2 & pz & Hz); [discriminate|eauto]).
    change (p0 :: p1 ++ flat_map utf8_char ds) with ((p0 :: p1) ++ flat_map utf8_char ds) in Ex.
    rewrite Epz in Ex. apply (f_equal (@rev Z)) in Ex. rewrite !rev_app_distr in Ex. cbn [rev app] in Ex.
    rewrite <- !app_assoc in Ex. cbn [app] in Ex.
    destruct (ws_before (rev (flat_map utf8_char ds')) (rev (flat_map utf8_char ds))
                (rev t) (rev p2 ++ rev (flat_map utf8_char es)) pz) as (h & Eh & Et).
    { apply Forall_rev, ws_bytes, Hds'. } { apply Forall_rev, ws_bytes, Hds. }
    { apply Hnw. rewrite Epz. apply in_or_app. right. left. reflexivity. }
    { exact Ex. }
    apply (f_equal (@rev Z)) in Eh. rewrite rev_involutive, rev_app_distr, rev_involutive in Eh.
    destruct (ws_start ds ds' (rev h) Hds Hds' Eh) as (fs & Hfs & Efs).
    apply (f_equal (@rev Z)) in Et. rewrite rev_involutive in Et.
    rewrite rev_app_distr in Et. cbn [rev] in Et. rewrite rev_app_distr, !rev_involutive in Et.
    rewrite Efs, <- !app_assoc in Et.
    change ([pz] ++ flat_map utf8_char fs) with (([pz] ++ flat_map utf8_char fs)) in Et.
    rewrite (app_assoc p2), <- Epz in Et.
    destruct es as [|c es].
    + destruct fs as [|d fs _] using rev_ind.
      * cbn [flat_map app] in Et. rewrite app_nil_r in Et. exact Et.
      * exfalso. apply (Hr d (flat_map utf8_char [] ++ (p0 :: p1) ++ flat_map utf8_char fs)).
        -- apply Hfs, in_or_app. right. left. reflexivity.
        -- rewrite Et, flat_map_app. cbn [flat_map]. rewrite app_nil_r, <- !app_assoc. reflexivity.
    + exfalso. apply (Hl c (flat_map utf8_char es ++ (p0 :: p1) ++ flat_map utf8_char fs)).
      * apply Hes. left. reflexivity.
      * rewrite Et. cbn [flat_map]. rewrite <- !app_assoc. reflexivity.
Qed.

Lemma good_trimmed e p : good p -> (trim_space e = p <-> trimmed e p).
Proof.
  intros Hg. split.
  - intros <-. apply trim_space_trimmed.
  - intros ((cs & ds & H) & _). apply trim_good; [exact Hg|]. exists cs, ds. exact H.
Qed.

Lemma comma_ind (P : bytes -> Prop) :
  (forall a, ~ In 44 a -> P a) -> (forall a r, ~ In 44 a -> P r -> P (a ++ 44 :: r)) -> forall s, P s.
Proof.
  intros H1 H2 s. remember (List.length s) as n eqn:En. assert (List.length s <= n)%nat as Hn by lia. clear En.
  revert s Hn. induction n as [|n IH]; intros s Hn.
  - destruct s; [|cbn in Hn; lia]. apply H1. intros [].
  - pose proof (split2_spec 44 s) as E. destruct (split2 44 s) as [a [b|]]; destruct E as [-> E].
    + apply H2; [exact E|]. apply IH. rewrite app_length in Hn. cbn [List.length] in Hn. lia.
    + apply H1, E.
Qed.

Lemma split_on_one a : ~ In 44 a -> split_on 44 a = [a].
Proof.
  induction a as [|b a IH]; intros H; cbn [split_on]; [reflexivity|].
  destruct (b =? 44) eqn:B; [exfalso; apply H; left; lia|].
  rewrite IH; [reflexivity|]. intros K. apply H. right. exact K.
Qed.
Lemma split_on_more a r : ~ In 44 a -> split_on 44 (a ++ 44 :: r) = a :: split_on 44 r.
Proof.
  induction a as [|b a IH]; intros H; cbn [app split_on]; [reflexivity|].
  destruct (b =? 44) eqn:B; [exfalso; apply H; left; lia|].
  rewrite IH; [reflexivity|]. intros K. apply H. right. exact K.
Qed.

Lemma element_one e a : ~ In 44 a -> (element e a <-> e = a).
Proof.
  intros Ha. split.
  - intros (_ & x & y & -> & Hx & Hy). destruct Hx as [->|[x' ->]].
    + destruct Hy as [->|[y' ->]]; [rewrite app_nil_r; reflexivity|].
      exfalso. apply Ha. apply in_or_app. right. apply in_or_app. right. left. reflexivity.
    + exfalso. apply Ha. apply in_or_app. left. apply in_or_app. right. left. reflexivity.
  - intros ->. split; [exact Ha|]. exists [], []. rewrite app_nil_r. auto.
Qed.

Lemma first_comma a r b s : ~ In 44 a -> ~ In 44 b -> a ++ 44 :: r = b ++ 44 :: s -> a = b /\ r = s.
Proof.
  intros Ha Hb E. destruct (app_eq_app _ _ _ _ E) as (l & [[E1 E2]|[E1 E2]]);
    (destruct l as [|z l]; [cbn [app] in E2; rewrite app_nil_r in E1; subst; split; congruence|]);
    cbn [app] in E2; injection E2 as <- _; exfalso; [apply Ha|apply Hb]; rewrite E1; apply in_or_app; right;
    left; reflexivity.
Qed.

Lemma element_more e a r : ~ In 44 a -> (element e (a ++ 44 :: r) <-> e = a \/ element e r).
Proof.
  intros Ha. split.
  - intros (He & x & y & E & Hx & Hy). destruct Hx as [->|[x' ->]].
    + left. cbn [app] in E. destruct Hy as [->|[y' ->]].
      * rewrite app_nil_r in E. exfalso. apply He. rewrite <- E. apply in_or_app. right. left. reflexivity.
      * symmetry. apply (first_comma a r e y'); assumption.
    + right. rewrite <- app_assoc in E. cbn [app] in E.
      pose proof (split2_spec 44 x') as S. destruct (split2 44 x') as [c [d|]]; destruct S as [-> Hc].
      * rewrite <- app_assoc in E. cbn [app] in E. apply first_comma in E; [|exact Ha|exact Hc].
        destruct E as [-> ->]. split; [exact He|]. exists (d ++ [44]), y.
        rewrite <- app_assoc. repeat split; [right; exists d; reflexivity|exact Hy].
      * apply first_comma in E; [|exact Ha|exact Hc]. destruct E as [-> ->].
        split; [exact He|]. exists [], y. repeat split; [left; reflexivity|exact Hy].
  - intros [->|(He & x & y & -> & Hx & Hy)].
    + split; [exact Ha|]. exists [], (44 :: r). repeat split; [left; reflexivity|right; eauto].
    + split; [exact He|]. exists (a ++ 44 :: x), y. repeat split; [rewrite <- app_assoc; reflexivity| |exact Hy].
      right. destruct Hx as [->|[x' ->]]; [exists a; reflexivity|exists (a ++ 44 :: x')].
      rewrite <- app_assoc. reflexivity.
Qed.

Lemma split_on_elements v : forall e, In e (split_on 44 v) <-> element e v.
Proof.
  induction v as [a Ha|a r Ha IH] using comma_ind; intros e.
  - rewrite split_on_one, element_one by exact Ha. cbn [In]. intuition congruence.
  - rewrite split_on_more, element_more by exact Ha. cbn [In]. rewrite IH. intuition congruence.
Qed.

(** White space at the ends of a list does not change what it offers. *)
Definition offered (p v : bytes) : Prop := exists e, In e (split_on 44 v) /\ trim_space e = p.

Lemma offered_one p a : ~ In 44 a -> (offered p a <-> trim_space a = p).
Proof.
  intros Ha. unfold offered. rewrite (split_on_one a Ha). split.
  - intros (e & [<-|[]] & H). exact H.
  - intros H. exists a. split; [left; reflexivity|exact H].
Qed.
Lemma offered_more p a r : ~ In 44 a -> (offered p (a ++ 44 :: r) <-> trim_space a = p \/ offered p r).
Proof.
  intros Ha. unfold offered. rewrite (split_on_more a r Ha). split.
  - intros (e & [<-|Hin] & H); [left; exact H|right; eauto].
  - intros [H|(e & Hin & H)]; [exists a|exists e]; (split; [|exact H]); [left; reflexivity|right; exact Hin].
Qed.

Lemma trim_ws_left cs e p : good p -> ws cs ->
  (trim_space (flat_map utf8_char cs ++ e) = p <-> trim_space e = p).
Proof.
  intros Hp Hc. rewrite !trim_good by exact Hp. split.
  - intros (as_ & ds & Ha & Hd & E). destruct Hp as [Hp Hg]. destruct p as [|p0 p1]; [congruence|].
    assert (~ ws_byte p0) as Hp0 by (inversion Hg; subst; unfold ws_byte; lia).
    cbn [app] in E. destruct (ws_before _ _ _ _ p0 (ws_bytes _ Hc) (ws_bytes _ Ha) Hp0 E) as (g & Eg & ->).
    destruct (ws_rest as_ cs g Ha Hc Eg) as (es & Hes & ->). exists es, ds. repeat split; assumption.
  - intros (as_ & ds & Ha & Hd & ->). exists (cs ++ as_), ds. rewrite flat_map_app, <- app_assoc.
    repeat split; try assumption. intros x Hx. apply in_app_or in Hx. destruct Hx; auto.
Qed.

Lemma ws_after a b x y c : Forall ws_byte a -> Forall ws_byte b -> ~ ws_byte c ->
  x ++ a = y ++ c :: b -> exists g, b = g ++ a /\ x = y ++ c :: g.
Proof.
  intros Ha Hb Hc E. apply (f_equal (@rev Z)) in E. rewrite !rev_app_distr in E. cbn [rev] in E.
  rewrite <- app_assoc in E. cbn [app] in E.
  destruct (ws_before (rev a) (rev b) (rev x) (rev y) c (Forall_rev Ha) (Forall_rev Hb) Hc E) as (g & E1 & E2).
  exists (rev g). apply (f_equal (@rev Z)) in E1, E2. rewrite rev_involutive in E1, E2.
  rewrite rev_app_distr, rev_involutive in E1. rewrite rev_app_distr in E2. cbn [rev] in E2.
  rewrite rev_involutive, <- app_assoc in E2. auto.
Qed.

Lemma trim_ws_right cs e p : good p -> ws cs ->
  (trim_space (e ++ flat_map utf8_char cs) = p <-> trim_space e = p).
Proof.
  intros Hp Hc. rewrite !trim_good by exact Hp. split.
  - intros (as_ & ds & Ha & Hd & E). destruct Hp as [Hp Hg].
    destruct (exists_last Hp) as (p2 & pz & ->).
    assert (~ ws_byte pz) as Hpz.
    { apply Forall_app in Hg. destruct Hg as [_ Hg]. inversion Hg; subst. unfold ws_byte. lia. }
    rewrite <- app_assoc in E. cbn [app] in E. rewrite app_assoc in E.
    destruct (ws_after _ _ _ _ pz (ws_bytes _ Hc) (ws_bytes _ Hd) Hpz E) as (g & Eg & ->).
    destruct (ws_start ds cs g Hd Hc Eg) as (es & Hes & ->). exists as_, es.
    repeat split; try assumption. rewrite <- !app_assoc. reflexivity.
  - intros (as_ & ds & Ha & Hd & ->). exists as_, (ds ++ cs). rewrite flat_map_app, <- !app_assoc.
    repeat split; try assumption. intros x Hx. apply in_app_or in Hx. destruct Hx; auto.
Qed.

Lemma offered_ws_left cs v p : good p -> ws cs -> (offered p (flat_map utf8_char cs ++ v) <-> offered p v).
Proof.
  intros Hp Hc. pose proof (ws_no_comma cs Hc) as Hn.
  assert (forall a, ~ In 44 a -> ~ In 44 (flat_map utf8_char cs ++ a)) as K.
  { intros a Ha H. apply in_app_or in H. tauto. }
  revert v. refine (comma_ind _ _ _); [intros a Ha|intros a r Ha _].
  - rewrite !offered_one by auto. apply trim_ws_left; assumption.
  - rewrite app_assoc, !offered_more by auto. rewrite trim_ws_left by assumption. reflexivity.
Qed.
Lemma offered_ws_right cs v p : good p -> ws cs -> (offered p (v ++ flat_map utf8_char cs) <-> offered p v).
Proof.
  intros Hp Hc. pose proof (ws_no_comma cs Hc) as Hn.
  revert v. refine (comma_ind _ _ _); [intros a Ha|intros a r Ha IH].
  - rewrite !offered_one; [apply trim_ws_right; assumption|exact Ha|].
    intros H. apply in_app_or in H. tauto.
  - rewrite <- app_assoc. cbn [app]. rewrite !offered_more by exact Ha. rewrite IH. reflexivity.
Qed.

Lemma subprotocols_offered r p : good p ->
  (In p (subprotocols r) <-> offered p (get r (str "Sec-WebSocket-Protocol"))).
Proof.
  intros Hp. unfold subprotocols.
  change (get r (str "Sec-Websocket-Protocol")) with (get r (str "Sec-WebSocket-Protocol")).
  set (v := get r (str "Sec-WebSocket-Protocol")). clearbody v.
  destruct (trim_space_trimmed v) as ((cs & ds & Hc & Hd & E) & _).
  set (t := trim_space v) in *. clearbody t. subst v.
  rewrite offered_ws_left, offered_ws_right by assumption.
  assert (In p (map trim_space (split_on 44 t)) <-> offered p t) as K.
  { rewrite in_map_iff. unfold offered. split; intros (e & H1 & H2); exists e; auto. }
  destruct t as [|b t]; [|exact K]. split; [intros []|]. intros H. exfalso.
  apply offered_one in H; [|intros []]. destruct Hp as [Hp _]. apply Hp. symmetry. exact H.
Qed.

Lemma offers_iff r p : good p -> (existsb (beqb p) (subprotocols r) = true <-> offers r p).
Proof.
  intros Hp. transitivity (In p (subprotocols r)).
  - rewrite existsb_exists. split; [intros (x & Hx & H); apply beqb_spec in H; subst; exact Hx|].
    intros H. exists p. split; [exact H|apply beqb_refl].
  - rewrite subprotocols_offered by exact Hp. unfold offers, offered. split.
    + intros (e & He & Ht).
      destruct (get r (str "Sec-WebSocket-Protocol")) as [|b v] eqn:G.
      * exfalso. cbn in He. destruct He as [<-|[]]. destruct Hp as [Hp _]. apply Hp. symmetry. exact Ht.
      * exists (b :: v), e. split; [apply first_line_get; [discriminate|exact G]|].
        split; [apply split_on_elements; exact He|apply good_trimmed; assumption].
    + intros (v & e & Hv & He & Ht). exists e. split; [|apply good_trimmed; assumption].
      apply split_on_elements. destruct Hv as [vs Hv]. apply header_is in Hv. unfold get. rewrite <- Hv. exact He.
Qed.

(** ** The handshake *)

Lemma token_if w : w <> [] -> forallb is_token_octet w = true -> token w.
Proof.
  intros H F. split; [exact H|]. rewrite forallb_forall in F. apply Forall_forall. intros x Hx. apply octet, F, Hx.
Qed.
Lemma word_upgrade : token (str "upgrade").
Proof. apply token_if; [discriminate|reflexivity]. Qed.
Lemma word_websocket : token (str "websocket").
Proof. apply token_if; [discriminate|reflexivity]. Qed.
Lemma word_13 : token (str "13").
Proof. apply token_if; [discriminate|reflexivity]. Qed.

Definition opens (r : http_request) : bool :=
  token_list_contains (values r (str "Connection")) (str "upgrade") &&
  token_list_contains (values r (str "Upgrade")) (str "websocket") &&
  beqb (hr_method r) (str "GET") &&
  token_list_contains (values r (str "Sec-WebSocket-Version")) (str "13") &&
  is_valid_key (get r (str "Sec-WebSocket-Key")).

Lemma opens_iff r : opens r = true <-> opening r (get r (str "Sec-WebSocket-Key")).
Proof.
  unfold opens, opening.
  pose proof (has_word_iff r (str "Connection") _ word_upgrade) as [A1 A2].
  pose proof (has_word_iff r (str "Upgrade") _ word_websocket) as [B1 B2].
  pose proof (has_word_iff r (str "Sec-WebSocket-Version") _ word_13) as [C1 C2].
  pose proof (beqb_spec (hr_method r) (str "GET")) as [D1 D2].
  pose proof (valid_key_iff (get r (str "Sec-WebSocket-Key"))) as [E1 E2].
  pose proof (first_line_get r (str "Sec-WebSocket-Key") (get r (str "Sec-WebSocket-Key"))) as F.
  split.
  - intros H. apply andb_true_iff in H. destruct H as [H E]. apply andb_true_iff in H. destruct H as [H C].
    apply andb_true_iff in H. destruct H as [H D]. apply andb_true_iff in H. destruct H as [A B].
    specialize (E1 E). split; [exact (D1 D)|]. split; [exact (A1 A)|]. split; [exact (B1 B)|].
    split; [exact (C1 C)|]. split; [|exact E1]. apply (proj1 (F (nonce_nonempty _ E1))). reflexivity.
  - intros (D & A & B & C & _ & E). rewrite (A2 A), (B2 B), (C2 C), (D2 D), (E2 E). reflexivity.
Qed.

Lemma opening_key r key : opening r key -> key = get r (str "Sec-WebSocket-Key").
Proof.
  intros (_ & _ & _ & _ & H & N). symmetry. apply first_line_get; [apply nonce_nonempty, N|exact H].
Qed.

Lemma upgrade_eq accept wire ps extra r :
  existsb (fun l => beqb (fst l) (str "Sec-Websocket-Extensions")) extra = false ->
  upgrade accept wire (Upgrader ps (fun _ => true)) extra r =
  if negb (opens r) then Refused else if negb wire then Broken else
    Switched
      ([(str "Upgrade", str "websocket"); (str "Connection", str "Upgrade");
        (str "Sec-WebSocket-Accept", accept (get r (str "Sec-WebSocket-Key")))] ++
       (match select_subprotocol (Upgrader ps (fun _ => true)) r extra with
        | [] => []
        | _ => [(str "Sec-WebSocket-Protocol", select_subprotocol (Upgrader ps (fun _ => true)) r extra)]
        end) ++
       filter (fun l => negb (beqb (fst l) (str "Sec-Websocket-Protocol"))) extra).
Proof.
  intros He. unfold upgrade, opens. rewrite He. cbn [u_check_origin negb].
  change (values r (str "Sec-Websocket-Version")) with (values r (str "Sec-WebSocket-Version")).
  change (get r (str "Sec-Websocket-Key")) with (get r (str "Sec-WebSocket-Key")).
  destruct (token_list_contains (values r (str "Connection")) (str "upgrade")); [|reflexivity].
  destruct (token_list_contains (values r (str "Upgrade")) (str "websocket")); [|reflexivity].
  destruct (beqb (hr_method r) (str "GET")); [|reflexivity].
  destruct (token_list_contains (values r (str "Sec-WebSocket-Version")) (str "13")); [|reflexivity].
  destruct (is_valid_key (get r (str "Sec-WebSocket-Key"))); reflexivity.
Qed.

Lemma ndt5_eq accept wire p r : p <> [] ->
  upgrade accept wire (ndt5_upgrader p) [] r =
  if negb (opens r) then Refused else if negb wire then Broken else
    Switched (response (accept (get r (str "Sec-WebSocket-Key")))
                (if existsb (beqb p) (subprotocols r) then Some p else None)).
Proof.
  intros Hp. unfold ndt5_upgrader. rewrite upgrade_eq by reflexivity.
  unfold select_subprotocol, response. cbn [u_subprotocols filter].
  destruct (existsb (beqb p) (subprotocols r)); cbn [hd app]; [|reflexivity].
  destruct p; [congruence|reflexivity].
Qed.

Lemma ndt7_eq accept wire r :
  ndt7_handshake accept wire r =
  if negb (beqb (get r (str "Sec-WebSocket-Protocol")) (str "net.measurementlab.ndt.v7")) then Refused
  else if negb (opens r) then Refused else if negb wire then Broken else
    Switched (response (accept (get r (str "Sec-WebSocket-Key"))) (Some (str "net.measurementlab.ndt.v7"))).
Proof.
  unfold ndt7_handshake. rewrite upgrade_eq by reflexivity. reflexivity.
Qed.

Lemma ndt5_switched accept wire p r lines : good p ->
  (upgrade accept wire (ndt5_upgrader p) [] r = Switched lines <->
   wire = true /\ exists key, opening r key /\
     (offers r p /\ lines = response (accept key) (Some p) \/
      ~ offers r p /\ lines = response (accept key) None)).
Proof.
  intros Hp. rewrite ndt5_eq by apply Hp. pose proof (offers_iff r p Hp) as Ho.
  destruct (opens r) eqn:O; cbn [negb].
  - apply opens_iff in O. destruct wire; cbn [negb].
    + split.
      * intros H. injection H as <-. split; [reflexivity|]. exists (get r (str "Sec-WebSocket-Key")).
        split; [exact O|]. destruct (existsb (beqb p) (subprotocols r)); [left|right]; (split; [|reflexivity]).
        -- apply Ho. reflexivity.
        -- intros H. apply Ho in H. discriminate.
      * intros (_ & key & K & H). rewrite <- (opening_key r key K).
        destruct (existsb (beqb p) (subprotocols r)).
        -- destruct H as [[_ ->]|[H _]]; [reflexivity|]. exfalso. apply H, Ho. reflexivity.
        -- destruct H as [[H _]|[_ ->]]; [|reflexivity]. apply Ho in H. discriminate.
    + split; [discriminate|]. intros [H _]. discriminate.
  - split; [discriminate|]. intros (_ & key & K & _). rewrite (opening_key r key K) in K.
    apply opens_iff in K. congruence.
Qed.

Lemma ndt5_refused accept wire p r : p <> [] ->
  (upgrade accept wire (ndt5_upgrader p) [] r = Refused <-> forall key, ~ opening r key).
Proof.
  intros Hp. rewrite ndt5_eq by exact Hp. destruct (opens r) eqn:O; cbn [negb].
  - split; [destruct wire; discriminate|]. intros H. exfalso. apply opens_iff in O. exact (H _ O).
  - split; [|reflexivity]. intros _ key K. pose proof (opening_key r key K) as E. subst key.
    apply opens_iff in K. congruence.
Qed.

Lemma ndt7_protocol r : get r (str "Sec-WebSocket-Protocol") = str "net.measurementlab.ndt.v7" <->
  first_line r (str "Sec-WebSocket-Protocol") (str "net.measurementlab.ndt.v7").
Proof. apply first_line_get. discriminate. Qed.

Lemma ndt7_switched accept wire r lines :
  ndt7_handshake accept wire r = Switched lines <->
  wire = true /\ first_line r (str "Sec-WebSocket-Protocol") (str "net.measurementlab.ndt.v7") /\
  exists key, opening r key /\ lines = response (accept key) (Some (str "net.measurementlab.ndt.v7")).
Proof.
  rewrite ndt7_eq, <- ndt7_protocol.
  destruct (beqb (get r (str "Sec-WebSocket-Protocol")) (str "net.measurementlab.ndt.v7")) eqn:B; cbn [negb].
  - apply beqb_spec in B. destruct (opens r) eqn:O; cbn [negb].
    + apply opens_iff in O. destruct wire; cbn [negb].
      * split.
        -- intros H. injection H as <-. eauto.
        -- intros (_ & _ & key & K & ->). rewrite <- (opening_key r key K). reflexivity.
      * split; [discriminate|]. intros [H _]. discriminate.
    + split; [discriminate|]. intros (_ & _ & key & K & _). rewrite (opening_key r key K) in K.
      apply opens_iff in K. congruence.
  - split; [discriminate|]. intros (_ & H & _). apply beqb_spec in H. congruence.
Qed.

Lemma ndt7_refused accept wire r :
  ndt7_handshake accept wire r = Refused <->
  ~ first_line r (str "Sec-WebSocket-Protocol") (str "net.measurementlab.ndt.v7") \/ forall key, ~ opening r key.
Proof.
  rewrite ndt7_eq, <- ndt7_protocol.
  destruct (beqb (get r (str "Sec-WebSocket-Protocol")) (str "net.measurementlab.ndt.v7")) eqn:B; cbn [negb].
  - apply beqb_spec in B. destruct (opens r) eqn:O; cbn [negb].
    + split; [destruct wire; discriminate|]. apply opens_iff in O. intros [H|H]; exfalso; [auto|exact (H _ O)].
    + split; [|reflexivity]. intros _. right. intros key K. pose proof (opening_key r key K) as E. subst key.
      apply opens_iff in K. congruence.
  - split; [|reflexivity]. intros _. left. intros H. apply beqb_spec in H. congruence.
Qed.

(** Only five headers and the method count. *)
Lemma handshake_blind accept wire p r r' : p <> [] -> hr_method r = hr_method r' ->
  (forall name vs, In name looked_at -> header name (hr_lines r) vs -> header name (hr_lines r') vs) ->
  upgrade accept wire (ndt5_upgrader p) [] r = upgrade accept wire (ndt5_upgrader p) [] r' /\
  ndt7_handshake accept wire r = ndt7_handshake accept wire r'.
Proof.
  intros Hp Hm H.
  assert (forall name, In name looked_at -> values r name = values r' name) as V.
  { intros name Hn. apply header_is, (H name _ Hn), header_values. }
  assert (opens r = opens r') as O.
  { unfold opens, get. rewrite Hm. rewrite !V by (cbn; tauto). reflexivity. }
  assert (subprotocols r = subprotocols r') as S.
  { unfold subprotocols, get.
    change (values r (str "Sec-Websocket-Protocol")) with (values r (str "Sec-WebSocket-Protocol")).
    change (values r' (str "Sec-Websocket-Protocol")) with (values r' (str "Sec-WebSocket-Protocol")).
    rewrite (V (str "Sec-WebSocket-Protocol")) by (cbn; tauto). reflexivity. }
  rewrite !ndt5_eq, !ndt7_eq by exact Hp. rewrite O, S. unfold get.
  rewrite !V by (cbn; tauto). auto.
Qed.

Lemma digit_char n : 0 <= n < 64 -> base64_char (base64_digit n).
Proof.
  unfold base64_char, base64_digit. intros H.
  destruct (n <? 26) eqn:A; [lia|]. destruct (n <? 52) eqn:B; [lia|].
  destruct (n <? 62) eqn:C; [lia|]. destruct (n =? 62) eqn:D; lia.
Qed.

Lemma base64_prefix n : forall s, bytes_ok s -> List.length s = (3 * n + 1)%nat ->
  exists k, List.length k = (4 * n + 2)%nat /\ Forall base64_char k /\ base64 s = k ++ str "==".
Proof.
  induction n as [|n IH]; intros s Hs L.
  - destruct s as [|a [|b r]]; cbn [List.length] in L; try lia. inversion Hs as [|? ? Ha _]; subst.
    unfold byte_ok in Ha. exists [base64_digit (a / 4); base64_digit (a mod 4 * 16)].
    pose proof (Z.mod_pos_bound a 4 ltac:(lia)) as M.
    pose proof (Z.div_pos a 4 ltac:(lia) ltac:(lia)).
    pose proof (Z.div_lt_upper_bound a 4 64 ltac:(lia) ltac:(lia)).
    split; [reflexivity|]. split; [|reflexivity].
    constructor; [apply digit_char; lia|]. constructor; [apply digit_char; lia|]. constructor.
  - destruct s as [|a [|b [|c r]]]; cbn [List.length] in L; try lia.
    inversion Hs as [|? ? Ha Hs1]; subst. inversion Hs1 as [|? ? Hb Hs2]; subst. inversion Hs2 as [|? ? Hc Hr]; subst.
    unfold byte_ok in Ha, Hb, Hc.
    destruct (IH r Hr ltac:(lia)) as (k & Lk & Fk & Ek).
    exists (base64_digit (a / 4) :: base64_digit (a mod 4 * 16 + b / 16) ::
      base64_digit (b mod 16 * 4 + c / 64) :: base64_digit (c mod 64) :: k).
    pose proof (Z.mod_pos_bound a 4 ltac:(lia)).
    pose proof (Z.mod_pos_bound b 16 ltac:(lia)). pose proof (Z.mod_pos_bound c 64 ltac:(lia)).
    pose proof (Z.div_pos a 4 ltac:(lia) ltac:(lia)).
    pose proof (Z.div_pos b 16 ltac:(lia) ltac:(lia)). pose proof (Z.div_pos c 64 ltac:(lia) ltac:(lia)).
    pose proof (Z.div_lt_upper_bound a 4 64 ltac:(lia) ltac:(lia)).
    pose proof (Z.div_lt_upper_bound b 16 16 ltac:(lia) ltac:(lia)).
    pose proof (Z.div_lt_upper_bound c 64 4 ltac:(lia) ltac:(lia)).
    split; [cbn [List.length]; lia|]. split; [|cbn [base64 app]; rewrite Ek; reflexivity].
    do 4 (constructor; [apply digit_char; lia|]). exact Fk.
Qed.

Lemma key_ok s : bytes_ok s -> List.length s = 16%nat -> nonce (base64 s).
Proof. intros Hs L. exact (base64_prefix 5 s Hs L). Qed.

Lemma good_if p : p <> [] -> forallb (fun b => (33 <=? b) && (b <? 127) && negb (b =? 44)) p = true -> good p.
Proof.
  intros H F. split; [exact H|]. rewrite forallb_forall in F. apply Forall_forall. intros x Hx.
  specialize (F x Hx). lia.
Qed.
Lemma good_ndt : good (str "ndt"). Proof. apply good_if; [discriminate|reflexivity]. Qed.
Lemma good_c2s : good (str "c2s"). Proof. apply good_if; [discriminate|reflexivity]. Qed.
Lemma good_s2c : good (str "s2c"). Proof. apply good_if; [discriminate|reflexivity]. Qed.
Lemma good_ndt7 : good (str "net.measurementlab.ndt.v7"). Proof. apply good_if; [discriminate|reflexivity]. Qed.
Lemma good_direction d : d = str "c2s" \/ d = str "s2c" -> good d.
Proof. intros [->| ->]; [exact good_c2s|exact good_s2c]. Qed.

(** A protocol that the response names is one that the client offered. *)
Lemma response_protocol answer o p : In (str "Sec-WebSocket-Protocol", p) (response answer o) -> o = Some p.
Proof.
  unfold response. intros [H|[H|[H|H]]]; try discriminate.
  destruct o; cbn [In] in H; [|contradiction]. destruct H as [H|[]]. injection H as ->. reflexivity.
Qed.

Lemma first_line_offers r p : good p -> first_line r (str "Sec-WebSocket-Protocol") p -> offers r p.
Proof.
  intros Hp H. exists p, p. split; [exact H|]. destruct Hp as [Hn Hg]. split.
  - split; [|exists [], []; rewrite app_nil_r; auto].
    intros K. rewrite Forall_forall in Hg. specialize (Hg _ K). lia.
  - apply good_trimmed; [split; assumption|].
    apply trim_good; [split; assumption|]. exists [], []. rewrite app_nil_r.
    repeat split; intros x [].
Qed.

Lemma ndt5_named accept wire p r lines q : good p -> upgrade accept wire (ndt5_upgrader p) [] r = Switched lines ->
  In (str "Sec-WebSocket-Protocol", q) lines -> q = p /\ offers r p.
Proof.
  intros Hp H Hq. apply ndt5_switched in H; [|exact Hp]. destruct H as (_ & key & _ & [[Ho ->]|[_ ->]]);
    apply response_protocol in Hq; [|discriminate]. injection Hq as <-. auto.
Qed.
Lemma ndt7_named accept wire r lines q : ndt7_handshake accept wire r = Switched lines ->
  In (str "Sec-WebSocket-Protocol", q) lines -> q = str "net.measurementlab.ndt.v7" /\ offers r q.
Proof.
  intros H Hq. apply ndt7_switched in H. destruct H as (_ & Hf & key & _ & ->).
  apply response_protocol in Hq. injection Hq as <-. split; [reflexivity|].
  apply first_line_offers; [exact good_ndt7|exact Hf].
Qed.
