(** Proofs about the UTF-8 model and the JSON string encoder/decoder. *)
From Coq Require Import String ZArith List Bool Lia.
From Coq Require Import ZifyBool ZifyNat ZifyN.
From Verif Require Import Base BaseFacts GoJSON TextSpec.
Import ListNotations.
Open Scope Z_scope.
Ltac Zify.zify_post_hook ::= Z.div_mod_to_equations.

Ltac dcond :=
  repeat match goal with
  | |- context [if ?c then _ else _] => destruct c eqn:?
  | H : context [if ?c then _ else _] |- _ => destruct c eqn:?
  end.

Lemma encode_rune_scalar c : scalar c -> encode_rune c = utf8_char c.
Proof.
  unfold scalar, encode_rune, utf8_char, in_range. intros H.
  dcond; try reflexivity; lia.
Qed.

Lemma utf8_char_nonempty c : utf8_char c <> [].
Proof. unfold utf8_char. dcond; discriminate. Qed.

Lemma utf8_char_len c : 1 <= len (utf8_char c) <= 4.
Proof. unfold utf8_char. dcond; cbn; lia. Qed.

Lemma utf8_char_ok c : scalar c -> bytes_ok (utf8_char c).
Proof.
  unfold scalar, utf8_char, bytes_ok, byte_ok. intros H.
  dcond; repeat constructor; lia.
Qed.

Lemma decode_utf8_char c t : scalar c ->
  decode_rune (utf8_char c ++ t) = (c, len (utf8_char c)).
Proof.
  unfold scalar, utf8_char. intros H.
  destruct (c <? 128) eqn:E1; [cbn [app decode_rune]; rewrite E1; reflexivity|].
  destruct (c <? 2048) eqn:E2.
  { cbn [app decode_rune]. unfold in_range.
    replace (192 + c / 64 <? 128) with false by lia.
    replace (192 + c / 64 <? 194) with false by lia.
    replace (192 + c / 64 <? 224) with true by lia.
    replace ((128 <=? 128 + c mod 64) && (128 + c mod 64 <=? 191)) with true by lia.
    f_equal. lia. }
  destruct (c <? 65536) eqn:E3.
  { cbn [app decode_rune]. unfold in_range.
    replace (224 + c / 4096 <? 128) with false by lia.
    replace (224 + c / 4096 <? 194) with false by lia.
    replace (224 + c / 4096 <? 224) with false by lia.
    replace (224 + c / 4096 <? 240) with true by lia.
    match goal with |- (if ?c then _ else _) = _ => replace c with true end.
    - f_equal. lia.
    - destruct (224 + c / 4096 =? 224) eqn:F1, (224 + c / 4096 =? 237) eqn:F2; lia. }
  { cbn [app decode_rune]. unfold in_range.
    replace (240 + c / 262144 <? 128) with false by lia.
    replace (240 + c / 262144 <? 194) with false by lia.
    replace (240 + c / 262144 <? 224) with false by lia.
    replace (240 + c / 262144 <? 240) with false by lia.
    replace (240 + c / 262144 <? 245) with true by lia.
    match goal with |- (if ?c then _ else _) = _ => replace c with true end.
    - f_equal. lia.
    - destruct (240 + c / 262144 =? 240) eqn:F1, (240 + c / 262144 =? 244) eqn:F2; lia. }
Qed.

(** Every non-empty byte string starts with a character or with a bad byte. *)
Lemma decode_view b r : bytes_ok (b :: r) ->
  (exists c t, scalar c /\ b :: r = utf8_char c ++ t) \/
  (128 <= b /\ decode_rune (b :: r) = (rune_error, 1) /\ no_char_at (b :: r)).
Proof.
  intros OK.
  assert (Bad : 128 <= b -> decode_rune (b :: r) = (rune_error, 1) ->
    128 <= b /\ decode_rune (b :: r) = (rune_error, 1) /\ no_char_at (b :: r)).
  { intros Hb D. repeat split; auto. intros c t Hc E. rewrite E in D.
    rewrite decode_utf8_char in D by auto. injection D as -> D.
    assert (len (utf8_char rune_error) = 3) by reflexivity. lia. }
  apply bytes_ok_cons in OK as [Hb OK]. unfold byte_ok in Hb.
  destruct (b <? 128) eqn:E1.
  { left. exists b, r. split; [unfold scalar; lia|]. unfold utf8_char. rewrite E1. reflexivity. }
  destruct (b <? 194) eqn:E2.
  { right. apply Bad; [lia|]. cbn [decode_rune]. now rewrite E1, E2. }
  destruct (b <? 224) eqn:E3.
  { destruct r as [|b1 r].
    { right. apply Bad; [lia|]. cbn [decode_rune]. now rewrite E1, E2, E3. }
    destruct (in_range 128 191 b1) eqn:R1.
    - left. unfold in_range in R1. exists ((b - 192) * 64 + (b1 - 128)), r.
      split; [unfold scalar; lia|].
      unfold utf8_char. replace (_ <? 128) with false by lia.
      replace (_ <? 2048) with true by lia. cbn [app]. repeat f_equal; lia.
    - right. apply Bad; [lia|]. cbn [decode_rune]. now rewrite E1, E2, E3, R1. }
  destruct (b <? 240) eqn:E4.
  { destruct r as [|b1 [|b2 r]];
      try (right; apply Bad; [lia|]; cbn [decode_rune]; now rewrite E1, E2, E3, E4).
    match goal with |- context [decode_rune ?s] =>
      destruct (in_range (if b =? 224 then 160 else 128) (if b =? 237 then 159 else 191) b1
               && in_range 128 191 b2) eqn:R1 end.
    - left. unfold in_range in R1.
      exists ((b - 224) * 4096 + (b1 - 128) * 64 + (b2 - 128)), r.
      destruct (b =? 224) eqn:F1, (b =? 237) eqn:F2; try lia;
      (split; [unfold scalar; lia|];
       unfold utf8_char; replace (_ <? 128) with false by lia;
       replace (_ <? 2048) with false by lia; replace (_ <? 65536) with true by lia;
       cbn [app]; repeat f_equal; lia).
    - right. apply Bad; [lia|]. cbn [decode_rune]. now rewrite E1, E2, E3, E4, R1. }
  destruct (b <? 245) eqn:E5.
  { destruct r as [|b1 [|b2 [|b3 r]]];
      try (right; apply Bad; [lia|]; cbn [decode_rune]; now rewrite E1, E2, E3, E4, E5).
    match goal with |- context [decode_rune ?s] =>
      destruct (in_range (if b =? 240 then 144 else 128) (if b =? 244 then 143 else 191) b1
               && in_range 128 191 b2 && in_range 128 191 b3) eqn:R1 end.
    - left. unfold in_range in R1.
      exists ((b - 240) * 262144 + (b1 - 128) * 4096 + (b2 - 128) * 64 + (b3 - 128)), r.
      destruct (b =? 240) eqn:F1, (b =? 244) eqn:F2; try lia;
      (split; [unfold scalar; lia|];
       unfold utf8_char; replace (_ <? 128) with false by lia;
       replace (_ <? 2048) with false by lia; replace (_ <? 65536) with false by lia;
       cbn [app]; repeat f_equal; lia).
    - right. apply Bad; [lia|]. cbn [decode_rune]. now rewrite E1, E2, E3, E4, E5, R1. }
  right. apply Bad; [lia|]. cbn [decode_rune]. now rewrite E1, E2, E3, E4, E5.
Qed.

(** ** Pieces: the decomposition of a byte string used in all inductions *)

Inductive piece := PC (c : Z) | PB (b : Z).

Inductive pieces : bytes -> list piece -> Prop :=
| ps_nil : pieces [] []
| ps_char c s ps : scalar c -> pieces s ps -> pieces (utf8_char c ++ s) (PC c :: ps)
| ps_bad b s ps : 128 <= b < 256 -> decode_rune (b :: s) = (rune_error, 1) ->
    no_char_at (b :: s) -> pieces s ps -> pieces (b :: s) (PB b :: ps).

Lemma pieces_exist : forall s, bytes_ok s -> exists ps, pieces s ps.
Proof.
  intros s. remember (length s) as n eqn:L. revert s L.
  induction n as [n IH] using (well_founded_induction lt_wf). intros s L OK.
  destruct s as [|b r]; [eauto using pieces|].
  destruct (decode_view b r OK) as [(c & t & Hc & E)|(Hb & D & N)].
  - rewrite E in *. apply bytes_ok_app in OK as [_ OKt].
    assert (Lt : (length t < n)%nat).
    { subst n. rewrite app_length. pose proof (utf8_char_len c). unfold len in *. lia. }
    destruct (IH _ Lt t eq_refl OKt) as [ps Hps]. eauto using pieces.
  - apply bytes_ok_cons in OK as [Hb' OKr]. unfold byte_ok in Hb'.
    assert (Lt : (length r < n)%nat) by (subst n; cbn; lia).
    destruct (IH _ Lt r eq_refl OKr) as [ps Hps].
    exists (PB b :: ps). constructor; auto. lia.
Qed.

(** What a piece decodes to. *)
Definition piece_value (p : piece) : bytes :=
  match p with PC c => utf8_char c | PB _ => replacement end.

Lemma pieces_repaired s ps : pieces s ps -> repaired s (flat_map piece_value ps).
Proof. induction 1; cbn [flat_map piece_value]; constructor; auto. Qed.

(** What a piece is written as in a JSON string. *)
Definition esc_char (c : Z) : bytes :=
  if c <? 128 then json_escape_ascii c
  else if (c =? 8232) || (c =? 8233) then str "\u202" ++ [hexl (c mod 16)]
  else utf8_char c.
Definition esc_piece (p : piece) : bytes :=
  match p with PC c => esc_char c | PB _ => [92; 117; 102; 102; 102; 100] end.

Definition piece_ok (p : piece) : Prop :=
  match p with PC c => scalar c | PB b => 128 <= b < 256 end.

Lemma pieces_ok s ps : pieces s ps -> Forall piece_ok ps.
Proof. induction 1; constructor; auto. Qed.

Lemma utf8_char_high c : scalar c -> 128 <= c ->
  exists b r, utf8_char c = b :: r /\ 128 <= b.
Proof.
  unfold scalar, utf8_char. intros.
  dcond; try lia; do 2 eexists; (split; [reflexivity|lia]).
Qed.

Lemma json_escape_pieces s ps : pieces s ps ->
  forall fuel, (length s <= fuel)%nat -> json_escape fuel s = flat_map esc_piece ps.
Proof.
  induction 1 as [|c s ps Hc Hp IH|b s ps Hb D N Hp IH]; intros fuel L.
  - destruct fuel; reflexivity.
  - pose proof (utf8_char_len c) as Lc.
    rewrite app_length in L. unfold len in Lc.
    destruct fuel as [|f]; [lia|].
    cbn [flat_map esc_piece]. unfold esc_char.
    destruct (c <? 128) eqn:E1.
    + unfold utf8_char. rewrite E1. cbn [app json_escape]. rewrite E1.
      rewrite IH by lia. reflexivity.
    + destruct (utf8_char_high c Hc ltac:(lia)) as (b & r & Eb & Hb).
      pose proof (decode_utf8_char c s Hc) as D.
      assert (S1 : json_escape (S f) (utf8_char c ++ s) =
        let '(c0, n) := decode_rune (utf8_char c ++ s) in
        if (c0 =? rune_error) && (n =? 1) then [92; 117; 102; 102; 102; 100] ++ json_escape f (r ++ s)
        else if (c0 =? 8232) || (c0 =? 8233) then
              str "\u202" ++ hexl (c0 mod 16) :: json_escape f (drop n (utf8_char c ++ s))
        else take n (utf8_char c ++ s) ++ json_escape f (drop n (utf8_char c ++ s))).
      { rewrite Eb. cbn [app json_escape]. replace (b <? 128) with false by lia. reflexivity. }
      rewrite S1, D. cbv beta iota.
      replace ((c =? rune_error) && (len (utf8_char c) =? 1)) with false.
      2:{ destruct (c =? rune_error) eqn:F; [|reflexivity].
          apply Z.eqb_eq in F. subst c. reflexivity. }
      rewrite take_app_exact, drop_app_exact by reflexivity.
      rewrite IH by (unfold len in *; lia).
      destruct (_ || _).
      * rewrite <- app_assoc. reflexivity.
      * reflexivity.
  - destruct fuel as [|f]; [cbn in L; lia|].
    cbn [json_escape flat_map esc_piece]. replace (b <? 128) with false by lia.
    rewrite D. cbv beta iota.
    change ((rune_error =? rune_error) && (1 =? 1)) with true. cbv iota.
    rewrite IH by (cbn in L; lia). reflexivity.
Qed.

(** ** The scanner accepts an escaped string and stops at the closing quote *)

Lemma scan_raw_high b t : 128 <= b ->
  scan_string (b :: t) = match scan_string t with Some (i, r) => Some (b :: i, r) | None => None end.
Proof.
  intros H. cbn [scan_string]. replace (b =? 34) with false by lia.
  replace (b =? 92) with false by lia. replace (b <? 32) with false by lia. reflexivity.
Qed.

Definition scan_cons (p : bytes) (o : option (bytes * bytes)) : option (bytes * bytes) :=
  match o with Some (i, r) => Some (p ++ i, r) | None => None end.

Lemma scan_u4 a b c d t :
  is_hex a = true -> is_hex b = true -> is_hex c = true -> is_hex d = true ->
  scan_string (92 :: 117 :: a :: b :: c :: d :: t) = scan_cons [92; 117; a; b; c; d] (scan_string t).
Proof.
  intros Ha Hb Hc Hd.
  cbn [scan_string]. change (92 =? 34) with false. change (92 =? 92) with true.
  change (117 =? 117) with true. cbv iota. rewrite Ha, Hb, Hc, Hd. reflexivity.
Qed.

Lemma is_hex_hexl d : 0 <= d < 16 -> is_hex (hexl d) = true.
Proof. unfold is_hex, hexl, in_range. intros. dcond; lia. Qed.

Lemma scan_esc_ascii c t : 0 <= c < 128 ->
  scan_string (json_escape_ascii c ++ t) = scan_cons (json_escape_ascii c) (scan_string t).
Proof.
  intros H. unfold json_escape_ascii.
  destruct (html_safe c) eqn:S.
  - unfold html_safe in S. apply andb_true_iff in S as [S1 S2].
    unfold in_range in S1. unfold mem in S2. cbn [existsb] in S2.
    cbn [app scan_string]. replace (c =? 34) with false by lia.
    replace (c =? 92) with false by lia. replace (c <? 32) with false by lia.
    destruct (scan_string t) as [[i r]|]; reflexivity.
  - destruct ((c =? 34) || (c =? 92)) eqn:E1.
    { cbn [app scan_string]. change (92 =? 34) with false. change (92 =? 92) with true. cbv iota.
      replace (c =? 117) with false by lia.
      replace (mem c [34; 92; 47; 98; 102; 110; 114; 116]) with true
        by (unfold mem; cbn [existsb]; lia).
      destruct (scan_string t) as [[i r]|]; reflexivity. }
    destruct (c =? 8); [reflexivity|]. destruct (c =? 12); [reflexivity|].
    destruct (c =? 10); [reflexivity|]. destruct (c =? 13); [reflexivity|].
    destruct (c =? 9); [reflexivity|].
    cbn [app]. apply scan_u4; try reflexivity; apply is_hex_hexl; lia.
Qed.

Lemma scan_raw_list p t : Forall (fun b => 128 <= b) p ->
  scan_string (p ++ t) = scan_cons p (scan_string t).
Proof.
  induction 1 as [|b p Hb HF IH]; cbn [app].
  - destruct (scan_string t) as [[i r]|]; reflexivity.
  - rewrite scan_raw_high, IH by auto. destruct (scan_string t) as [[i r]|]; reflexivity.
Qed.

Lemma utf8_char_all_high c : scalar c -> 128 <= c -> Forall (fun b => 128 <= b) (utf8_char c).
Proof.
  unfold scalar, utf8_char. intros. dcond; try lia; repeat constructor; lia.
Qed.

Lemma scan_esc_piece p t : piece_ok p ->
  scan_string (esc_piece p ++ t) = scan_cons (esc_piece p) (scan_string t).
Proof.
  destruct p as [c|b]; cbn [piece_ok esc_piece]; intros H.
  - unfold esc_char. destruct (c <? 128) eqn:E1.
    + apply scan_esc_ascii. unfold scalar in H. lia.
    + destruct (_ || _) eqn:E2.
      * change (str "\u202" ++ [hexl (c mod 16)]) with [92; 117; 50; 48; 50; hexl (c mod 16)].
        cbn [app]. apply scan_u4; try reflexivity. apply is_hex_hexl; lia.
      * apply scan_raw_list, utf8_char_all_high; auto; lia.
  - cbn [app]. apply scan_u4; reflexivity.
Qed.

Lemma scan_esc_pieces ps r : Forall piece_ok ps ->
  scan_string (flat_map esc_piece ps ++ 34 :: r) = Some (flat_map esc_piece ps, r).
Proof.
  induction 1 as [|p ps Hp HF IH]; cbn [flat_map].
  - reflexivity.
  - rewrite <- app_assoc, scan_esc_piece, IH by auto. reflexivity.
Qed.

(** ** Unquoting an escaped string gives the pieces' values *)

Lemma getu4_hex a b c d t :
  is_hex a = true -> is_hex b = true -> is_hex c = true -> is_hex d = true ->
  getu4 (92 :: 117 :: a :: b :: c :: d :: t) =
  hexval a * 4096 + hexval b * 256 + hexval c * 16 + hexval d.
Proof. intros Ha Hb Hc Hd. cbn [getu4]. rewrite Ha, Hb, Hc, Hd. reflexivity. Qed.

Lemma hexval_hexl d : 0 <= d < 16 -> hexval (hexl d) = d.
Proof. unfold hexval, hexl, in_range. intros. dcond; lia. Qed.

Lemma unquote_u4 f a b c d t v :
  is_hex a = true -> is_hex b = true -> is_hex c = true -> is_hex d = true ->
  hexval a * 4096 + hexval b * 256 + hexval c * 16 + hexval d = v ->
  is_surrogate v = false ->
  unquote (S f) ([92; 117; a; b; c; d] ++ t) = encode_rune v ++ unquote f t.
Proof.
  intros Ha Hb Hc Hd Hv Hs. cbn [app].
  assert (G := getu4_hex a b c d t Ha Hb Hc Hd).
  cbn [unquote]. change (92 =? 92) with true. change (117 =? 117) with true. cbv iota.
  rewrite G, Hv, Hs.
  change (drop 6 (92 :: 117 :: a :: b :: c :: d :: t)) with t. reflexivity.
Qed.

Lemma unquote_esc_ascii f c t : 0 <= c < 128 ->
  unquote (S f) (json_escape_ascii c ++ t) = [c] ++ unquote f t.
Proof.
  intros H. unfold json_escape_ascii.
  destruct (html_safe c) eqn:S.
  - unfold html_safe in S. apply andb_true_iff in S as [S1 S2].
    unfold in_range in S1. unfold mem in S2. cbn [existsb] in S2.
    cbn [app unquote]. replace (c =? 92) with false by lia.
    replace (c <? 128) with true by lia. reflexivity.
  - destruct ((c =? 34) || (c =? 92)) eqn:E1.
    { cbn [app unquote]. change (92 =? 92) with true. cbv iota.
      replace (c =? 117) with false by lia. unfold unescape.
      replace (c =? 98) with false by lia. replace (c =? 102) with false by lia.
      replace (c =? 110) with false by lia. replace (c =? 114) with false by lia.
      replace (c =? 116) with false by lia. reflexivity. }
    destruct (c =? 8) eqn:E2; [apply Z.eqb_eq in E2; subst; reflexivity|].
    destruct (c =? 12) eqn:E3; [apply Z.eqb_eq in E3; subst; reflexivity|].
    destruct (c =? 10) eqn:E4; [apply Z.eqb_eq in E4; subst; reflexivity|].
    destruct (c =? 13) eqn:E5; [apply Z.eqb_eq in E5; subst; reflexivity|].
    destruct (c =? 9) eqn:E6; [apply Z.eqb_eq in E6; subst; reflexivity|].
    rewrite (unquote_u4 f 48 48 (hexl (c / 16)) (hexl (c mod 16)) t c);
      try reflexivity; try (apply is_hex_hexl; lia).
    + unfold encode_rune. replace ((0 <=? c) && (c <? 128)) with true by lia. reflexivity.
    + rewrite !hexval_hexl by lia. change (hexval 48) with 0. lia.
    + unfold is_surrogate, in_range. lia.
Qed.

Lemma unquote_esc_piece f p t : piece_ok p ->
  unquote (S f) (esc_piece p ++ t) = piece_value p ++ unquote f t.
Proof.
  destruct p as [c|b]; cbn [piece_ok esc_piece piece_value]; intros H.
  - unfold esc_char. destruct (c <? 128) eqn:E1.
    + rewrite unquote_esc_ascii by (unfold scalar in H; lia).
      unfold utf8_char. rewrite E1. reflexivity.
    + destruct (_ || _) eqn:E2.
      * change (str "\u202" ++ [hexl (c mod 16)]) with [92; 117; 50; 48; 50; hexl (c mod 16)].
        rewrite (unquote_u4 f 50 48 50 (hexl (c mod 16)) t c); try reflexivity.
        -- now rewrite encode_rune_scalar.
        -- apply is_hex_hexl; lia.
        -- rewrite hexval_hexl by lia. change (hexval 50) with 2. change (hexval 48) with 0. lia.
        -- unfold is_surrogate, in_range. lia.
      * destruct (utf8_char_high c H ltac:(lia)) as (b & r & Eb & Hb).
        pose proof (decode_utf8_char c t H) as D.
        assert (S1 : unquote (S f) (utf8_char c ++ t) =
          let '(rr, n) := decode_rune (utf8_char c ++ t) in
          encode_rune rr ++ unquote f (drop n (utf8_char c ++ t))).
        { rewrite Eb. cbn [app unquote]. replace (b =? 92) with false by lia.
          replace (b <? 128) with false by lia. reflexivity. }
        rewrite S1, D. cbv beta iota.
        rewrite drop_app_exact by reflexivity. now rewrite encode_rune_scalar.
  - rewrite (unquote_u4 f 102 102 102 100 t 65533); reflexivity.
Qed.

Lemma esc_ascii_nonempty c : json_escape_ascii c <> [].
Proof. unfold json_escape_ascii. dcond; discriminate. Qed.

Lemma esc_piece_nonempty p : esc_piece p <> [].
Proof.
  destruct p; cbn [esc_piece]; [|discriminate]. unfold esc_char.
  dcond; try apply esc_ascii_nonempty; try apply utf8_char_nonempty; discriminate.
Qed.

Lemma unquote_esc_pieces ps : Forall piece_ok ps ->
  forall fuel, (length (flat_map esc_piece ps) <= fuel)%nat ->
  unquote fuel (flat_map esc_piece ps) = flat_map piece_value ps.
Proof.
  induction 1 as [|p ps Hp HF IH]; intros fuel L; cbn [flat_map] in *.
  - destruct fuel; reflexivity.
  - rewrite app_length in L.
    assert (0 < length (esc_piece p))%nat.
    { pose proof (esc_piece_nonempty p). destruct (esc_piece p); [congruence|cbn; lia]. }
    destruct fuel as [|f]; [lia|].
    rewrite unquote_esc_piece, IH by (auto; lia). reflexivity.
Qed.

(** The JSON string literal for s is scanned back to the repaired s. *)
Lemma pstring_escape s ps r : pieces s ps ->
  pstring (json_escape (length s) s ++ 34 :: r) = Some (flat_map piece_value ps, r).
Proof.
  intros H. unfold pstring.
  rewrite (json_escape_pieces s ps H) by lia.
  pose proof (pieces_ok s ps H) as OK.
  rewrite scan_esc_pieces by auto. now rewrite unquote_esc_pieces by (auto; lia).
Qed.

(** [repaired] is functional and total on byte strings, and the identity exactly
    on valid UTF-8. *)
Lemma utf8_char_inj_app c d s t :
  scalar c -> scalar d -> utf8_char c ++ s = utf8_char d ++ t -> c = d /\ s = t.
Proof.
  intros Hc Hd E. pose proof (decode_utf8_char c s Hc) as D1.
  pose proof (decode_utf8_char d t Hd) as D2. rewrite E in D1.
  rewrite D1 in D2. injection D2 as ->. split; auto. now apply app_inv_head in E.
Qed.

Lemma repaired_fun s t : repaired s t -> forall t', repaired s t' -> t = t'.
Proof.
  induction 1 as [|c s t Hc Hr IH|b s t N Hr IH]; intros t' H'.
  - inversion H' as [|c s0 t0 Hc Hr E|]; subst; auto.
    destruct (utf8_char c) eqn:U; [now apply utf8_char_nonempty in U|discriminate].
  - inversion H' as [E|c' s0 t0 Hc' Hr' E|b s0 t0 N Hr' E]; subst.
    + destruct (utf8_char c) eqn:U; [now apply utf8_char_nonempty in U|discriminate].
    + apply utf8_char_inj_app in E as [-> ->]; auto. f_equal. auto.
    + exfalso. now apply (N c s).
  - inversion H' as [|c' s0 t0 Hc' Hr' E|b' s0 t0 N' Hr' E]; subst.
    + exfalso. symmetry in E. now apply (N c' s0).
    + f_equal. auto.
Qed.

Lemma repaired_valid cs : Forall scalar cs ->
  repaired (flat_map utf8_char cs) (flat_map utf8_char cs).
Proof. induction 1; cbn [flat_map]; constructor; auto. Qed.

Lemma repaired_total s : bytes_ok s -> exists t, repaired s t.
Proof.
  intros H. destruct (pieces_exist s H) as [ps Hp].
  exists (flat_map piece_value ps). now apply pieces_repaired.
Qed.

Lemma repaired_is_valid s t : repaired s t -> utf8_valid t.
Proof.
  induction 1 as [|c s t Hc Hr (cs & F & ->)|b s t N Hr (cs & F & ->)].
  - exists []. split; [constructor|reflexivity].
  - exists (c :: cs). split; [constructor; auto|reflexivity].
  - exists (65533 :: cs). split; [constructor; auto; unfold scalar; lia|reflexivity].
Qed.
