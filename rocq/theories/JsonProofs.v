(** The JSON parser of GoJSON.v accepts exactly the texts of the grammar in
    JsonSpec.v and computes the value the grammar assigns. *)
From Coq Require Import String ZArith List Bool Lia.
From Coq Require Import ZifyBool ZifyNat ZifyN.
From Verif Require Import Base BaseFacts TextSpec JsonSpec GoJSON TextProofs.
Import ListNotations.
Open Scope Z_scope.
Ltac Zify.zify_post_hook ::= Z.div_mod_to_equations.

(** ** Strings *)

Lemma hex1_spec b x : hex1 b x <-> is_hex b = true /\ hexval b = x.
Proof.
  unfold is_hex, hexval, in_range. split.
  - destruct 1; split; dcond; lia.
  - intros [H E]. dcond; subst x; constructor; lia.
Qed.

Lemma hex1_range b x : hex1 b x -> 0 <= x < 16.
Proof. destruct 1; lia. Qed.

Lemma hex4_range h c : hex4 h c -> 0 <= c < 65536.
Proof.
  destruct 1 as [a b c d x y z t Ha Hb Hc Hd].
  apply hex1_range in Ha, Hb, Hc, Hd. lia.
Qed.

Lemma hex4_inv h c : hex4 h c -> exists a b e d, h = [a; b; e; d] /\
  is_hex a = true /\ is_hex b = true /\ is_hex e = true /\ is_hex d = true /\
  hexval a * 4096 + hexval b * 256 + hexval e * 16 + hexval d = c.
Proof.
  destruct 1 as [a b c d x y z t Ha Hb Hc Hd].
  apply hex1_spec in Ha as [? <-], Hb as [? <-], Hc as [? <-], Hd as [? <-].
  exists a, b, c, d. auto 10.
Qed.

Lemma hex4_intro' a b c d :
  is_hex a = true -> is_hex b = true -> is_hex c = true -> is_hex d = true ->
  hex4 [a; b; c; d] (hexval a * 4096 + hexval b * 256 + hexval c * 16 + hexval d).
Proof. intros. constructor; apply hex1_spec; auto. Qed.

Lemma getu4_hex4 h c r : hex4 h c -> getu4 (92 :: 117 :: h ++ r) = c.
Proof.
  intros H. apply hex4_inv in H as (a & b & e & d & -> & Ha & Hb & He & Hd & E).
  cbn [app]. rewrite getu4_hex by auto. exact E.
Qed.

Lemma getu4_inv s : 0 <= getu4 s -> exists h r, s = 92 :: 117 :: h ++ r /\ hex4 h (getu4 s).
Proof.
  destruct s as [|x [|y [|a [|b [|c [|d r]]]]]]; cbn [getu4]; try lia.
  destruct (_ && _) eqn:E; [|lia]. intros _.
  repeat (apply andb_true_iff in E as [E ?]).
  exists [a; b; c; d], r. split.
  - cbn [app]. f_equal; [lia|]. f_equal. lia.
  - now apply hex4_intro'.
Qed.

(** Byte-wise view of a scanned string. *)
Inductive scanned : bytes -> Prop :=
| sc_nil : scanned []
| sc_raw b r : 32 <= b -> b <> 34 -> b <> 92 -> scanned r -> scanned (b :: r)
| sc_esc b r : mem b [34; 92; 47; 98; 102; 110; 114; 116] = true -> scanned r -> scanned (92 :: b :: r)
| sc_u a b c d r : is_hex a = true -> is_hex b = true -> is_hex c = true -> is_hex d = true ->
    scanned r -> scanned (92 :: 117 :: a :: b :: c :: d :: r).

Lemma scan_sound : forall n s i t, (length s <= n)%nat ->
  scan_string s = Some (i, t) -> s = i ++ 34 :: t /\ scanned i.
Proof.
  induction n as [|n IH]; intros s i t L H.
  - destruct s; [discriminate|cbn in L; lia].
  - destruct s as [|c r0]; [discriminate|]. cbn [scan_string] in H. cbn [length] in L.
    destruct (c =? 34) eqn:E1.
    { injection H as <- <-. apply Z.eqb_eq in E1. subst. split; [reflexivity|constructor]. }
    destruct (c =? 92) eqn:E2.
    { apply Z.eqb_eq in E2. subst c. destruct r0 as [|b r]; [discriminate|].
      destruct (b =? 117) eqn:E3.
      - apply Z.eqb_eq in E3. subst b.
        destruct r as [|a [|b1 [|c1 [|d r']]]]; try discriminate.
        destruct (is_hex a && is_hex b1 && is_hex c1 && is_hex d) eqn:E4; [|discriminate].
        repeat (apply andb_true_iff in E4 as [E4 ?]).
        destruct (scan_string r') as [[i' t']|] eqn:E5; [|discriminate].
        injection H as <- <-. apply IH in E5 as [-> Sc]; [|cbn in L; lia].
        split; [reflexivity|now apply sc_u].
      - destruct (mem b _) eqn:E4; [|discriminate].
        destruct (scan_string r) as [[i' t']|] eqn:E5; [|discriminate].
        injection H as <- <-. apply IH in E5 as [-> Sc]; [|cbn in L; lia].
        split; [reflexivity|now apply sc_esc]. }
    destruct (c <? 32) eqn:E3; [discriminate|].
    destruct (scan_string r0) as [[i' t']|] eqn:E5; [|discriminate].
    injection H as <- <-. apply IH in E5 as [-> Sc]; [|lia].
    split; [reflexivity|constructor; auto; lia].
Qed.

Lemma scan_complete i t : scanned i -> scan_string (i ++ 34 :: t) = Some (i, t).
Proof.
  induction 1 as [|b r H1 H2 H3 Hr IH|b r M Hr IH|a b c d r Ha Hb Hc Hd Hr IH].
  - reflexivity.
  - cbn [app scan_string]. replace (b =? 34) with false by lia.
    replace (b =? 92) with false by lia. replace (b <? 32) with false by lia.
    now rewrite IH.
  - cbn [app scan_string]. change (92 =? 34) with false. change (92 =? 92) with true. cbv iota.
    replace (b =? 117) with false.
    2:{ unfold mem in M. cbn [existsb] in M. lia. }
    now rewrite M, IH.
  - cbn [app]. rewrite scan_u4, IH by auto. reflexivity.
Qed.

Lemma scanned_high p r : Forall (fun b => 128 <= b) p -> scanned r -> scanned (p ++ r).
Proof. induction 1; cbn [app]; auto. intros. constructor; auto; lia. Qed.

Lemma simple_escape_mem e x : simple_escape e x <->
  mem e [34; 92; 47; 98; 102; 110; 114; 116] = true /\ unescape e = x.
Proof.
  unfold simple_escape. cbn [In]. split.
  - intros H; repeat destruct H as [H|H]; try (injection H as <- <-; split; reflexivity); contradiction.
  - intros [M E]. apply mem_spec in M. cbn [In] in M.
    repeat destruct M as [<-|M]; try contradiction; cbn in E; subst x; tauto.
Qed.

Lemma jchars_scanned raw v : jchars raw v -> scanned raw.
Proof.
  induction 1 as [|c r v Hc H1 H2 H3 Hr IH|b r v Hb N Hr IH|e x r v E Hr IH|h c r v Hh Hs Hr IH
    |h1 hi h2 lo r v Hh1 Hhi Hh2 Hlo Hr IH|h c r v Hh Hs N Hr IH].
  - constructor.
  - destruct (c <? 128) eqn:E.
    + unfold utf8_char. rewrite E. cbn [app]. constructor; auto.
    + apply scanned_high; auto. apply utf8_char_all_high; auto; lia.
  - constructor; auto; lia.
  - apply simple_escape_mem in E as [M _]. now apply sc_esc.
  - apply hex4_inv in Hh as (a & b & e & d & -> & Ha & Hb & He & Hd & _). cbn [app]. now apply sc_u.
  - apply hex4_inv in Hh1 as (a & b & e & d & -> & Ha & Hb & He & Hd & _).
    apply hex4_inv in Hh2 as (a' & b' & e' & d' & -> & Ha' & Hb' & He' & Hd' & _).
    cbn [app]. apply sc_u; auto. now apply sc_u.
  - apply hex4_inv in Hh as (a & b & e & d & -> & Ha & Hb & He & Hd & _). cbn [app]. now apply sc_u.
Qed.

Lemma scanned_app_high p r : Forall (fun b => 128 <= b) p -> scanned (p ++ r) -> scanned r.
Proof.
  induction 1 as [|b p Hb HF IH]; cbn [app]; auto. intros H. apply IH.
  inversion H; subst; auto; lia.
Qed.

Lemma scanned_jchars : forall n i, (length i <= n)%nat -> bytes_ok i -> scanned i -> exists v, jchars i v.
Proof.
  induction n as [|n IH]; intros i L OK Sc.
  - destruct i; [eexists; constructor|cbn in L; lia].
  - inversion Sc as [|b r H1 H2 H3 Hr|b r M Hr|a b c d r Ha Hb Hc Hd Hr]; subst.
    + eexists; constructor.
    + destruct (decode_view b r OK) as [(c & t & Hc & E)|(Hb & D & N)].
      * destruct (c <? 128) eqn:Ec.
        -- unfold utf8_char in E. rewrite Ec in E. cbn [app] in E. injection E as -> ->.
           apply bytes_ok_cons in OK as [_ OK].
           destruct (IH t) as [v Hv]; auto; [cbn in L; lia|].
           exists (utf8_char c ++ v).
           replace (c :: t) with (utf8_char c ++ t) by (unfold utf8_char; rewrite Ec; reflexivity).
           constructor; auto.
        -- rewrite E in *. apply bytes_ok_app in OK as [_ OK].
           assert (HH : Forall (fun b => 128 <= b) (utf8_char c)) by (apply utf8_char_all_high; auto; lia).
           destruct (IH t) as [v Hv]; auto.
           { rewrite app_length in L. pose proof (utf8_char_len c). unfold len in *. lia. }
           { eapply scanned_app_high; eauto. }
           exists (utf8_char c ++ v). constructor; auto; lia.
      * apply bytes_ok_cons in OK as [_ OK].
        destruct (IH r) as [v Hv]; auto; [cbn in L; lia|].
        exists (replacement ++ v). constructor; auto.
    + apply bytes_ok_cons in OK as [_ OK]. apply bytes_ok_cons in OK as [_ OK].
      destruct (IH r) as [v Hv]; auto; [cbn in L; lia|].
      exists (unescape b :: v). constructor; auto. apply simple_escape_mem. auto.
    + assert (OKr : bytes_ok r).
      { do 6 (apply bytes_ok_cons in OK as [_ OK]). exact OK. }
      pose proof (hex4_intro' a b c d Ha Hb Hc Hd) as H4.
      set (x := hexval a * 4096 + hexval b * 256 + hexval c * 16 + hexval d) in *.
      change (92 :: 117 :: a :: b :: c :: d :: r) with (92 :: 117 :: [a; b; c; d] ++ r) in *.
      set (h := [a; b; c; d]) in *.
      destruct (IH r) as [v Hv]; auto; [cbn in L; lia|].
      destruct (in_range 55296 57343 x) eqn:Es.
      * unfold in_range in Es.
        destruct (in_range 55296 56319 x && in_range 56320 57343 (getu4 r)) eqn:Ep.
        -- unfold in_range in Ep.
           destruct (getu4_inv r) as (h2 & r' & Er & H2); [lia|].
           rewrite Er in Hr, OKr, L.
           assert (OKr' : bytes_ok r').
           { do 2 (apply bytes_ok_cons in OKr as [_ OKr]). apply bytes_ok_app in OKr. tauto. }
           assert (Scr : scanned r').
           { apply hex4_inv in H2 as (a2 & b2 & e2 & d2 & -> & _). cbn [app] in Hr.
             inversion Hr; subst; try lia; auto.
             match goal with H : mem 117 _ = true |- _ => discriminate H end. }
           destruct (IH r') as [v' Hv']; auto.
           { cbn [length app] in L. rewrite !app_length in L. cbn [length] in L. rewrite app_length in L. lia. }
           exists (utf8_char (65536 + (x - 55296) * 1024 + (getu4 r - 56320)) ++ v').
           rewrite Er at 1. eapply jc_pair; eauto; unfold high_surrogate, low_surrogate; lia.
        -- exists (replacement ++ v). eapply jc_lone; eauto; [unfold surrogate; lia|].
           intros [Hhi (h2 & lo & r' & Er & H2 & Hlo)].
           assert (G : getu4 r = lo) by (rewrite Er; now apply getu4_hex4).
           unfold in_range, high_surrogate, low_surrogate in *. lia.
      * exists (utf8_char x ++ v). eapply jc_u; eauto. unfold surrogate, in_range in *. lia.
Qed.

Lemma scalar_pair hi lo : high_surrogate hi -> low_surrogate lo ->
  scalar (65536 + (hi - 55296) * 1024 + (lo - 56320)).
Proof. unfold high_surrogate, low_surrogate, scalar. lia. Qed.

Lemma unquote_u f s rest :
  getu4 s = rest -> forall t, s = 92 :: 117 :: t ->
  unquote (S f) s =
    if is_surrogate rest then
      let dec := utf16_decode rest (getu4 (drop 6 s)) in
      if negb (dec =? rune_error)
      then encode_rune dec ++ unquote f (drop 6 (drop 6 s))
      else encode_rune rune_error ++ unquote f (drop 6 s)
    else encode_rune rest ++ unquote f (drop 6 s).
Proof. intros <- t ->. reflexivity. Qed.

Lemma jchars_unquote raw v : jchars raw v -> bytes_ok raw ->
  forall fuel, (length raw <= fuel)%nat -> unquote fuel raw = v.
Proof.
  induction 1 as [|c r v Hc H1 H2 H3 Hr IH|b r v Hb N Hr IH|e x r v E Hr IH|h c r v Hh Hs Hr IH
    |h1 hi h2 lo r v Hh1 Hhi Hh2 Hlo Hr IH|h c r v Hh Hs N Hr IH]; intros OK fuel L.
  - destruct fuel; reflexivity.
  - apply bytes_ok_app in OK as [_ OK].
    rewrite app_length in L. pose proof (utf8_char_len c) as Lc. unfold len in Lc.
    destruct fuel as [|f]; [lia|].
    destruct (c <? 128) eqn:E.
    + unfold utf8_char at 1 2. rewrite E. cbn [app unquote].
      replace (c =? 92) with false by lia. rewrite E, IH by (auto; lia). reflexivity.
    + destruct (utf8_char_high c Hc ltac:(lia)) as (b & r' & Eb & Hb).
      assert (S1 : unquote (S f) (utf8_char c ++ r) =
        let '(rr, n) := decode_rune (utf8_char c ++ r) in
        encode_rune rr ++ unquote f (drop n (utf8_char c ++ r))).
      { rewrite Eb. cbn [app unquote]. replace (b =? 92) with false by lia.
        replace (b <? 128) with false by lia. reflexivity. }
      rewrite S1, decode_utf8_char by auto. cbv beta iota.
      rewrite drop_app_exact, encode_rune_scalar, IH by (auto; lia). reflexivity.
  - destruct fuel as [|f]; [cbn in L; lia|].
    destruct (decode_view b r OK) as [(c & t & Hc & E)|(Hb' & D & _)].
    { exfalso. now apply (N c t). }
    apply bytes_ok_cons in OK as [_ OK].
    cbn [unquote]. replace (b =? 92) with false by lia. replace (b <? 128) with false by lia.
    rewrite D. cbv beta iota. change (drop 1 (b :: r)) with r.
    rewrite IH by (auto; cbn in L; lia). reflexivity.
  - apply bytes_ok_cons in OK as [_ OK]. apply bytes_ok_cons in OK as [_ OK].
    destruct fuel as [|f]; [cbn in L; lia|].
    apply simple_escape_mem in E as [M <-].
    cbn [unquote]. change (92 =? 92) with true. cbv iota.
    replace (e =? 117) with false.
    2:{ unfold mem in M. cbn [existsb] in M. lia. }
    rewrite IH by (auto; cbn in L; lia). reflexivity.
  - destruct fuel as [|f]; [cbn in L; lia|].
    rewrite (unquote_u f _ c (getu4_hex4 h c r Hh) _ eq_refl).
    pose proof (hex4_range h c Hh) as R.
    replace (is_surrogate c) with false by (unfold is_surrogate, in_range, surrogate in *; lia).
    apply hex4_inv in Hh as (a & b & e & d & -> & _). cbn [app] in *.
    do 6 (apply bytes_ok_cons in OK as [_ OK]).
    change (drop 6 (92 :: 117 :: a :: b :: e :: d :: r)) with r.
    rewrite encode_rune_scalar by (unfold scalar, surrogate in *; lia).
    rewrite IH by (auto; cbn in L; lia). reflexivity.
  - destruct fuel as [|f]; [cbn in L; lia|].
    rewrite (unquote_u f _ hi (getu4_hex4 h1 hi _ Hh1) _ eq_refl).
    replace (is_surrogate hi) with true by (unfold is_surrogate, in_range, high_surrogate in *; lia).
    apply hex4_inv in Hh1 as (a & b & e & d & -> & _). cbn [app] in *.
    change (drop 6 (92 :: 117 :: a :: b :: e :: d :: 92 :: 117 :: h2 ++ r)) with (92 :: 117 :: h2 ++ r).
    rewrite (getu4_hex4 h2 lo r Hh2).
    pose proof (scalar_pair hi lo Hhi Hlo) as Hsc.
    unfold utf16_decode.
    replace (in_range 55296 56319 hi && in_range 56320 57343 lo) with true
      by (unfold in_range, high_surrogate, low_surrogate in *; lia).
    unfold high_surrogate, low_surrogate in *. cbv zeta.
    replace ((hi - 55296) * 1024 + (lo - 56320) + 65536)
      with (65536 + (hi - 55296) * 1024 + (lo - 56320)) by lia.
    replace (negb _) with true by (unfold rune_error; lia).
    apply hex4_inv in Hh2 as (a2 & b2 & e2 & d2 & -> & _). cbn [app] in *.
    do 12 (apply bytes_ok_cons in OK as [_ OK]).
    change (drop 6 (92 :: 117 :: a2 :: b2 :: e2 :: d2 :: r)) with r.
    rewrite encode_rune_scalar by auto.
    rewrite IH by (auto; cbn in L; lia). reflexivity.
  - destruct fuel as [|f]; [cbn in L; lia|].
    rewrite (unquote_u f _ c (getu4_hex4 h c r Hh) _ eq_refl).
    replace (is_surrogate c) with true by (unfold is_surrogate, in_range, surrogate in *; lia).
    apply hex4_inv in Hh as (a & b & e & d & -> & _). cbn [app] in *.
    do 6 (apply bytes_ok_cons in OK as [_ OK]).
    change (drop 6 (92 :: 117 :: a :: b :: e :: d :: r)) with r.
    unfold utf16_decode.
    destruct (in_range 55296 56319 c && in_range 56320 57343 (getu4 r)) eqn:E.
    { exfalso. apply N. unfold in_range in E. split; [unfold high_surrogate; lia|].
      destruct (getu4_inv r) as (h2 & r' & Er & H2); [lia|].
      exists h2, (getu4 r), r'. repeat split; auto; unfold low_surrogate; lia. }
    cbv zeta. change (negb (rune_error =? rune_error)) with false. cbv iota.
    rewrite IH by (auto; cbn in L; lia). reflexivity.
Qed.

Lemma pstring_sound s v t : bytes_ok s -> pstring s = Some (v, t) ->
  exists raw, s = raw ++ 34 :: t /\ jchars raw v.
Proof.
  unfold pstring. intros OK H. destruct (scan_string s) as [[i t']|] eqn:E; [|discriminate].
  injection H as <- <-. apply (scan_sound (length s)) in E as [-> Sc]; [|lia].
  apply bytes_ok_app in OK as [OKi _].
  destruct (scanned_jchars (length i) i) as [v Hv]; auto.
  exists i. split; auto. now rewrite (jchars_unquote i v).
Qed.

Lemma pstring_complete raw v t : bytes_ok raw -> jchars raw v ->
  pstring (raw ++ 34 :: t) = Some (v, t).
Proof.
  intros OK H. unfold pstring. rewrite scan_complete by (eapply jchars_scanned; eauto).
  now rewrite (jchars_unquote raw v).
Qed.

(** ** White space and numbers *)

Lemma is_ws_spec b : is_ws b = true <-> ws_char b.
Proof. unfold is_ws, ws_char. rewrite mem_spec. cbn [In]. intuition lia. Qed.

Lemma skip_ws_sound s : exists w, s = w ++ skip_ws s /\ ws w /\
  match skip_ws s with [] => True | b :: _ => ~ ws_char b end.
Proof.
  induction s as [|b r (w & E & W & N)]; cbn [skip_ws].
  - exists []. split; [reflexivity|split; [constructor|exact I]].
  - destruct (is_ws b) eqn:Eb.
    + exists (b :: w). split; [cbn [app]; congruence|].
      split; auto. constructor; auto. now apply is_ws_spec.
    + exists []. split; [reflexivity|]. split; [constructor|].
      rewrite <- is_ws_spec. congruence.
Qed.

Lemma skip_ws_complete w r : ws w ->
  match r with [] => True | b :: _ => ~ ws_char b end -> skip_ws (w ++ r) = r.
Proof.
  induction 1 as [|b w Hb Hw IH]; cbn [app skip_ws]; intros N.
  - destruct r as [|b r]; [reflexivity|]. cbn [skip_ws].
    destruct (is_ws b) eqn:E; [|reflexivity]. apply is_ws_spec in E. contradiction.
  - apply is_ws_spec in Hb. rewrite Hb. auto.
Qed.

Lemma bytes_ok_skip_ws s : bytes_ok s -> bytes_ok (skip_ws s).
Proof.
  destruct (skip_ws_sound s) as (w & E & _ & _). intros H. rewrite E in H.
  apply bytes_ok_app in H. tauto.
Qed.

Lemma is_digit_spec b : is_digit b = true <-> digit b.
Proof. unfold is_digit, digit. lia. Qed.

Lemma span_digits_sound s d t : span_digits s = (d, t) -> s = d ++ t /\ digits d.
Proof.
  revert d t. induction s as [|b r IH]; cbn [span_digits]; intros d t H.
  - injection H as <- <-. split; [reflexivity|constructor].
  - destruct (is_digit b) eqn:E.
    + destruct (span_digits r) as [d' t']. injection H as <- <-.
      destruct (IH _ _ eq_refl) as [-> D]. split; [reflexivity|].
      constructor; auto. now apply is_digit_spec.
    + injection H as <- <-. split; [reflexivity|constructor].
Qed.

Definition no_digit_at (r : bytes) : Prop := match r with [] => True | b :: _ => ~ digit b end.

Lemma span_digits_complete d r : digits d -> no_digit_at r -> span_digits (d ++ r) = (d, r).
Proof.
  induction 1 as [|b d Hb Hd IH]; cbn [app]; intros N.
  - destruct r as [|b r]; [reflexivity|]. cbn [span_digits].
    destruct (is_digit b) eqn:E; [|reflexivity]. apply is_digit_spec in E. contradiction.
  - cbn [span_digits]. apply is_digit_spec in Hb. now rewrite Hb, IH.
Qed.

Lemma firstn_prefix (w r : bytes) : firstn (length (w ++ r) - length r) (w ++ r) = w.
Proof.
  rewrite app_length. replace (length w + length r - length r)%nat with (length w + 0)%nat by lia.
  rewrite firstn_app_2. cbn. apply app_nil_r.
Qed.

Lemma pnumber_sound s t : pnumber s = Some t -> exists w, s = w ++ t /\ jnumber w.
Proof.
  unfold pnumber. intros H.
  set (s1 := match s with [] => s | b :: r => if b =? 45 then r else s end) in *.
  assert (H1 : exists sign, s = sign ++ s1 /\ (sign = [] \/ sign = [45])).
  { subst s1. destruct s as [|b r]; [exists []; auto|].
    destruct (b =? 45) eqn:E; [exists [45]|exists []; auto].
    apply Z.eqb_eq in E. subst. auto. }
  destruct H1 as (sign & Es & Hsign). clearbody s1.
  destruct (match s1 with
             | [] => None
             | b :: r => if b =? 48 then Some r
                         else if in_range 49 57 b then Some (snd (span_digits r)) else None
             end) as [s2|] eqn:E2; [|discriminate].
  assert (H2 : exists int, s1 = int ++ s2 /\ (int = [48] \/ exists d ds, int = d :: ds /\ 49 <= d <= 57 /\ digits ds)).
  { destruct s1 as [|b r]; [discriminate|].
    destruct (b =? 48) eqn:F1.
    - injection E2 as <-. apply Z.eqb_eq in F1. subst. exists [48]. auto.
    - destruct (in_range 49 57 b) eqn:F2; [|discriminate]. injection E2 as <-.
      destruct (span_digits r) as [d t'] eqn:Sp. apply span_digits_sound in Sp as [-> D].
      exists (b :: d). split; [reflexivity|]. right. exists b, d. unfold in_range in F2.
      repeat split; auto; lia. }
  destruct H2 as (int & Ei & Hint). clear E2.
  destruct (match s2 with
                  | [] => Some []
                  | b :: r => if b =? 46 then
                      match span_digits r with ([], _) => None | (_ :: _, t) => Some t end
                      else Some s2
                  end) as [s3|] eqn:E3; [|discriminate].
  assert (H3 : exists frac, s2 = frac ++ s3 /\ (frac = [] \/ exists ds, frac = 46 :: ds /\ digits ds /\ ds <> [])).
  { destruct s2 as [|b r]; [injection E3 as <-; exists []; auto|].
    destruct (b =? 46) eqn:F1.
    - apply Z.eqb_eq in F1. subst b.
      destruct (span_digits r) as [d t'] eqn:Sp. apply span_digits_sound in Sp as [-> D].
      destruct d as [|x d]; [discriminate|]. injection E3 as <-.
      exists (46 :: x :: d). split; [reflexivity|]. right. exists (x :: d). repeat split; auto. discriminate.
    - injection E3 as <-. exists []. auto. }
  destruct H3 as (frac & Ef & Hfrac). clear E3.
  assert (H4 : exists exp, s3 = exp ++ t /\ (exp = [] \/ exists e s ds, exp = e :: s ++ ds /\ (e = 101 \/ e = 69) /\
                (s = [] \/ s = [43] \/ s = [45]) /\ digits ds /\ ds <> [])).
  { destruct s3 as [|b r]; [injection H as <-; exists []; auto|].
    destruct ((b =? 101) || (b =? 69)) eqn:F1.
    - set (r' := match r with [] => r | c :: t => if (c =? 43) || (c =? 45) then t else r end) in *.
      assert (Hr : exists sg, r = sg ++ r' /\ (sg = [] \/ sg = [43] \/ sg = [45])).
      { subst r'. destruct r as [|c r]; [exists []; auto|].
        destruct ((c =? 43) || (c =? 45)) eqn:F2; [|exists []; auto].
        exists [c]. split; [reflexivity|].
        destruct (c =? 43) eqn:F3; [apply Z.eqb_eq in F3; subst; auto|].
        destruct (c =? 45) eqn:F4; [apply Z.eqb_eq in F4; subst; auto|discriminate]. }
      destruct Hr as (sg & Esg & Hsg). clearbody r'. subst r.
      destruct (span_digits r') as [d t'] eqn:Sp. apply span_digits_sound in Sp as [-> D].
      destruct d as [|x d]; [discriminate|]. injection H as <-.
      exists (b :: sg ++ x :: d). split; [cbn [app]; now rewrite <- app_assoc|].
      right. exists b, sg, (x :: d). repeat split; auto; try discriminate. lia.
    - injection H as <-. exists []. auto. }
  destruct H4 as (exp & Ee & Hexp).
  exists (sign ++ int ++ frac ++ exp). split.
  - rewrite Es, Ei, Ef, Ee, <- !app_assoc. reflexivity.
  - exists sign, int, frac, exp. auto.
Qed.

(** What may follow a number. *)
Definition num_stop (r : bytes) : Prop :=
  match r with [] => True | b :: _ => ~ digit b /\ b <> 46 /\ b <> 101 /\ b <> 69 end.

Lemma num_stop_digit r : num_stop r -> no_digit_at r.
Proof. destruct r; cbn; tauto. Qed.

Lemma pnumber_complete w r : jnumber w -> num_stop r -> pnumber (w ++ r) = Some r.
Proof.
  intros (sign & int & frac & exp & -> & Hsign & Hint & Hfrac & Hexp) St.
  rewrite <- !app_assoc. unfold pnumber.
  assert (Hexp1 : no_digit_at (exp ++ r) /\ match exp ++ r with [] => True | b :: _ => b <> 46 end).
  { destruct Hexp as [->|(e & s & ds & -> & He & _)].
    - cbn [app]. destruct r; cbn in *; tauto.
    - cbn [app no_digit_at]. unfold digit. lia. }
  destruct Hexp1 as [Nd Ndot].
  assert (Hfr1 : no_digit_at (frac ++ exp ++ r)).
  { destruct Hfrac as [->|(ds & -> & _)]; [exact Nd|]. cbn. unfold digit. lia. }
  set (s1 := match sign ++ int ++ frac ++ exp ++ r with
             | [] => _ | b :: r0 => _ end).
  assert (E1 : s1 = int ++ frac ++ exp ++ r).
  { subst s1. destruct Hsign as [->| ->]; cbn [app].
    - destruct Hint as [->|(d & ds & -> & Hd & _)]; cbn [app].
      + reflexivity.
      + replace (d =? 45) with false by lia. reflexivity.
    - reflexivity. }
  rewrite E1. clear s1 E1.
  assert (E2 : match int ++ frac ++ exp ++ r with
     | [] => None
     | b :: r0 => if b =? 48 then Some r0
         else if in_range 49 57 b then Some (snd (span_digits r0)) else None
     end = Some (frac ++ exp ++ r)).
  { destruct Hint as [->|(d & ds & -> & Hd & Hds)]; cbn [app].
    - reflexivity.
    - replace (d =? 48) with false by lia. replace (in_range 49 57 d) with true by (unfold in_range; lia).
      now rewrite span_digits_complete. }
  rewrite E2. clear E2.
  assert (E3 : match frac ++ exp ++ r with
      | [] => Some []
      | b :: r0 => if b =? 46 then
            match span_digits r0 with ([], _) => None | (_ :: _, t) => Some t end
          else Some (frac ++ exp ++ r)
      end = Some (exp ++ r)).
  { destruct Hfrac as [->|(ds & -> & Hds & Ne)]; cbn [app].
    - destruct (exp ++ r) as [|b t] eqn:E; [reflexivity|].
      replace (b =? 46) with false by lia. reflexivity.
    - change (46 =? 46) with true. cbv iota. rewrite span_digits_complete by auto.
      destruct ds; [congruence|reflexivity]. }
  rewrite E3. clear E3.
  destruct Hexp as [->|(e & s & ds & -> & He & Hs & Hds & Ne)]; cbn [app].
  - destruct r as [|b t]; [reflexivity|]. cbn in St.
    replace ((b =? 101) || (b =? 69)) with false by lia. reflexivity.
  - replace ((e =? 101) || (e =? 69)) with true by lia.
    rewrite <- app_assoc.
    assert (E4 : match s ++ ds ++ r with
        | [] => s ++ ds ++ r
        | c :: t => if (c =? 43) || (c =? 45) then t else s ++ ds ++ r
        end = ds ++ r).
    { destruct Hs as [->|[->| ->]]; cbn [app]; try reflexivity.
      destruct ds as [|x ds]; [congruence|]. inversion Hds as [|? ? Hx]; subst.
      cbn [app]. unfold digit in Hx.
      replace ((x =? 43) || (x =? 45)) with false by lia. reflexivity. }
    rewrite E4, span_digits_complete by (auto using num_stop_digit).
    destruct ds; [congruence|reflexivity].
Qed.

Lemma jnumber_head w : jnumber w -> exists b r, w = b :: r /\ (b = 45 \/ digit b).
Proof.
  intros (sign & int & frac & exp & -> & Hsign & Hint & _ & _).
  destruct Hsign as [->| ->]; cbn [app]; [|eauto].
  destruct Hint as [->|(d & ds & -> & Hd & _)]; cbn [app].
  - do 2 eexists. split; [reflexivity|]. right. unfold digit. lia.
  - do 2 eexists. split; [reflexivity|]. right. unfold digit. lia.
Qed.

(** ** Values *)

Lemma has_prefix_true p s : has_prefix p s = true -> s = p ++ drop (len p) s.
Proof.
  intros H. apply has_prefix_spec in H as [r ->]. now rewrite drop_app_exact.
Qed.

Lemma ws_nil : ws []. Proof. constructor. Qed.

Lemma parse_sound : forall fuel,
  (forall d s v t, bytes_ok s -> pvalue fuel d s = Some (v, t) -> exists x, s = x ++ t /\ jval d x v) /\
  (forall d s l t, bytes_ok s -> pmembers fuel d s = Some (l, t) -> exists x, s = x ++ 125 :: t /\ jmembers d x l) /\
  (forall d s l t, bytes_ok s -> pelements fuel d s = Some (l, t) -> exists x, s = x ++ 93 :: t /\ jelems d x l).
Proof.
  induction fuel as [|f (IHv & IHm & IHe)]; [repeat split; discriminate|].
  repeat split.
  - intros d s v t OK H. cbn [pvalue] in H. destruct s as [|c r]; [discriminate|].
    pose proof OK as OK0. apply bytes_ok_cons in OK as [_ OKr].
    destruct (c =? 123) eqn:E1.
    { apply Z.eqb_eq in E1. subst c. destruct (max_depth <=? d) eqn:D; [discriminate|].
      assert (d < 10000) by (unfold max_depth in D; lia).
      destruct (skip_ws_sound r) as (w & Er & W & _).
      pose proof (bytes_ok_skip_ws r OKr) as OKs.
      destruct (skip_ws r) as [|y r'] eqn:Sk; [discriminate|].
      destruct (y =? 125) eqn:E2.
      - injection H as <- <-. apply Z.eqb_eq in E2. subst y.
        exists (123 :: w ++ [125]). split.
        + rewrite Er. cbn [app]. now rewrite <- app_assoc.
        + now apply jv_obj0.
      - destruct (pmembers f (d + 1) (y :: r')) as [[m t']|] eqn:P; [|discriminate].
        injection H as <- <-. apply IHm in P as (x & Ex & Hx); auto.
        exists (123 :: w ++ x ++ [125]). split.
        + rewrite Er, Ex. cbn [app]. now rewrite <- !app_assoc.
        + now apply jv_obj. }
    destruct (c =? 91) eqn:E1'.
    { apply Z.eqb_eq in E1'. subst c. destruct (max_depth <=? d) eqn:D; [discriminate|].
      assert (d < 10000) by (unfold max_depth in D; lia).
      destruct (skip_ws_sound r) as (w & Er & W & _).
      pose proof (bytes_ok_skip_ws r OKr) as OKs.
      destruct (skip_ws r) as [|y r'] eqn:Sk; [discriminate|].
      destruct (y =? 93) eqn:E2.
      - injection H as <- <-. apply Z.eqb_eq in E2. subst y.
        exists (91 :: w ++ [93]). split.
        + rewrite Er. cbn [app]. now rewrite <- app_assoc.
        + now apply jv_arr0.
      - destruct (pelements f (d + 1) (y :: r')) as [[m t']|] eqn:P; [|discriminate].
        injection H as <- <-. apply IHe in P as (x & Ex & Hx); auto.
        exists (91 :: w ++ x ++ [93]). split.
        + rewrite Er, Ex. cbn [app]. now rewrite <- !app_assoc.
        + now apply jv_arr. }
    destruct (c =? 34) eqn:E2.
    { apply Z.eqb_eq in E2. subst c. destruct (pstring r) as [[x t']|] eqn:P; [|discriminate].
      injection H as <- <-. apply pstring_sound in P as (raw & -> & J); auto.
      exists (34 :: raw ++ [34]). split; [cbn [app]; now rewrite <- app_assoc|now apply jv_str]. }
    destruct (has_prefix (str "true") (c :: r)) eqn:E3.
    { apply has_prefix_true in E3. injection H as <- <-. exists (str "true"). split; [exact E3|constructor]. }
    destruct (has_prefix (str "false") (c :: r)) eqn:E4.
    { apply has_prefix_true in E4. injection H as <- <-. exists (str "false"). split; [exact E4|constructor]. }
    destruct (has_prefix (str "null") (c :: r)) eqn:E5.
    { apply has_prefix_true in E5. injection H as <- <-. exists (str "null"). split; [exact E5|constructor]. }
    destruct (pnumber (c :: r)) as [t'|] eqn:P; [|discriminate].
    assert (Ev : JNum (firstn (length (c :: r) - length t') (c :: r)) = v /\ t' = t)
      by (split; congruence).
    destruct Ev as [<- <-]. apply pnumber_sound in P as (w & E & J).
    exists w. split; auto. rewrite E, firstn_prefix. now apply jv_num.
  - intros d s l t OK H. cbn [pmembers] in H. destruct s as [|q r]; [discriminate|].
    destruct (q =? 34) eqn:E1; [|discriminate]. apply Z.eqb_eq in E1. subst q.
    apply bytes_ok_cons in OK as [_ OKr].
    destruct (pstring r) as [[k r1]|] eqn:P; [|discriminate].
    apply pstring_sound in P as (raw & -> & J); auto.
    apply bytes_ok_app in OKr as [_ OKr]. apply bytes_ok_cons in OKr as [_ OKr].
    destruct (skip_ws_sound r1) as (w1 & Er1 & W1 & _).
    pose proof (bytes_ok_skip_ws r1 OKr) as OK1.
    destruct (skip_ws r1) as [|c r2] eqn:Sk1; [discriminate|].
    destruct (c =? 58) eqn:E2; [|discriminate]. apply Z.eqb_eq in E2. subst c.
    apply bytes_ok_cons in OK1 as [_ OK1].
    destruct (skip_ws_sound r2) as (w2 & Er2 & W2 & _).
    pose proof (bytes_ok_skip_ws r2 OK1) as OK2.
    destruct (pvalue f d (skip_ws r2)) as [[v r3]|] eqn:PV; [|discriminate].
    apply IHv in PV as (x & Ex & Jx); auto. rewrite Ex in Er2, OK2.
    apply bytes_ok_app in OK2 as [_ OK3].
    destruct (skip_ws_sound r3) as (w3 & Er3 & W3 & _).
    pose proof (bytes_ok_skip_ws r3 OK3) as OK4.
    destruct (skip_ws r3) as [|e r4] eqn:Sk3; [discriminate|].
    apply bytes_ok_cons in OK4 as [_ OK4].
    destruct (e =? 125) eqn:E3.
    { injection H as <- <-. apply Z.eqb_eq in E3. subst e.
      exists (34 :: raw ++ 34 :: w1 ++ 58 :: w2 ++ x ++ w3). split.
      - rewrite Er1, Er2, Er3. cbn [app]. repeat (rewrite <- app_assoc; cbn [app]). reflexivity.
      - now apply jm_one. }
    destruct (e =? 44) eqn:E4; [|discriminate]. apply Z.eqb_eq in E4. subst e.
    destruct (skip_ws_sound r4) as (w4 & Er4 & W4 & _).
    pose proof (bytes_ok_skip_ws r4 OK4) as OK5.
    destruct (pmembers f d (skip_ws r4)) as [[m t']|] eqn:PM; [|discriminate].
    injection H as <- <-. apply IHm in PM as (y & Ey & Jy); auto.
    exists (34 :: raw ++ 34 :: w1 ++ 58 :: w2 ++ x ++ w3 ++ 44 :: w4 ++ y). split.
    + rewrite Er1, Er2, Er3, Er4, Ey. cbn [app]. repeat (rewrite <- app_assoc; cbn [app]). reflexivity.
    + now apply jm_more.
  - intros d s l t OK H. cbn [pelements] in H.
    destruct (pvalue f d s) as [[v r3]|] eqn:PV; [|discriminate].
    apply IHv in PV as (x & -> & Jx); auto.
    apply bytes_ok_app in OK as [_ OK3].
    destruct (skip_ws_sound r3) as (w3 & Er3 & W3 & _).
    pose proof (bytes_ok_skip_ws r3 OK3) as OK4.
    destruct (skip_ws r3) as [|e r4] eqn:Sk3; [discriminate|].
    apply bytes_ok_cons in OK4 as [_ OK4].
    destruct (e =? 93) eqn:E3.
    { injection H as <- <-. apply Z.eqb_eq in E3. subst e.
      exists (x ++ w3). split; [rewrite Er3; now rewrite <- app_assoc|now apply je_one]. }
    destruct (e =? 44) eqn:E4; [|discriminate]. apply Z.eqb_eq in E4. subst e.
    destruct (skip_ws_sound r4) as (w4 & Er4 & W4 & _).
    pose proof (bytes_ok_skip_ws r4 OK4) as OK5.
    destruct (pelements f d (skip_ws r4)) as [[m t']|] eqn:PM; [|discriminate].
    injection H as <- <-. apply IHe in PM as (y & Ey & Jy); auto.
    exists (x ++ w3 ++ 44 :: w4 ++ y). split.
    + rewrite Er3, Er4, Ey. repeat (rewrite <- app_assoc; cbn [app]). reflexivity.
    + now apply je_more.
Qed.

Scheme jval_ind' := Induction for jval Sort Prop
  with jelems_ind' := Induction for jelems Sort Prop
  with jmembers_ind' := Induction for jmembers Sort Prop.
Combined Scheme jval_mutind from jval_ind', jelems_ind', jmembers_ind'.

(** First characters, to see that no white space starts a value. *)
Lemma jval_head d x v : jval d x v -> exists b r, x = b :: r /\ ~ ws_char b /\ b <> 93 /\ b <> 125.
Proof.
  unfold ws_char. destruct 1; cbn [str];
  try (do 2 eexists; split; [reflexivity|cbn; lia]).
  match goal with H : jnumber _ |- _ => apply jnumber_head in H as (b & r & -> & [->|Hb]) end.
  - do 2 eexists; split; [reflexivity|lia].
  - unfold digit in Hb. do 2 eexists; split; [reflexivity|lia].
Qed.

Lemma jelems_head d x l : jelems d x l -> exists b r, x = b :: r /\ ~ ws_char b /\ b <> 93 /\ b <> 125.
Proof.
  destruct 1 as [x v w Hx|x v w1 w2 e l Hx]; apply jval_head in Hx as (b & r & -> & HH);
    do 2 eexists; (split; [reflexivity|exact HH]).
Qed.

Lemma jmembers_head d x l : jmembers d x l -> exists r, x = 34 :: r.
Proof. destruct 1; eauto. Qed.

Definition follow (r : bytes) : Prop :=
  match r with [] => True | b :: _ => ws_char b \/ b = 44 \/ b = 93 \/ b = 125 end.

Lemma follow_num_stop r : follow r -> num_stop r.
Proof. destruct r; cbn; auto. unfold ws_char, digit. lia. Qed.

Lemma follow_ws w b r : ws w -> (b = 44 \/ b = 93 \/ b = 125) -> follow (w ++ b :: r).
Proof. intros H Hb. destruct H; cbn; auto. Qed.

Lemma has_prefix_head_neq p s b c r r' : p = b :: r -> s = c :: r' -> b <> c -> has_prefix p s = false.
Proof. intros -> -> N. cbn [has_prefix]. replace (b =? c) with false by lia. reflexivity. Qed.

Lemma parse_complete : forall d,
  (forall x v, jval d x v -> bytes_ok x -> forall fuel r, (2 * length x <= fuel)%nat -> follow r ->
     pvalue fuel d (x ++ r) = Some (v, r)) /\
  (forall x l, jelems d x l -> bytes_ok x -> forall fuel r, (2 * length x + 1 <= fuel)%nat ->
     pelements fuel d (x ++ 93 :: r) = Some (l, r)) /\
  (forall x l, jmembers d x l -> bytes_ok x -> forall fuel r, (2 * length x + 1 <= fuel)%nat ->
     pmembers fuel d (x ++ 125 :: r) = Some (l, r)).
Proof.
  apply (jval_mutind
    (fun d x v _ => bytes_ok x -> forall fuel r, (2 * length x <= fuel)%nat -> follow r ->
       pvalue fuel d (x ++ r) = Some (v, r))
    (fun d x l _ => bytes_ok x -> forall fuel r, (2 * length x + 1 <= fuel)%nat ->
       pelements fuel d (x ++ 93 :: r) = Some (l, r))
    (fun d x l _ => bytes_ok x -> forall fuel r, (2 * length x + 1 <= fuel)%nat ->
       pmembers fuel d (x ++ 125 :: r) = Some (l, r))).
  - intros d OK fuel r L F. destruct fuel as [|f]; [cbn in L; lia|]. reflexivity.
  - intros d OK fuel r L F. destruct fuel as [|f]; [cbn in L; lia|]. reflexivity.
  - intros d OK fuel r L F. destruct fuel as [|f]; [cbn in L; lia|]. reflexivity.
  - intros d w J OK fuel r L F.
    destruct (jnumber_head w J) as (b & w' & E & Hb).
    destruct fuel as [|f]; [subst; cbn in L; lia|].
    assert (P := pnumber_complete w r J (follow_num_stop r F)).
    rewrite E in *. cbn [app] in *. cbn [pvalue]. unfold digit in Hb.
    replace (b =? 123) with false by lia. replace (b =? 91) with false by lia.
    replace (b =? 34) with false by lia.
    rewrite (has_prefix_head_neq (str "true") (b :: w' ++ r) 116 b _ _ eq_refl eq_refl) by lia.
    rewrite (has_prefix_head_neq (str "false") (b :: w' ++ r) 102 b _ _ eq_refl eq_refl) by lia.
    rewrite (has_prefix_head_neq (str "null") (b :: w' ++ r) 110 b _ _ eq_refl eq_refl) by lia.
    rewrite P. change (b :: w' ++ r) with ((b :: w') ++ r). now rewrite firstn_prefix.
  - intros d raw v J OK fuel r L F. destruct fuel as [|f]; [cbn in L; lia|].
    apply bytes_ok_cons in OK as [_ OK]. apply bytes_ok_app in OK as [OK _].
    cbn [app pvalue]. change (34 =? 123) with false. change (34 =? 91) with false.
    change (34 =? 34) with true. cbv iota. rewrite <- app_assoc. cbn [app].
    now rewrite pstring_complete with (v := v).
  - intros d w D W OK fuel r L F. destruct fuel as [|f]; [cbn in L; lia|].
    cbn [app pvalue]. change (91 =? 123) with false. change (91 =? 91) with true. cbv iota.
    replace (max_depth <=? d) with false by (unfold max_depth; lia).
    rewrite <- app_assoc. cbn [app].
    rewrite skip_ws_complete by (auto; cbn; unfold ws_char; lia). reflexivity.
  - intros d w e l D W J IH OK fuel r L F.
    destruct fuel as [|f]; [cbn in L; lia|].
    apply bytes_ok_cons in OK as [_ OK]. apply bytes_ok_app in OK as [_ OK].
    apply bytes_ok_app in OK as [OK _].
    cbn [app pvalue]. change (91 =? 123) with false. change (91 =? 91) with true. cbv iota.
    replace (max_depth <=? d) with false by (unfold max_depth; lia).
    repeat (rewrite <- app_assoc; cbn [app]).
    destruct (jelems_head _ _ _ J) as (b & e' & E & NW & N1 & N2).
    assert (P : pelements f (d + 1) (e ++ 93 :: r) = Some (l, r)).
    { apply IH; auto. cbn [length] in L. rewrite !app_length in L. cbn [length] in L. lia. }
    rewrite E in *. cbn [app] in *.
    rewrite skip_ws_complete by auto.
    replace (b =? 93) with false by lia. now rewrite P.
  - intros d w D W OK fuel r L F. destruct fuel as [|f]; [cbn in L; lia|].
    cbn [app pvalue]. change (123 =? 123) with true. cbv iota.
    replace (max_depth <=? d) with false by (unfold max_depth; lia).
    rewrite <- app_assoc. cbn [app].
    rewrite skip_ws_complete by (auto; cbn; unfold ws_char; lia). reflexivity.
  - intros d w e l D W J IH OK fuel r L F.
    destruct fuel as [|f]; [cbn in L; lia|].
    apply bytes_ok_cons in OK as [_ OK]. apply bytes_ok_app in OK as [_ OK].
    apply bytes_ok_app in OK as [OK _].
    cbn [app pvalue]. change (123 =? 123) with true. cbv iota.
    replace (max_depth <=? d) with false by (unfold max_depth; lia).
    repeat (rewrite <- app_assoc; cbn [app]).
    destruct (jmembers_head _ _ _ J) as (e' & E).
    assert (P : pmembers f (d + 1) (e ++ 125 :: r) = Some (l, r)).
    { apply IH; auto. cbn [length] in L. rewrite !app_length in L. cbn [length] in L. lia. }
    rewrite E in *. cbn [app] in *.
    rewrite skip_ws_complete by (auto; unfold ws_char; lia).
    change (34 =? 125) with false. now rewrite P.
  - intros d x v w J IH W OK fuel r L.
    apply bytes_ok_app in OK as [OK _]. rewrite app_length in L.
    destruct fuel as [|f]; [lia|]. cbn [pelements]. rewrite <- app_assoc.
    rewrite IH by (auto; try lia; apply follow_ws; auto).
    rewrite skip_ws_complete by (auto; unfold ws_char; lia). reflexivity.
  - intros d x v w1 w2 e l J IH W1 W2 Je IHe OK fuel r L.
    apply bytes_ok_app in OK as [OKx OK]. apply bytes_ok_app in OK as [_ OK].
    apply bytes_ok_cons in OK as [_ OK]. apply bytes_ok_app in OK as [_ OKe].
    rewrite !app_length in L. cbn [length] in L. rewrite app_length in L.
    destruct fuel as [|f]; [lia|]. cbn [pelements].
    repeat (rewrite <- app_assoc; cbn [app]).
    rewrite IH by (auto; try lia; apply follow_ws; auto).
    rewrite skip_ws_complete by (auto; unfold ws_char; lia).
    change (44 =? 93) with false. change (44 =? 44) with true. cbv iota.
    destruct (jelems_head _ _ _ Je) as (b & e' & E & NW & _ & _).
    assert (P : pelements f d (e ++ 93 :: r) = Some (l, r)) by (apply IHe; auto; lia).
    rewrite skip_ws_complete.
    + now rewrite P.
    + auto.
    + rewrite E. cbn [app]. exact NW.
  - intros d raw k w1 w2 x v w3 Jr W1 W2 J IH W3 OK fuel r L.
    apply bytes_ok_cons in OK as [_ OK]. apply bytes_ok_app in OK as [OKr OK].
    apply bytes_ok_cons in OK as [_ OK]. apply bytes_ok_app in OK as [_ OK].
    apply bytes_ok_cons in OK as [_ OK]. apply bytes_ok_app in OK as [_ OK].
    apply bytes_ok_app in OK as [OKx _].
    repeat (cbn [length] in L; rewrite app_length in L).
    destruct fuel as [|f]; [lia|]. cbn [app pmembers]. change (34 =? 34) with true. cbv iota.
    repeat (rewrite <- app_assoc; cbn [app]).
    rewrite pstring_complete with (v := k) by auto.
    rewrite skip_ws_complete by (auto; unfold ws_char; lia).
    change (58 =? 58) with true. cbv iota.
    destruct (jval_head _ _ _ J) as (b & x' & E & NW & _).
    rewrite skip_ws_complete; [|auto|rewrite E; cbn [app]; exact NW].
    rewrite IH by (auto; try lia; apply follow_ws; auto).
    rewrite skip_ws_complete by (auto; unfold ws_char; lia). reflexivity.
  - intros d raw k w1 w2 x v w3 w4 m l Jr W1 W2 J IH W3 W4 Jm IHm OK fuel r L.
    apply bytes_ok_cons in OK as [_ OK]. apply bytes_ok_app in OK as [OKr OK].
    apply bytes_ok_cons in OK as [_ OK]. apply bytes_ok_app in OK as [_ OK].
    apply bytes_ok_cons in OK as [_ OK]. apply bytes_ok_app in OK as [_ OK].
    apply bytes_ok_app in OK as [OKx OK]. apply bytes_ok_app in OK as [_ OK].
    apply bytes_ok_cons in OK as [_ OK]. apply bytes_ok_app in OK as [_ OKm].
    repeat (cbn [length] in L; rewrite app_length in L).
    destruct fuel as [|f]; [lia|]. cbn [app pmembers]. change (34 =? 34) with true. cbv iota.
    repeat (rewrite <- app_assoc; cbn [app]).
    rewrite pstring_complete with (v := k) by auto.
    rewrite skip_ws_complete by (auto; unfold ws_char; lia).
    change (58 =? 58) with true. cbv iota.
    destruct (jval_head _ _ _ J) as (b & x' & E & NW & _).
    rewrite skip_ws_complete; [|auto|rewrite E; cbn [app]; exact NW].
    rewrite IH by (auto; try lia; apply follow_ws; auto).
    rewrite skip_ws_complete by (auto; unfold ws_char; lia).
    change (44 =? 125) with false. change (44 =? 44) with true. cbv iota.
    destruct (jmembers_head _ _ _ Jm) as (m' & Em).
    assert (P : pmembers f d (m ++ 125 :: r) = Some (l, r)) by (apply IHm; auto; lia).
    rewrite skip_ws_complete.
    + now rewrite P.
    + auto.
    + rewrite Em. cbn [app]. unfold ws_char. lia.
Qed.

Theorem json_parse_spec s v : bytes_ok s -> (json_parse s = Some v <-> json_text s v).
Proof.
  intros OK. unfold json_parse, json_text. split.
  - destruct (skip_ws_sound s) as (w1 & E1 & W1 & _).
    destruct (pvalue _ 0 (skip_ws s)) as [[v' r]|] eqn:P; [|discriminate].
    destruct (skip_ws_sound r) as (w2 & E2 & W2 & _).
    destruct (skip_ws r) as [|b r'] eqn:Sk; [|discriminate].
    intros H; injection H as <-.
    pose proof (bytes_ok_skip_ws s OK) as OKs.
    destruct (parse_sound (2 + 2 * length s)) as (PS & _ & _).
    apply PS in P as (x & Ex & J); auto.
    exists w1, x, w2. rewrite app_nil_r in E2. subst r. rewrite E1, Ex. auto.
  - intros (w1 & x & w2 & -> & W1 & W2 & J).
    destruct (jval_head _ _ _ J) as (b & x' & E & NW & _).
    rewrite skip_ws_complete; [|auto|rewrite E; cbn [app]; exact NW].
    apply bytes_ok_app in OK as [_ OK]. apply bytes_ok_app in OK as [OKx _].
    destruct (parse_complete 0) as (PC & _ & _).
    rewrite (PC x v J OKx).
    + replace (skip_ws w2) with (@nil Z); [reflexivity|].
      symmetry. rewrite <- (app_nil_r w2). now apply skip_ws_complete.
    + rewrite !app_length. lia.
    + destruct W2; cbn; auto.
Qed.

(** The grammar is unambiguous. *)
Lemma json_text_fun s v v' : bytes_ok s -> json_text s v -> json_text s v' -> v = v'.
Proof.
  intros OK H1 H2. apply json_parse_spec in H1; auto. apply json_parse_spec in H2; auto. congruence.
Qed.
