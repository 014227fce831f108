(** Lemmas about the text of addresses and the identity of connections. *)
From Coq Require Import String ZArith List Bool Lia.
From Coq Require Import ZifyBool ZifyNat.
From Verif Require Import Base BaseFacts GoStrings Web100Model ControlModel Ndt7Model NetxModel IdentityModel
  IdentitySpec.
Import ListNotations.
Open Scope Z_scope.

Lemma skipn_add {A} a : forall b (l : list A), skipn a (skipn b l) = skipn (b + a) l.
Proof. induction b as [|b IH]; intros l; [reflexivity|]. destruct l; cbn [skipn Nat.add]; [now rewrite skipn_nil|apply IH]. Qed.

Lemma Forall_part {A} (P : A -> Prop) n l : Forall P l -> Forall P (firstn n l) /\ Forall P (skipn n l).
Proof. intros H. rewrite <- (firstn_skipn n l) in H. now apply Forall_app in H. Qed.

(** ** Splitting *)

Lemma fields_nonempty sep s : fields sep s <> [].
Proof. destruct s as [|b r]; cbn [fields]; [discriminate|]. destruct (b =? sep); [discriminate|].
  destruct (fields sep r); discriminate. Qed.

Lemma fields_app sep x r : ~ In sep x ->
  fields sep (x ++ sep :: r) = x :: fields sep r.
Proof.
  induction x as [|b x IH]; intros N; cbn [app fields].
  - now rewrite Z.eqb_refl.
  - cbn [In] in N. destruct (b =? sep) eqn:E; [exfalso; apply N; left; lia|].
    rewrite IH by tauto. reflexivity.
Qed.
Lemma fields_one sep x : ~ In sep x -> fields sep x = [x].
Proof.
  induction x as [|b x IH]; intros N; cbn [fields]; [reflexivity|]. cbn [In] in N.
  destruct (b =? sep) eqn:E; [exfalso; apply N; left; lia|]. now rewrite IH by tauto.
Qed.
Lemma fields_join sep l : l <> [] -> Forall (fun x => ~ In sep x) l -> fields sep (join [sep] l) = l.
Proof.
  induction l as [|x [|y l] IH]; intros N F; [congruence| |].
  - cbn [join]. apply fields_one. now inversion F.
  - inversion_clear F as [|? ? Hx F'].
    change (join [sep] (x :: y :: l)) with (x ++ sep :: join [sep] (y :: l)).
    rewrite fields_app by exact Hx. now rewrite IH by (discriminate || exact F').
Qed.

Lemma all_map {A B} (f : A -> option B) g l : Forall (fun x => f x = Some (g x)) l ->
  all (map f l) = Some (map g l).
Proof. induction 1 as [|x l H _ IH]; cbn [map all]; [reflexivity|]. now rewrite H, IH. Qed.

(** ** Hexadecimal words *)

Definition word_ok (w : Z) : Prop := 0 <= w < 65536.

Lemma hex_value_digit n : 0 <= n < 16 -> hex_value (hex_digit n) = Some n.
Proof.
  intros H. unfold hex_digit, hex_value. destruct (n <? 10) eqn:E.
  - rewrite (proj2 (Z.leb_le 48 (48 + n))), (proj2 (Z.leb_le (48 + n) 57)) by lia. cbn [andb]. f_equal. lia.
  - rewrite (proj2 (Z.leb_gt (87 + n) 57)) by lia. rewrite andb_false_r.
    rewrite (proj2 (Z.leb_le 97 (87 + n))), (proj2 (Z.leb_le (87 + n) 102)) by lia. cbn [andb]. f_equal. lia.
Qed.
Lemma hex_digit_not n b : 0 <= n < 16 -> b = 58 \/ b = 46 -> hex_digit n <> b.
Proof. unfold hex_digit. destruct (n <? 10) eqn:E; lia. Qed.

Lemma hex16_shape w : word_ok w ->
  exists ds, hex16 w = map hex_digit ds /\ Forall (fun d => 0 <= d < 16) ds /\ (1 <= List.length ds <= 4)%nat /\
    fold_left (fun v d => 16 * v + d) ds 0 = w.
Proof.
  intros H. unfold word_ok in H. unfold hex16.
  pose proof (Z.div_mod w 16). pose proof (Z.mod_pos_bound w 16).
  pose proof (Z.div_mod (w / 16) 16). pose proof (Z.mod_pos_bound (w / 16) 16).
  pose proof (Z.div_mod (w / 256) 16). pose proof (Z.mod_pos_bound (w / 256) 16).
  assert (w / 16 / 16 = w / 256) by (rewrite Z.div_div by lia; reflexivity).
  assert (w / 256 / 16 = w / 4096) by (rewrite Z.div_div by lia; reflexivity).
  assert (0 <= w / 4096 < 16) by (split; [apply Z.div_pos; lia|apply Z.div_lt_upper_bound; lia]).
  destruct (4096 <=? w) eqn:E1; [|destruct (256 <=? w) eqn:E2; [|destruct (16 <=? w) eqn:E3]].
  - rewrite (proj2 (Z.leb_le 256 w)), (proj2 (Z.leb_le 16 w)) by lia.
    exists [w / 4096; w / 256 mod 16; w / 16 mod 16; w mod 16]. split; [reflexivity|].
    split; [repeat constructor; lia|]. split; [cbn; lia|]. cbn [fold_left]. lia.
  - rewrite (proj2 (Z.leb_le 16 w)) by lia.
    assert (w / 4096 = 0) by (apply Z.div_small; lia).
    exists [w / 256 mod 16; w / 16 mod 16; w mod 16]. split; [reflexivity|].
    split; [repeat constructor; lia|]. split; [cbn; lia|]. cbn [fold_left]. lia.
  - assert (w / 256 = 0) by (apply Z.div_small; lia).
    exists [w / 16 mod 16; w mod 16]. split; [reflexivity|].
    split; [repeat constructor; lia|]. split; [cbn; lia|]. cbn [fold_left]. lia.
  - assert (w / 16 = 0) by (apply Z.div_small; lia).
    exists [w mod 16]. split; [reflexivity|].
    split; [repeat constructor; lia|]. split; [cbn; lia|]. cbn [fold_left]. lia.
Qed.

Lemma read_hex16 w : word_ok w -> read_word (hex16 w) = Some w.
Proof.
  intros H. destruct (hex16_shape w H) as (ds & E & F & L & V). unfold read_word. rewrite E.
  unfold len. rewrite map_length.
  rewrite (proj2 (Z.leb_le 1 _)), (proj2 (Z.leb_le _ 4)) by lia. cbn [andb].
  rewrite map_map, (all_map _ (fun d => d)).
  - cbn [option_map]. now rewrite map_id, V.
  - eapply Forall_impl; [|exact F]. cbn beta. intros d Hd. now apply hex_value_digit.
Qed.
Lemma hex16_nonempty w : hex16 w <> [].
Proof. unfold hex16. intros E. apply (f_equal (@List.length Z)) in E. rewrite !app_length in E. cbn in E. lia. Qed.
Lemma hex16_no w b : word_ok w -> b = 58 \/ b = 46 -> ~ In b (hex16 w).
Proof.
  intros H Hb. destruct (hex16_shape w H) as (ds & E & F & _). rewrite E. rewrite in_map_iff.
  intros (d & Ed & Hd). rewrite Forall_forall in F. exact (hex_digit_not d b (F d Hd) Hb Ed).
Qed.

Lemma read_words_join ws : Forall word_ok ws -> read_words (join (str ":") (map hex16 ws)) = Some ws.
Proof.
  intros F. destruct ws as [|w ws]; [reflexivity|].
  assert (N : join (str ":") (map hex16 (w :: ws)) <> []).
  { cbn [map]. destruct (map hex16 ws); cbn [join]; intros E.
    - exact (hex16_nonempty _ E).
    - apply app_eq_nil in E. exact (hex16_nonempty _ (proj1 E)). }
  unfold read_words. destruct (join (str ":") (map hex16 (w :: ws))) as [|b r] eqn:E; [congruence|].
  rewrite <- E. change (str ":") with [58]. rewrite fields_join.
  - rewrite map_map, (all_map _ (fun x => x)); [now rewrite map_id|].
    eapply Forall_impl; [|exact F]. exact read_hex16.
  - discriminate.
  - apply Forall_map. eapply Forall_impl; [|exact F]. intros x Hx. apply hex16_no; [exact Hx|now left].
Qed.

(** ** The double colon *)

(** A text in which every colon is followed by something else. *)
Fixpoint spaced (s : bytes) : Prop :=
  match s with
  | [] => True
  | b :: r => (b = 58 -> match r with c :: _ => c <> 58 | [] => False end) /\ spaced r
  end.
Lemma double_found s t : spaced s -> at_double (s ++ 58 :: 58 :: t) = Some (s, t).
Proof.
  induction s as [|b s IH]; intros H.
  - reflexivity.
  - cbn [spaced] in H. destruct H as [H1 H2]. cbn [app at_double].
    specialize (IH H2). destruct s as [|c s].
    + destruct (b =? 58) eqn:E; [exfalso; apply H1; lia|]. cbn [app andb] in *.
      change (at_double (58 :: 58 :: t)) with (@Some (bytes * bytes) ([], t)). reflexivity.
    + cbn [app] in *. destruct (b =? 58) eqn:E; cbn [andb].
      * rewrite (proj2 (Z.eqb_neq c 58)) by (apply H1; lia). rewrite IH. reflexivity.
      * rewrite IH. reflexivity.
Qed.
Lemma double_none s : spaced s -> at_double s = None.
Proof.
  induction s as [|b s IH]; intros H; [reflexivity|]. cbn [spaced] in H. destruct H as [H1 H2].
  specialize (IH H2). cbn [at_double]. destruct s as [|c s]; [reflexivity|].
  destruct (b =? 58) eqn:E; cbn [andb].
  - rewrite (proj2 (Z.eqb_neq c 58)) by (apply H1; lia). now rewrite IH.
  - now rewrite IH.
Qed.
Lemma spaced_app x y : ~ In 58 x -> spaced y -> spaced (x ++ y).
Proof.
  induction x as [|b x IH]; intros N H; cbn [app spaced]; [exact H|]. cbn [In] in N.
  split; [intros ->; exfalso; apply N; now left|apply IH; tauto].
Qed.
Lemma spaced_join ws : Forall word_ok ws -> spaced (join (str ":") (map hex16 ws)).
Proof.
  induction 1 as [|w ws H F IH]; [exact I|]. cbn [map].
  assert (N : ~ In 58 (hex16 w)) by (apply hex16_no; [exact H|now left]).
  destruct ws as [|w' ws]; cbn [map join].
  - rewrite <- (app_nil_r (hex16 w)). apply spaced_app; [exact N|exact I].
  - apply spaced_app; [exact N|]. change (str ":") with [58]. cbn [app spaced].
    split; [|exact IH]. intros _. inversion_clear F as [|? ? H' _].
    destruct (hex16 w') as [|c r] eqn:E; [exfalso; exact (hex16_nonempty _ E)|].
    assert (Hc : c <> 58).
    { intros ->. apply (hex16_no w' 58 H' (or_introl eq_refl)). rewrite E. now left. }
    destruct (map hex16 ws); exact Hc.
Qed.

(** ** IPv6 *)

Lemma zero_words_le ws : (zero_words ws <= List.length ws)%nat.
Proof. induction ws as [|w ws IH]; cbn [zero_words List.length]; [lia|]. destruct (w =? 0); lia. Qed.
Lemma zero_words_spec ws : firstn (zero_words ws) ws = repeat 0 (zero_words ws).
Proof.
  induction ws as [|w ws IH]; cbn [zero_words]; [reflexivity|]. destruct (w =? 0) eqn:E; [|reflexivity].
  cbn [firstn repeat]. rewrite IH. f_equal. lia.
Qed.

(** A run of zeros that may be left out. *)
Definition zero_run (ws : list Z) (p : nat * nat) : Prop :=
  p = (255, 255)%nat \/
  (fst p + 2 <= snd p /\ snd p <= List.length ws)%nat /\
  firstn (snd p - fst p) (skipn (fst p) ws) = repeat 0 (snd p - fst p).
Lemma longest_run all_ : forall ws i best, skipn i all_ = ws -> zero_run all_ best ->
  zero_run all_ (longest i ws best).
Proof.
  induction ws as [|w ws IH]; intros i best Hs Hb; cbn [longest]; [exact Hb|].
  assert (Hl : (List.length (w :: ws) = List.length all_ - i)%nat) by (rewrite <- Hs; apply skipn_length).
  apply IH.
  - replace (S i) with (i + 1)%nat by lia. rewrite <- skipn_add, Hs. reflexivity.
  - destruct ((2 <=? zero_words (w :: ws)) && (snd best - fst best <? zero_words (w :: ws)))%nat eqn:E; [|exact Hb].
    right. cbn [fst snd]. pose proof (zero_words_le (w :: ws)). cbn [List.length] in *.
    split; [lia|]. replace (i + zero_words (w :: ws) - i)%nat with (zero_words (w :: ws)) by lia.
    rewrite Hs. apply zero_words_spec.
Qed.

Lemma emit_run ws s e : List.length ws = 8%nat -> (s + 2 <= e)%nat -> (e <= 8)%nat ->
  emit 8 s e 0 ws = join (str ":") (map hex16 (firstn s ws)) ++ str "::" ++ join (str ":") (map hex16 (skipn e ws)).
Proof.
  intros L H1 H2.
  do 8 (destruct ws as [|? ws]; [discriminate L|]). destruct ws; [|discriminate L].
  do 9 (destruct e as [|e]; [try lia; do 7 (destruct s as [|s]; [try lia;
    cbn [emit Nat.leb Nat.eqb Nat.ltb nth firstn skipn map join app]; rewrite ?app_nil_r, <- ?app_assoc; reflexivity|]); lia|]). lia.
Qed.
Lemma emit_all ws : List.length ws = 8%nat -> emit 8 255 255 0 ws = join (str ":") (map hex16 ws).
Proof.
  intros L. do 8 (destruct ws as [|? ws]; [discriminate L|]). destruct ws; [|discriminate L].
  cbn [emit Nat.leb Nat.eqb Nat.ltb nth firstn skipn map join app]. rewrite app_nil_r. reflexivity.
Qed.

Lemma read6_text ws : List.length ws = 8%nat -> Forall word_ok ws ->
  read6 (let '(s, e) := longest 0 ws (255, 255)%nat in emit 8 s e 0 ws) = Some ws.
Proof.
  intros L F. pose proof (longest_run ws ws 0%nat (255, 255)%nat eq_refl (or_introl eq_refl)) as R.
  destruct (longest 0 ws (255, 255)%nat) as [s e]. destruct R as [R|(R1 & R2)].
  - injection R as -> ->. rewrite emit_all by exact L. unfold read6.
    rewrite double_none by now apply spaced_join. rewrite read_words_join by exact F.
    unfold len. rewrite L. reflexivity.
  - cbn [fst snd] in *. rewrite emit_run by lia. unfold read6. change (str "::") with [58; 58]. cbn [app].
    assert (F1 : Forall word_ok (firstn s ws)) by now apply Forall_part.
    assert (F2 : Forall word_ok (skipn e ws)) by now apply Forall_part.
    rewrite double_found by now apply spaced_join. rewrite !read_words_join by assumption.
    unfold len. rewrite firstn_length, skipn_length.
    rewrite (proj2 (Z.leb_le _ 7)) by lia. f_equal.
    replace (8 - Nat.min s (List.length ws) - (List.length ws - e))%nat with (e - s)%nat by lia.
    rewrite <- R2. rewrite <- (firstn_skipn s ws) at 4. f_equal.
    rewrite <- (firstn_skipn (e - s) (skipn s ws)) at 2. f_equal.
    rewrite skipn_add. f_equal. lia.
Qed.

(** ** All addresses *)

Lemma words_bytes : forall n ip, List.length ip = (2 * n)%nat -> bytes_ok ip ->
  flat_map word_bytes (words ip) = ip /\ Forall word_ok (words ip) /\ List.length (words ip) = n.
Proof.
  induction n as [|n IH]; intros ip L H.
  - destruct ip; [|discriminate]. cbn. auto.
  - destruct ip as [|a [|b r]]; [discriminate|cbn in L; lia|]. cbn [words].
    rewrite !bytes_ok_cons in H. destruct H as (Ha & Hb & Hr). unfold byte_ok in *.
    destruct (IH r) as (I1 & I2 & I3); [cbn [List.length] in L; lia|exact Hr|].
    split; [|split].
    + cbn [flat_map]. rewrite I1. unfold word_bytes.
      replace ((a * 256 + b) / 256) with a by (rewrite Z.div_add_l, Z.div_small by lia; lia).
      replace ((a * 256 + b) mod 256) with b by (rewrite Z.add_comm, Z.mod_add, Z.mod_small by lia; lia).
      reflexivity.
    + constructor; [unfold word_ok; lia|exact I2].
    + cbn [List.length]. lia.
Qed.

Lemma read_itoa n : byte_ok n -> read_decimal (itoa n) = Some n /\ ~ In 46 (itoa n) /\ ~ In 58 (itoa n).
Proof.
  unfold byte_ok. intros H. unfold itoa. rewrite (proj2 (Z.ltb_ge n 0)) by lia.
  destruct (dec_nonneg_spec n) as (V & F & N); [lia|]. unfold read_decimal.
  rewrite digits_forallb by exact F. rewrite V, (proj2 (Z.leb_le n 255)) by lia.
  rewrite (proj2 (Z.leb_le 1 _)) by (destruct (dec_nonneg n) as [|? l]; [congruence|rewrite len_cons; pose proof (len_nonneg l); lia]).
  cbn [andb]. split; [reflexivity|]. rewrite Forall_forall in F.
  split; intros I; apply F in I; lia.
Qed.

Lemma in_join sep l b : In b (join sep l) -> In b sep \/ exists x, In x l /\ In b x.
Proof.
  induction l as [|x [|y l] IH]; cbn [join]; intros H; [destruct H| |].
  - right. exists x. split; [now left|exact H].
  - rewrite !in_app_iff in H. destruct H as [H|[H|H]]; [right; exists x; split; [now left|exact H]|now left|].
    destruct (IH H) as [?|(z & Hz & Hb)]; [now left|]. right. exists z. split; [now right|exact Hb].
Qed.

Lemma read_ip4 ip : len ip = 4 -> bytes_ok ip -> read_ip (ip4_text ip) = Some ip.
Proof.
  intros L H. unfold read_ip, ip4_text. change (str ".") with [46].
  assert (F1 : Forall (fun x => ~ In 46 x) (map itoa ip)).
  { apply Forall_map. eapply Forall_impl; [|exact H]. intros n Hn. apply (read_itoa n Hn). }
  destruct (mem 58 _) eqn:E.
  - exfalso. apply mem_spec in E. apply in_join in E. destruct E as [[E|[]]|(x & Hx & Hb)]; [discriminate|].
    apply in_map_iff in Hx. destruct Hx as (n & <- & Hn). unfold bytes_ok in H. rewrite Forall_forall in H.
    exact (proj2 (proj2 (read_itoa n (H n Hn))) Hb).
  - rewrite fields_join; [|destruct ip; [discriminate L|discriminate]|exact F1].
    rewrite map_map, (all_map _ (fun x => x)); [rewrite map_id, L; reflexivity|].
    eapply Forall_impl; [|exact H]. intros n Hn. apply (read_itoa n Hn).
Qed.

Lemma ip6_colon ip : len ip = 16 -> mem 58 (ip6_text ip) = true.
Proof.
  intros L. unfold ip6_text. destruct (longest 0 (words ip) (255, 255)%nat) as [s e].
  apply mem_spec. cbn [emit Nat.leb]. destruct (0 =? s)%nat eqn:E0; [now left|].
  apply in_app_iff. right. apply in_app_iff. right.
  destruct (1 =? s)%nat; [now left|]. apply in_app_iff. left. now left.
Qed.

Lemma read_ip6 ip : len ip = 16 -> bytes_ok ip -> read_ip (ip6_text ip) = Some ip.
Proof.
  intros L H. unfold read_ip. rewrite ip6_colon by exact L.
  destruct (words_bytes 8 ip) as (W1 & W2 & W3); [unfold len in L; lia|exact H|].
  unfold ip6_text. rewrite read6_text by assumption. cbn [option_map]. now rewrite W1.
Qed.

Lemma read_text ip : ip_ok ip -> read_ip (ip_text ip) = Some (canonical ip).
Proof.
  intros [L H].
  assert (ip_text ip = match to4 ip with Some p => ip4_text p | None => ip6_text ip end) as ->.
  { unfold ip_text. destruct ip; [destruct L; discriminate|].
    replace (negb _) with false by (unfold len in L; destruct L; lia). reflexivity. }
  unfold canonical.
  unfold to4, len in *. destruct L as [L|L].
  - replace (List.length ip =? 4)%nat with true by lia. replace (Z.of_nat (List.length ip) =? 16) with false by lia. cbn [andb].
    now apply read_ip4.
  - replace (List.length ip =? 4)%nat with false by lia. replace (List.length ip =? 16)%nat with true by lia.
    replace (Z.of_nat (List.length ip) =? 16) with true by lia. cbn [andb].
    destruct (beqb (firstn 12 ip) mapped) eqn:E.
    + apply beqb_spec in E.
      assert (has_prefix mapped_prefix ip = true) as ->.
      { apply has_prefix_spec. exists (skipn 12 ip). rewrite <- (firstn_skipn 12 ip) at 1. now rewrite E. }
      apply read_ip4; [unfold len; rewrite skipn_length; lia|]. now apply Forall_part.
    + destruct (has_prefix mapped_prefix ip) eqn:P; [|now apply read_ip6].
      exfalso. apply has_prefix_spec in P. destruct P as [r ->]. apply beqb_false in E. now apply E.
Qed.

Lemma text_identifies a b : ip_ok a -> ip_ok b -> (ip_text a = ip_text b <-> canonical a = canonical b).
Proof.
  intros Ha Hb. pose proof (read_text a Ha) as Ra. pose proof (read_text b Hb) as Rb. split.
  - intros E. rewrite E, Rb in Ra. congruence.
  - intros E. assert (T : forall i, ip_ok i -> ip_text i = ip_text (canonical i)).
    { clear. intros i [L H]. unfold canonical. destruct ((len i =? 16) && has_prefix mapped_prefix i) eqn:E; [|reflexivity].
      apply andb_prop in E. destruct E as [E1 E2]. apply has_prefix_spec in E2. destruct E2 as [r ->].
      unfold len in E1. rewrite app_length in E1. cbn [mapped_prefix List.length] in E1.
      do 4 (destruct r as [|? r]; [cbn in E1; lia|]). destruct r; [reflexivity|cbn [List.length] in E1; lia]. }
    rewrite (T a Ha), (T b Hb), E. reflexivity.
Qed.

(** ** Canonical text *)

Lemma zero_words_ge n : forall b : list Z, (n <= zero_words (repeat 0%Z n ++ b))%nat.
Proof. induction n as [|n IH]; intros b; cbn [repeat app zero_words]; [lia|]. rewrite Z.eqb_refl. specialize (IH b). lia. Qed.

Definition beats (p : nat * nat) (i l : nat) : Prop :=
  (l < 2)%nat \/ (l < snd p - fst p)%nat \/ (l = snd p - fst p /\ fst p <= i)%nat.
Lemma longest_best all_ : forall ws i best, skipn i all_ = ws ->
  (fst best < i \/ snd best - fst best = 0)%nat ->
  (forall j, (j < i)%nat -> beats best j (zero_words (skipn j all_))) ->
  forall j, beats (longest i ws best) j (zero_words (skipn j all_)).
Proof.
  induction ws as [|w ws IH]; intros i best Hs Hf Hb j; cbn [longest].
  - destruct (Nat.lt_ge_cases j i) as [L|L]; [exact (Hb j L)|].
    replace j with (i + (j - i))%nat by lia. rewrite <- skipn_add, Hs, skipn_nil. left. cbn. lia.
  - apply IH.
    + replace (S i) with (i + 1)%nat by lia. rewrite <- skipn_add, Hs. reflexivity.
    + destruct ((2 <=? _) && _)%nat eqn:E; cbn [fst snd]; lia.
    + intros k Hk. destruct (Nat.eq_dec k i) as [->|N].
      * rewrite Hs. unfold beats.
        destruct ((2 <=? zero_words (w :: ws)) && (snd best - fst best <? zero_words (w :: ws)))%nat eqn:E;
          cbn [fst snd]; lia.
      * specialize (Hb k ltac:(lia)). unfold beats in *.
        destruct ((2 <=? zero_words (w :: ws)) && (snd best - fst best <? zero_words (w :: ws)))%nat eqn:E;
          cbn [fst snd]; lia.
Qed.

Lemma hex16_group w : word_ok w -> group (hex16 w) w.
Proof.
  intros H. split; [now apply read_hex16|]. split.
  - unfold word_ok in H. unfold hex16.
    assert (D : forall n, 0 < n < 16 -> hex_digit n <> 48) by (unfold hex_digit; intros n Hn; destruct (n <? 10) eqn:E; lia).
    destruct (4096 <=? w) eqn:E1; [|destruct (256 <=? w) eqn:E2; [|destruct (16 <=? w) eqn:E3]]; cbn [app hd].
    + right. apply D. split; [apply Z.div_str_pos; lia|apply Z.div_lt_upper_bound; lia].
    + right. rewrite Z.mod_small by (split; [apply Z.div_pos; lia|apply Z.div_lt_upper_bound; lia]).
      apply D. split; [apply Z.div_str_pos; lia|apply Z.div_lt_upper_bound; lia].
    + right. rewrite Z.mod_small by (split; [apply Z.div_pos; lia|apply Z.div_lt_upper_bound; lia]).
      apply D. split; [apply Z.div_str_pos; lia|apply Z.div_lt_upper_bound; lia].
    + rewrite Z.mod_small by lia. destruct (Z.eq_dec w 0) as [->|N]; [now left|]. right. apply D. lia.
  - destruct (hex16_shape w H) as (ds & E & F & _). rewrite E. apply Forall_map.
    eapply Forall_impl; [|exact F]. cbn beta. intros d Hd. unfold hex_digit. destruct (d <? 10) eqn:X; lia.
Qed.
Lemma groups_join ws : Forall word_ok ws -> groups (join (str ":") (map hex16 ws)) ws.
Proof.
  intros F. exists (map hex16 ws). split.
  - induction F; cbn [map]; constructor; [now apply hex16_group|assumption].
  - clear F. destruct ws as [|w ws]; [reflexivity|]. cbn [map]. revert w.
    induction ws as [|w' ws IH]; intros w; [cbn; now rewrite app_nil_r|].
    change (join (str ":") (hex16 w :: map hex16 (w' :: ws)))
      with (hex16 w ++ 58 :: join (str ":") (hex16 w' :: map hex16 ws)).
    rewrite IH. reflexivity.
Qed.

Lemma zeros_beat ws a n b p : (forall j, beats p j (zero_words (skipn j ws))) -> zeros_between ws a n b ->
  beats p (List.length a) n.
Proof.
  intros B [E N]. specialize (B (List.length a)). rewrite E in B at 1.
  rewrite skipn_app, skipn_all, Nat.sub_diag in B. cbn [app skipn] in B.
  pose proof (zero_words_ge n b). unfold beats in *. lia.
Qed.

Lemma canonical_text ws : List.length ws = 8%nat -> Forall word_ok ws ->
  firstn 6 ws <> [0; 0; 0; 0; 0; 65535] ->
  let text := ip_text (flat_map word_bytes ws) in
  (groups text ws /\ forall a n b, ~ zeros_between ws a n b) \/
  exists a n b x y, zeros_between ws a n b /\ groups x a /\ groups y b /\ text = x ++ str "::" ++ y /\
    forall a' n' b', zeros_between ws a' n' b' -> (n' < n \/ n' = n /\ List.length a <= List.length a')%nat.
Proof.
  intros L F M. cbv zeta.
  assert (W : words (flat_map word_bytes ws) = ws).
  { clear -F. induction F as [|w ws H F IH]; [reflexivity|]. cbn [flat_map word_bytes app words]. rewrite IH.
    f_equal. pose proof (Z.div_mod w 256). lia. }
  assert (T : ip_text (flat_map word_bytes ws) = ip6_text (flat_map word_bytes ws)).
  { do 8 (destruct ws as [|? ws]; [discriminate L|]). destruct ws; [|discriminate L].
    cbn [flat_map word_bytes app]. unfold ip_text. cbn [List.length Nat.eqb orb negb]. unfold to4.
    cbn [List.length Nat.eqb andb]. destruct (beqb _ mapped) eqn:E; [|reflexivity].
    exfalso. apply beqb_spec in E. cbn [firstn] in E. apply M. cbn [firstn].
    unfold mapped in E. cbn [repeat app] in E. injection E. intros.
    repeat match goal with H : ?w / 256 = _, H' : ?w mod 256 = _ |- _ =>
      let X := fresh in pose proof (Z.div_mod w 256 ltac:(lia)) as X; rewrite H, H' in X; clear H H' end.
    repeat f_equal; lia. }
  rewrite T. unfold ip6_text. rewrite W.
  pose proof (longest_run ws ws 0%nat (255, 255)%nat eq_refl (or_introl eq_refl)) as R.
  pose proof (longest_best ws ws 0%nat (255, 255)%nat eq_refl (or_intror eq_refl) ltac:(lia)) as B.
  destruct (longest 0 ws (255, 255)%nat) as [s e]. destruct R as [R|(R1 & R2)].
  - injection R as -> ->. left. rewrite emit_all by exact L. split; [now apply groups_join|].
    intros a n b Z. pose proof (zeros_beat _ _ _ _ _ B Z) as X. destruct Z as [_ Z]. unfold beats in X. cbn [fst snd] in X. lia.
  - cbn [fst snd] in *. right. exists (firstn s ws), (e - s)%nat, (skipn e ws). eexists _, _.
    split; [|split; [apply groups_join; now apply Forall_part|split; [apply groups_join; now apply Forall_part|split]]].
    + split; [|lia]. rewrite <- R2. rewrite <- (firstn_skipn s ws) at 1. f_equal.
      rewrite <- (firstn_skipn (e - s) (skipn s ws)) at 1. f_equal. rewrite skipn_add. f_equal. lia.
    + rewrite emit_run by lia. reflexivity.
    + intros a' n' b' Z. pose proof (zeros_beat _ _ _ _ _ B Z) as X. destruct Z as [_ Z].
      unfold beats in X. cbn [fst snd] in X. rewrite firstn_length. lia.
Qed.

(** ** Connections *)

Lemma accepted_is tc dup x : accept tc dup = Some x -> exists t, tc = Some t /\ x = NetxConn t (k_socket t).
Proof. destruct tc as [t|]; [|discriminate]. destruct dup; [|discriminate]. intros [= <-]. eauto. Qed.
Lemma app_local s x : local_addr (app_conn s x) = NetxAddr (k_local (x_tcp x)) x.
Proof. unfold app_conn. destruct (encrypted s); reflexivity. Qed.
Lemma app_remote s x : remote_addr (app_conn s x) = NetxAddr (k_remote (x_tcp x)) x.
Proof. unfold app_conn. destruct (encrypted s); reflexivity. Qed.
Lemma app_info s x : to_conn_info (app_conn s x) = Done (Some x).
Proof. unfold app_conn. destruct (encrypted s); reflexivity. Qed.
Lemma app_uuid s x p k : uuid5 p k (app_conn s x) = conn_uuid k x.
Proof. unfold uuid5. rewrite app_info. reflexivity. Qed.

Lemma control_exact s x kind k meta mon et tt dt :
  control_config kind k (app_conn s x) meta mon et tt dt =
  match k_local (x_tcp x), k_remote (x_tcp x) with
  | RawTcp lip _ lp, RawTcp rip _ rp =>
      match get_uuid (ke_uuid k (x_file x)) (ke_fallback k) with
      | Some u => Done (Config kind meta u (ip_text lip) lp (ip_text rip) rp mon et tt dt)
      | None => Exit
      end
  | _, _ => Crash
  end.
Proof.
  unfold control_config, server_addr, client_addr, ip_and_port. rewrite app_local, app_remote, app_uuid.
  unfold conn_uuid.
  destruct (k_local (x_tcp x)), (k_remote (x_tcp x)); cbn [addr_prints andb negb to_tcp_addr andthen fst snd]; try reflexivity.
  destruct (get_uuid _ _); reflexivity.
Qed.
Lemma test_exact s x kind k id :
  test_conn kind k id (app_conn s x) =
  match get_uuid (ke_uuid k (x_file x)) (ke_fallback k) with
  | None => Exit
  | Some u =>
      match k_local (x_tcp x), k_remote (x_tcp x) with
      | RawTcp lip _ lp, RawTcp rip _ rp => Done (TConn id u (ip_text lip) lp (ip_text rip) rp)
      | _, _ => Crash
      end
  end.
Proof.
  unfold test_conn, server_addr, client_addr, ip_and_port. rewrite app_local, app_remote, app_uuid.
  unfold conn_uuid. destruct (get_uuid _ _); [|reflexivity]. cbn [andthen].
  destruct (k_local (x_tcp x)), (k_remote (x_tcp x)); reflexivity.
Qed.
Lemma setup_exact s x :
  setup_result (app_conn s x) =
  match k_local (x_tcp x), k_remote (x_tcp x) with
  | RawTcp lip _ lp, RawTcp rip _ rp =>
      Done ((ip_text rip, rp), (ip_text lip, lp), SockID (ip_text lip) (ip_text rip) (lp mod 2 ^ 16) (rp mod 2 ^ 16) (-1))
  | _, _ => Crash
  end.
Proof.
  unfold setup_result. rewrite app_local, app_remote.
  destruct (k_remote (x_tcp x)), (k_local (x_tcp x)); reflexivity.
Qed.
