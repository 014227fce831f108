(** Proofs about NDT5 framing. *)
From Coq Require Import String ZArith List Bool Lia.
From Coq Require Import ZifyBool ZifyNat ZifyN.
From Verif Require Import Base BaseFacts WireModel WireSpec.
Import ListNotations.
Open Scope Z_scope.
Ltac Zify.zify_post_hook ::= Z.div_mod_to_equations.

Lemma shiftl8 b : Z.shiftl b 8 = b * 256.
Proof. rewrite Z.shiftl_mul_pow2 by lia. reflexivity. Qed.
Lemma shiftr8 b : Z.shiftr b 8 = b / 256.
Proof. rewrite Z.shiftr_div_pow2 by lia. reflexivity. Qed.
Lemma land255 b : Z.land b 255 = b mod 256.
Proof. change 255 with (Z.ones 8). rewrite Z.land_ones by lia. reflexivity. Qed.

Lemma write_tlv_eq ty m :
  write_tlv ty m = ty :: (len m / 256) mod 256 :: len m mod 256 :: m.
Proof. unfold write_tlv. now rewrite !land255, shiftr8. Qed.

Lemma len_write_tlv ty m : len (write_tlv ty m) = 3 + len m.
Proof. rewrite write_tlv_eq, !len_cons. lia. Qed.

Lemma tlv_roundtrip ty payload expected :
  In ty expected -> len payload < 65536 ->
  read_tlv (Some (write_tlv ty payload)) expected = TlvRes (Some payload) ty None.
Proof.
  intros Hin Hlen. rewrite write_tlv_eq. cbn [read_tlv].
  apply mem_spec in Hin. rewrite Hin. cbn [negb].
  rewrite shiftl8. pose proof (len_nonneg payload).
  replace (_ =? _) with true by lia. reflexivity.
Qed.

Lemma tlv_oversize ty payload expected :
  65536 <= len payload ->
  exists e, read_tlv (Some (write_tlv ty payload)) expected = TlvRes None ty (Some e).
Proof.
  intros Hlen. rewrite write_tlv_eq. cbn [read_tlv].
  destruct (mem ty expected); cbn [negb]; [|eauto].
  rewrite shiftl8.
  replace (_ =? _) with false by lia. cbn [negb]. eauto.
Qed.

Lemma read_tlv_accepts m expected p ty :
  read_tlv m expected = TlvRes (Some p) ty None <->
  In ty expected /\ exists hi lo, m = Some (ty :: hi :: lo :: p) /\ hi * 256 + lo = len p.
Proof.
  split.
  - destruct m as [[|b0 [|b1 [|b2 r]]]|]; cbn [read_tlv]; try discriminate.
    destruct (mem b0 expected) eqn:E1; cbn [negb]; [|discriminate].
    destruct (Z.shiftl b1 8 + b2 =? len r) eqn:E2; cbn [negb]; [|discriminate].
    rewrite shiftl8 in E2.
    intros H; injection H as <- <-. split; [now apply mem_spec|].
    exists b1, b2. split; [reflexivity|lia].
  - intros [Hin (hi & lo & -> & H)]. cbn [read_tlv].
    apply mem_spec in Hin. rewrite Hin. cbn [negb]. rewrite shiftl8.
    replace (_ =? _) with true by lia. reflexivity.
Qed.

Lemma read_tlv_total m expected :
  (exists p ty, read_tlv m expected = TlvRes (Some p) ty None) \/
  (exists ty e, read_tlv m expected = TlvRes None ty (Some e)).
Proof.
  destruct m as [[|b0 [|b1 [|b2 r]]]|]; cbn [read_tlv]; eauto.
  destruct (mem b0 expected); cbn [negb]; eauto.
  destruct (Z.shiftl b1 8 + b2 =? len r); cbn [negb]; eauto.
Qed.

(** ** TCP and bufio reads *)

Lemma tcp_read_data n t d e t' :
  tcp_read n t = (d, e, t') -> tcp_data t = d ++ tcp_data t'.
Proof.
  unfold tcp_read. destruct (n <=? 0).
  - intros H; injection H as <- <- <-. reflexivity.
  - destruct t as [|s r].
    + intros H; injection H as <- <- <-. reflexivity.
    + destruct (len s <=? n); intros H; injection H as <- <- <-; cbn [tcp_data List.concat].
      * reflexivity.
      * unfold tcp_data. cbn [List.concat]. rewrite app_assoc, take_drop. reflexivity.
Qed.

Lemma tcp_read_wf n t d e t' :
  tcp_wf t -> tcp_read n t = (d, e, t') -> tcp_wf t'.
Proof.
  unfold tcp_read, tcp_wf. intros W. destruct (n <=? 0) eqn:En.
  - intros H; injection H as <- <- <-. auto.
  - destruct t as [|s r].
    + intros H; injection H as <- <- <-. constructor.
    + inversion W; subst.
      destruct (len s <=? n) eqn:E; intros H; injection H as <- <- <-; auto.
      constructor; auto. intros C. pose proof (len_drop n s ltac:(lia)) as L.
      rewrite C, len_nil in L. lia.
Qed.

Lemma tcp_read_progress n t d e t' :
  tcp_wf t -> 0 < n -> tcp_read n t = (d, e, t') ->
  (e = true /\ d = [] /\ t = [] /\ t' = []) \/ (e = false /\ 1 <= len d <= n).
Proof.
  unfold tcp_read. intros W Hn. replace (n <=? 0) with false by lia.
  destruct t as [|s r].
  - intros H; injection H as <- <- <-. auto.
  - inversion W; subst.
    assert (1 <= len s).
    { destruct s; [congruence|]. rewrite len_cons. pose proof (len_nonneg s). lia. }
    destruct (len s <=? n) eqn:E; intros H'; injection H' as <- <- <-; right; split; auto.
    + lia.
    + rewrite len_take by lia. lia.
Qed.

(** Reading from a segment that starts with a whole frame. *)
Lemma tcp_read_exact n d s r :
  0 < n -> len d = n -> tcp_read n ((d ++ s) :: r) =
  (d, false, match s with [] => r | _ => s :: r end).
Proof.
  intros Hn Hd. unfold tcp_read. replace (n <=? 0) with false by lia.
  rewrite len_app. destruct s as [|x s].
  - rewrite len_nil. replace (_ <=? _) with true by lia. now rewrite app_nil_r.
  - rewrite len_cons. pose proof (len_nonneg s).
    replace (_ <=? _) with false by lia.
    rewrite take_app_exact, drop_app_exact by auto. reflexivity.
Qed.

Definition cons_seg (s : bytes) (r : tcp) : tcp := match s with [] => r | _ => s :: r end.

Lemma nth_hdr1 (a b c : Z) : nth 1 [a; b; c] 0 = b. Proof. reflexivity. Qed.
Lemma nth_hdr2 (a b c : Z) : nth 2 [a; b; c] 0 = c. Proof. reflexivity. Qed.

Lemma hdr_size (m : bytes) : len m < 65536 ->
  Z.shiftl ((len m / 256) mod 256) 8 + len m mod 256 = len m.
Proof. intros. rewrite shiftl8. pose proof (len_nonneg m). lia. Qed.

Lemma zeros_0 n : n <= 0 -> zeros n = [].
Proof. intros. unfold zeros. replace (Z.to_nat n) with 0%nat by lia. reflexivity. Qed.

(** A whole frame at the head of a segment is read exactly (raw socket). *)
Lemma net_read_message_raw ty m s r :
  len m < 65536 ->
  net_read_message tcp_read ((write_tlv ty m ++ s) :: r) =
  (Some (write_tlv ty m), cons_seg s r).
Proof.
  intros H. unfold net_read_message. rewrite write_tlv_eq.
  set (hi := (len m / 256) mod 256). set (lo := len m mod 256).
  change ((ty :: hi :: lo :: m) ++ s) with ([ty; hi; lo] ++ (m ++ s)).
  rewrite tcp_read_exact by (reflexivity || lia).
  change (len [ty; hi; lo]) with 3. rewrite zeros_0, app_nil_r by lia.
  rewrite nth_hdr1, nth_hdr2.
  unfold hi, lo. rewrite hdr_size by auto. fold hi lo.
  destruct m as [|x m'].
  - cbn [app]. change (len []) with 0.
    unfold tcp_read. cbn [Z.leb]. replace (0 <=? 0) with true by lia.
    rewrite zeros_0 by (cbn; lia). destruct s; reflexivity.
  - change ((x :: m') ++ s) with (x :: (m' ++ s)). cbv iota.
    change (x :: (m' ++ s)) with ((x :: m') ++ s).
    rewrite tcp_read_exact; [|rewrite len_cons; pose proof (len_nonneg m'); lia|reflexivity].
    rewrite zeros_0, app_nil_r by lia. reflexivity.
Qed.

(** Messages delivered in groups of whole frames. *)
Definition frame (m : Z * bytes) : bytes := write_tlv (fst m) (snd m).
Definition frames (ms : list (Z * bytes)) : bytes := List.concat (map frame ms).

Lemma frame_nonempty m : frame m <> [].
Proof. unfold frame, write_tlv. discriminate. Qed.

Definition ok_result (m : Z * bytes) : tlv_result := TlvRes (Some (snd m)) (fst m) None.

Definition cons_group (g : list (Z * bytes)) (gs : list (list (Z * bytes))) :=
  match g with [] => gs | _ => g :: gs end.

Lemma concat_cons_group g gs : List.concat (cons_group g gs) = g ++ List.concat gs.
Proof. destruct g; reflexivity. Qed.

Lemma net_read_many_raw_aux expected : forall n groups,
  Forall (fun g => g <> []) groups ->
  Forall (fun m => In (fst m) expected /\ len (snd m) < 65536) (List.concat groups) ->
  List.length (List.concat groups) = n ->
  net_read_many tcp_read n (map frames groups) expected = (map ok_result (List.concat groups), []).
Proof.
  induction n as [|n IH]; intros groups NE OK L.
  - destruct groups as [|g gs]; [reflexivity|].
    inversion NE; subst. destruct g; [congruence|discriminate].
  - destruct groups as [|[|m g] gs]; [discriminate| inversion NE; congruence|].
    cbn [map]. unfold frames at 1. cbn [map List.concat]. fold (frames g).
    cbn [List.concat app] in OK. inversion OK as [|? ? [Hin Hlen] OK']; subst.
    cbn [net_read_many]. unfold net_read_tlv.
    unfold frame at 1. rewrite net_read_message_raw by auto.
    rewrite tlv_roundtrip by auto.
    replace (cons_seg (frames g) (map frames gs)) with (map frames (cons_group g gs)).
    2:{ destruct g as [|m' g']; [reflexivity|]. cbn [cons_group map].
        unfold cons_seg. destruct (frames (m' :: g')) eqn:E; [|reflexivity].
        exfalso. unfold frames in E. cbn [map List.concat] in E.
        apply app_eq_nil in E. now apply (frame_nonempty m'). }
    rewrite IH.
    + rewrite concat_cons_group. reflexivity.
    + inversion NE; subst. destruct g; [auto|]. constructor; auto. discriminate.
    + rewrite concat_cons_group. exact OK'.
    + rewrite concat_cons_group. cbn [List.concat app List.length] in L. apply eq_add_S; exact L.
Qed.

Lemma net_read_many_raw expected groups :
  Forall (fun g => g <> []) groups ->
  Forall (fun m => In (fst m) expected /\ len (snd m) < 65536) (List.concat groups) ->
  net_read_many tcp_read (List.length (List.concat groups)) (map frames groups) expected =
  (map ok_result (List.concat groups), []).
Proof. intros. now apply net_read_many_raw_aux. Qed.

(** Same through a bufio.Reader, when every segment fits in its buffer. *)

(** A buffer in which the buffered bytes start with d. *)
Lemma bufio_read_buffered n d s e t :
  0 < n -> len d = n -> d <> [] ->
  bufio_read n (Bufio (d ++ s) e t) = (d, false, Bufio s e t).
Proof.
  intros Hn Hd NE. unfold bufio_read. replace (n <=? 0) with false by lia.
  cbn [bf_buf bf_err bf_rd]. destruct d as [|x d']; [congruence|]. cbn [app].
  change (x :: d' ++ s) with ((x :: d') ++ s).
  rewrite take_app_exact, drop_app_exact by auto. reflexivity.
Qed.

Lemma bufio_read_0 b t : bufio_read 0 (Bufio b false t) = ([], false, Bufio b false t).
Proof. unfold bufio_read. cbn. destruct b; reflexivity. Qed.

Lemma bufio_read_fill n d s t :
  0 < n < bufio_size -> len d = n -> len (d ++ s) <= bufio_size ->
  bufio_read n (Bufio [] false ((d ++ s) :: t)) = (d, false, Bufio s false t).
Proof.
  intros Hn Hd Hs. unfold bufio_read. replace (n <=? 0) with false by lia.
  cbn [bf_buf bf_err bf_rd]. replace (bufio_size <=? n) with false by lia.
  unfold tcp_read. replace (bufio_size <=? 0) with false by reflexivity.
  replace (len (d ++ s) <=? bufio_size) with true by lia.
  destruct d as [|x d']; [rewrite len_nil in Hd; lia|]. cbn [app].
  change (x :: d' ++ s) with ((x :: d') ++ s).
  rewrite take_app_exact, drop_app_exact by auto. reflexivity.
Qed.

Lemma net_read_message_buffered ty m s t :
  len m < 65536 ->
  net_read_message bufio_read (Bufio (write_tlv ty m ++ s) false t) =
  (Some (write_tlv ty m), Bufio s false t).
Proof.
  intros H. unfold net_read_message. rewrite write_tlv_eq.
  set (hi := (len m / 256) mod 256). set (lo := len m mod 256).
  change ((ty :: hi :: lo :: m) ++ s) with ([ty; hi; lo] ++ (m ++ s)).
  rewrite bufio_read_buffered by (reflexivity || lia || discriminate).
  change (len [ty; hi; lo]) with 3. rewrite zeros_0, app_nil_r by lia.
  rewrite nth_hdr1, nth_hdr2.
  unfold hi, lo. rewrite hdr_size by auto. fold hi lo.
  destruct m as [|x m'].
  - cbn [app]. change (len []) with 0. rewrite bufio_read_0.
    rewrite zeros_0 by (cbn; lia). reflexivity.
  - rewrite bufio_read_buffered; [|rewrite len_cons; pose proof (len_nonneg m'); lia|reflexivity|discriminate].
    rewrite zeros_0, app_nil_r by lia. reflexivity.
Qed.

Lemma net_read_message_fill ty m s t :
  len (write_tlv ty m ++ s) <= bufio_size ->
  net_read_message bufio_read (Bufio [] false ((write_tlv ty m ++ s) :: t)) =
  net_read_message bufio_read (Bufio (write_tlv ty m ++ s) false t).
Proof.
  intros H. unfold net_read_message. rewrite !write_tlv_eq in *.
  set (hi := (len m / 256) mod 256) in *. set (lo := len m mod 256) in *.
  change ((ty :: hi :: lo :: m) ++ s) with ([ty; hi; lo] ++ (m ++ s)) in *.
  rewrite bufio_read_buffered by (reflexivity || lia || discriminate).
  rewrite bufio_read_fill by (reflexivity || (unfold bufio_size; lia) || exact H).
  reflexivity.
Qed.

Lemma net_read_many_bufio_aux expected : forall n cur groups,
  Forall (fun g => g <> []) groups ->
  Forall (fun m => In (fst m) expected /\ len (snd m) < 65536) (cur ++ List.concat groups) ->
  Forall (fun g => len (frames g) <= bufio_size) groups ->
  List.length (cur ++ List.concat groups) = n ->
  net_read_many bufio_read n (Bufio (frames cur) false (map frames groups)) expected =
  (map ok_result (cur ++ List.concat groups), Bufio [] false []).
Proof.
  induction n as [|n IH]; intros cur groups NE OK SZ L.
  - destruct cur; [|discriminate]. destruct groups as [|g gs]; [reflexivity|].
    inversion NE; subst. destruct g; [congruence|discriminate].
  - cbn [net_read_many]. unfold net_read_tlv.
    destruct cur as [|m cur].
    + destruct groups as [|[|m g] gs]; [discriminate|inversion NE; congruence|].
      inversion NE; subst. inversion SZ; subst.
      cbn [List.concat app] in OK. inversion OK as [|? ? [Hin Hlen] OK']; subst.
      change (frames []) with (@nil Z).
      cbn [map]. unfold frames at 1. cbn [map List.concat]. fold (frames g).
      unfold frame at 1.
      rewrite net_read_message_fill by exact H3.
      rewrite net_read_message_buffered by auto. rewrite tlv_roundtrip by auto.
      rewrite IH; auto.
    + cbn [app] in OK. inversion OK as [|? ? [Hin Hlen] OK']; subst.
      unfold frames at 1. cbn [map List.concat]. fold (frames cur). unfold frame at 1.
      rewrite net_read_message_buffered by auto. rewrite tlv_roundtrip by auto.
      rewrite IH; auto.
Qed.

Lemma net_read_many_bufio expected groups :
  Forall (fun g => g <> []) groups ->
  Forall (fun m => In (fst m) expected /\ len (snd m) < 65536) (List.concat groups) ->
  Forall (fun g => len (frames g) <= bufio_size) groups ->
  net_read_many bufio_read (List.length (List.concat groups)) (bufio_new (map frames groups)) expected =
  (map ok_result (List.concat groups), Bufio [] false []).
Proof. intros. apply (net_read_many_bufio_aux expected _ [] groups); auto. Qed.

(** ** Corruption theorems *)

Lemma nth_app_zeros_1 ty : nth 1 ([ty] ++ zeros 2) 0 = 0. Proof. reflexivity. Qed.

(** The header split after its first byte: the message is accepted as empty. *)
Lemma split_header_raw ty payload r expected :
  In ty expected ->
  let f := write_tlv ty payload in
  net_read_tlv tcp_read ([ty] :: drop 1 f :: r) expected =
  (TlvRes (Some []) ty None, drop 1 f :: r).
Proof.
  intros Hin f. unfold net_read_tlv, net_read_message.
  unfold tcp_read at 1. cbn [Z.leb Z.compare].
  change (3 <=? 0) with false. change (len [ty] <=? 3) with true. cbv iota.
  change ([ty] ++ zeros (3 - len [ty])) with [ty; 0; 0].
  change (Z.shiftl (nth 1 [ty; 0; 0] 0) 8 + nth 2 [ty; 0; 0] 0) with 0.
  unfold tcp_read. change (0 <=? 0) with true. cbv iota.
  change ([ty; 0; 0] ++ ([] ++ zeros (0 - len []))) with [ty; 0; 0].
  cbn [read_tlv]. apply mem_spec in Hin. rewrite Hin. cbn [negb].
  change (Z.shiftl 0 8 + 0 =? len []) with true. reflexivity.
Qed.

Lemma split_header_bufio ty payload r expected :
  In ty expected ->
  let f := write_tlv ty payload in
  net_read_tlv bufio_read (Bufio [] false ([ty] :: drop 1 f :: r)) expected =
  (TlvRes (Some []) ty None, Bufio [] false (drop 1 f :: r)).
Proof.
  intros Hin f. unfold net_read_tlv, net_read_message.
  change (bufio_read 3 (Bufio [] false ([ty] :: drop 1 f :: r)))
    with ([ty], false, Bufio [] false (drop 1 f :: r)).
  cbv iota.
  change ([ty] ++ zeros (3 - len [ty])) with [ty; 0; 0].
  change (Z.shiftl (nth 1 [ty; 0; 0] 0) 8 + nth 2 [ty; 0; 0] 0) with 0.
  rewrite bufio_read_0.
  change ([ty; 0; 0] ++ ([] ++ zeros (0 - len []))) with [ty; 0; 0].
  cbn [read_tlv]. apply mem_spec in Hin. rewrite Hin. cbn [negb].
  change (Z.shiftl 0 8 + 0 =? len []) with true. reflexivity.
Qed.

(** Body split after [k] of its bytes (0 < k): the tail is replaced by zeros. *)
Lemma len_app_zeros (d : bytes) k n : len d = k -> k <= n -> len (d ++ zeros (n - k)) = n.
Proof. intros. rewrite len_app, len_zeros by lia. lia. Qed.

Lemma split_body_raw ty payload k r expected :
  In ty expected -> len payload < 65536 -> 0 < k <= len payload ->
  let f := write_tlv ty payload in
  net_read_tlv tcp_read (take (3 + k) f :: cons_seg (drop (3 + k) f) r) expected =
  (TlvRes (Some (take k payload ++ zeros (len payload - k))) ty None,
   cons_seg (drop (3 + k) f) r).
Proof.
  intros Hin Hlen Hk f.
  assert (Ht : take (3 + k) f = [ty; (len payload / 256) mod 256; len payload mod 256] ++ take k payload).
  { unfold f. rewrite write_tlv_eq. unfold take.
    replace (Z.to_nat (3 + k)) with (3 + Z.to_nat k)%nat by lia. reflexivity. }
  rewrite Ht. unfold net_read_tlv, net_read_message.
  rewrite tcp_read_exact by (reflexivity || lia).
  set (hi := (len payload / 256) mod 256). set (lo := len payload mod 256).
  change (len [ty; hi; lo]) with 3. rewrite zeros_0, app_nil_r by lia.
  rewrite nth_hdr1, nth_hdr2.
  unfold hi, lo. rewrite hdr_size by auto. fold hi lo.
  assert (L : len (take k payload) = k) by (rewrite len_take; lia).
  destruct (take k payload) as [|x p] eqn:E; [rewrite len_nil in L; lia|].
  rewrite <- E in *. unfold tcp_read.
  replace (len payload <=? 0) with false by lia.
  replace (len (take k payload) <=? len payload) with true by lia.
  cbv iota beta. rewrite L.
  cbn [app read_tlv]. apply mem_spec in Hin. rewrite Hin. cbn [negb].
  rewrite (len_app_zeros _ k) by lia.
  unfold hi, lo. rewrite hdr_size by auto. rewrite Z.eqb_refl. reflexivity.
Qed.

(** A frame longer than the bufio buffer, delivered in one segment, is always
    truncated at the buffer size. *)
Lemma big_frame_bufio ty payload r expected :
  In ty expected -> bufio_size - 3 < len payload < 65536 ->
  let f := write_tlv ty payload in
  net_read_tlv bufio_read (bufio_new (f :: r)) expected =
  (TlvRes (Some (take (bufio_size - 3) payload ++ zeros (len payload - (bufio_size - 3)))) ty None,
   Bufio [] false (drop bufio_size f :: r)).
Proof.
  intros Hin Hlen f. unfold bufio_size in *. change (4096 - 3) with 4093 in *.
  unfold net_read_tlv, net_read_message, bufio_new.
  assert (Hf : len f = 3 + len payload) by apply len_write_tlv.
  assert (H0 : take 4096 f = [ty; (len payload / 256) mod 256; len payload mod 256] ++ take 4093 payload).
  { unfold f. rewrite write_tlv_eq. unfold take.
    replace (Z.to_nat 4096) with (3 + Z.to_nat 4093)%nat by lia. reflexivity. }
  assert (R1 : bufio_read 3 (Bufio [] false (f :: r)) =
    ([ty; (len payload / 256) mod 256; len payload mod 256], false,
     Bufio (take 4093 payload) false (drop 4096 f :: r))).
  { unfold bufio_read. change (3 <=? 0) with false. cbn [bf_buf bf_err bf_rd].
    unfold bufio_size. change (4096 <=? 3) with false.
    unfold tcp_read. change (4096 <=? 0) with false.
    replace (len f <=? 4096) with false by lia. cbv iota. rewrite H0.
    cbn [app]. reflexivity. }
  rewrite R1. cbv iota.
  set (hi := (len payload / 256) mod 256). set (lo := len payload mod 256).
  change (len [ty; hi; lo]) with 3. rewrite zeros_0, app_nil_r by lia.
  rewrite nth_hdr1, nth_hdr2.
  unfold hi, lo. rewrite hdr_size by lia. fold hi lo.
  assert (L : len (take 4093 payload) = 4093) by (rewrite len_take; lia).
  assert (R2 : bufio_read (len payload) (Bufio (take 4093 payload) false (drop 4096 f :: r)) =
    (take 4093 payload, false, Bufio [] false (drop 4096 f :: r))).
  { unfold bufio_read. replace (len payload <=? 0) with false by lia.
    cbn [bf_buf bf_err bf_rd].
    destruct (take 4093 payload) as [|x p] eqn:E; [rewrite len_nil in L; lia|].
    rewrite <- E in *. rewrite take_all, drop_all by lia. reflexivity. }
  rewrite R2. cbv iota. rewrite L.
  cbn [app read_tlv]. apply mem_spec in Hin. rewrite Hin. cbn [negb].
  rewrite (len_app_zeros _ 4093) by lia.
  unfold hi, lo. rewrite hdr_size by lia. rewrite Z.eqb_refl. reflexivity.
Qed.

(** ** Message type names *)

(** A left inverse of [message_type_string]. *)
Definition unhex (d : Z) : Z := if d <? 65 then d - 48 else d - 55.
Definition type_of_name (s : bytes) : Z :=
  if has_prefix (str "Unk") s then
    match drop 17 s with
    | [a; _] => unhex a
    | [a; b; _] => unhex a * 16 + unhex b
    | _ => -1
    end
  else if beqb s (str "SrvQueue") then 1
  else if beqb s (str "MsgLogin") then 2
  else if beqb s (str "TestPrepare") then 3
  else if beqb s (str "TestStart") then 4
  else if beqb s (str "TestMsg") then 5
  else if beqb s (str "TestFinalize") then 6
  else if beqb s (str "MsgError") then 7
  else if beqb s (str "MsgResults") then 8
  else if beqb s (str "MsgLogout") then 9
  else if beqb s (str "MsgWaiting") then 10
  else 11.

Lemma type_of_name_unknown m : byte_ok m -> 11 < m \/ m = 0 ->
  type_of_name (message_type_string m) = m.
Proof.
  unfold byte_ok. intros Hm H.
  assert (E : message_type_string m = str "UnknownMessage(0x" ++ hexX_byte m ++ str ")").
  { unfold message_type_string, SrvQueue, MsgLogin, TestPrepare, TestStart, TestMsg,
      TestFinalize, MsgError, MsgResults, MsgLogout, MsgWaiting, MsgExtendedLogin.
    repeat (match goal with |- context [m =? ?k] => replace (m =? k) with false by lia end).
    reflexivity. }
  rewrite E. unfold type_of_name.
  change (has_prefix (str "Unk") _) with true. cbv iota.
  rewrite drop_app_exact by reflexivity.
  unfold hexX_byte, hex_upper, unhex. destruct (m <? 16) eqn:L; cbn [app str];
    repeat match goal with |- context [if ?c then _ else _] => destruct c eqn:? end; lia.
Qed.

Lemma type_of_name_left_inverse m : byte_ok m -> type_of_name (message_type_string m) = m.
Proof.
  intros Hm. destruct (Z_le_gt_dec m 11) as [L|G]; [|apply type_of_name_unknown; auto; lia].
  destruct (Z.eq_dec m 0) as [->|N]; [apply type_of_name_unknown; auto|].
  unfold byte_ok in Hm.
  assert (C : m = 1 \/ m = 2 \/ m = 3 \/ m = 4 \/ m = 5 \/ m = 6 \/ m = 7 \/ m = 8 \/ m = 9 \/ m = 10 \/ m = 11) by lia.
  repeat destruct C as [->|C]; try reflexivity. subst; reflexivity.
Qed.

Lemma message_type_string_inj a b :
  byte_ok a -> byte_ok b -> message_type_string a = message_type_string b -> a = b.
Proof.
  intros Ha Hb H.
  rewrite <- (type_of_name_left_inverse a Ha), <- (type_of_name_left_inverse b Hb).
  now rewrite H.
Qed.

(** ** Relating the model's writer to the independent wire format *)

Lemma write_tlv_wire ty m : fits m -> write_tlv ty m = wire_frame (ty, m).
Proof.
  unfold fits. intros. rewrite write_tlv_eq. unfold wire_frame. cbn [fst snd].
  pose proof (len_nonneg m). do 2 f_equal. rewrite Z.mod_small; [reflexivity|lia].
Qed.

Lemma frames_wire ms :
  Forall (fun m => fits (snd m)) ms -> frames ms = wire_frames ms.
Proof.
  induction 1 as [|[ty m] ms H HF IH]; [reflexivity|].
  unfold frames, wire_frames in *. cbn [map concat]. rewrite IH.
  unfold frame. cbn [fst snd] in *. now rewrite write_tlv_wire.
Qed.

Lemma map_frames_wire (groups : list (list (Z * bytes))) :
  Forall (fun m => fits (snd m)) (concat groups) ->
  map frames groups = map wire_frames groups.
Proof.
  induction groups as [|g gs IH]; [reflexivity|]. cbn [concat map]. intros H.
  apply Forall_app in H as [H1 H2]. now rewrite frames_wire, IH.
Qed.

Lemma Forall_fits expected (ms : list (Z * bytes)) :
  Forall (fun m => In (fst m) expected /\ fits (snd m)) ms -> Forall (fun m => fits (snd m)) ms.
Proof. intros. eapply Forall_impl; [|eassumption]. cbn. tauto. Qed.

Lemma raw_whole_frames expected (groups : list (list (Z * bytes))) :
  Forall (fun g => g <> []) groups ->
  Forall (fun m => In (fst m) expected /\ fits (snd m)) (concat groups) ->
  net_read_many tcp_read (length (concat groups)) (map wire_frames groups) expected =
  (map (fun m => TlvRes (Some (snd m)) (fst m) None) (concat groups), []).
Proof.
  intros NE OK. rewrite <- map_frames_wire by (eapply Forall_fits; eassumption).
  now apply net_read_many_raw.
Qed.

Lemma bufio_whole_frames expected (groups : list (list (Z * bytes))) :
  Forall (fun g => g <> []) groups ->
  Forall (fun m => In (fst m) expected /\ fits (snd m)) (concat groups) ->
  Forall (fun g => len (wire_frames g) <= 4096) groups ->
  net_read_many bufio_read (length (concat groups)) (bufio_new (map wire_frames groups)) expected =
  (map (fun m => TlvRes (Some (snd m)) (fst m) None) (concat groups), bufio_new []).
Proof.
  intros NE OK SZ.
  assert (F : Forall (fun m : Z * bytes => fits (snd m)) (concat groups)) by (eapply Forall_fits; eassumption).
  assert (SZ' : Forall (fun g => len (frames g) <= bufio_size) groups).
  { clear NE OK. induction groups as [|g gs IH]; [constructor|]. cbn [concat] in F.
    apply Forall_app in F as [F1 F2]. inversion SZ; subst. constructor; auto.
    now rewrite frames_wire. }
  rewrite <- map_frames_wire by assumption.
  now apply net_read_many_bufio.
Qed.

Lemma split_body_raw_wire ty payload k r expected :
  In ty expected -> fits payload -> 0 < k <= len payload ->
  let f := wire_frame (ty, payload) in
  net_read_tlv tcp_read (take (3 + k) f :: cons_seg (drop (3 + k) f) r) expected =
  (TlvRes (Some (take k payload ++ zeros (len payload - k))) ty None,
   cons_seg (drop (3 + k) f) r).
Proof.
  intros. subst f. rewrite <- write_tlv_wire by assumption. now apply split_body_raw.
Qed.

(** Peeking neither loses nor adds a byte. *)
Lemma peek_fill_data fuel n : forall b,
  bufio_data (peek_fill fuel n b) = bufio_data b.
Proof.
  induction fuel as [|f IH]; intros b; cbn [peek_fill]; [reflexivity|].
  destruct (_ && _); [|reflexivity].
  destruct (tcp_read _ (bf_rd b)) as [[d e] t] eqn:E.
  rewrite IH. unfold bufio_data. cbn [bf_buf bf_rd].
  apply tcp_read_data in E. rewrite E, app_assoc. reflexivity.
Qed.

Lemma bufio_read_data n b d e b' :
  bufio_read n b = (d, e, b') -> bufio_data b = d ++ bufio_data b'.
Proof.
  unfold bufio_read, bufio_data. destruct (n <=? 0).
  - destruct (bf_buf b) eqn:B; intros H; injection H as <- <- <-; cbn [bf_buf bf_rd app].
    + reflexivity.
    + now rewrite B.
  - destruct (bf_buf b) as [|x l] eqn:B.
    + destruct (bf_err b).
      * intros H; injection H as <- <- <-. reflexivity.
      * destruct (bufio_size <=? n).
        -- destruct (tcp_read n (bf_rd b)) as [[d0 e0] t0] eqn:E.
           intros H; injection H as <- <- <-. cbn [bf_buf bf_rd app].
           now apply tcp_read_data in E.
        -- destruct (tcp_read bufio_size (bf_rd b)) as [[d0 e0] t0] eqn:E.
           apply tcp_read_data in E.
           destruct d0 as [|y d0]; intros H; injection H as <- <- <-; cbn [bf_buf bf_rd app] in *.
           ++ exact E.
           ++ rewrite app_assoc, take_drop. exact E.
    + intros H; injection H as <- <- <-. cbn [bf_buf bf_rd].
      now rewrite app_assoc, take_drop.
Qed.
