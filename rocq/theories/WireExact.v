(** The segmentations for which messages on a TCP connection are read correctly. *)
From Coq Require Import ZArith List Bool Lia.
From Verif Require Import Base BaseFacts WireModel WireSpec WireProofs.
Import ListNotations.
Open Scope Z_scope.

Lemma cut_0 t : cut_at t 0.
Proof. exists [], t. split; reflexivity. Qed.

Lemma cut_cons s t k : cut_at (s :: t) k <-> k = 0 \/ cut_at t (k - len s).
Proof.
  split.
  - intros (a & b & E & L). destruct a as [|x a]; [left; cbn in L; auto|]. injection E as -> ->. right. exists a, b.
    split; [reflexivity|]. cbn [concat] in L. rewrite len_app in L. lia.
  - intros [-> |(a & b & -> & L)]; [apply cut_0|]. exists (s :: a), b. split; [reflexivity|]. cbn [concat]. rewrite len_app. lia.
Qed.

Lemma cut_nonneg t k : cut_at t k -> 0 <= k.
Proof. intros (a & b & _ & <-). apply len_nonneg. Qed.

Lemma seg_pos (s : bytes) : s <> [] -> 0 < len s.
Proof. destruct s; [contradiction|]. intros _. rewrite len_cons. pose proof (len_nonneg s). lia. Qed.

(** One Read of [n] bytes is complete iff no boundary cuts them; then the boundaries of what
    is left are those of the stream. *)
Lemma tcp_read_cut n t d e t' : tcp_wf t -> 0 <= n <= len (tcp_data t) -> tcp_read n t = (d, e, t') ->
  tcp_wf t' /\ e = false /\ len d <= n /\ tcp_data t = d ++ tcp_data t' /\
  (len d = n <-> forall k, cut_at t k -> ~ (0 < k < n)) /\
  (len d = n -> forall k, 0 < k -> (cut_at t' k <-> cut_at t (n + k))).
Proof.
  intros W N H. pose proof (tcp_read_data _ _ _ _ _ H) as D. unfold tcp_read in H. destruct (Z.leb_spec n 0) as [Z|Z].
  - injection H as <- <- <-. assert (n = 0) by lia. subst n. rewrite len_nil.
    split; [exact W|]. split; [reflexivity|]. split; [lia|]. split; [exact D|]. split; [split; intros; lia|]. intros _ k K. rewrite Z.add_0_l. tauto.
  - destruct t as [|s r]; [cbn in N; lia|]. inversion W as [|x l W1 W2]; subst. pose proof (seg_pos s W1) as SP.
    destruct (Z.leb_spec (len s) n) as [L|L]; injection H as <- <- <-.
    + split; [exact W2|]. split; [reflexivity|]. split; [lia|]. split; [exact D|]. split.
      * split; [intros E k C|].
        -- apply cut_cons in C. destruct C as [-> |C]; [lia|]. apply cut_nonneg in C. lia.
        -- intros C. specialize (C (len s)). destruct (Z.eq_dec (len s) n) as [E|E]; [exact E|]. exfalso. apply C; [|lia].
           apply cut_cons. right. rewrite Z.sub_diag. apply cut_0.
      * intros E k K. rewrite cut_cons. replace (n + k - len s) with k by lia. intuition lia.
    + assert (LT : len (take n s) = n) by (rewrite len_take by lia; lia).
      split. { constructor; [|exact W2]. intros E. assert (X : len (drop n s) = 0) by (rewrite E; reflexivity). rewrite len_drop in X by lia. lia. }
      split; [reflexivity|]. split; [lia|]. split; [exact D|]. split.
      * split; [|intros _; exact LT]. intros _ k C. apply cut_cons in C. destruct C as [-> |C]; [lia|]. apply cut_nonneg in C. lia.
      * intros _ k K. rewrite !cut_cons. rewrite len_drop by lia. replace (n + k - len s) with (k - Z.max 0 (len s - n)) by lia. intuition lia.
Qed.

(** Reading one message off a stream that starts with it. *)
Lemma read_one t ty p rest expected r t' : tcp_wf t -> fits p -> In ty expected ->
  tcp_data t = wire_frame (ty, p) ++ rest -> net_read_tlv tcp_read t expected = (r, t') ->
  (forall k, cut_at t k -> ~ (0 < k < 3) /\ ~ (3 < k < 3 + len p)) ->
  r = TlvRes (Some p) ty None /\ tcp_data t' = rest /\ tcp_wf t' /\
  forall k, 0 < k -> (cut_at t' k <-> cut_at t (3 + len p + k)).
Proof.
  intros W F I D H C. unfold net_read_tlv, net_read_message in H. pose proof (len_nonneg p) as LP. pose proof (len_nonneg rest) as LR.
  unfold wire_frame in D. cbn [fst snd app] in D.
  assert (LD : len (tcp_data t) = 3 + len p + len rest) by (rewrite D, !len_cons, len_app; lia).
  destruct (tcp_read 3 t) as [[h e1] t1] eqn:R1.
  destruct (tcp_read_cut 3 t h e1 t1 W ltac:(lia) R1) as (W1 & -> & L1 & D1 & E1 & C1).
  assert (H3 : len h = 3) by (apply E1; intros k K; apply C, K). specialize (C1 H3).
  rewrite D in D1. destruct h as [|a [|b [|c [|z h]]]]; rewrite ?len_cons, ?len_nil in H3; try lia; [|pose proof (len_nonneg h); lia].
  cbn [app] in D1. injection D1 as <- <- <- D1.
  assert (SZ : Z.shiftl (len p / 256) 8 + len p mod 256 = len p) by (rewrite Z.shiftl_mul_pow2 by lia; change (2 ^ 8) with 256; pose proof (Z.div_mod (len p) 256); lia).
  change (zeros (3 - len [ty; len p / 256; len p mod 256])) with (@nil Z) in H. rewrite app_nil_r in H. cbn [nth] in H. rewrite SZ in H.
  destruct (tcp_read (len p) t1) as [[d e2] t2] eqn:R2.
  assert (LD1 : len (tcp_data t1) = len p + len rest) by (rewrite <- D1, len_app; lia).
  destruct (tcp_read_cut (len p) t1 d e2 t2 W1 ltac:(lia) R2) as (W2 & -> & L2 & D2 & E2 & C2).
  assert (HP : len d = len p). { apply E2. intros k K [K1 K2]. apply C1 in K; [|lia]. apply (C (3 + k) K). lia. }
  rewrite <- D1 in D2. assert (d = p /\ tcp_data t2 = rest) as [-> X].
  { assert (Y : take (len p) (p ++ rest) = take (len p) (d ++ tcp_data t2)) by congruence.
    rewrite !take_app_exact in Y by (exact HP || reflexivity). subst d. apply app_inv_head in D2. auto. }
  rewrite Z.sub_diag in H. change (zeros 0) with (@nil Z) in H. rewrite app_nil_r in H. apply pair_equal_spec in H. destruct H as [<- <-].
  split; [|split; [exact X|split; [exact W2|]]].
  - apply read_tlv_accepts. split; [exact I|]. exists (len p / 256), (len p mod 256). split; [reflexivity|]. rewrite Z.shiftl_mul_pow2 in SZ by lia. exact SZ.
  - intros k K. rewrite (C2 HP k K). rewrite C1 by lia. rewrite Z.add_assoc. reflexivity.
Qed.

(** An accepted message used at most its length of the stream, and if it used that much its
    two Reads were complete. *)
Lemma accepted_used t ty p expected t' : tcp_wf t -> fits p -> net_read_tlv tcp_read t expected = (TlvRes (Some p) ty None, t') ->
  tcp_wf t' /\ exists d, tcp_data t = d ++ tcp_data t' /\ len d <= 3 + len p /\
  (len d = 3 + len p -> forall k, cut_at t k -> ~ (0 < k < 3) /\ ~ (3 < k < 3 + len p)).
Proof.
  intros W F H. unfold net_read_tlv, net_read_message in H.
  destruct (tcp_read 3 t) as [[h e1] t1] eqn:R1. destruct e1.
  { injection H as H _. discriminate H. }
  assert (X1 : tcp_wf t1 /\ tcp_data t = h ++ tcp_data t1 /\ len h <= 3 /\ (len h = 3 -> (forall k, cut_at t k -> ~ (0 < k < 3)) /\ forall k, 0 < k -> (cut_at t1 k <-> cut_at t (3 + k)))).
  { destruct (Z.leb_spec 3 (len (tcp_data t))) as [L|L].
    - destruct (tcp_read_cut 3 t h false t1 W ltac:(lia) R1) as (A & _ & B & C & D & E). split; [exact A|]. split; [exact C|]. split; [exact B|]. intros G. split; [apply D, G|apply E, G].
    - pose proof (tcp_read_data _ _ _ _ _ R1) as D. assert (LD : len (tcp_data t) = len h + len (tcp_data t1)) by (rewrite D, len_app; reflexivity).
      pose proof (len_nonneg (tcp_data t1)). split; [|split; [exact D|split; [lia|lia]]].
      unfold tcp_read in R1. cbn [Z.leb Z.compare] in R1. destruct t as [|s r]; [injection R1 as <- ? <-; constructor|].
      inversion W as [|x l W1 W2]; subst. destruct (Z.leb_spec (len s) 3) as [Q|Q]; injection R1 as <- <-; [exact W2|].
      cbn [tcp_data List.concat] in L. unfold tcp_data in L. cbn [concat] in L. rewrite len_app in L. pose proof (len_nonneg (concat r)). lia. }
  destruct X1 as (W1 & D1 & L1 & C1).
  set (f3 := h ++ zeros (3 - len h)) in *. set (size := Z.shiftl (nth 1 f3 0) 8 + nth 2 f3 0) in *.
  destruct (tcp_read size t1) as [[d e2] t2] eqn:R2. destruct e2; [injection H as H _; discriminate H|]. apply pair_equal_spec in H. destruct H as [H <-].
  apply read_tlv_accepts in H. destruct H as (_ & hi & lo & E & _). injection E as E.
  assert (L3 : len f3 = 3) by (unfold f3; rewrite len_app, len_zeros by lia; lia).
  assert (LZ : len (d ++ zeros (size - len d)) = len p).
  { assert (Y : len (f3 ++ (d ++ zeros (size - len d))) = 3 + len p) by (rewrite E, !len_cons; lia). rewrite len_app in Y. lia. }
  assert (LDn : len d <= Z.max 0 size).
  { unfold tcp_read in R2. destruct (Z.leb_spec size 0); [injection R2 as <- <-; cbn; lia|]. destruct t1 as [|s r]; [discriminate|].
    destruct (Z.leb_spec (len s) size); injection R2 as <- <-; [lia|]. rewrite len_take by lia. lia. }
  rewrite len_app in LZ. assert (LZ2 : len (zeros (size - len d)) = Z.max 0 (size - len d)) by (unfold zeros, len; rewrite repeat_length; lia).
  assert (LDp : len d <= len p) by (pose proof (len_nonneg (zeros (size - len d))); lia).
  assert (W2 : tcp_wf t2).
  { unfold tcp_read in R2. destruct (Z.leb_spec size 0); [injection R2 as <- <-; exact W1|]. destruct t1 as [|s r]; [discriminate|].
    inversion W1 as [|x l Y1 Y2]; subst. destruct (Z.leb_spec (len s) size); injection R2 as <- <-; [exact Y2|]. constructor; [|exact Y2].
    intros Q. assert (X : len (drop size s) = 0) by (rewrite Q; reflexivity). rewrite len_drop in X by lia. lia. }
  split; [exact W2|]. pose proof (tcp_read_data _ _ _ _ _ R2) as D2. exists (h ++ d).
  split; [rewrite D1, D2, app_assoc; reflexivity|]. rewrite len_app. split; [lia|]. intros EQ.
  assert (H3 : len h = 3) by lia. assert (HP : len d = len p) by lia. destruct (C1 H3) as [C2 C3].
  pose proof (len_nonneg p) as PN. destruct (Z.eq_dec (len p) 0) as [P0|P0].
  { intros k K. split; [apply C2, K|lia]. }
  assert (SZ : size = len p) by lia. rewrite SZ in R2.
  assert (LL : len (tcp_data t1) = len d + len (tcp_data t2)) by (rewrite D2, len_app; reflexivity). pose proof (len_nonneg (tcp_data t2)).
  destruct (tcp_read_cut (len p) t1 d false t2 W1 ltac:(lia) R2) as (_ & _ & _ & _ & G & _).
  intros k K. split; [apply C2, K|]. intros [K1 K2]. apply (proj1 G HP (k - 3)); [|lia]. apply C3; [lia|]. replace (3 + (k - 3)) with k by lia. exact K.
Qed.

Lemma wire_frames_cons m ms : wire_frames (m :: ms) = wire_frame m ++ wire_frames ms.
Proof. reflexivity. Qed.
Lemma len_wire_frame m : len (wire_frame m) = 3 + len (snd m).
Proof. unfold wire_frame. rewrite !len_cons. lia. Qed.

Lemma unsplit_cons t ty p ms t' : 
  (forall k, 0 < k -> (cut_at t' k <-> cut_at t (3 + len p + k))) ->
  (unsplit t ((ty, p) :: ms) <-> (forall k, cut_at t k -> ~ (0 < k < 3) /\ ~ (3 < k < 3 + len p)) /\ unsplit t' ms).
Proof.
  intros C. pose proof (len_nonneg p) as LP. split.
  - intros U. split.
    + intros k K. apply (U [] ty p ms k eq_refl K).
    + intros before ty' p' after k -> K o. pose proof (len_nonneg (wire_frames before)) as LB. fold o in LB. pose proof (len_nonneg p').
      destruct (Z.leb_spec k 0) as [Z|Z]; [split; lia|]. apply C in K; [|exact Z].
      pose proof (U ((ty, p) :: before) ty' p' after _ eq_refl K) as X. cbv zeta in X.
      rewrite wire_frames_cons, len_app, len_wire_frame in X. cbn [snd] in X. fold o in X. split; intros Y; [apply (proj1 X)|apply (proj2 X)]; lia.
  - intros [A U] before ty' p' after k E K o. destruct before as [|[ty0 p0] before].
    + injection E as -> -> _. apply A, K.
    + injection E as <- <- E. unfold o. rewrite wire_frames_cons, len_app, len_wire_frame. cbn [snd].
      pose proof (len_nonneg (wire_frames before)) as LB. pose proof (len_nonneg p').
      destruct (Z.leb_spec k (3 + len p)) as [Z|Z]; [split; lia|].
      assert (K' : cut_at t' (k - (3 + len p))) by (apply C; [lia|]; replace (3 + len p + (k - (3 + len p))) with k by lia; exact K).
      pose proof (U before ty' p' after _ E K') as X. cbv zeta in X. split; intros Y; [apply (proj1 X)|apply (proj2 X)]; lia.
Qed.

Definition accepted (m : Z * bytes) : tlv_result := TlvRes (Some (snd m)) (fst m) None.

(** An upper bound of what accepted messages use. *)
Lemma many_used ms expected : forall t t', tcp_wf t -> Forall (fun m => fits (snd m)) ms ->
  net_read_many tcp_read (length ms) t expected = (map accepted ms, t') ->
  len (tcp_data t) <= len (wire_frames ms) + len (tcp_data t').
Proof.
  induction ms as [|[ty p] ms IH]; intros t t' W F H; cbn [length net_read_many map] in H.
  - injection H as <-. cbn. lia.
  - inversion F as [|x l F1 F2]; subst. cbn [snd] in F1.
    destruct (net_read_tlv tcp_read t expected) as [r t1] eqn:R1. destruct (net_read_many tcp_read (length ms) t1 expected) as [rs t2] eqn:R2.
    injection H as -> -> <-. destruct (accepted_used t ty p expected t1 W F1 R1) as (W1 & d & D & L & _).
    specialize (IH t1 t2 W1 F2 R2). rewrite wire_frames_cons, len_app, len_wire_frame. cbn [snd]. rewrite D, len_app. lia.
Qed.

Theorem raw_exact ms expected : forall t rest, tcp_wf t -> Forall (fun m => In (fst m) expected /\ fits (snd m)) ms ->
  tcp_data t = wire_frames ms ++ rest ->
  ((exists t', net_read_many tcp_read (length ms) t expected = (map accepted ms, t') /\ tcp_data t' = rest) <-> unsplit t ms).
Proof.
  induction ms as [|[ty p] ms IH]; intros t rest W F D.
  - split.
    + intros _ before ty p after k E. destruct before; discriminate E.
    + intros _. exists t. split; [reflexivity|exact D].
  - inversion F as [|x l [F1 F1'] F2]; subst. cbn [fst snd] in F1, F1'.
    rewrite wire_frames_cons, <- app_assoc in D. cbn [length net_read_many map].
    destruct (net_read_tlv tcp_read t expected) as [r t1] eqn:R1. destruct (net_read_many tcp_read (length ms) t1 expected) as [rs t2] eqn:R2.
    split.
    + intros (t' & H & E). injection H as -> -> <-.
      destruct (accepted_used t ty p expected t1 W F1' R1) as (W1 & d & D1 & L & C).
      assert (F3 : Forall (fun m => fits (snd m)) ms) by (eapply Forall_impl; [|exact F2]; intros m [_ X]; exact X).
      pose proof (many_used ms expected t1 t2 W1 F3 R2) as U. rewrite E in U.
      assert (LD : len (tcp_data t) = 3 + len p + len (wire_frames ms) + len rest) by (rewrite D, !len_app, len_wire_frame; cbn [snd]; lia).
      assert (LD1 : len (tcp_data t) = len d + len (tcp_data t1)) by (rewrite D1, len_app; reflexivity).
      assert (Q : len d = 3 + len p) by lia. specialize (C Q).
      destruct (read_one t ty p (wire_frames ms ++ rest) expected _ _ W F1' F1 D R1 C) as (_ & D2 & _ & K).
      apply (unsplit_cons t ty p ms t1 K). split; [exact C|]. apply (IH t1 rest W1 F2 D2). exists t2. split; [exact R2|exact E].
    + intros U. assert (C : forall k, cut_at t k -> ~ (0 < k < 3) /\ ~ (3 < k < 3 + len p)) by (intros k K; apply (U [] ty p ms k eq_refl K)).
      destruct (read_one t ty p (wire_frames ms ++ rest) expected _ _ W F1' F1 D R1 C) as (-> & D2 & W1 & K).
      apply (unsplit_cons t ty p ms t1 K) in U. destruct U as [_ U].
      apply (IH t1 rest W1 F2 D2) in U. destruct U as (t' & H & E). rewrite R2 in H. injection H as -> ->. exists t'. auto.
Qed.

(** ** The buffered connection: as long as no segment exceeds the buffer, its Reads are those
    of a socket whose first segment is what the buffer holds *)
Definition view (b : bufio) : list bytes := match bf_buf b with [] => bf_rd b | _ => bf_buf b :: bf_rd b end.

Definition small (b : bufio) : Prop := bf_err b = false /\ Forall (fun s => len s <= 4096) (bf_rd b).

Lemma drop_nil_iff n (l : bytes) : 0 <= n -> (drop n l = [] <-> len l <= n).
Proof.
  intros N. split; intros H.
  - assert (X : len (drop n l) = 0) by (rewrite H; reflexivity). rewrite len_drop in X by lia. lia.
  - assert (X : len (drop n l) = 0) by (rewrite len_drop by lia; lia). destruct (drop n l) as [|a r]; [reflexivity|]. rewrite len_cons in X. pose proof (len_nonneg r). lia.
Qed.

Lemma view_drop n (buf : bytes) rd : 0 < n -> buf <> [] ->
  tcp_read n (buf :: rd) = (take n buf, false, view (Bufio (drop n buf) false rd)).
Proof.
  intros N B. unfold tcp_read. destruct (Z.leb_spec n 0); [lia|]. unfold view. cbn [bf_buf bf_rd].
  destruct (Z.leb_spec (len buf) n) as [L|L].
  - rewrite (proj2 (drop_nil_iff n buf ltac:(lia)) L). rewrite take_all by lia. reflexivity.
  - destruct (drop n buf) eqn:D; [|reflexivity]. apply drop_nil_iff in D; lia.
Qed.

Lemma bufio_as_tcp n b : tcp_wf (bf_rd b) -> small b ->
  let '(d, e, b') := bufio_read n b in
  tcp_wf (bf_rd b') /\ small b' /\ tcp_read n (view b) = (d, e, view b').
Proof.
  intros W [E S]. destruct b as [buf err rd]. cbn [bf_buf bf_err bf_rd] in *. subst err. unfold bufio_read. cbn [bf_buf bf_err bf_rd].
  destruct (Z.leb_spec n 0) as [N|N].
  - destruct buf as [|x buf].
    + split; [exact W|]. split; [split; [reflexivity|exact S]|]. unfold view, tcp_read. cbn [bf_buf bf_rd]. destruct (Z.leb_spec n 0); [reflexivity|lia].
    + split; [exact W|]. split; [split; [reflexivity|exact S]|]. unfold tcp_read. destruct (Z.leb_spec n 0); [reflexivity|lia].
  - destruct buf as [|x buf].
    + destruct (Z.leb_spec bufio_size n) as [G|G].
      * destruct (tcp_read n rd) as [[d e] t] eqn:R. unfold view. cbn [bf_buf bf_rd]. split; [|split; [split; [reflexivity|]|exact R]].
        -- unfold tcp_read in R. destruct (Z.leb_spec n 0); [lia|]. destruct rd as [|s r]; [injection R as <- <- <-; constructor|].
           inversion W as [|q l W1 W2]; subst. inversion S as [|q l S1 S2]; subst. change bufio_size with 4096 in G. destruct (Z.leb_spec (len s) n); injection R as <- <- <-; [exact W2|lia].
        -- cbn [bf_rd]. unfold tcp_read in R. destruct (Z.leb_spec n 0); [lia|]. destruct rd as [|s r]; [injection R as <- <- <-; constructor|].
           inversion S as [|q l S1 S2]; subst. change bufio_size with 4096 in G. destruct (Z.leb_spec (len s) n); injection R as <- <- <-; [exact S2|lia].
      * destruct rd as [|s r].
        -- cbn [tcp_read]. change (bufio_size <=? 0) with false. cbv iota. unfold view, tcp_read. cbn [bf_buf bf_rd]. destruct (Z.leb_spec n 0); [lia|].
           split; [exact W|]. split; [split; [reflexivity|exact S]|reflexivity].
        -- inversion W as [|q l W1 W2]; subst. inversion S as [|q l S1 S2]; subst. unfold tcp_read at 1. change (bufio_size <=? 0) with false. cbv iota.
           change bufio_size with 4096. destruct (Z.leb_spec (len s) 4096); [|lia]. destruct s as [|c s]; [contradiction W1; reflexivity|].
           cbn [bf_rd]. split; [exact W2|]. split; [split; [reflexivity|exact S2]|]. unfold view at 1. cbn [bf_buf bf_rd]. apply view_drop; [lia|discriminate].
    + split; [exact W|]. split; [split; [reflexivity|exact S]|]. unfold view at 1. cbn [bf_buf bf_rd]. apply view_drop; [lia|discriminate].
Qed.

Lemma many_as_tcp expected n : forall b, tcp_wf (bf_rd b) -> small b ->
  let '(rs, b') := net_read_many bufio_read n b expected in
  small b' /\ net_read_many tcp_read n (view b) expected = (rs, view b').
Proof.
  induction n as [|n IH]; intros b W S; cbn [net_read_many]; [auto|].
  destruct (net_read_tlv bufio_read b expected) as [r b1] eqn:R1.
  assert (X : tcp_wf (bf_rd b1) /\ small b1 /\ net_read_tlv tcp_read (view b) expected = (r, view b1)).
  { unfold net_read_tlv, net_read_message in *. pose proof (bufio_as_tcp 3 b W S) as P1. destruct (bufio_read 3 b) as [[h e] b2].
    destruct P1 as (W1 & S1 & ->). destruct e; [injection R1 as <- <-; auto|].
    match goal with |- context [tcp_read ?z (view b2)] => pose proof (bufio_as_tcp z b2 W1 S1) as P2; destruct (bufio_read z b2) as [[d e] b3] end.
    destruct P2 as (W2 & S2 & ->). destruct e; apply pair_equal_spec in R1; destruct R1 as [<- <-]; auto. }
  destruct X as (W1 & S1 & ->). specialize (IH b1 W1 S1). destruct (net_read_many bufio_read n b1 expected) as [rs b2].
  destruct IH as [S2 ->]. auto.
Qed.

Lemma view_data b : tcp_data (view b) = bufio_data b.
Proof. unfold view, bufio_data, tcp_data. destruct (bf_buf b); reflexivity. Qed.

Lemma cut_nil_front t k : cut_at ([] :: t) k <-> cut_at t k.
Proof.
  rewrite cut_cons. cbn. rewrite Z.sub_0_r. split; [intros [-> |H]; [apply cut_0|exact H]|right; assumption].
Qed.

Lemma unsplit_view b ms : unsplit (view b) ms <-> unsplit (bf_buf b :: bf_rd b) ms.
Proof.
  unfold view. destruct (bf_buf b) as [|x r]; [|tauto]. unfold unsplit. split; intros H before ty p after k E K; (apply (H before ty p after k E)); apply cut_nil_front; assumption.
Qed.

Theorem bufio_exact ms expected : forall b rest, tcp_wf (bf_rd b) -> bf_err b = false -> Forall (fun s => len s <= 4096) (bf_rd b) ->
  Forall (fun m => In (fst m) expected /\ fits (snd m)) ms -> bufio_data b = wire_frames ms ++ rest ->
  ((exists b', net_read_many bufio_read (length ms) b expected = (map accepted ms, b') /\ bufio_data b' = rest)
   <-> unsplit (bf_buf b :: bf_rd b) ms).
Proof.
  intros b rest W E S F D.
  assert (WV : tcp_wf (view b)) by (unfold view; destruct (bf_buf b) eqn:B; [exact W|constructor; [discriminate|exact W]]).
  rewrite <- view_data in D. rewrite <- unsplit_view, <- (raw_exact ms expected (view b) rest WV F D).
  pose proof (many_as_tcp expected (length ms) b W (conj E S)) as M. destruct (net_read_many bufio_read (length ms) b expected) as [rs b'].
  destruct M as [_ ->]. split.
  - intros (b2 & H & Q). injection H as -> <-. exists (view b'). rewrite view_data. auto.
  - intros (t & H & Q). injection H as -> <-. exists b'. rewrite <- view_data. auto.
Qed.
