(** Property theorems about NDT5 framing (C01, C02, C03, C52). *)
From Coq Require Import String ZArith List Bool Lia.
From Verif Require Import Base BaseFacts WireModel WireSpec WireProofs WireExact.
Import ListNotations.
Open Scope Z_scope.

(** C01: the bytes WriteTLVMessage puts on the wire are the NDT5 frame. *)
Theorem C01_write_is_wire_format : forall ty payload,
  fits payload -> write_tlv ty payload = wire_frame (ty, payload).
Proof. exact write_tlv_wire. Qed.
Print Assumptions C01_write_is_wire_format.

(** C01: written and read back over a message-preserving connection. *)
Theorem C01_roundtrip : forall ty payload expected,
  In ty expected -> fits payload ->
  read_tlv (Some (write_tlv ty payload)) expected = TlvRes (Some payload) ty None.
Proof. exact tlv_roundtrip. Qed.
Print Assumptions C01_roundtrip.

(** C01: a payload that is too long is never delivered, whatever is expected. *)
Theorem C01_oversize_rejected : forall ty payload expected,
  ~ fits payload ->
  exists e, read_tlv (Some (write_tlv ty payload)) expected = TlvRes None ty (Some e).
Proof. intros. apply tlv_oversize. unfold fits in *. lia. Qed.
Print Assumptions C01_oversize_rejected.

Example C01_example :
  fits (str "v5.0-NDTinGO") /\
  read_tlv (Some (write_tlv MsgLogin (str "v5.0-NDTinGO"))) [SrvQueue; MsgLogin]
  = TlvRes (Some (str "v5.0-NDTinGO")) MsgLogin None.
Proof. vm_compute. auto. Qed.

(** C02: exactly the well-formed frames of an expected type are accepted, and the
    payload returned is the frame's. *)
Theorem C02_accepts_exactly_frames : forall delivered expected payload ty,
  read_tlv delivered expected = TlvRes (Some payload) ty None <->
  In ty expected /\
  exists hi lo, delivered = Some (ty :: hi :: lo :: payload) /\ hi * 256 + lo = len payload.
Proof. exact read_tlv_accepts. Qed.
Print Assumptions C02_accepts_exactly_frames.

(** C02: every other input gives an error and no payload. *)
Theorem C02_total : forall delivered expected,
  (exists payload ty, read_tlv delivered expected = TlvRes (Some payload) ty None) \/
  (exists ty e, read_tlv delivered expected = TlvRes None ty (Some e)).
Proof. exact read_tlv_total. Qed.
Print Assumptions C02_total.

Example C02_example :
  read_tlv (Some [2; 0; 1; 22]) [2; 11] = TlvRes (Some [22]) 2 None /\
  read_tlv (Some [2; 0; 2; 22]) [2; 11] = TlvRes None 2 (Some TlvBadLength) /\
  read_tlv (Some [3; 0; 1; 22]) [2; 11] = TlvRes None 3 (Some TlvWrongType) /\
  read_tlv (Some [3; 0]) [3] = TlvRes None 0 (Some TlvTooShort).
Proof. vm_compute. auto. Qed.

(** C03 on a raw socket (test connections), exactly: the messages sent are the messages read,
    with nothing but what follows them left in the stream, if and only if no segment boundary
    lies inside the three header bytes or inside the payload of a message. *)
Theorem C03_exact_raw : forall ms expected segs rest,
  segmentation (wire_frames ms ++ rest) segs ->
  Forall (fun m => In (fst m) expected /\ fits (snd m)) ms ->
  ((exists segs', net_read_many tcp_read (length ms) segs expected =
      (map (fun m => TlvRes (Some (snd m)) (fst m) None) ms, segs') /\ concat segs' = rest)
   <-> unsplit segs ms).
Proof. intros ms expected segs rest [W D] F. exact (raw_exact ms expected segs rest W F D). Qed.
Print Assumptions C03_exact_raw.

(** C03 on the buffered control connection, exactly, for segments that fit the buffer: what
    the buffer already holds (Peek may have gathered several segments) counts as one segment. *)
Theorem C03_exact_buffered : forall ms expected held segs rest,
  Forall (fun s => s <> [] /\ len s <= 4096) segs -> held ++ concat segs = wire_frames ms ++ rest ->
  Forall (fun m => In (fst m) expected /\ fits (snd m)) ms ->
  ((exists b, net_read_many bufio_read (length ms) (Bufio held false segs) expected =
      (map (fun m => TlvRes (Some (snd m)) (fst m) None) ms, b) /\ bf_buf b ++ concat (bf_rd b) = rest)
   <-> unsplit (held :: segs) ms).
Proof.
  intros ms expected held segs rest W D F.
  apply (bufio_exact ms expected (Bufio held false segs) rest); try assumption; try reflexivity;
    (eapply Forall_impl; [|exact W]); intros s [A B]; assumption.
Qed.
Print Assumptions C03_exact_buffered.

Example C03_exact_example :
  let ms := [(5, str "abc"); (2, [22])] in
  segmentation (wire_frames ms ++ []) [[5; 0; 3]; str "abc" ++ [2; 0; 1; 22]] /\
  fst (net_read_many tcp_read 2 [[5; 0; 3]; str "abc" ++ [2; 0; 1; 22]] [2; 5]) =
  [TlvRes (Some (str "abc")) 5 None; TlvRes (Some [22]) 2 None] /\
  ~ unsplit [[5; 0; 3; 97]; [98; 99; 2; 0; 1; 22]] ms.
Proof.
  split; [split; [repeat constructor; discriminate|reflexivity]|]. split; [reflexivity|].
  intros U. destruct (U [] 5 (str "abc") [(2, [22])] 4 eq_refl) as [_ X]; [|apply X; vm_compute; auto].
  exists [[5; 0; 3; 97]], [[98; 99; 2; 0; 1; 22]]. split; reflexivity.
Qed.

(** C03, a common case on a raw socket (test connections): if every segment
    is a concatenation of whole messages, exactly the messages sent are read, in
    order, and nothing is left over. *)
Theorem C03_whole_frames_raw : forall expected (groups : list (list (Z * bytes))),
  Forall (fun g => g <> []) groups ->
  Forall (fun m => In (fst m) expected /\ fits (snd m)) (concat groups) ->
  net_read_many tcp_read (length (concat groups)) (map wire_frames groups) expected =
  (map (fun m => TlvRes (Some (snd m)) (fst m) None) (concat groups), []).
Proof. exact raw_whole_frames. Qed.
Print Assumptions C03_whole_frames_raw.

(** C03, the same case on the buffered control connection: as above, if in
    addition no segment exceeds the 4096-byte buffer. *)
Theorem C03_whole_frames_buffered : forall expected (groups : list (list (Z * bytes))),
  Forall (fun g => g <> []) groups ->
  Forall (fun m => In (fst m) expected /\ fits (snd m)) (concat groups) ->
  Forall (fun g => len (wire_frames g) <= 4096) groups ->
  net_read_many bufio_read (length (concat groups)) (bufio_new (map wire_frames groups)) expected =
  (map (fun m => TlvRes (Some (snd m)) (fst m) None) (concat groups), bufio_new []).
Proof. exact bufio_whole_frames. Qed.
Print Assumptions C03_whole_frames_buffered.

Example C03_example :
  let groups := [[(5, str "abc")]; [(5, []); (2, [22])]] in
  Forall (fun g => len (wire_frames g) <= 4096) groups /\
  net_read_many bufio_read 3 (bufio_new (map wire_frames groups)) [2; 5] =
  ([TlvRes (Some (str "abc")) 5 None; TlvRes (Some []) 5 None; TlvRes (Some [22]) 2 None], bufio_new []).
Proof. split; [repeat constructor; vm_compute; discriminate | vm_compute; reflexivity]. Qed.

(** C03 refuted: every message whose first byte arrives alone is accepted as an
    empty message of that type, and its remaining bytes stay in the stream (raw
    socket and buffered). *)
Theorem C03_split_header_refuted : forall ty payload r expected,
  In ty expected ->
  let rest := drop 1 (write_tlv ty payload) in
  net_read_tlv tcp_read ([ty] :: rest :: r) expected = (TlvRes (Some []) ty None, rest :: r) /\
  net_read_tlv bufio_read (bufio_new ([ty] :: rest :: r)) expected =
    (TlvRes (Some []) ty None, bufio_new (rest :: r)).
Proof. intros. split; [now apply split_header_raw | now apply split_header_bufio]. Qed.
Print Assumptions C03_split_header_refuted.

(** C03 refuted, exactly: a message cut k > 0 bytes into its payload is accepted
    with every byte from position k on replaced by zero. *)
Theorem C03_split_body_refuted : forall ty payload k r expected,
  In ty expected -> fits payload -> 0 < k <= len payload ->
  let f := wire_frame (ty, payload) in
  net_read_tlv tcp_read (take (3 + k) f :: cons_seg (drop (3 + k) f) r) expected =
  (TlvRes (Some (take k payload ++ zeros (len payload - k))) ty None,
   cons_seg (drop (3 + k) f) r).
Proof. exact split_body_raw_wire. Qed.
Print Assumptions C03_split_body_refuted.

(** C03 refuted on the buffered control connection: every message longer than the
    buffer, even if delivered in one segment, is accepted with everything after
    payload byte 4093 replaced by zeros. *)
Theorem C03_long_frame_refuted : forall ty payload r expected,
  In ty expected -> 4093 < len payload -> fits payload ->
  let f := write_tlv ty payload in
  net_read_tlv bufio_read (bufio_new (f :: r)) expected =
  (TlvRes (Some (take 4093 payload ++ zeros (len payload - 4093))) ty None,
   bufio_new (drop 4096 f :: r)).
Proof. intros. now apply big_frame_bufio. Qed.
Print Assumptions C03_long_frame_refuted.

(** The naive claim in one sentence, and its negation: there are a message and a
    segmentation of its wire form for which something else is read. *)
Theorem C03_segmentation_independence_refuted :
  ~ (forall ty payload segs expected,
       In ty expected -> fits payload -> segmentation (wire_frame (ty, payload)) segs ->
       fst (net_read_tlv bufio_read (bufio_new segs) expected) = TlvRes (Some payload) ty None).
Proof.
  intros H. specialize (H 5 [7] [[5]; [0; 1; 7]] [5]).
  assert (C : fst (net_read_tlv bufio_read (bufio_new [[5]; [0; 1; 7]]) [5])
              = TlvRes (Some []) 5 None) by reflexivity.
  rewrite C in H. discriminate H.
  - left; reflexivity.
  - unfold fits. vm_compute. reflexivity.
  - split; [repeat constructor; discriminate | reflexivity].
Qed.
Print Assumptions C03_segmentation_independence_refuted.

(** C52 (first half): names of message types are unambiguous. *)
Theorem C52_message_type_names_injective : forall a b,
  byte_ok a -> byte_ok b -> message_type_string a = message_type_string b -> a = b.
Proof. exact message_type_string_inj. Qed.
Print Assumptions C52_message_type_names_injective.

Example C52_example : message_type_string 171 = str "UnknownMessage(0xAB)".
Proof. reflexivity. Qed.
