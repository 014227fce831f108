(** Model of NDT5 framing: ndt5/protocol/protocol.go (message types, TLV frames,
    netConnection.ReadMessage) and of the part of bufio.Reader it depends on. *)
From Coq Require Import String ZArith List Bool.
From Verif Require Import Base.
Import ListNotations.
Open Scope Z_scope.

(** Message types, protocol.go:28-54.  A [MessageType] is a byte. *)
Definition MsgUnknown : Z := 0.
Definition SrvQueue : Z := 1.
Definition MsgLogin : Z := 2.
Definition TestPrepare : Z := 3.
Definition TestStart : Z := 4.
Definition TestMsg : Z := 5.
Definition TestFinalize : Z := 6.
Definition MsgError : Z := 7.
Definition MsgResults : Z := 8.
Definition MsgLogout : Z := 9.
Definition MsgWaiting : Z := 10.
Definition MsgExtendedLogin : Z := 11.

(** One upper-case hexadecimal digit, as printed by fmt's %X. *)
Definition hex_upper (d : Z) : Z := if d <? 10 then 48 + d else 55 + d.

(** fmt.Sprintf("%X", byte): one digit below 16, two otherwise. *)
Definition hexX_byte (b : Z) : bytes :=
  if b <? 16 then [hex_upper b] else [hex_upper (b / 16); hex_upper (b mod 16)].

(** MessageType.String, protocol.go:56-83. *)
Definition message_type_string (m : Z) : bytes :=
  if m =? SrvQueue then str "SrvQueue" else
  if m =? MsgLogin then str "MsgLogin" else
  if m =? TestPrepare then str "TestPrepare" else
  if m =? TestStart then str "TestStart" else
  if m =? TestMsg then str "TestMsg" else
  if m =? TestFinalize then str "TestFinalize" else
  if m =? MsgError then str "MsgError" else
  if m =? MsgResults then str "MsgResults" else
  if m =? MsgLogout then str "MsgLogout" else
  if m =? MsgWaiting then str "MsgWaiting" else
  if m =? MsgExtendedLogin then str "MsgExtendedLogin" else
  str "UnknownMessage(0x" ++ hexX_byte m ++ str ")".

(** Errors ReadTLVMessage can return, protocol.go:341-363. *)
Inductive tlv_error :=
| TlvConnError            (* the error of ReadMessage, passed through, :343-345 *)
| TlvTooShort             (* :346-348 *)
| TlvWrongType            (* :349-355 *)
| TlvBadLength.           (* :357-361 *)

(** Result of ReadTLVMessage: payload (nil when None), type and error. *)
Record tlv_result := TlvRes {
  tlv_payload : option bytes;
  tlv_type : Z;
  tlv_err : option tlv_error
}.

(** ReadTLVMessage, protocol.go:341-363.  The argument is what ws.ReadMessage()
    delivered: [None] for an error, [Some inbuff] otherwise.  The error texts are
    abstracted to [tlv_error]. *)
Definition read_tlv (inbuff : option bytes) (expected : list Z) : tlv_result :=
  match inbuff with
  | None => TlvRes None MsgUnknown (Some TlvConnError)
  | Some (b0 :: b1 :: b2 :: rest) =>
      if negb (mem b0 expected) then TlvRes None b0 (Some TlvWrongType)
      else if negb (Z.shiftl b1 8 + b2 =? len rest) then TlvRes None b0 (Some TlvBadLength)
      else TlvRes (Some rest) b0 None
  | Some _ => TlvRes None MsgUnknown (Some TlvTooShort)
  end.

(** WriteTLVMessage, protocol.go:366-379: the bytes handed to ws.WriteMessage. *)
Definition write_tlv (msgType : Z) (message : bytes) : bytes :=
  msgType :: Z.land (Z.shiftr (len message) 8) 255 :: Z.land (len message) 255 :: message.

(** ** TCP input and bufio.Reader

    The data a TCP socket will deliver is a list of segments: one Read returns at
    most (the rest of) one segment.  Arbitrary segment lists cover every way the
    kernel may cut or merge the stream.  When the segments are used up every
    further Read fails (EOF, reset or deadline).  *)
Definition tcp := list bytes.

(** Segments are non-empty: a blocking Read never returns 0 bytes without error. *)
Definition tcp_wf (t : tcp) : Prop := Forall (fun s => s <> []) t.

(** The bytes that a socket still delivers. *)
Definition tcp_data (t : tcp) : bytes := List.concat t.

(** net.Conn.Read(p) with len(p) = n: bytes read, failed?, rest. *)
Definition tcp_read (n : Z) (t : tcp) : bytes * bool * tcp :=
  if n <=? 0 then ([], false, t)
  else match t with
       | [] => ([], true, [])
       | s :: r => if len s <=? n then (s, false, r)
                   else (take n s, false, drop n s :: r)
       end.

(** bufio.Reader (Go standard library): buffered bytes, the stored read error, the
    underlying socket.  bufio.NewReader uses a 4096-byte buffer. *)
Record bufio := Bufio { bf_buf : bytes; bf_err : bool; bf_rd : tcp }.
Definition bufio_size : Z := 4096.

(** bufio.NewReader(conn) as called in plain.go:56. *)
Definition bufio_new (t : tcp) : bufio := Bufio [] false t.

(** The bytes a bufio.Reader still delivers. *)
Definition bufio_data (b : bufio) : bytes := bf_buf b ++ tcp_data (bf_rd b).

(** bufio.Reader.Read(p) with len(p) = n: at most one Read of the socket; a read
    of at least 4096 bytes with an empty buffer goes directly to the socket. *)
Definition bufio_read (n : Z) (b : bufio) : bytes * bool * bufio :=
  if n <=? 0 then
    match bf_buf b with
    | _ :: _ => ([], false, b)
    | [] => ([], bf_err b, Bufio [] false (bf_rd b))
    end
  else match bf_buf b with
  | [] =>
      if bf_err b then ([], true, Bufio [] false (bf_rd b))
      else if bufio_size <=? n then
        let '(d, e, t) := tcp_read n (bf_rd b) in (d, e, Bufio [] false t)
      else
        let '(d, e, t) := tcp_read bufio_size (bf_rd b) in
        match d with
        | [] => ([], e, Bufio [] false t)
        | _ => (take n d, false, Bufio (drop n d) e t)
        end
  | _ => (take n (bf_buf b), false, Bufio (drop n (bf_buf b)) (bf_err b) (bf_rd b))
  end.

(** The fill loop of bufio.Reader.Peek(n): read while fewer than n bytes are
    buffered and no error happened.  Every round adds at least one byte or an
    error, so n rounds suffice ([fuel] = n). *)
Fixpoint peek_fill (fuel : nat) (n : Z) (b : bufio) : bufio :=
  match fuel with
  | O => b
  | S f =>
      if (len (bf_buf b) <? n) && negb (bf_err b) then
        let '(d, e, t) := tcp_read (bufio_size - len (bf_buf b)) (bf_rd b) in
        peek_fill f n (Bufio (bf_buf b ++ d) e t)
      else b
  end.

(** bufio.Reader.Peek(n) for small n: the first n bytes without consuming them, or
    [None] for an error. *)
Definition bufio_peek (n : Z) (b : bufio) : option bytes * bufio :=
  let b' := peek_fill (S (Z.to_nat n)) n b in
  if len (bf_buf b') <? n then (None, Bufio (bf_buf b') false (bf_rd b'))
  else (Some (take n (bf_buf b')), b').

(** netConnection.ReadMessage, protocol.go:253-263, for an arbitrary io.Reader
    given by its Read function.  Both Reads may be short: the missing bytes stay
    zero because [make] cleared the slices and the counts are ignored.  [None] is
    an error (ReadTLVMessage ignores the bytes that come with one). *)
Definition net_read_message {S : Type} (read : Z -> S -> bytes * bool * S) (s : S)
  : option bytes * S :=
  let '(h, e1, s1) := read 3 s in
  if e1 : bool then (None, s1)
  else
    let firstThree := h ++ zeros (3 - len h) in
    let size := Z.shiftl (nth 1 firstThree 0) 8 + nth 2 firstThree 0 in
    let '(d, e2, s2) := read size s1 in
    if e2 : bool then (None, s2)
    else (Some (firstThree ++ (d ++ zeros (size - len d))), s2).

(** ReadTLVMessage on a netConnection, protocol.go:341-363 with 253-263. *)
Definition net_read_tlv {S : Type} (read : Z -> S -> bytes * bool * S)
  (s : S) (expected : list Z) : tlv_result * S :=
  let '(m, s') := net_read_message read s in (read_tlv m expected, s').

(** [n] successive calls of ReadTLVMessage on the same connection. *)
Fixpoint net_read_many {S : Type} (read : Z -> S -> bytes * bool * S)
  (n : nat) (s : S) (expected : list Z) : list tlv_result * S :=
  match n with
  | O => ([], s)
  | Datatypes.S k =>
      let '(r, s1) := net_read_tlv read s expected in
      let '(rs, s2) := net_read_many read k s1 expected in
      (r :: rs, s2)
  end.
