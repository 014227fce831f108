(** Model of ndt5/protocol/messager.go, the JSON part of ndt5/protocol/protocol.go
    and the two login ceremonies (ndt5/plain/plain.go, ndt5/handler/wshandler.go).
    Receiving functions take what conn.ReadMessage() delivered: [None] for an
    error, [Some bytes] otherwise.  Sending functions give the frame handed to
    conn.WriteMessage(). *)
From Coq Require Import String ZArith List Bool.
From Verif Require Import Base WireModel GoJSON.
Import ListNotations.
Open Scope Z_scope.

(** Encoding, messager.go:13-22. *)
Inductive encoding := Unknown | JSON | TLV.

(** JSONMessage.String, protocol.go:390-393, with the struct tags of 384-387:
    "tests" is omitted when empty.  Marshalling two strings cannot fail. *)
Definition json_message_string (msg tests : bytes) : bytes :=
  str "{""msg"":" ++ json_string msg ++
  (match tests with [] => [] | _ => str ",""tests"":" ++ json_string tests end) ++
  str "}".

(** SendJSONMessage, protocol.go:410-413, and jsonMessager.SendMessage,
    messager.go:78-80. *)
Definition json_send (kind : Z) (contents : bytes) : bytes :=
  write_tlv kind (json_message_string contents []).

(** tlvMessager.SendMessage, messager.go:112-114. *)
Definition tlv_send (kind : Z) (contents : bytes) : bytes := write_tlv kind contents.

(** Errors of a receive: the frame was bad, the body is not the expected JSON, or
    the body was null. *)
Inductive recv_error := RecvFrame (e : tlv_error) | RecvJSON | RecvEmpty.

(** ReceiveJSONMessage, protocol.go:396-407: message (nil = None) and error.  The
    "null" body sets the pointer to nil and is no error (json.Unmarshal into a
    pointer to a pointer). *)
Definition receive_json (inbuff : option bytes) (expected : Z)
  : option (bytes * bytes) * option recv_error :=
  let r := read_tlv inbuff [expected] in
  match tlv_err r, tlv_payload r with
  | Some e, _ => (None, Some (RecvFrame e))
  | None, None => (None, None)   (* impossible: ReadTLVMessage without error has a payload *)
  | None, Some body =>
      match unmarshal body with
      | UErr => (Some (body, []), Some RecvJSON)
      | UNull => (None, None)
      | UMsg m t => (Some (m, t), None)
      end
  end.

(** jsonMessager.ReceiveMessage, messager.go:91-100. *)
Definition json_receive (inbuff : option bytes) (kind : Z) : option bytes * option recv_error :=
  match receive_json inbuff kind with
  | (None, None) => (None, Some RecvEmpty)
  | (None, Some e) => (None, Some e)
  | (Some (m, _), e) => (Some m, e)
  end.

(** tlvMessager.ReceiveMessage, messager.go:121-124. *)
Definition tlv_receive (inbuff : option bytes) (kind : Z) : option bytes * option recv_error :=
  let r := read_tlv inbuff [kind] in
  (tlv_payload r, match tlv_err r with Some e => Some (RecvFrame e) | None => None end).

(** s2cResult.String, messager.go:67-76: the three fields in declaration order. *)
Definition s2c_result_string (t u s : bytes) : bytes :=
  str "{""ThroughputValue"":" ++ json_string t ++
  str ",""UnsentDataAmount"":" ++ json_string u ++
  str ",""TotalSentByte"":" ++ json_string s ++ str "}".

(** jsonMessager.SendS2CResults, messager.go:82-89. *)
Definition json_send_s2c (kbps unsent total : Z) : bytes :=
  write_tlv TestMsg (s2c_result_string (itoa kbps) (itoa unsent) (itoa total)).

(** tlvMessager.SendS2CResults, messager.go:116-119. *)
Definition tlv_send_s2c (kbps unsent total : Z) : bytes :=
  write_tlv TestMsg (itoa kbps ++ [32] ++ itoa unsent ++ [32] ++ itoa total).

(** Encoding.Messager, messager.go:38-50: [None] is the nil Messager. *)
Definition messager_of (e : encoding) : option encoding :=
  match e with Unknown => None | JSON => Some JSON | TLV => Some TLV end.

(** ** Login ceremonies *)

Inductive login_result :=
| LoginOk (tests : Z)
| LoginErr
| LoginPanic.            (* nil pointer dereference *)

(** httpHandler.LoginCeremony, wshandler.go:45-52: msg is dereferenced without a
    nil check. *)
Definition login_ws (inbuff : option bytes) : login_result :=
  match receive_json inbuff MsgExtendedLogin with
  | (_, Some _) => LoginErr
  | (None, None) => LoginPanic
  | (Some (_, tests), None) =>
      match atoi tests with Some n => LoginOk n | None => LoginErr end
  end.

(** plainServer.LoginCeremony, plain.go:173-200 on a connection whose encoding can
    be set (every connection of the plain server is one, plain.go:128): result
    and the encoding of the connection afterwards.  json.Unmarshal of null into a
    struct leaves it untouched, so Tests is "". *)
Definition login_plain (inbuff : option bytes) : login_result * encoding :=
  let r := read_tlv inbuff [MsgLogin; MsgExtendedLogin] in
  match tlv_err r, tlv_payload r with
  | Some _, _ | None, None => (LoginErr, Unknown)
  | None, Some v =>
      if tlv_type r =? MsgExtendedLogin then
        match unmarshal v with
        | UErr => (LoginErr, JSON)
        | UNull => (match atoi [] with Some n => LoginOk n | None => LoginErr end, JSON)
        | UMsg _ tests => (match atoi tests with Some n => LoginOk n | None => LoginErr end, JSON)
        end
      else if tlv_type r =? MsgLogin then
        match v with
        | [b] => (LoginOk b, TLV)
        | _ => (LoginErr, TLV)
        end
      else (LoginErr, Unknown)
  end.

(** ** SendMetrics *)

(** What reflection sees of a value.  [FInt]: an integer kind (all but uint),
    [FNamedInt s]: an integer kind whose type has a String method giving s
    (fmt's %v uses it), [FStr]: a string kind, [FStringer s]: a struct whose type
    has a String method giving s, [FStruct]: any other struct, [FOther]: every
    other kind (float, bool, uint, pointer, slice, map, ...). *)
Inductive fval :=
| FInt (n : Z)
| FNamedInt (s : bytes)
| FStr (s : bytes)
| FStringer (s : bytes)
| FStruct (fs : list (bytes * fval))
| FOther.

(** The argument of SendMetrics: pointers (None: nil) around a struct or around
    something else.  Fields are exported (reading an unexported field through
    Interface() would panic; web100.Metrics has none). *)
Inductive mval :=
| MPtr (p : option mval)
| MStruct (fs : list (bytes * fval))
| MNoStruct.

(** Outcome of SendMetrics: nil, the error of the failing send, or a panic. *)
Inductive sm_result := SmOk | SmErr | SmPanic.

(** One SendMessage(TestMsg, line): the outcome is decided by an oracle that sees
    the lines attempted before.  State: the lines attempted so far. *)
Definition send_line (send : list bytes -> bytes -> bool) (sent : list bytes) (line : bytes)
  : list bytes * sm_result :=
  (sent ++ [line], if send sent line then SmOk else SmErr).

(** The loop of SendMetrics over the fields, messager.go:139-170; the recursive
    call for a nested struct is inlined (its argument is a struct, so there are no
    pointers to dereference). *)
Fixpoint send_field (send : list bytes -> bytes -> bool) (prefix name : bytes) (v : fval)
  (sent : list bytes) {struct v} : list bytes * sm_result :=
  match v with
  | FInt n => send_line send sent (prefix ++ name ++ str ": " ++ itoa n ++ [10])
  | FNamedInt s => send_line send sent (prefix ++ name ++ str ": " ++ s ++ [10])
  | FStr s => send_line send sent (prefix ++ name ++ str ": " ++ s ++ [10])
  | FStringer s => send_line send sent (prefix ++ name ++ str ": " ++ s ++ [10])
  | FStruct fs =>
      (fix loop (l : list (bytes * fval)) (sent : list bytes) : list bytes * sm_result :=
         match l with
         | [] => (sent, SmOk)
         | (n, x) :: r =>
             match send_field send (prefix ++ name ++ str ".") n x sent with
             | (sent', SmOk) => loop r sent'
             | stop => stop
             end
         end) fs sent
  | FOther => (sent, SmOk)
  end.

Fixpoint send_fields (send : list bytes -> bytes -> bool) (prefix : bytes)
  (l : list (bytes * fval)) (sent : list bytes) : list bytes * sm_result :=
  match l with
  | [] => (sent, SmOk)
  | (n, x) :: r =>
      match send_field send prefix n x sent with
      | (sent', SmOk) => send_fields send prefix r sent'
      | stop => stop
      end
  end.

(** SendMetrics, messager.go:131-171.  v.Elem() of a nil pointer is the zero Value
    and its Type() panics; NumField() of a non-struct panics. *)
Fixpoint send_metrics (send : list bytes -> bytes -> bool) (m : mval) (prefix : bytes)
  : list bytes * sm_result :=
  match m with
  | MPtr None => ([], SmPanic)
  | MPtr (Some m') => send_metrics send m' prefix
  | MStruct fs => send_fields send prefix fs []
  | MNoStruct => ([], SmPanic)
  end.
