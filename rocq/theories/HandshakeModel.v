(** The opening handshake of a websocket: ndt5/ws/ws.go, setupConn of
    ndt7/handler/handler.go, ServeHTTP of ndt5/handler/wshandler.go and
    ndt5/singleserving/server.go, and what they rely on of Upgrade of
    gorilla/websocket v1.5.3 (not in /repo; transcribed from its documentation and
    source as remembered, without the status codes of its refusals). *)
From Coq Require Import String ZArith List Bool.
From Verif Require Import Base GoFloat GoStrings.
Import ListNotations.
Open Scope Z_scope.

(** An HTTP request as net/http hands it on: the method and the header lines in the order
    in which they came.  Nothing else of a request is looked at here. *)
Record http_request := HttpRequest { hr_method : bytes; hr_lines : list (bytes * bytes) }.

(** Header[name]: net/http files every line under its name in canonical spelling, so names
    are compared without case. *)
Definition values (r : http_request) (name : bytes) : list bytes :=
  map snd (filter (fun l => beqb (lower (fst l)) (lower name)) (hr_lines r)).
(** Header.Get: the first value, or the empty string. *)
Definition get (r : http_request) (name : bytes) : bytes := hd [] (values r name).

(** ** util.go of gorilla/websocket *)

(** isTokenOctet. *)
Definition is_token_octet (b : Z) : bool :=
  is_digit b || ((97 <=? to_lower b) && (to_lower b <=? 122)) ||
  mem b (str "!#$%&'*+-.^_`|~").
(** skipSpace: spaces and tabs. *)
Fixpoint skip_space (s : bytes) : bytes :=
  match s with
  | b :: r => if (b =? 32) || (b =? 9) then skip_space r else s
  | [] => []
  end.
(** nextToken. *)
Fixpoint next_token (s : bytes) : bytes * bytes :=
  match s with
  | b :: r => if is_token_octet b then let '(t, u) := next_token r in (b :: t, u) else ([], s)
  | [] => ([], [])
  end.
(** The inner loop of tokenListContainsValue.  The fuel is the length of the value: every
    round takes at least one byte. *)
Fixpoint contains (fuel : nat) (s value : bytes) : bool :=
  match fuel with
  | O => false
  | S f =>
      let '(t, s1) := next_token (skip_space s) in
      match t with
      | [] => false
      | _ :: _ =>
          match skip_space s1 with
          | [] => beqb (lower t) (lower value)
          | c :: rest =>
              if negb (c =? 44) then false
              else if beqb (lower t) (lower value) then true
              else contains f rest value
          end
      end
  end.
(** tokenListContainsValue. *)
Definition token_list_contains (vs : list bytes) (value : bytes) : bool :=
  existsb (fun s => contains (S (List.length s)) s value) vs.

(** A character of the standard base64 alphabet. *)
Definition is_base64 (b : Z) : bool :=
  is_digit b || ((97 <=? to_lower b) && (to_lower b <=? 122)) || (b =? 43) || (b =? 47).
(** isValidChallengeKey: the key decodes to sixteen bytes.  base64.StdEncoding skips line
    ends, which a header value cannot hold, and ignores the unused bits of the last
    character. *)
Definition is_valid_key (s : bytes) : bool :=
  forallb is_base64 (firstn 22 s) && beqb (skipn 22 s) (str "==") && (len s =? 24).

(** ** server.go of gorilla/websocket *)

(** strings.Split for a one-byte separator. *)
Fixpoint split_on (sep : Z) (s : bytes) : list bytes :=
  match s with
  | [] => [[]]
  | b :: r =>
      if b =? sep then [] :: split_on sep r
      else match split_on sep r with e :: l => (b :: e) :: l | [] => [[b]] end
  end.
(** Subprotocols: the protocols the client offers. *)
Definition subprotocols (r : http_request) : list bytes :=
  match trim_space (get r (str "Sec-Websocket-Protocol")) with
  | [] => []
  | h => map trim_space (split_on 44 h)
  end.

(** The fields of an Upgrader that matter here.  Compression is off in all of them. *)
Record upgrader := Upgrader { u_subprotocols : option (list bytes); u_check_origin : http_request -> bool }.

(** selectSubprotocol: the first protocol of the server's that the client offers or, if the
    server has no list, the one of the extra response header [extra]. *)
Definition select_subprotocol (u : upgrader) (r : http_request) (extra : list (bytes * bytes)) : bytes :=
  match u_subprotocols u with
  | Some ps => hd [] (filter (fun p => existsb (beqb p) (subprotocols r)) ps)
  | None => get (HttpRequest [] extra) (str "Sec-Websocket-Protocol")
  end.

(** What becomes of a request: the response that switches protocols, with its header lines;
    an error response; or a connection that failed under the server's hands. *)
Inductive handshake := Switched (lines : list (bytes * bytes)) | Refused | Broken.

(** Upgrade.  [accept] is computeAcceptKey (the base64 of the SHA-1 of the key and a fixed
    string); [wire] is whether the connection could be taken over, was free of early data and
    took the response. *)
Definition upgrade (accept : bytes -> bytes) (wire : bool) (u : upgrader) (extra : list (bytes * bytes))
    (r : http_request) : handshake :=
  if negb (token_list_contains (values r (str "Connection")) (str "upgrade")) then Refused
  else if negb (token_list_contains (values r (str "Upgrade")) (str "websocket")) then Refused
  else if negb (beqb (hr_method r) (str "GET")) then Refused
  else if negb (token_list_contains (values r (str "Sec-Websocket-Version")) (str "13")) then Refused
  else if existsb (fun l => beqb (fst l) (str "Sec-Websocket-Extensions")) extra then Refused
  else if negb (u_check_origin u r) then Refused
  else if negb (is_valid_key (get r (str "Sec-Websocket-Key"))) then Refused
  else if negb wire then Broken
  else
    let p := select_subprotocol u r extra in
    Switched
      ([(str "Upgrade", str "websocket"); (str "Connection", str "Upgrade");
        (str "Sec-WebSocket-Accept", accept (get r (str "Sec-Websocket-Key")))] ++
       (match p with [] => [] | _ => [(str "Sec-WebSocket-Protocol", p)] end) ++
       filter (fun l => negb (beqb (fst l) (str "Sec-Websocket-Protocol"))) extra).

(** ** The server *)

(** Upgrader, ndt5/ws/ws.go:12-24. *)
Definition ndt5_upgrader (protocol : bytes) : upgrader :=
  Upgrader (Some [protocol]) (fun _ => true).
(** The control connection, ndt5/handler/wshandler.go:65-71. *)
Definition ndt5_control (accept : bytes -> bytes) (wire : bool) : http_request -> handshake :=
  upgrade accept wire (ndt5_upgrader (str "ndt")) [].
(** The connection of a test, ndt5/singleserving/server.go:32-38; the direction is "c2s" or
    "s2c". *)
Definition ndt5_test (direction : bytes) (accept : bytes -> bytes) (wire : bool) : http_request -> handshake :=
  upgrade accept wire (ndt5_upgrader direction) [].

(** setupConn, ndt7/handler/handler.go:149-172.  http.Header.Add files the protocol under
    its canonical name. *)
Definition ndt7_handshake (accept : bytes -> bytes) (wire : bool) (r : http_request) : handshake :=
  if negb (beqb (get r (str "Sec-WebSocket-Protocol")) (str "net.measurementlab.ndt.v7")) then Refused
  else
    upgrade accept wire (Upgrader None (fun _ => true))
      [(str "Sec-Websocket-Protocol", str "net.measurementlab.ndt.v7")] r.
