(** What RFC 6455 says of the opening handshake, and what the two protocols add to it. *)
From Coq Require Import String ZArith List Bool.
From Verif Require Import Base TextSpec ControlSpec HandshakeModel.
Import ListNotations.
Open Scope Z_scope.

(** Equality up to the case of the letters A-Z. *)
Inductive same_letter : Z -> Z -> Prop :=
| same b : same_letter b b
| upper_lower b : 65 <= b <= 90 -> same_letter b (b + 32)
| lower_upper b : 65 <= b <= 90 -> same_letter (b + 32) b.
Definition same_word : bytes -> bytes -> Prop := Forall2 same_letter.

(** The values of the header [name], in order. *)
Inductive header (name : bytes) : list (bytes * bytes) -> list bytes -> Prop :=
| header_none : header name [] []
| header_this n v ls vs : same_word n name -> header name ls vs -> header name ((n, v) :: ls) (v :: vs)
| header_other n v ls vs : ~ same_word n name -> header name ls vs -> header name ((n, v) :: ls) vs.

(** RFC 7230: the characters of tokens, and optional white space. *)
Definition tchar (b : Z) : Prop :=
  48 <= b <= 57 \/ 65 <= b <= 90 \/ 97 <= b <= 122 \/ In b (str "!#$%&'*+-.^_`|~").
Definition token (t : bytes) : Prop := t <> [] /\ Forall tchar t.
Definition ows (s : bytes) : Prop := Forall (fun b => b = 32 \/ b = 9) s.

(** [v] is a list of tokens separated by commas, at least as far as an element that is
    [word] up to case. *)
Inductive names (word : bytes) : bytes -> Prop :=
| names_last a t b : ows a -> same_word t word -> ows b -> names word (a ++ t ++ b)
| names_here a t b rest : ows a -> same_word t word -> ows b -> names word (a ++ t ++ b ++ 44 :: rest)
| names_later a t b rest : ows a -> token t -> ows b -> names word rest -> names word (a ++ t ++ b ++ 44 :: rest).

(** Some line of the header [name] holds [word]. *)
Definition has_word (r : http_request) (name word : bytes) : Prop :=
  exists vs v, header name (hr_lines r) vs /\ In v vs /\ names word v.
(** The first line of the header [name] is [v]. *)
Definition first_line (r : http_request) (name v : bytes) : Prop :=
  exists vs, header name (hr_lines r) (v :: vs).

(** The base64 form of sixteen bytes: 22 characters and two signs of equality. *)
Definition base64_char (b : Z) : Prop :=
  48 <= b <= 57 \/ 65 <= b <= 90 \/ 97 <= b <= 122 \/ b = 43 \/ b = 47.
Definition nonce (key : bytes) : Prop :=
  exists s, List.length s = 22%nat /\ Forall base64_char s /\ key = s ++ str "==".

(** RFC 6455, 4.2.1: a request that opens a websocket, with its key. *)
Definition opening (r : http_request) (key : bytes) : Prop :=
  hr_method r = str "GET" /\
  has_word r (str "Connection") (str "upgrade") /\
  has_word r (str "Upgrade") (str "websocket") /\
  has_word r (str "Sec-WebSocket-Version") (str "13") /\
  first_line r (str "Sec-WebSocket-Key") key /\ nonce key.

(** The elements of a list separated by commas. *)
Definition element (e v : bytes) : Prop :=
  ~ In 44 e /\ exists a b, v = a ++ e ++ b /\
    (a = [] \/ exists a', a = a' ++ [44]) /\ (b = [] \/ exists b', b = 44 :: b').
(** The client offers [p] in the first line that names subprotocols. *)
Definition offers (r : http_request) (p : bytes) : Prop :=
  exists v e, first_line r (str "Sec-WebSocket-Protocol") v /\ element e v /\ trimmed e p.

(** RFC 6455, 4.2.2: the response. *)
Definition response (answer : bytes) (protocol : option bytes) : list (bytes * bytes) :=
  [(str "Upgrade", str "websocket"); (str "Connection", str "Upgrade");
   (str "Sec-WebSocket-Accept", answer)] ++
  match protocol with Some p => [(str "Sec-WebSocket-Protocol", p)] | None => [] end.

(** The sixteen-byte key in base64. *)
Definition base64_digit (n : Z) : Z :=
  if n <? 26 then n + 65 else if n <? 52 then n + 71 else if n <? 62 then n - 4 else if n =? 62 then 43 else 47.
Fixpoint base64 (s : bytes) : bytes :=
  match s with
  | a :: b :: c :: r =>
      base64_digit (a / 4) :: base64_digit (a mod 4 * 16 + b / 16) ::
      base64_digit (b mod 16 * 4 + c / 64) :: base64_digit (c mod 64) :: base64 r
  | [a; b] => [base64_digit (a / 4); base64_digit (a mod 4 * 16 + b / 16); base64_digit (b mod 16 * 4); 61]
  | [a] => [base64_digit (a / 4); base64_digit (a mod 4 * 16); 61; 61]
  | [] => []
  end.

(** The headers that a server of websockets looks at. *)
Definition looked_at : list bytes :=
  [str "Connection"; str "Upgrade"; str "Sec-WebSocket-Version"; str "Sec-WebSocket-Key";
   str "Sec-WebSocket-Protocol"].
