(** C80: which requests become websockets, and how they are answered. *)
From Coq Require Import String ZArith List Bool.
From Verif Require Import Base GoFloat TextSpec ControlSpec HandshakeModel HandshakeSpec HandshakeProofs.
Import ListNotations.
Open Scope Z_scope.

(** The requests of the examples. *)
Definition key : bytes := str "dGhlIHNhbXBsZSBub25jZQ==".
Definition browser (protocols : list bytes) : http_request :=
  HttpRequest (str "GET")
    ([(str "host", str "ndt.example"); (str "CONNECTION", str "keep-alive, Upgrade");
      (str "upgrade", str "WebSocket"); (str "Sec-WebSocket-Version", str "13");
      (str "Sec-WebSocket-Key", key); (str "Origin", str "https://elsewhere.example")] ++
     map (fun p => (str "Sec-WebSocket-Protocol", p)) protocols).
Definition v7 : bytes := str "net.measurementlab.ndt.v7".

(** ndt7: a request is answered by switching protocols exactly if it opens a websocket as
    RFC 6455 says, its first line of subprotocols is the name of the protocol and nothing
    else, and the connection holds.  The answer is that of the RFC and names the protocol. *)
Theorem C80_ndt7 accept wire r lines :
  ndt7_handshake accept wire r = Switched lines <->
  wire = true /\ first_line r (str "Sec-WebSocket-Protocol") (str "net.measurementlab.ndt.v7") /\
  exists key, opening r key /\ lines = response (accept key) (Some (str "net.measurementlab.ndt.v7")).
Proof. exact (ndt7_switched accept wire r lines). Qed.
Print Assumptions C80_ndt7.

(** ... and refused exactly if it is not such a request. *)
Theorem C80_ndt7_refused accept wire r :
  ndt7_handshake accept wire r = Refused <->
  ~ first_line r (str "Sec-WebSocket-Protocol") (str "net.measurementlab.ndt.v7") \/
  forall key, ~ opening r key.
Proof. exact (ndt7_refused accept wire r). Qed.
Print Assumptions C80_ndt7_refused.

Example C80_ndt7_browser :
  ndt7_handshake (fun k => k) true (browser [v7]) = Switched (response key (Some v7)) /\
  ndt7_handshake (fun k => k) true (browser []) = Refused /\
  ndt7_handshake (fun k => k) true (HttpRequest (str "POST") (hr_lines (browser [v7]))) = Refused.
Proof. repeat split; vm_compute; reflexivity. Qed.

(** NDT5, control connection and test connection: every request that opens a websocket is
    answered by switching protocols if the connection holds, whatever subprotocols it offers.
    The answer names the server's protocol if the client offers it and no protocol if not. *)
Theorem C80_ndt5_control accept wire r lines :
  ndt5_control accept wire r = Switched lines <->
  wire = true /\ exists key, opening r key /\
    (offers r (str "ndt") /\ lines = response (accept key) (Some (str "ndt")) \/
     ~ offers r (str "ndt") /\ lines = response (accept key) None).
Proof. exact (ndt5_switched accept wire (str "ndt") r lines good_ndt). Qed.
Print Assumptions C80_ndt5_control.

Theorem C80_ndt5_test direction accept wire r lines :
  direction = str "c2s" \/ direction = str "s2c" ->
  (ndt5_test direction accept wire r = Switched lines <->
   wire = true /\ exists key, opening r key /\
     (offers r direction /\ lines = response (accept key) (Some direction) \/
      ~ offers r direction /\ lines = response (accept key) None)).
Proof. intros H. exact (ndt5_switched accept wire direction r lines (good_direction direction H)). Qed.
Print Assumptions C80_ndt5_test.

Theorem C80_ndt5_refused direction accept wire r :
  direction = str "c2s" \/ direction = str "s2c" ->
  (ndt5_control accept wire r = Refused <-> forall key, ~ opening r key) /\
  (ndt5_test direction accept wire r = Refused <-> forall key, ~ opening r key).
Proof.
  intros H. split.
  - apply (ndt5_refused accept wire (str "ndt") r). discriminate.
  - apply (ndt5_refused accept wire direction r). destruct H as [->| ->]; discriminate.
Qed.
Print Assumptions C80_ndt5_refused.

Example C80_ndt5_browser :
  ndt5_control (fun k => k) true (browser [str "chat ,	ndt"]) = Switched (response key (Some (str "ndt"))) /\
  ndt5_control (fun k => k) true (browser [str "chat"; str "ndt"]) = Switched (response key None) /\
  ndt5_test (str "s2c") (fun k => k) true (browser [str "s2c"]) = Switched (response key (Some (str "s2c"))) /\
  ndt5_test (str "s2c") (fun k => k) true (browser [str "c2s"]) = Switched (response key None) /\
  ndt5_control (fun k => k) true (HttpRequest (str "GET") [(str "Host", str "ndt.example")]) = Refused.
Proof. repeat split; vm_compute; reflexivity. Qed.

(** A client is never told of a subprotocol that it did not offer. *)
Theorem C80_offered direction accept wire r lines p :
  direction = str "c2s" \/ direction = str "s2c" ->
  ndt7_handshake accept wire r = Switched lines \/ ndt5_control accept wire r = Switched lines \/
    ndt5_test direction accept wire r = Switched lines ->
  In (str "Sec-WebSocket-Protocol", p) lines -> offers r p.
Proof.
  intros Hd [H|[H|H]] Hp.
  - exact (proj2 (ndt7_named accept wire r lines p H Hp)).
  - destruct (ndt5_named accept wire (str "ndt") r lines p good_ndt H Hp) as [-> Ho]. exact Ho.
  - destruct (ndt5_named accept wire direction r lines p (good_direction _ Hd) H Hp) as [-> Ho]. exact Ho.
Qed.
Print Assumptions C80_offered.

Example C80_offered_some : exists lines,
  ndt7_handshake (fun k => k) true (browser [v7]) = Switched lines /\
  In (str "Sec-WebSocket-Protocol", v7) lines.
Proof. eexists. split; [vm_compute; reflexivity|vm_compute; tauto]. Qed.

(** The outcome depends on the method and on five headers.  The page that a browser's request
    comes from, its cookies and its address are not looked at. *)
Theorem C80_blind direction accept wire r r' :
  direction = str "c2s" \/ direction = str "s2c" -> hr_method r = hr_method r' ->
  (forall name vs, In name looked_at -> header name (hr_lines r) vs -> header name (hr_lines r') vs) ->
  ndt7_handshake accept wire r = ndt7_handshake accept wire r' /\
  ndt5_control accept wire r = ndt5_control accept wire r' /\
  ndt5_test direction accept wire r = ndt5_test direction accept wire r'.
Proof.
  intros Hd Hm H. split; [|split].
  - apply (handshake_blind accept wire (str "ndt") r r'); [discriminate|exact Hm|exact H].
  - apply (handshake_blind accept wire (str "ndt") r r'); [discriminate|exact Hm|exact H].
  - apply (handshake_blind accept wire direction r r'); [destruct Hd as [->| ->]; discriminate|exact Hm|exact H].
Qed.
Print Assumptions C80_blind.

(** Every sixteen bytes make a key that is accepted. *)
Theorem C80_key s : bytes_ok s -> List.length s = 16%nat -> nonce (base64 s).
Proof. exact (key_ok s). Qed.
Print Assumptions C80_key.

Example C80_key_sample : base64 (str "the sample nonce") = key.
Proof. reflexivity. Qed.

(** The naive claim that an ndt7 client is served if it offers the protocol is false: a
    client that offers it along with another one is refused.  NDT5 accepts such lists. *)
Theorem C80_ndt7_list_refuted : exists r key, opening r key /\ offers r (str "net.measurementlab.ndt.v7") /\
  forall accept wire, ndt7_handshake accept wire r = Refused.
Proof.
  exists (browser [str "net.measurementlab.ndt.v7, chat"]), key. split; [|split].
  - apply (opens_iff (browser [str "net.measurementlab.ndt.v7, chat"])). vm_compute. reflexivity.
  - apply offers_iff; [exact good_ndt7|]. vm_compute. reflexivity.
  - intros accept wire. reflexivity.
Qed.
Print Assumptions C80_ndt7_list_refuted.
