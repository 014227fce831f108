(** Property theorems about NDT5 messages and logins (C04 - C10). *)
From Coq Require Import String ZArith List Bool Lia.
From Verif Require Import Base BaseFacts TextSpec JsonSpec GoJSON TextProofs JsonProofs
  WireModel WireSpec WireProofs MessagerModel MessagerSpec MessagerProofs.
Import ListNotations.
Open Scope Z_scope.

(** C04: valid UTF-8 text survives the JSON messager unchanged. *)
Theorem C04_json_roundtrip : forall kind text,
  bytes_ok text -> utf8_valid text -> fits (json_message_string text []) ->
  json_receive (Some (json_send kind text)) kind = (Some text, None).
Proof.
  intros kind text OK (cs & F & ->) Ft.
  apply json_roundtrip; auto using repaired_valid.
Qed.
Print Assumptions C04_json_roundtrip.

(** C04: any other text arrives with exactly its bad bytes replaced by U+FFFD; the
    replacement exists for every byte string and is unique. *)
Theorem C04_json_repair : forall kind text,
  bytes_ok text -> fits (json_message_string text []) ->
  exists text', repaired text text' /\ (forall t, repaired text t -> t = text') /\
    utf8_valid text' /\
    json_receive (Some (json_send kind text)) kind = (Some text', None).
Proof.
  intros kind text OK F. destruct (repaired_total text OK) as [t R].
  exists t. repeat split; eauto using repaired_fun, repaired_is_valid.
  apply json_roundtrip; auto.
Qed.
Print Assumptions C04_json_repair.

(** C04: a text whose JSON form does not fit in a frame is never received as
    something else: the receiver gets an error and no text. *)
Theorem C04_json_oversize : forall kind text expected,
  ~ fits (json_message_string text []) ->
  exists e, json_receive (Some (json_send kind text)) expected = (None, Some e).
Proof.
  intros kind text expected N. destruct (json_oversize kind text expected) as [e E].
  - unfold fits in N. lia.
  - eauto.
Qed.
Print Assumptions C04_json_oversize.

Example C04_example :
  let text := str "a""" ++ [10; 195; 169; 255] in   (* quote, line feed, an accented e, a stray byte *)
  bytes_ok text /\ fits (json_message_string text []) /\
  json_receive (Some (json_send TestMsg text)) TestMsg
    = (Some (str "a""" ++ [10; 195; 169; 239; 191; 189]), None) /\
  json_receive (Some (json_send TestMsg (str "22"))) TestMsg = (Some (str "22"), None).
Proof.
  split; [apply bytes_okb_spec; reflexivity|]. repeat split; reflexivity.
Qed.

(** C05: the body on the wire is the object with the single member "msg" whose
    string literal contains no control character, none of < > &, and no raw line or
    paragraph separator. *)
Theorem C05_json_safe : forall kind text,
  bytes_ok text -> fits (json_message_string text []) ->
  exists inner text', repaired text text' /\
    json_send kind text = wire_frame (kind, str "{""msg"":""" ++ inner ++ str """}") /\
    jchars inner text' /\
    Forall (fun b => 32 <= b /\ b <> 60 /\ b <> 62 /\ b <> 38) inner /\
    (forall p q, inner <> p ++ utf8_char 8232 ++ q /\ inner <> p ++ utf8_char 8233 ++ q).
Proof.
  intros kind text OK F. destruct (repaired_total text OK) as [t R].
  exists (json_escape (length text) text), t. repeat split; auto.
  - now apply json_send_shape.
  - now apply json_escape_jchars.
  - exact (json_escape_safe text OK).
  - apply json_escape_no_separator; auto.
  - apply json_escape_no_separator; auto.
Qed.
Print Assumptions C05_json_safe.

(** C05: no text can inject a field: the body denotes exactly one member. *)
Theorem C05_json_single_member : forall text v,
  bytes_ok text -> json_text (json_message_string text []) v ->
  exists text', repaired text text' /\ v = JObj [(str "msg", JStr text')].
Proof.
  intros text v OK J. destruct (repaired_total text OK) as [t R]. exists t. split; auto.
  eapply json_text_fun; [|exact J|now apply json_message_text]. now apply json_message_ok.
Qed.
Print Assumptions C05_json_single_member.

Example C05_example :
  let u := [92; 117; 48; 48] in
  json_message_string (str """,""tests"":""<&>") [] =
  str "{""msg"":""\"",\""tests\"":\""" ++ u ++ str "3c" ++ u ++ str "26" ++ u ++ str "3e" ++ str """}".
Proof. reflexivity. Qed.

(** C06: a well-formed frame whose body is an NDT message: the msg field, no error. *)
Theorem C06_receive_message : forall kind body msg tests,
  bytes_ok body -> fits body -> ndt_message body msg tests ->
  json_receive (Some (wire_frame (kind, body))) kind = (Some msg, None).
Proof.
  intros kind body msg tests OK F N. rewrite json_receive_frame by auto.
  apply unmarshal_msg in N; auto. now rewrite N.
Qed.
Print Assumptions C06_receive_message.

(** C06: the literal null: no message, an error. *)
Theorem C06_receive_null : forall kind body,
  bytes_ok body -> fits body -> json_text body JNull ->
  json_receive (Some (wire_frame (kind, body))) kind = (None, Some RecvEmpty).
Proof.
  intros kind body OK F N. rewrite json_receive_frame by auto.
  apply unmarshal_null in N; auto. now rewrite N.
Qed.
Print Assumptions C06_receive_null.

(** C06: any other body: the raw body next to an error. *)
Theorem C06_receive_raw : forall kind body,
  bytes_ok body -> fits body -> ~ json_text body JNull ->
  (forall msg tests, ~ ndt_message body msg tests) ->
  json_receive (Some (wire_frame (kind, body))) kind = (Some body, Some RecvJSON).
Proof.
  intros kind body OK F N1 N2. rewrite json_receive_frame by auto.
  assert (U : unmarshal body = UErr) by (apply unmarshal_err; auto). now rewrite U.
Qed.
Print Assumptions C06_receive_raw.

(** C06: everything that is not a well-formed frame of the expected type: no
    message, an error. *)
Theorem C06_receive_bad_frame : forall kind delivered,
  bytes_ok (match delivered with Some b => b | None => [] end) ->
  (forall body, fits body -> delivered <> Some (wire_frame (kind, body))) ->
  exists e, json_receive delivered kind = (None, Some e).
Proof.
  intros kind d OK N. destruct (read_tlv_total d [kind]) as [(p & ty & E)|(ty & e & E)].
  - exfalso. apply read_tlv_accepts in E as [I (hi & lo & -> & L)].
    destruct I as [->|[]]. rewrite !bytes_ok_cons in OK.
    destruct (fits_frame ty hi lo p) as [F W]; try tauto. apply (N p F). now rewrite W.
  - eauto using json_receive_bad.
Qed.
Print Assumptions C06_receive_bad_frame.

(** C06: the message of a body is unique, so the four cases do not overlap. *)
Theorem C06_message_unique : forall body m t m' t', bytes_ok body ->
  ndt_message body m t -> ndt_message body m' t' -> m = m' /\ t = t'.
Proof. exact ndt_message_fun. Qed.
Print Assumptions C06_message_unique.

Theorem C06_null_is_no_message : forall body m t, bytes_ok body ->
  json_text body JNull -> ~ ndt_message body m t.
Proof.
  intros body m t OK J (l & J' & _). pose proof (json_text_fun _ _ _ OK J J'). discriminate.
Qed.
Print Assumptions C06_null_is_no_message.

Example C06_example :
  json_receive (Some (write_tlv 5 (str " { ""x"" : [1, {}], ""MSG"":""a"", ""msg"":null,""mſg"":""b"" } "))) 5
    = (Some (str "b"), None) /\
  json_receive (Some (write_tlv 5 (str " null"))) 5 = (None, Some RecvEmpty) /\
  json_receive (Some (write_tlv 5 (str "{""msg"":1}"))) 5 = (Some (str "{""msg"":1}"), Some RecvJSON) /\
  json_receive (Some (write_tlv 5 (str "v3"))) 5 = (Some (str "v3"), Some RecvJSON) /\
  json_receive (Some (write_tlv 5 (str "{}"))) 6 = (None, Some (RecvFrame TlvWrongType)).
Proof. repeat split; reflexivity. Qed.

(** C07: the TLV form of an s2c result is one TestMsg frame of three numerals
    separated by single blanks. *)
Theorem C07_tlv_result : forall kbps unsent total,
  int64_ok kbps -> int64_ok unsent -> int64_ok total ->
  exists a b c, tlv_send_s2c kbps unsent total = wire_frame (TestMsg, a ++ str " " ++ b ++ str " " ++ c) /\
    ~ In 32 a /\ ~ In 32 b /\ ~ In 32 c /\
    numeral a kbps /\ numeral b unsent /\ numeral c total.
Proof.
  intros k u t Hk Hu Ht. exists (itoa k), (itoa u), (itoa t).
  split; [unfold tlv_send_s2c; apply write_tlv_wire; now apply tlv_s2c_fits|].
  repeat split; auto using itoa_no_blank; apply atoi_numeral; now apply atoi_itoa.
Qed.
Print Assumptions C07_tlv_result.

(** C07: the JSON form is one TestMsg frame with three numeral strings. *)
Theorem C07_json_result : forall kbps unsent total,
  int64_ok kbps -> int64_ok unsent -> int64_ok total ->
  exists body a b c, json_send_s2c kbps unsent total = wire_frame (TestMsg, body) /\
    json_text body (JObj [(str "ThroughputValue", JStr a); (str "UnsentDataAmount", JStr b);
                          (str "TotalSentByte", JStr c)]) /\
    numeral a kbps /\ numeral b unsent /\ numeral c total.
Proof.
  intros k u t Hk Hu Ht. exists (s2c_result_string (itoa k) (itoa u) (itoa t)), (itoa k), (itoa u), (itoa t).
  split; [apply write_tlv_wire; now apply json_s2c_fits|].
  split; [apply s2c_text|].
  repeat split; apply atoi_numeral; now apply atoi_itoa.
Qed.
Print Assumptions C07_json_result.

(** C07: different numbers are sent as different messages. *)
Theorem C07_injective : forall k u t k' u' t',
  int64_ok k -> int64_ok u -> int64_ok t -> int64_ok k' -> int64_ok u' -> int64_ok t' ->
  tlv_send_s2c k u t = tlv_send_s2c k' u' t' \/ json_send_s2c k u t = json_send_s2c k' u' t' ->
  k = k' /\ u = u' /\ t = t'.
Proof.
  intros k u t k' u' t' _ _ _ _ _ _ [E|E].
  - apply tlv_s2c_inj. exact (write_tlv_inj _ _ _ _ E).
  - apply json_s2c_inj. exact (write_tlv_inj _ _ _ _ E).
Qed.
Print Assumptions C07_injective.

Example C07_example :
  tlv_send_s2c 93 (-1) 4096 = write_tlv TestMsg (str "93 -1 4096") /\
  json_send_s2c 93 (-1) 4096 = write_tlv TestMsg
    (str "{""ThroughputValue"":""93"",""UnsentDataAmount"":""-1"",""TotalSentByte"":""4096""}") /\
  int64_ok (-1).
Proof. repeat split; try reflexivity; discriminate. Qed.

(** C08: success means that exactly the lines of all printable leaves were sent, in
    order, each successfully; and conversely. *)
Theorem C08_all_lines : forall send m fs prefix sent,
  points_to m fs ->
  (send_metrics send m prefix = (sent, SmOk) <->
   sent = map (metric_line prefix) (leaves fs) /\
   forall a l b, sent = a ++ l :: b -> send a l = true).
Proof. exact send_metrics_ok. Qed.
Print Assumptions C08_all_lines.

(** C08: an error means that the lines up to and including the first failing one
    were attempted and none after it; and conversely. *)
Theorem C08_stops_at_first_failure : forall send m fs prefix sent,
  points_to m fs ->
  (send_metrics send m prefix = (sent, SmErr) <->
   exists a l b, map (metric_line prefix) (leaves fs) = a ++ l :: b /\ sent = a ++ [l] /\
     first_failure send a l).
Proof. exact send_metrics_err. Qed.
Print Assumptions C08_stops_at_first_failure.

(** C08: the only way to crash is to pass something that is not a struct behind
    non-nil pointers. *)
Theorem C08_panics_only_without_struct : forall send m prefix,
  snd (send_metrics send m prefix) = SmPanic <-> forall fs, ~ points_to m fs.
Proof. exact send_metrics_panic. Qed.
Print Assumptions C08_panics_only_without_struct.

Example C08_example :
  let m := MPtr (Some (MStruct [(str "MaxRTT", FInt 7); (str "BytesPerSecond", FOther);
             (str "TCPInfo", FStruct [(str "State", FInt 1); (str "RTT", FInt 9)])])) in
  send_metrics (fun _ _ => true) m (str "")
    = ([str "MaxRTT: 7" ++ [10]; str "TCPInfo.State: 1" ++ [10]; str "TCPInfo.RTT: 9" ++ [10]], SmOk) /\
  send_metrics (fun s _ => len s <? 1) m (str "")
    = ([str "MaxRTT: 7" ++ [10]; str "TCPInfo.State: 1" ++ [10]], SmErr) /\
  send_metrics (fun _ _ => true) (MPtr None) (str "") = ([], SmPanic).
Proof. repeat split; reflexivity. Qed.

(** C09: TLV logins: exactly the one-byte MsgLogin frames. *)
Theorem C09_tlv_login : forall first n,
  bytes_ok (match first with Some b => b | None => [] end) ->
  (login_plain first = (LoginOk n, TLV) <-> first = Some (wire_frame (MsgLogin, [n]))).
Proof. exact login_plain_tlv. Qed.
Print Assumptions C09_tlv_login.

(** C09: JSON logins: exactly the MsgExtendedLogin frames whose body is an NDT
    message with a numeral as tests field. *)
Theorem C09_json_login : forall first n,
  bytes_ok (match first with Some b => b | None => [] end) ->
  (login_plain first = (LoginOk n, JSON) <->
   exists body msg tests, first = Some (wire_frame (MsgExtendedLogin, body)) /\ fits body /\
     ndt_message body msg tests /\ numeral tests n).
Proof. exact login_plain_json. Qed.
Print Assumptions C09_json_login.

(** C09: a successful login leaves the connection with a usable messager, and no
    login crashes. *)
Theorem C09_usable_messager : forall first n e,
  login_plain first = (LoginOk n, e) -> messager_of e = Some e.
Proof. intros first n e H. apply login_plain_encoding in H as [-> | ->]; reflexivity. Qed.
Print Assumptions C09_usable_messager.

Theorem C09_never_panics : forall first, fst (login_plain first) <> LoginPanic.
Proof. exact login_plain_no_panic. Qed.
Print Assumptions C09_never_panics.

Example C09_example :
  login_plain (Some [2; 0; 1; 22]) = (LoginOk 22, TLV) /\
  login_plain (Some (write_tlv 11 (str "{""msg"":""v3.7.0"",""tests"":""-1""}"))) = (LoginOk (-1), JSON) /\
  login_plain (Some (write_tlv 11 (str "null"))) = (LoginErr, JSON) /\
  login_plain (Some [2; 0; 2; 22; 22]) = (LoginErr, TLV) /\
  login_plain None = (LoginErr, Unknown).
Proof. repeat split; reflexivity. Qed.

(** C10: which WS logins are accepted. *)
Theorem C10_ws_login : forall first n,
  bytes_ok (match first with Some b => b | None => [] end) ->
  (login_ws first = LoginOk n <->
   exists body msg tests, first = Some (wire_frame (MsgExtendedLogin, body)) /\ fits body /\
     ndt_message body msg tests /\ numeral tests n).
Proof. exact login_ws_ok. Qed.
Print Assumptions C10_ws_login.

(** C10 refuted: the WS login crashes, exactly for the body null. *)
Theorem C10_ws_login_panics_refuted : forall first,
  bytes_ok (match first with Some b => b | None => [] end) ->
  (login_ws first = LoginPanic <->
   exists body, first = Some (wire_frame (MsgExtendedLogin, body)) /\ fits body /\ json_text body JNull).
Proof. exact login_ws_panic. Qed.
Print Assumptions C10_ws_login_panics_refuted.

Example C10_example :
  login_ws (Some (write_tlv 11 (str "null"))) = LoginPanic /\
  login_ws (Some (write_tlv 11 (str "{""tests"":""22""}"))) = LoginOk 22 /\
  login_ws (Some [2; 0; 1; 22]) = LoginErr.
Proof. repeat split; reflexivity. Qed.
