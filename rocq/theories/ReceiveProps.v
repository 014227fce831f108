(** What the TLV messager returns for a message that was delivered to it (C02). *)
From Coq Require Import String ZArith List Bool Lia.
From Verif Require Import Base BaseFacts WireModel WireSpec WireProofs GoJSON MessagerModel MessagerSpec MessagerProofs.
Import ListNotations.
Open Scope Z_scope.

(** A text is returned without an error exactly if what was delivered is the frame of that
    text, of the expected type. *)
Theorem C02_message : forall kind delivered text,
  bytes_ok (match delivered with Some b => b | None => [] end) ->
  (tlv_receive delivered kind = (Some text, None) <-> fits text /\ delivered = Some (wire_frame (kind, text))).
Proof.
  intros kind d text OK. unfold tlv_receive. split.
  - destruct (read_tlv_total d [kind]) as [(p & ty & E)|(ty & e & E)]; rewrite E; cbn [tlv_payload tlv_err]; intros H; [|discriminate].
    injection H as <-. apply read_tlv_accepts in E as [I (hi & lo & -> & L)]. destruct I as [->|[]]. rewrite !bytes_ok_cons in OK.
    destruct (fits_frame ty hi lo p) as [F W]; try tauto. now rewrite W.
  - intros [F ->].
    assert (E : read_tlv (Some (wire_frame (kind, text))) [kind] = TlvRes (Some text) kind None).
    { apply read_tlv_accepts. split; [now left|]. exists (len text / 256), (len text mod 256). split; [reflexivity|].
      pose proof (Z.div_mod (len text) 256). lia. }
    now rewrite E.
Qed.
Print Assumptions C02_message.

(** In every other case, a failed read among them, there is an error and no text. *)
Theorem C02_no_message : forall kind delivered,
  bytes_ok (match delivered with Some b => b | None => [] end) ->
  (forall text, fits text -> delivered <> Some (wire_frame (kind, text))) ->
  exists e, tlv_receive delivered kind = (None, Some e).
Proof.
  intros kind d OK N. unfold tlv_receive. destruct (read_tlv_total d [kind]) as [(p & ty & E)|(ty & e & E)].
  - exfalso. apply read_tlv_accepts in E as [I (hi & lo & -> & L)]. destruct I as [->|[]]. rewrite !bytes_ok_cons in OK.
    destruct (fits_frame ty hi lo p) as [F W]; try tauto. apply (N p F). now rewrite W.
  - rewrite E. cbn [tlv_payload tlv_err]. eauto.
Qed.
Print Assumptions C02_no_message.

Example C02_message_example :
  tlv_receive (Some [5; 0; 2; 49; 50]) TestMsg = (Some (str "12"), None) /\
  tlv_receive (Some [5; 0; 3; 49; 50]) TestMsg = (None, Some (RecvFrame TlvBadLength)) /\
  tlv_receive (Some [6; 0; 2; 49; 50]) TestMsg = (None, Some (RecvFrame TlvWrongType)) /\
  tlv_receive None TestMsg = (None, Some (RecvFrame TlvConnError)).
Proof. vm_compute. auto. Qed.
