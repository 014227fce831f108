(** Further facts about the single-use servers, the login and control connections. *)
From Coq Require Import String ZArith List Bool Arith Lia.
From Verif Require Import Base BaseFacts Lts WireModel WireSpec WireProofs GoJSON MessagerModel MessagerProofs ServingModel ServingProofs ControlModel ControlSpec.
Import ListNotations.

(** As long as the context of the caller is not done, ServeOnce is woken by the end of Serve. *)
Definition broken (s : ws_state) : Prop :=
  (v_cancel s = true -> v_serve s = SEnded) /\
  (v_parent s = false ->
   match v_main s with
   | MWait => True
   | MWoken => v_serve s = SEnded
   | MFirst x => v_serve s = SEnded /\ x = v_close_err s
   | MSecond | MFinal => v_serve s = SEnded /\ forall n, v_close_err s = Some (ServeFailed n) -> v_conn s <> None
   | MLeaving (c, e) | MDone (c, e) =>
       v_serve s = SEnded /\ forall n, v_close_err s = Some (ServeFailed n) -> c = None -> e = Some DidNotClose
   end).

Lemma broken_holds s : ws_reachable s -> broken s.
Proof.
  by_steps broken.
  { split; fields; [discriminate|intros _; exact I]. }
  all: unfold broken in *; fields; destruct H as [A B]; split.
  all: try (intros X; specialize (A X); congruence).
  all: try (intros X; try discriminate; specialize (B X)); try assumption.
  all: try (destruct r as [rc re]).
  all: try (destruct m as [| |x0| | |[rc re]|[rc re]]; intuition congruence).
  all: try (intuition congruence).
  - subst. rewrite orb_false_l in *. auto.
  - destruct B as [B1 B2]. destruct c as [c|], x0 as [y|]; try (split; [exact B1|intros; congruence]).
    destruct y as [|n| | |]; cbn [is_server_closed]; split; try exact B1; intros; congruence.
  - destruct B as [B1 B2]. destruct c as [c|], e as [e|]; split; try exact B1; intros n0 E; try congruence; try (exfalso; apply (B2 n0 E); reflexivity).
  - destruct B as [B1 B2]. split; [exact B1|]. intros n E C. exfalso. apply (B2 n E C).
Qed.

Lemma failed_serve s conn err n : ws_reachable s -> v_main s = MDone (conn, err) -> v_parent s = false ->
  v_close_err s = Some (ServeFailed n) -> conn = None -> err = Some DidNotClose.
Proof.
  intros R M P E C. destruct (broken_holds s R) as [_ B]. specialize (B P). rewrite M in B. destruct B as [_ B]. eauto.
Qed.

(** ** Which logins leave a messager *)
Lemma plain_messager first : bytes_ok (match first with Some b => b | None => [] end) ->
  (messager_of (snd (login_plain first)) <> None <->
   exists kind body, (kind = MsgLogin \/ kind = MsgExtendedLogin) /\ fits body /\ first = Some (wire_frame (kind, body))).
Proof.
  intros OK. split.
  - unfold login_plain. destruct (read_tlv_total first [MsgLogin; MsgExtendedLogin]) as [(p & ty & E)|(ty & e & E)];
      rewrite E; cbn [tlv_err tlv_payload tlv_type]; [|intros H; exfalso; apply H; reflexivity].
    intros _. apply read_tlv_accepts in E as [I (hi & lo & -> & L)].
    rewrite !bytes_ok_cons in OK. destruct OK as (Hty & Hhi & Hlo & OKp).
    destruct (fits_frame ty hi lo p) as [F W]; auto. exists ty, p. rewrite W. split; [|auto].
    destruct I as [<-|[<-|[]]]; auto.
  - intros (kind & body & K & F & ->). unfold login_plain. rewrite <- write_tlv_wire by auto.
    rewrite tlv_roundtrip; [|destruct K as [->| ->]; cbn; auto|exact F].
    cbn [tlv_err tlv_payload tlv_type]. destruct K as [->| ->].
    + change (MsgLogin =? MsgExtendedLogin) with false. change (MsgLogin =? MsgLogin) with true. cbv iota.
      destruct body as [|b [|b' r]]; cbn [snd messager_of]; discriminate.
    + change (MsgExtendedLogin =? MsgExtendedLogin) with true. cbv iota.
      destruct (unmarshal body); cbn [snd messager_of]; discriminate.
Qed.

(** ** The exchanges on the connection are events of the run *)
Lemma io_in e tr : In e (io tr) -> In e tr.
Proof. unfold io. rewrite filter_In. tauto. Qed.
