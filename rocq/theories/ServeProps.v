(** Failures of test servers (C24), the end of an upload (C64), the addresses of servers (C75)
    and which panics of a control connection remain when its test servers and measurements
    behave as C23, C24 and C26 say (C15). *)
From Coq Require Import String ZArith List Bool Lia.
From Verif Require Import Base BaseFacts Lts WireModel WireSpec JsonSpec GoJSON MessagerModel MessagerSpec MessagerProofs MessagerProps Web100Model PollerModel PollerProofs PollerProps
  ServingModel ServingProofs ServingProps ServeFacts Effect ControlModel ControlSpec ControlExample ControlFacts ControlProps
  TransferModel TransferProofs TransferProps MainModel StartModel StartSpec StartProofs StartProps.
Import ListNotations.
Open Scope Z_scope.

(** If the HTTP server of a websocket test fails, for want of a certificate for example, and the
    context of the caller is not done, ServeOnce returns a connection or says so. *)
Theorem C24_failure : forall s conn err n, ws_reachable s -> v_main s = MDone (conn, err) -> v_parent s = false ->
  v_close_err s = Some (ServeFailed n) -> conn = None -> err = Some DidNotClose.
Proof. exact failed_serve. Qed.
Print Assumptions C24_failure.

Example C24_failure_example : exists s, ws_reachable s /\ v_main s = MDone (None, Some DidNotClose) /\ v_parent s = false /\
  v_close_err s = Some (ServeFailed 7).
Proof.
  eexists. split; [|split; [|split]].
  - eexists. split; [reflexivity|].
    go (w_broken _ _ 7%nat). go w_cancel. go w_wake; [reflexivity|]. go w_copy. go w_first. go w_begin_main. go w_unlisten. go w_over. go w_done. constructor.
  - reflexivity.
  - reflexivity.
  - reflexivity.
Qed.

(** The login leaves the connection with a messager exactly if the first message is one whole
    login message, of either kind, whatever it holds. *)
Theorem C09_messager : forall first, bytes_ok (match first with Some b => b | None => [] end) ->
  (messager_of (snd (login_plain first)) <> None <->
   exists kind body, (kind = MsgLogin \/ kind = MsgExtendedLogin) /\ fits body /\ first = Some (wire_frame (kind, body))).
Proof. exact plain_messager. Qed.
Print Assumptions C09_messager.

Example C09_messager_example :
  messager_of (snd (login_plain (Some (wire_frame (MsgLogin, [1; 2]))))) = Some TLV /\
  messager_of (snd (login_plain (Some (wire_frame (TestMsg, [1]))))) = None.
Proof. split; reflexivity. Qed.

(** What a test server and a measurement may answer: what C24 and C26 say of the server of the
    connection's kind, and what C23 says of the first stop of a measurement; a message that is read consists of bytes. *)
Definition present {A B : Type} (x : option A) (y : option B) : Prop := x = None <-> y = None.
Definition answered (k : server_kind) (e : event) : Prop :=
  match e with
  | EvRead x => bytes_ok (match x with Some b => b | None => [] end)
  | EvServe _ (conn, err) =>
      match k with
      | KPlain => exists s c x, plain_reachable s /\ q_main s = PDone (c, x) /\ present conn c /\ present err x
      | _ => exists s c x, ws_reachable s /\ v_main s = MDone (c, x) /\ present conn c /\ present err x
      end
  | EvStopMeasuring _ w => exists m p, mc_reachable m /\ In (Some p, w) (k_stops m) /\ p_taken p = false
  | _ => True
  end.

(** Such a server never returns neither a connection nor an error, so a crash while a control
    connection is served has one of two causes: the body null in a websocket login, or a
    measurement of which every reading failed. *)
Theorem C15_panic : forall g tr s x lbl, run (handle_control_channel g tt) tr (s, x) -> Forall (answered (c_kind g)) tr ->
  In [lbl; str "panic"] (counted (str "ControlPanicCount") tr) ->
  (c_kind g <> KPlain /\ exists body, io tr = [EvRead (Some (wire_frame (MsgExtendedLogin, body)))] /\ json_text body JNull) \/
  (exists c m p, In (EvStopMeasuring c None) tr /\ mc_reachable m /\ In (Some p, None) (k_stops m) /\ p_taken p = false /\
     successes (p_reads p) = []).
Proof.
  intros g tr s x lbl R F C. rewrite Forall_forall in F.
  destruct (C15_label_cause g tr s x lbl _ R C) as (_ & b & l & _ & D). unfold cause in D.
  repeat (destruct D as [[D _]|D]; [discriminate D|]). destruct D as [_ [(y & E & P)|[(c & I)|(d & I)]]].
  - left. assert (I : In (EvRead y) tr) by (apply (io_in (EvRead y)); rewrite E; left; reflexivity).
    pose proof (F _ I) as B. cbn [answered] in B. destruct (c_kind g); cbn [login_of fst] in P.
    1, 2: split; [discriminate|]; apply (C10_ws_login_panics_refuted y B) in P as (body & -> & _ & J); exists body; auto.
    exfalso. exact (C09_never_panics y P).
  - right. destruct (F _ I) as (m & p & Rm & Im & T). exists c, m, p. repeat split; try assumption.
    destruct (C23_result m (Some p) None Rm Im T) as [_ W]. apply W. reflexivity.
  - exfalso. specialize (F _ I). cbn [answered] in F. destruct (c_kind g).
    1, 2: destruct F as (t & c & e & Rt & E & A & B); destruct A as [A _], B as [B _]; rewrite (A eq_refl), (B eq_refl) in E;
      destruct (C24_result t None None Rt E) as [[G|[G|[n G]]] _]; [reflexivity|discriminate..].
    destruct F as (t & c & e & Rt & E & A & B). destruct A as [A _], B as [B _]. rewrite (A eq_refl), (B eq_refl) in E.
    destruct (C26_result t None None Rt E) as [[(z & G & _)|[(n & _ & G & _)|(_ & G & _)]] _]; discriminate.
Qed.
Print Assumptions C15_panic.

(** A client whose C2S test is measured once, in vain. *)
Example C15_panic_example : exists tr,
  run (handle_control_channel g0 tt) tr (tt, Ok tt) /\ Forall (answered (c_kind g0)) tr /\
  counted (str "ControlPanicCount") tr = [[str "ndt5+plain"; str "panic"]].
Proof.
  assert (Q : exists m p, mc_reachable m /\ In (Some p, None) (k_stops m) /\ p_taken p = false).
  { eexists _, _. split; [|split].
    - eexists. split; [reflexivity|].
      eapply later_front; [apply (k_start false)|].
      eapply later_front; [apply k_poll, po_go|]. eapply later_front; [apply k_stop|].
      eapply later_front; [apply k_poll, (po_read None)|]. eapply later_front; [apply k_poll, po_tick|].
      eapply later_front; [apply k_poll, po_over|]. eapply later_front; [apply k_poll, po_sum|].
      eapply later_front; [apply k_poll, po_close|].
      eapply later_front; [apply k_receive; reflexivity|]. constructor.
    - left. reflexivity.
    - reflexivity. }
  eexists. split.
  - silent. answer 100. answer (Some [2; 0; 1; 18]).
    change (login_of (c_kind g0) (Some [2; 0; 1; 18])) with (LoginOk 18, TLV).
    cbv iota beta. unfold serve_tests.
    change (Z.land 18 16 =? 0) with false. cbv iota.
    change (wants 18 1) with false. change (wants 18 2) with true. change (wants 18 4) with false.
    change (wants 18 8) with false. change (wants 18 32) with false. cbv zeta.
    silent. answer (@None err). answer (@None err). answer (@None err).
    answer (@inl Z err 5000). answer (@None err). answer (Some c0, @None err). answer (@None err).
    answer 1000. silent. answer DrainTimeout. answer (@None web100). answer 10000001000.
    silent. answer 20000000000. silent.
    reduce. split; reflexivity.
  - split; [|reflexivity].
    repeat (apply Forall_cons; [|]); try apply Forall_nil; try exact I; try exact Q.
    1-4: unfold byte_ok; lia.
    + cbn [answered]. change (c_kind g0) with KPlain. cbv iota. destruct plain_good_run as (s & Rs & E & _).
      exists s, (Some 0%nat), None. repeat split; try assumption; congruence.
Qed.

(** Once the upload test has returned, every schedule ends with its connection closed and no
    goroutine left. *)
Theorem C64_after_return : forall s t u, upload_possible s -> upload_return s t -> later upload_step t u ->
  inevitable upload_sys (fun t => u_open t = false /\ (u_drain t = DIdle \/ u_drain t = DEnd) /\ u_close t = CDone /\
    match u_poll t with Some p => p_at p = PEnd | None => True end) u.
Proof.
  intros s t u R E L. assert (R' : upload_possible t) by (eapply reachable_step; [exact R|right; right; exact E]).
  apply (proj2 (C64_cleaned_up t R')); [inversion E; subst; discriminate|exact L].
Qed.
Print Assumptions C64_after_return.

Example C64_after_return_example : forall snap, exists s t, upload_possible s /\ upload_return s t /\
  u_wait t = WBack (summarize [snap]) None /\ u_drain t = DRead /\ u_open t = true.
Proof.
  intros snap. eexists _, _. split; [|split; [apply m_return|]].
  - eexists. split; [reflexivity|].
    eapply later_front; [left; apply (e_data 100); lia|].
    eapply later_front; [right; left; apply s_work, s_start|].
    eapply later_front; [right; left; apply s_work, (s_read 100); lia|].
    eapply later_front; [right; left; apply s_poll, po_go|].
    eapply later_front; [right; left; apply s_poll, (po_read (Some snap))|].
    eapply later_front; [left; apply e_time|].
    eapply later_front; [right; left; apply s_work, s_timeout|].
    eapply later_front; [right; left; apply s_poll, po_tick|].
    eapply later_front; [right; left; apply s_poll, po_over|].
    eapply later_front; [right; left; apply s_poll, po_sum|].
    eapply later_front; [right; left; apply s_work, s_stopped; reflexivity|]. constructor.
  - repeat split.
Qed.

(** A TLS server, and one whose address has a port, keeps the address it was configured with. *)
Theorem C75_address : forall f p r, start_possible f p -> In r (p_http p) ->
  ls_cert (rn_for r) <> Cleartext \/ has_suffix (str ":0") (sv_addr (ls_server (rn_for r))) = false ->
  rn_addr r = sv_addr (ls_server (rn_for r)).
Proof.
  intros f p r R I H. pose proof (start_holds f p R) as (_ & F & _). rewrite Forall_forall in F.
  destruct (F r I) as (_ & _ & _ & _ & _ & b & ->). unfold addr_after, tls.
  destruct (ls_cert (rn_for r)), (has_suffix _ _); cbn [negb andb]; try reflexivity; destruct H; congruence.
Qed.
Print Assumptions C75_address.

Example C75_address_example : exists r, start_possible f0 (up_state f0 []) /\ In r (p_http (up_state f0 [])) /\
  has_suffix (str ":0") (sv_addr (ls_server (rn_for r))) = false.
Proof.
  eexists. split; [apply up_possible|]. split; [left; reflexivity|reflexivity].
Qed.

(** On the plain port no connection of a test is left open: its test servers never return a
    connection together with an error, the one case in which C18 fails. *)
Theorem C18_plain : forall g tr s x, run (handle_control_channel g tt) tr (s, x) -> Forall (answered (c_kind g)) tr ->
  c_kind g = KPlain -> served_with_error tr = [] /\ forall d c e, In (EvServe d (Some c, e)) tr -> In c (ControlSpec.closed tr).
Proof.
  intros g tr s x R F K. rewrite K, Forall_forall in F.
  assert (W : forall d c e, In (EvServe d (Some c, e)) tr -> e = None).
  { intros d c e I. destruct (F _ I) as (t & a & b & Rt & E & A & B).
    destruct (C26_result t a b Rt E) as [[(z & _ & -> & _)|[(n & -> & _)|(-> & _)]] _].
    - apply B. reflexivity.
    - destruct A as [_ A]. discriminate (A eq_refl).
    - destruct A as [_ A]. discriminate (A eq_refl). }
  split.
  - unfold served_with_error. destruct (flat_map _ tr) as [|c l] eqn:E; [reflexivity|]. exfalso.
    assert (I : In c (c :: l)) by (left; reflexivity). rewrite <- E in I. apply in_flat_map in I as (ev & I & J).
    destruct ev; try contradiction. destruct r as [[y|] [e|]]; try contradiction. discriminate (W _ _ _ I).
  - intros d c e I. rewrite (C18_closed g tr s x R). rewrite (W d c e I) in I. unfold served. apply in_flat_map.
    eexists. split; [exact I|]. left. reflexivity.
Qed.
Print Assumptions C18_plain.

(** [C15_panic_example] has such a run. *)
Example C18_plain_example : exists tr, run (handle_control_channel g0 tt) tr (tt, Ok tt) /\
  Forall (answered (c_kind g0)) tr /\ c_kind g0 = KPlain.
Proof. destruct C15_panic_example as (tr & R & F & _). exists tr. auto. Qed.
