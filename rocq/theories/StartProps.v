(** Property C75: the process starts as a whole, says so, and ends cleanly. *)
From Coq Require Import String ZArith List Bool Lia.
From Verif Require Import Base BaseFacts MainModel StartModel StartSpec StartProofs Lts.
Import ListNotations.
Open Scope Z_scope.

(** Once the health endpoint can be reached every configured service can: connections to its
    port are accepted, unless its server has just failed. *)
Theorem C75_health : forall f p, start_possible f p -> answering p (health_server f) ->
  (p_done p = false -> plain_listens p) /\ forall l, In l (listenings f) -> listens p l \/ has_failed p l.
Proof. exact health_listens. Qed.
Print Assumptions C75_health.

(** From then on no step of the start-up can end the process. *)
Theorem C75_started : forall f p q t, start_possible f p -> answering p (health_server f) ->
  later (start_step f) p q -> ~ died q (FTask t).
Proof. exact started_stays. Qed.
Print Assumptions C75_started.

(** Without a signal the process comes up as a whole, or ends with status 1 because of a step
    or a server that failed. *)
Theorem C75_all_or_nothing : forall f p, start_possible f p -> p_done p = false ->
  inevitable (start_sys f) (fun q => up f q \/ exists w, died q w /\ blame f w) p.
Proof. exact comes_up. Qed.
Print Assumptions C75_all_or_nothing.

(** A server that stops serving ends the process. *)
Theorem C75_failure : forall f p l, start_possible f p -> p_done p = false -> has_failed p l ->
  inevitable (start_sys f) (fun q => exists w, died q w /\ blame f w) p.
Proof. exact failure_ends. Qed.
Print Assumptions C75_failure.

(** Once the context is cancelled the process ends; with status 0 if it was up. *)
Theorem C75_shutdown : forall f p, start_possible f p -> p_done p = true ->
  inevitable (start_sys f) (fun q => p_exit q = Some 0 \/ exists w, died q w /\ blame f w) p.
Proof. exact goes_down. Qed.
Print Assumptions C75_shutdown.

Theorem C75_clean : forall f p, start_possible f p -> p_done p = true -> p_main p = Waiting ->
  (forall l, In l (listenings f) -> answering p l) -> (forall r, In r (p_http p) -> rn_go r = GServing) ->
  inevitable (start_sys f) (fun q => p_exit q = Some 0) p.
Proof. exact clean_end. Qed.
Print Assumptions C75_clean.

(** Status 0 means that the context was cancelled and that every server was started and closed;
    every other end is status 1 and has a cause. *)
Theorem C75_status : forall f p, start_possible f p -> p_exit p <> None ->
  (p_exit p = Some 0 /\ p_why p = None /\ p_done p = true /\ map rn_for (p_http p) = listenings f /\
     Forall (fun r => rn_closed r = true) (p_http p)) \/
  exists w, died p w /\ blame f w.
Proof. exact exits. Qed.
Print Assumptions C75_status.

Definition f0 : flags := Flags (str ":443") (str ":80") (str ":3001") (str "127.0.0.1:3002") (str ":3010")
  (str "127.0.0.1:8000") (str "cert.pem") (str "key.pem") [] false [] false false.

Example C75_example : start_possible f0 (up_state f0 []) /\ up f0 (up_state f0 []) /\
  answering (up_state f0 []) (health_server f0) /\ List.length (listenings f0) = 5%nat.
Proof.
  split; [apply up_possible|]. split; [apply up_state_up|]. split; [|reflexivity].
  apply up_state_up. do 4 right. now left.
Qed.

(** The same state after a signal meets the conditions of [C75_clean]. *)
Example C75_clean_example : exists p, start_possible f0 p /\ p_done p = true /\ p_main p = Waiting /\
  (forall l, In l (listenings f0) -> answering p l) /\ forall r, In r (p_http p) -> rn_go r = GServing.
Proof.
  exists (Process Waiting (Some true) (map (serving []) (listenings f0)) true None None).
  split; [eapply reachable_step; [apply (up_possible f0 [])|left; apply sv_cancel]|].
  split; [reflexivity|]. split; [reflexivity|]. split.
  - intros l I. destruct (up_state_up f0 []) as (_ & _ & H). exact (H l I).
  - intros r I. apply in_map_iff in I. destruct I as (l & <- & _). reflexivity.
Qed.

(** The plain port is open before the websocket port, to which it forwards: with every
    configuration there is a moment in which a websocket client is accepted and cannot be
    served, although the process comes up. *)
Theorem C75_window_refuted : forall f, exists p q, start_possible f p /\ plain_listens p /\
  ~ listens p (ws_server f) /\ later (start_step f) p q /\ up f q.
Proof.
  intros f. exists (plain_state f), (up_state f []). split; [apply plain_possible|].
  split; [split; reflexivity|]. split; [intros (_ & r & [] & _)|].
  split; [apply plain_up|apply up_state_up].
Qed.
Print Assumptions C75_window_refuted.

(** This happens only during the start, or when the websocket server has failed. *)
Theorem C75_window : forall f p, start_possible f p -> plain_listens p -> p_done p = false ->
  listens p (ws_server f) \/ has_failed p (ws_server f) \/
  exists rest, p_main p = Starting rest /\ In (THttp (ws_server f)) rest.
Proof. exact window. Qed.
Print Assumptions C75_window.

(** Certificates are loaded after the start-up has gone on: the health endpoint can answer in a
    process that then ends because it cannot read its certificate. *)
Theorem C75_certificate_refuted : exists f p q, start_possible f p /\ answering p (health_server f) /\
  later (start_sys f) p q /\ died q (FServe (wss_server f)).
Proof.
  set (new := started). set (h := map (fun l => new l []) (listenings f0)).
  assert (H : h = (map (fun l => new l []) [ws_server f0; ndt7_cleartext f0; wss_server f0; ndt7_server f0 false]) ++
    [new (health_server f0) []]) by reflexivity.
  exists f0. do 2 eexists. split; [|split; [|split]].
  - eapply reachable_step; [eapply reachable_later; [apply plain_possible|apply (start_all f0 [] _ _ _ [])]|].
    right. cbn [app]. fold new. fold h. rewrite H. unfold new at 2, started. apply ss_serve.
  - split; [reflexivity|]. eexists. split; [apply in_or_app; right; left; reflexivity|]. repeat split.
  - cbn [map app]. eapply later_front.
    + apply (ss_certificate f0 (Starting []) (Some true) [new (ws_server f0) []; new (ndt7_cleartext f0) []]
               [new (ndt7_server f0 false) []; _] (wss_server f0) (addr_after (wss_server f0) []) true false false None
               (str "cert.pem") (str "key.pem")). reflexivity.
    + eapply later_front; [apply ss_dies|constructor].
  - split; reflexivity.
Qed.
Print Assumptions C75_certificate_refuted.

(** The plain port forwards to the address on the command line.  That is the address of the
    websocket server unless it ends in ":0" ... *)
Theorem C75_forward : forall f p r, start_possible f p -> has_suffix (str ":0") (f_ndt5_ws f) = false ->
  In r (p_http p) -> rn_for r = ws_server f -> rn_addr r = forward_to f.
Proof. exact forward_addr. Qed.
Print Assumptions C75_forward.

(** ... and in that case it is not. *)
Theorem C75_any_port_refuted : exists f p r, start_possible f p /\ up f p /\ In r (p_http p) /\
  rn_for r = ws_server f /\ rn_addr r = str "127.0.0.1:40001" /\ forward_to f = str "127.0.0.1:0".
Proof.
  set (f := Flags (str ":443") (str ":80") (str ":3001") (str "127.0.0.1:0") (str ":3010")
    (str "127.0.0.1:8000") [] [] [] false [] false false).
  exists f, (up_state f (str "127.0.0.1:40001")), (serving (str "127.0.0.1:40001") (ws_server f)).
  split; [apply up_possible|]. split; [apply up_state_up|]. split; [now left|]. repeat split.
Qed.
Print Assumptions C75_any_port_refuted.
