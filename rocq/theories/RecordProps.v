(** Every field of the record of a single NDT5 test, however far the test got (C17, C53). *)
From Coq Require Import String ZArith List Bool Lia.
From Verif Require Import Base WireModel MessagerModel GoFloat Web100Model Effect ControlModel ControlSpec ControlProofs ControlFacts TestFacts ControlExample.
Import ListNotations.
Open Scope Z_scope.

(** The readings of the clock. *)
Definition readings (tr : list event) : list Z := flat_map (fun e => match e with EvNow t => [t] | _ => [] end) tr.
(** Whether the second message, TestStart, was sent. *)
Definition started_transfer (tr : list event) : Prop := exists f, nth_error (writes tr) 1 = Some (f, None).

(** The addresses and the UUID of an upload are those of the connection that was served, and
    there are none without one.  The times are the two readings of the clock around the
    transfer, and there are none if it was not announced. *)
Theorem C17_record : forall g m tr s r, run (c2s_manage g m c2s_empty) tr (s, r) ->
  match served tr with
  | [] => u_uuid s = [] /\ u_server_ip s = [] /\ u_server_port s = 0 /\ u_client_ip s = [] /\ u_client_port s = 0
  | [c] => u_uuid s = tc_uuid c /\ u_server_ip s = tc_server_ip c /\ u_server_port s = tc_server_port c /\
           u_client_ip s = tc_client_ip c /\ u_client_port s = tc_client_port c
  | _ => False
  end /\
  match readings tr with
  | [] => u_start s = None /\ u_end s = None /\ ~ started_transfer tr
  | [t0; t1] => u_start s = Some t0 /\ u_end s = Some t1 /\ started_transfer tr
  | _ => False
  end.
Proof.
  intros g m tr s r H. exe H; unfold served, readings, started_transfer, writes; cbn [flat_map app nth_error];
    (split; [repeat split; reflexivity|]);
    (split; [reflexivity|]); (split; [reflexivity|]);
    first [eexists; reflexivity | intros (f & E); discriminate].
Qed.
Print Assumptions C17_record.

(** The same for a download, which has no statistics unless they were measured. *)
Theorem C53_record : forall g m tr s r, run (s2c_manage g m s2c_empty) tr (s, r) ->
  match served tr with
  | [] => d_uuid s = [] /\ d_server_ip s = [] /\ d_server_port s = 0 /\ d_client_ip s = [] /\ d_client_port s = 0
  | [c] => d_uuid s = tc_uuid c /\ d_server_ip s = tc_server_ip c /\ d_server_port s = tc_server_port c /\
           d_client_ip s = tc_client_ip c /\ d_client_port s = tc_client_port c
  | _ => False
  end /\
  match readings tr with
  | [] => d_start s = None /\ d_end s = None /\ ~ started_transfer tr
  | [t0; t1] => d_start s = Some t0 /\ d_end s = Some t1 /\ started_transfer tr
  | _ => False
  end /\
  (measured tr = [] ->
   d_min_rtt s = 0 /\ d_max_rtt s = 0 /\ d_sum_rtt s = 0 /\ d_count_rtt s = 0 /\
   d_mean s = f_zero /\ d_client_mbps s = f_zero /\ d_tcp_info s = None).
Proof.
  intros g m tr s r H. s2c_exec H; unfold served, readings, started_transfer, writes, measured; cbn [flat_map app nth_error];
    rewrite ?flat_map_lines by reflexivity; cbn [flat_map app];
    (split; [repeat split; reflexivity|]);
    (split; [(split; [reflexivity|]); (split; [reflexivity|]); first [eexists; reflexivity | intros (?f & ?E); discriminate] |
             first [discriminate | intros _; repeat split; reflexivity]]).
Qed.
Print Assumptions C53_record.

(** An upload whose TestStart cannot be sent: a connection, but no times. *)
Example C17_record_example : exists tr s e,
  run (c2s_manage g0 TLV c2s_empty) tr (s, Ok (Some e)) /\ served tr = [c0] /\ readings tr = [] /\ u_uuid s = tc_uuid c0 /\ u_end s = None.
Proof.
  exists [ EvListen (str "c2s") (inl 5000); EvWrite (frame_of TLV TestPrepare (itoa 5000)) None;
           EvServe (str "c2s") (Some c0, None); EvWrite (frame_of TLV TestStart []) (Some (ErrIo (str "broken pipe")));
           EvCount (str "ClientTestErrors") [label g0; str "c2s"; str "TestStart"]; EvTestCloseLater (Some c0) ].
  eexists _, (ErrIo (str "broken pipe")). split.
  - answer (@inl Z err 5000). answer (@None err). answer (Some c0, @None err).
    answer (Some (ErrIo (str "broken pipe"))). silent. silent. reduce. split; reflexivity.
  - repeat split; reflexivity.
Qed.
