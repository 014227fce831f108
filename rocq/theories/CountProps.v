(** C85: the counters of test servers that were started and stopped. *)
From Coq Require Import List Bool Arith Lia.
From Verif Require Import Lts ServingModel ServingProofs ControlModel CountModel CountSpec CountProofs.
Import ListNotations.

(** At every moment, for every protocol: the first counter is the number of calls that asked for
    a test server; it exceeds the second one by the calls that failed and the servers that have
    not begun to close. *)
Theorem C85_counts : forall z k, meter_reachable z ->
  mt_start z k = many (of_kind k) (mt_servers z) /\
  mt_start z k = mt_stop z k + many (fun m => of_kind k m && failed m) (mt_servers z) +
    many (fun m => of_kind k m && negb (failed m) && negb (stopping m)) (mt_servers z).
Proof. intros z k R. apply start_stop, R. Qed.
Print Assumptions C85_counts.

(** When no test waits for a client, the two differ by the calls that failed and by the sockets
    that listen; these are the servers on which nobody has waited for a client. *)
Theorem C85_rest : forall z, meter_reachable z -> Forall resting (mt_servers z) ->
  (forall k, mt_start z k = mt_stop z k + many (fun m => of_kind k m && failed m) (mt_servers z) +
     many (fun m => of_kind k m && listening m) (mt_servers z)) /\
  (forall m, In m (mt_servers z) -> (listening m = true <-> exists k, m = Idle k)).
Proof.
  intros z R F. split; [intros k; apply rest_counts; assumption|]. intros m I.
  destruct (meter_holds z R) as [G _]. rewrite Forall_forall in F, G. rewrite (rest_closed m (G m I) (F m I)).
  destruct m; cbn; split; try discriminate; try (intros [j E]; discriminate); eauto.
Qed.
Print Assumptions C85_rest.

Example C85_example : exists z s, meter_reachable z /\ Forall resting (mt_servers z) /\
  mt_servers z = [Unbound KWss; Idle KWss; WsRun KWss s] /\ mt_start z KWss = 3 /\ mt_stop z KWss = 1.
Proof.
  destruct three_servers as (z & s & R & E & D & N). exists z, s. split; [exact R|].
  assert (F : Forall resting (mt_servers z)) by (rewrite E; repeat constructor; exists (Some 0, None); exact D).
  split; [exact F|]. split; [exact E|]. split; [exact N|].
  pose proof (proj1 (C85_rest z R F) KWss) as C. rewrite E, N in C. unfold many in C. cbn in C.
  destruct (meter_holds z R) as [G _]. rewrite E in G. inversion G as [|? ? _ G1]. inversion G1 as [|? ? _ G2]. inversion G2 as [|? ? Gs _]. subst.
  cbn in Gs. rewrite (done_over s Gs _ D) in C. cbn in C. lia.
Qed.

(** The help text of the first counter, the number of times that a server was started, is false:
    a call that cannot have a port is counted, and it never becomes a server.  So the difference of the
    two counters, once such a call was made, is never again the number of servers that run. *)
Theorem C85_started_refuted : exists z, meter_reachable z /\ mt_start z KPlain = 1 /\
  forall y, later meter_step z y -> exists m l, mt_servers y = m :: l /\ listening m = false /\ stopping m = false /\
    mt_start y KPlain > mt_stop y KPlain.
Proof.
  exists (Metering [Unbound KPlain] (bump (fun _ => 0) KPlain 1) (fun _ => 0)). split; [|split; [reflexivity|]].
  - eexists. split; [reflexivity|]. eapply later_front; [apply (mt_fails KPlain)|]. constructor.
  - intros y L. destruct (unbound_stays _ _ L [] KPlain [] eq_refl) as ([|x r] & r' & E & Len); [|discriminate].
    exists (Unbound KPlain), r'. split; [exact E|]. split; [reflexivity|]. split; [reflexivity|].
    assert (R : meter_reachable y).
    { eapply reachable_later; [|exact L]. eexists. split; [reflexivity|]. eapply later_front; [apply (mt_fails KPlain)|]. constructor. }
    destruct (start_stop y KPlain R) as [_ S]. rewrite S, E. cbn [app]. rewrite !many_cons. cbn [of_kind kind_of kind_eqb failed andb b2n]. lia.
Qed.
Print Assumptions C85_started_refuted.
