(** Properties C40, C41 and C57: the goroutines of an ndt7 subtest. *)
From Coq Require Import String ZArith List Bool Lia Sorting.Sorted.
From Verif Require Import Base Effect Lts Web100Model Ndt7Model Ndt7Spec Ndt7Example DoModel DoProofs MeasurerModel MeasurerSpec MeasurerProofs.
Import ListNotations.
Open Scope Z_scope.

(** ** C40 *)

(** Whatever the sender does: if the context of the request was not done when Do
    returned, then the client measurements stay for ever as they were at that moment;
    they are those of a complete run of the receiver. *)
Theorem C40_unexpired : forall sender decode fuel proto k s snap,
  reachable (sub_init sender (receiver decode fuel proto k tt)) sub_step s ->
  d_returned s = Some (snap, false) ->
  (forall t, later sub_step s t -> d_client t = snap) /\
  run (receiver decode fuel proto k tt) (d_rtrace s) (tt, Ok tt) /\ snap = stored (d_rtrace s).
Proof.
  intros sender decode fuel proto k s snap R E. split.
  - intros t L. assert (Et : d_returned t = Some (snap, false)).
    { revert E. apply (later_invariant sub_step (fun s => d_returned s = Some (snap, false))) with (s := s); [|exact L].
      intros x y Hx St. inversion St; subst; cbn in *; congruence. }
    eapply quiet; [eapply reachable_later; eauto|exact Et].
  - destruct (complete _ _ s snap R E) as ([] & H & X). auto.
Qed.
Print Assumptions C40_unexpired.

(** In every case the sender has run to its end when Do returns, and the receiver adds at
    most one measurement after that. *)
Theorem C40_at_most_one : forall sender decode fuel proto k s snap pa,
  reachable (sub_init sender (receiver decode fuel proto k tt)) sub_step s ->
  d_returned s = Some (snap, pa) ->
  (exists a e, run sender (d_strace s) (a, Ok e)) /\
  exists extra, d_client s = snap ++ extra /\ (length extra <= 1)%nat.
Proof.
  intros sender decode fuel proto k s snap pa R E. split; [eapply sender_done; eauto|].
  eapply at_most_one; [apply receiver_budget|exact R|exact E].
Qed.
Print Assumptions C40_at_most_one.

(** That nothing is added is false: for every sender that can return and every client
    message with a measurement there is a schedule in which the context of the request
    expires, Do returns, and the receiver then stores the measurement. *)
Theorem C40_refuted : forall sender st a e decode d m fuel proto k,
  run sender st (a, Ok e) -> decode d = Some m -> (3 <= fuel)%nat ->
  exists s, reachable (sub_init sender (receiver decode fuel proto k tt)) sub_step s /\
    d_returned s = Some ([], true) /\ d_client s = [m].
Proof.
  intros sender st a e decode d m fuel proto k H Dm L.
  replace fuel with (3 + (fuel - 3))%nat by lia. eapply late_store; eassumption.
Qed.
Print Assumptions C40_refuted.

(** A download that Do returns from without expiry, with two client measurements. *)
Example C40_example : exists sender decode s,
  reachable (sub_init sender (receiver decode 12 (str "ndt7+ws") Upload tt)) sub_step s /\
  d_returned s = Some ([m_late; m_late], false).
Proof.
  destruct run_receiver as (tr & H & _ & Hs).
  exists (Ret (a_empty, Ok None)), (fun d => match d with [] => None | _ => Some m_late end). eexists. split.
  - eexists. split; [reflexivity|].
    eapply later_trans; [apply later_recv, run_gets, H|]. rewrite Hs.
    eapply later_front; [apply st_cancel2|].
    eapply later_front; [apply st_return; reflexivity|]. constructor.
  - reflexivity.
Qed.

(** ** C41 *)

(** When Stop returns, the goroutines of the measurer and of its ticker have ended and the
    channel is closed; nothing can happen any more. *)
Theorem C41_stop_returned : forall client server uuid s, m_reachable client server uuid s ->
  s_cons s = CBack -> all_over s /\ (forall t, later (m_step client server uuid) s t -> t = s).
Proof.
  intros client server uuid s R B. destruct (back_rest _ _ _ s R B) as [A K]. split; [exact A|].
  intros t L. induction L as [|x y L IH St]; [reflexivity|]. rewrite IH in St by assumption. destruct (K _ St).
Qed.
Print Assumptions C41_stop_returned.

(** Once the context is done, or Stop has found a ticker to stop, every schedule is finite
    and ends with Stop having returned and both goroutines ended. *)
Theorem C41_terminates : forall client server uuid s, m_reachable client server uuid s ->
  s_expired s = true \/ s_stop s = true ->
  inevitable (m_step client server uuid) at_rest s.
Proof. intros client server uuid s R H. apply over_inevitable; [exact R|]. unfold over. tauto. Qed.
Print Assumptions C41_terminates.

(** Stop after m.ticker was set stops the ticker. *)
Theorem C41_stop : forall client server uuid s t, m_reachable client server uuid s ->
  s_cons s = CStop -> s_set s = true -> m_step client server uuid s t -> s_cons t = CDrain ->
  inevitable (m_step client server uuid) at_rest t.
Proof. exact stop_inevitable. Qed.
Print Assumptions C41_stop.

(** There is no deadlock: until Stop has returned some goroutine can make a step, without
    the context expiring from outside. *)
Theorem C41_no_deadlock : forall client server uuid s, m_reachable client server uuid s ->
  s_cons s <> CBack ->
  exists t, m_step client server uuid s t /\ (s_expired s = false -> s_expired t = true -> s_loop t = LEnd).
Proof. intros client server uuid s R B. exact (no_deadlock client server uuid s R B). Qed.
Print Assumptions C41_no_deadlock.

(** That Stop ends the measurements at once is false: if it comes before the measurer has
    set m.ticker, any number of measurements can be taken and thrown away while Stop has
    not returned and the context is not done. *)
Theorem C41_early_stop_refuted : forall client server uuid, exists s,
  m_reachable client server uuid s /\ s_cons s = CDrain /\ s_expired s = false /\
  forall n, exists t, later (m_step client server uuid) s t /\ s_cons t = CDrain /\
    s_expired t = false /\ length (s_drained t) = n.
Proof. intros client server uuid. exact (early_stop client server uuid 0). Qed.
Print Assumptions C41_early_stop_refuted.

(** A reachable state in which the consumer has a measurement and the context expires while
    the measurer is blocked with the next one. *)
Example C41_example : exists s m m', m_reachable [] [] [] s /\
  s_given s = [m] /\ s_loop s = LSend (ConnInfo [] [] [] 5) m' /\ s_expired s = true /\
  elapsed_times [m; m'] = [2; 3].
Proof.
  set (ci := ConnInfo [] [] [] 5). set (i := TcpInfo 0 0 0 0 0 []).
  exists (MS (LSend ci (take ci 3010 None (Some i))) TCheck CRead true false true [take ci 2010 None (Some i)] [] 3010),
    (take ci 2010 None (Some i)), (take ci 3010 None (Some i)).
  split; [|repeat split].
  exists (MS LBoot TNone CRead false false false [] [] 0). split; [exists 0; reflexivity|].
  eapply later_front; [apply (m_begin _ _ _ _ _ _ _ _ _ _ _ 5); lia|].
  eapply later_front; [apply m_made; reflexivity|].
  eapply later_front; [apply m_assign|].
  eapply later_front; [apply t_go|].
  eapply later_front; [apply (t_fire _ _ _ _ _ _ _ _ _ _ _ 2010); lia|].
  eapply later_front; [apply (m_tick _ _ _ _ _ None (Some i))|].
  eapply later_front; [apply m_give|].
  eapply later_front; [apply t_go|].
  eapply later_front; [apply (t_fire _ _ _ _ _ _ _ _ _ _ _ 3010); lia|].
  eapply later_front; [apply (m_tick _ _ _ _ _ None (Some i))|].
  eapply later_front; [apply e_expire|]. constructor.
Qed.

(** ** C57 *)

(** All measurements of one measurer carry the addresses and UUID of the connection and
    one start time; each has BBR and TCP information with the same elapsed time or
    neither; elapsed times do not decrease. *)
Theorem C57_samples : forall client server uuid s, m_reachable client server uuid s ->
  exists start, Forall (sample client server uuid start) (s_given s ++ s_drained s) /\
    StronglySorted Z.le (elapsed_times (s_given s ++ s_drained s)).
Proof. exact samples. Qed.
Print Assumptions C57_samples.

(** A measurement has TCP information iff it could be read; without BBR information the
    BBR fields are zero; the elapsed time is the whole number of microseconds since the
    start. *)
Theorem C57_contents : forall ci now bbr tcp, ci_start ci <= now ->
  m_tcp (take ci now bbr tcp) = match tcp with Some i => Some (i, (now - ci_start ci) / 1000) | None => None end /\
  m_bbr (take ci now bbr tcp) =
    match tcp, bbr with
    | None, _ => None
    | Some _, Some b => Some (b, (now - ci_start ci) / 1000)
    | Some _, None => Some (BBRInfo 0 0 0 0, (now - ci_start ci) / 1000)
    end.
Proof.
  intros ci now bbr tcp L. rewrite <- Z.quot_div_nonneg by lia. unfold take, read_info.
  destruct tcp, bbr; split; reflexivity.
Qed.
Print Assumptions C57_contents.

Example C57_example : exists s m, m_reachable [] [] [] s /\ s_given s = [m] /\ elapsed_times [m] = [2].
Proof.
  destruct C41_example as (s & m & m' & R & G & _ & _ & E). exists s, m. split; [exact R|]. split; [exact G|].
  unfold elapsed_times in *. cbn in *. destruct (m_tcp m) as [[x e]|], (m_tcp m') as [[x' e']|]; cbn in *; congruence.
Qed.
