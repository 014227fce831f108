(** Property theorems about the data phase of the NDT5 tests (C64, C65, C66). *)
From Coq Require Import ZArith List Bool Lia.
From Verif Require Import Base Web100Model Lts PollerModel PollerProofs ControlModel TransferModel TransferProofs.
Import ListNotations.
Open Scope Z_scope.

(** The executions of an upload, and of a download. *)
Definition upload_possible : upload -> Prop := reachable upload_init upload_step.
Definition fill_possible : fill -> Prop := reachable fill_init fill_step.

(** The upload phase is over: it returned, or was never begun. *)
Definition phase_over (s : upload) : Prop := u_wait s = WSkip \/ exists w e, u_wait s = WBack w e.

(** ** C64 *)

(** Once its time is over, or it has begun to stop, the upload phase ends under every schedule
    of the server's goroutines, without any help of the client, and whatever the client does
    meanwhile. *)
Theorem C64_ends_on_time : forall s, upload_possible s ->
  u_ctx s = true \/ (exists d, u_wait s = WStop d) ->
  forall t, later upload_step s t -> inevitable upload_sys phase_over t.
Proof. intros s R O t L. destruct (over_later s t R O L) as [R' O']. exact (timeout_returns t R' O'). Qed.
Print Assumptions C64_ends_on_time.

(** It also begins to stop when the client is gone, without waiting for the time to be over. *)
Theorem C64_client_gone : forall s, upload_possible s -> u_fail s <> None ->
  inevitable upload_work (fun t => (exists d, u_wait t = WStop d) \/ phase_over t) s.
Proof. exact client_gone. Qed.
Print Assumptions C64_client_gone.

(** It never ends otherwise: a timeout is a timeout, and an error is the connection's. *)
Theorem C64_reason : forall s d, upload_possible s -> u_wait s = WStop d ->
  match d with DrainTimeout => u_ctx s = true | DrainError e => u_fail s = Some e end.
Proof. exact stop_reason. Qed.
Print Assumptions C64_reason.

(** What it returns: the summary of all successful reads of the socket statistics, and an error
    iff the connection failed or there is no summary. *)
Theorem C64_result : forall s w e, upload_possible s -> u_wait s = WBack w e ->
  exists p, u_poll s = Some p /\ w = summarize (good_reads p) /\
  ((e = None /\ w <> None) \/ (e = Some ErrNoStats /\ w = None) \/ (e <> None /\ u_fail s = e)).
Proof. exact wait_outcome. Qed.
Print Assumptions C64_result.

(** From its start until the connection is closed or fails, whatever the client sends is read:
    the goroutine is in its read loop, also after the phase is over. *)
Theorem C64_keeps_draining : forall s, upload_possible s ->
  u_wait s <> WInit -> u_wait s <> WSkip -> u_open s = true -> u_fail s = None ->
  u_drain s = DRead /\
  (0 < u_sent s -> exists t, upload_work s t /\ u_sent t = 0 /\ u_read t = u_read s + u_sent s).
Proof. exact keeps_draining. Qed.
Print Assumptions C64_keeps_draining.

(** The connection is not closed before the test has returned; after it has, every schedule
    ends with the connection closed and no goroutine left. *)
Theorem C64_cleaned_up : forall s, upload_possible s ->
  (u_open s = false -> phase_over s) /\
  (u_close s <> CNone -> forall t, later upload_step s t ->
     inevitable upload_sys (fun t => u_open t = false /\ (u_drain t = DIdle \/ u_drain t = DEnd) /\ u_close t = CDone /\
       match u_poll t with Some p => p_at p = PEnd | None => True end) t).
Proof.
  intros s R. destruct (closed_late s R) as [A B]. split.
  - intros O. apply B. apply A in O. congruence.
  - intros N t L. destruct (closing_later s t R N L) as [R' N']. exact (closing_ends t R' N').
Qed.
Print Assumptions C64_cleaned_up.

(** An upload of 100 bytes that runs into its timeout with one snapshot; the test has returned
    and the goroutine still reads. *)
Example C64_example : forall snap, exists s, upload_possible s /\ u_wait s = WBack (summarize [snap]) None /\
  u_close s = CSleep /\ u_drain s = DRead /\ u_read s = 100.
Proof.
  intros snap. eexists. split; [|split; [|split; [|split]]].
  - eexists. split; [reflexivity|].
    eapply later_front; [left; apply (e_data 100); lia|].
    eapply later_front; [right; left; apply s_work, s_start|].
    eapply later_front; [right; left; apply s_work, (s_read 100); lia|].
    eapply later_front; [right; left; apply s_poll, po_go|].
    eapply later_front; [right; left; apply s_poll, (po_read (Some snap))|].
    eapply later_front; [left; apply e_time|].
    eapply later_front; [right; left; apply s_work, s_timeout|].
    eapply later_front; [right; left; apply s_poll, po_tick|].
    eapply later_front; [right; left; apply s_poll, po_over|].
    eapply later_front; [right; left; apply s_poll, po_sum|].
    eapply later_front; [right; left; apply s_work, s_stopped; reflexivity|].
    eapply later_front; [right; right; apply m_return|]. constructor.
  - reflexivity.
  - reflexivity.
  - reflexivity.
  - reflexivity.
Qed.

(** ** C65 *)

(** The download is waiting for a client that neither reads nor goes away. *)
Definition client_stalls (s : fill) : Prop := f_at s = FWrite /\ f_gone s = None /\ f_room s < f_size s.

(** When the time is over, the download phase ends unless the client stalls ... *)
Theorem C65_ends : forall s, fill_possible s -> f_past s = true ->
  inevitable fill_sys (fun t => (exists n e, f_at t = FBack n e) \/ client_stalls t) s.
Proof. exact fill_ends. Qed.
Print Assumptions C65_ends.

(** ... and for as long as it stalls nothing happens, whatever time passes and although the
    contexts of the test and of the control connection are done. *)
Theorem C65_limit_refuted :
  (exists s, fill_possible s /\ f_past s = true /\ f_ctx s = true /\ client_stalls s) /\
  (forall s, client_stalls s -> stuck fill_sys s /\
     forall t, fill_env s t -> f_room t = f_room s -> f_gone t = f_gone s -> client_stalls t).
Proof. split; [exact blocked_run|]. intros s B. split; [apply blocked_stuck, B|]. intros t. apply blocked_silent, B. Qed.
Print Assumptions C65_limit_refuted.

(** ** C66 *)

(** The count returned is that of the bytes passed on, if there is no error; with an error it
    lacks the part of the last buffer that was passed on, and is a whole number of buffers. *)
Theorem C66_count : forall s n e, fill_possible s -> f_at s = FBack n e ->
  (exists k, n = k * f_size s) /\
  (e = None -> n = f_taken s /\ f_past s = true) /\
  (e <> None -> f_gone s = e /\ n <= f_taken s < n + f_size s).
Proof.
  intros s n e R A. destruct (finv_holds s R) as (_ & _ & C & D). rewrite A in D. destruct D as (-> & D1 & D2).
  split; [exact C|]. split; [|exact D2]. intros N. destruct (D1 N) as [-> P]. auto.
Qed.
Print Assumptions C66_count.

(** That it is always the number of bytes passed on is false. *)
Theorem C66_exact_on_error_refuted : exists s n e, fill_possible s /\ f_at s = FBack n (Some e) /\ n < f_taken s.
Proof.
  eexists _, _, (ErrIo []). split; [|split].
  - eexists. split; [exists true, 8192, 10000; split; [lia|split; [lia|reflexivity]]|].
    eapply later_front; [right; apply f_go|]. eapply later_front; [right; apply f_wrote; lia|].
    eapply later_front; [right; apply f_go|]. eapply later_front; [left; apply (f_breaks (ErrIo []))|].
    eapply later_front; [right; apply (f_failed 1000); lia|]. constructor.
  - reflexivity.
  - cbn. lia.
Qed.
Print Assumptions C66_exact_on_error_refuted.

Example C66_example : exists s, fill_possible s /\ f_at s = FBack 8192 None.
Proof.
  eexists. split.
  - eexists. split; [exists true, 8192, 10000; split; [lia|split; [lia|reflexivity]]|].
    eapply later_front; [right; apply f_go|]. eapply later_front; [right; apply f_wrote; lia|].
    eapply later_front; [left; apply f_time|]. eapply later_front; [right; apply f_over|]. constructor.
  - reflexivity.
Qed.
