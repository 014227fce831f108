(** Property C79: a control connection is a conversation of bounded length. *)
From Coq Require Import String ZArith List Bool Lia.
From Verif Require Import Base Web100Model Effect ControlModel ControlSpec OutcomeSpec BoundProofs ControlExample.
Import ListNotations.
Open Scope nat_scope.

(** Whatever the client does, the server reads at most 22 messages from it: the login, the
    client's own rate and 20 META messages. *)
Theorem C79_reads : forall g tr s x, run (handle_control_channel g tt) tr (s, x) ->
  List.length (reads tr) <= 22.
Proof.
  intros g tr s x H. rewrite reads_sum. apply (r_handle g tt tr _ H). apply Forall_forall. auto.
Qed.
Print Assumptions C79_reads.

(** And it sends at most 28 messages and one line for each statistic of the download. *)
Theorem C79_writes : forall g n tr s x, run (handle_control_channel g tt) tr (s, x) ->
  Forall (fun cw => stat_lines (snd cw) <= n) (measured tr) ->
  List.length (writes tr) <= n + 28.
Proof. exact control_writes. Qed.
Print Assumptions C79_writes.

(** A client that asks for all the tests can have as many. *)
Theorem C79_reached : forall g w, c_kind g = KPlain -> exists tr s,
  run (handle_control_channel g tt) tr (s, Ok tt) /\ Forall (fun cw => snd cw = w) (measured tr) /\
  List.length (reads tr) = 22 /\ List.length (writes tr) = stat_lines w + 28.
Proof. exact bounds_reached. Qed.
Print Assumptions C79_reached.

Example C79_example : c_kind g0 = KPlain /\ stat_lines w0 = 21 /\
  exists tr s, run (handle_control_channel g0 tt) tr (s, Ok tt) /\
    Forall (fun cw => stat_lines (snd cw) <= 21) (measured tr) /\ List.length (writes tr) = 49.
Proof.
  split; [reflexivity|]. split; [reflexivity|].
  destruct (C79_reached g0 w0 eq_refl) as (tr & s & R & M & _ & N). exists tr, s. split; [exact R|]. split; [|exact N].
  eapply Forall_impl; [|exact M]. intros cw ->. apply le_n.
Qed.
