(** Words used to state property C75. *)
From Coq Require Import String ZArith List Bool.
From Verif Require Import Base MainModel StartModel Lts.
Import ListNotations.
Open Scope Z_scope.

(** Every state of a process started with flags [f]. *)
Definition start_possible (f : flags) (p : process) : Prop := reachable (start_init f) (start_step f) p.

Definition alive (p : process) : Prop := p_exit p = None.

(** A client that connects to the server gets through to its handlers. *)
Definition answering (p : process) (l : listening) : Prop :=
  alive p /\ exists r, In r (p_http p) /\ rn_for r = l /\ rn_go r = GServing /\ rn_open r = true.

(** Connections to the server's port are accepted by the kernel. *)
Definition listens (p : process) (l : listening) : Prop :=
  alive p /\ exists r, In r (p_http p) /\ rn_for r = l /\ rn_open r = true.
Definition plain_listens (p : process) : Prop := alive p /\ p_plain p = Some true.

(** Something will end, or has ended, the process: the server returned from Serve. *)
Definition has_failed (p : process) (l : listening) : Prop :=
  exists r, In r (p_http p) /\ rn_for r = l /\ rn_go r = GFailed.

(** The whole program is up. *)
Definition up (f : flags) (p : process) : Prop :=
  plain_listens p /\ p_main p = Waiting /\ forall l, In l (listenings f) -> answering p l.

(** The process ended with status 1 because of [w]. *)
Definition died (p : process) (w : failure) : Prop := p_exit p = Some 1 /\ p_why p = Some w.

(** What can go wrong: a step of the plan, but not a verifier that nobody needs; or Serve of
    one of the servers. *)
Definition blame (f : flags) (w : failure) : Prop :=
  match w with
  | FTask t => In t (plan f) /\ (t = TVerifier -> f_required5 f = true \/ f_required7 f = true)
  | FServe l => In l (listenings f)
  end.
