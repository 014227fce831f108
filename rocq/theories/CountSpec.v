(** What the state of a test server is, for C85. *)
From Coq Require Import List Bool Arith.
From Verif Require Import ServingModel ControlModel CountModel.
Import ListNotations.

(** How many servers satisfy a condition. *)
Definition many (p : mserver -> bool) (l : list mserver) : nat := List.length (filter p l).

Definition of_kind (k : server_kind) (m : mserver) : bool := kind_eqb (kind_of m) k.

(** Its listening socket is open. *)
Definition listening (m : mserver) : bool :=
  match m with
  | Unbound _ => false
  | Idle _ => true
  | WsRun _ s => match v_close s with Fresh | Counted => true | _ => false end
  | PlainRun s => q_listening s
  end.

(** The call failed; nobody waits for a client with it; it has begun to close. *)
Definition failed (m : mserver) : bool := match m with Unbound _ => true | _ => false end.
Definition idle (m : mserver) : bool := match m with Idle _ => true | _ => false end.
Definition stopping (m : mserver) : bool :=
  match m with
  | WsRun _ s => match v_close s with Fresh => false | _ => true end
  | PlainRun s => match q_main s with PDone _ => true | _ => false end
  | _ => false
  end.

(** No ServeOnce is in progress on it. *)
Definition resting (m : mserver) : Prop :=
  match m with
  | Unbound _ | Idle _ => True
  | WsRun _ s => exists r, v_main s = MDone r
  | PlainRun s => exists r, q_main s = PDone r
  end.
