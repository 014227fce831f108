(** Paths of requests, by their pieces. *)
From Coq Require Import String ZArith List Bool.
From Verif Require Import Base.
Import ListNotations.
Open Scope Z_scope.

(** The path with the given pieces. *)
Definition path_of (segs : list bytes) : bytes := concat (map (fun s => str "/" ++ s) segs).
(** Its pieces have no slash; there is at least one. *)
Definition pieces (segs : list bytes) : Prop := segs <> [] /\ Forall (fun s => ~ In 47 s) segs.

(** A piece that names something. *)
Definition ordinary (s : bytes) : Prop := s <> [] /\ s <> str "." /\ s <> str "..".

(** Where one is after following the pieces from the root. *)
Inductive leads : list bytes -> list bytes -> Prop :=
| leads_root : leads [] []
| leads_stay segs place s : s = [] \/ s = str "." -> leads segs place -> leads (segs ++ [s]) place
| leads_up segs place d : leads segs (place ++ [d]) -> leads (segs ++ [str ".."]) place
| leads_top segs : leads segs [] -> leads (segs ++ [str ".."]) []
| leads_down segs place s : ordinary s -> leads segs place -> leads (segs ++ [s]) (place ++ [s]).

(** A clean path: ordinary pieces, perhaps with a slash at the end; or the root. *)
Definition clean (segs : list bytes) : Prop :=
  segs = [[]] \/ exists l, l <> [] /\ Forall ordinary l /\ (segs = l \/ segs = l ++ [[]]).
