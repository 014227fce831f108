(** What the properties of the measurer talk about. *)
From Coq Require Import ZArith List Bool Sorting.Sorted.
From Verif Require Import Base Web100Model Ndt7Model MeasurerModel.
Import ListNotations.
Open Scope Z_scope.

(** The measurer's goroutine and that of its ticker have ended; the channel is closed. *)
Definition all_over (s : mstate) : Prop :=
  s_loop s = LEnd /\ (s_tick s = TNone \/ s_tick s = TClosed).

(** Both goroutines have ended and Stop has returned. *)
Definition at_rest (s : mstate) : Prop := s_cons s = CBack /\ all_over s.

(** A measurement of a connection: its addresses, UUID and the time the measurer was
    started, and either BBR and TCP information with the same elapsed time, which is not
    negative, or neither. *)
Definition sample (client server uuid : bytes) (start : Z) (m : measurement) : Prop :=
  m_app m = None /\ m_conn m = Some (ConnInfo client server uuid start) /\
  ((m_bbr m = None /\ m_tcp m = None) \/
   exists b i e, m_bbr m = Some (b, e) /\ m_tcp m = Some (i, e) /\ 0 <= e).

(** The elapsed times of a list of measurements. *)
Definition elapsed_times (ms : list measurement) : list Z :=
  flat_map (fun m => match m_tcp m with Some (_, e) => [e] | None => [] end) ms.
