(** Words of property C86. *)
From Coq Require Import ZArith List.
From Verif Require Import Base Ndt7Model CodecModel ArchiveModel.
Open Scope Z_scope.

(** No file operation fails. *)
Definition worked (e : fs_event) : Prop :=
  match e with
  | FMkdir _ ok | FOpen _ _ ok => ok = true
  | FTemp _ r => r <> None
  | FWrite _ d n => n = length d
  | FClose _ | FExit => True
  end.

(** A time in a result that is of the server. *)
Definition server_time (r : result7) (t : Z) : Prop :=
  t = n_start r \/ t = n_end r \/
  exists a, (n_upload r = Some a \/ n_download r = Some a) /\
    (t = time_of (a_start a) \/ t = time_of (a_end a) \/
     exists m c, In m (a_server a) /\ m_conn m = Some c /\ t = ci_start c).
