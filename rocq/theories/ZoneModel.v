(** Model of saving an ndt7 result whose document cannot be made: ndt7/results/file.go and
    writeResult in ndt7/handler/handler.go. *)
From Coq Require Import String ZArith List Bool.
From Verif Require Import Base Effect TimeModel Ndt7Model ArchiveModel CodecModel.
Import ListNotations.
Open Scope Z_scope.

(** writeResult, handler.go:204-212, where json.Marshal in WriteResult, file.go:94-98, may
    fail ([None]): the file is there by then, and rtx.Must ends the process. *)
Definition save_result (datadir what : bytes) (t : civil) (uuid : bytes) (compress : bool) (gz : writer)
  (data : option bytes) : prog fs_event unit :=
  match data with
  | Some d => write_result datadir what t uuid compress gz d
  | None =>
      let exit := Do (fun _ : unit => FExit) (fun _ => Ret tt) in
      Do (FMkdir (ndt7_dir datadir t)) (fun ok : bool =>
        if negb ok then exit
        else Do (FOpen (ndt7_name datadir what t uuid compress) true) (fun _ : bool => exit))
  end.

(** The times in a result that come from the clock of the server, data/result.go:53-72,
    archivaldata.go:12-45: of the result, of its data and of its own measurements. *)
Definition part_times (o : option archival) : list Z :=
  match o with
  | Some a => [time_of (a_start a); time_of (a_end a)] ++
      flat_map (fun m => match m_conn m with Some c => [ci_start c] | None => [] end) (a_server a)
  | None => []
  end.
Definition own_times (r : result7) : list Z :=
  [n_start r; n_end r] ++ part_times (n_upload r) ++ part_times (n_download r).

(** json.Marshal of the result, file.go:95, as far as it can fail: every time is written in
    the zone it carries.  That is the zone of the process, [off] seconds east, for the times
    of the server, and that of its text for the StartTime in a measurement of the client
    ([client]: instant and zone in minutes), which json.Unmarshal keeps in the time.Time,
    receiver.go:85-92.  The [text] itself is that of CodecModel. *)
Definition marshal_result (off : Z) (own : list Z) (client : list (Z * Z)) (text : bytes) : option bytes :=
  if forallb (fun t => is_some (marshal_time off t)) own &&
     forallb (fun tz => is_some (marshal_time (snd tz * 60) (fst tz))) client
  then Some text else None.
