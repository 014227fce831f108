(** Model of how results reach the disk: SaveData of ndt5/ndt5.go, UUIDToFile of
    ndt5/protocol/protocol.go, ndt7/results/file.go and writeResult of
    ndt7/handler/handler.go; Go's path.Join and the time formats they use. *)
From Coq Require Import String ZArith List Bool.
From Verif Require Import Base GoFloat GoStrings Effect ControlModel.
Import ListNotations.
Open Scope Z_scope.

(** ** path.Clean and path.Join *)

Definition slash : Z := 47.

(** The elements between slashes; strings.Split(s, "/"). *)
Fixpoint split_path (s : bytes) : list bytes :=
  match s with
  | [] => [[]]
  | b :: r =>
      if b =? slash then [] :: split_path r
      else match split_path r with
           | [] => [[b]]
           | x :: l => (b :: x) :: l
           end
  end.

(** One element of a path, with the elements kept so far, the last one first: rules 2-4 of
    the documentation of path.Clean. *)
Definition path_push (rooted : bool) (kept : list bytes) (x : bytes) : list bytes :=
  if beqb x [] || beqb x (str ".") then kept
  else if beqb x (str "..") then
    match kept with
    | y :: r => if beqb y (str "..") then x :: kept else r
    | [] => if rooted then [] else [x]
    end
  else x :: kept.

Definition is_rooted (s : bytes) : bool := match s with b :: _ => b =? slash | [] => false end.

(** path.Clean. *)
Definition path_clean (s : bytes) : bytes :=
  let kept := rev (fold_left (path_push (is_rooted s)) (split_path s) []) in
  let out := (if is_rooted s then [slash] else []) ++ join [slash] kept in
  match out with [] => str "." | _ => out end.

(** path.Join. *)
Definition path_join (elems : list bytes) : bytes :=
  match filter (fun x => negb (beqb x [])) elems with
  | [] => []
  | l => path_clean (join [slash] l)
  end.

(** ** Times *)

(** What time.Time.Format sees of a UTC time. *)
Record civil := Civil {
  t_year : Z; t_month : Z; t_day : Z; t_hour : Z; t_minute : Z; t_second : Z; t_nano : Z
}.

(** A number with [w] decimal digits (Go prints more if it has more). *)
Fixpoint digits (w : nat) (n : Z) : bytes :=
  match w with O => [] | S w => digits w (n / 10) ++ [48 + n mod 10] end.

(** Format("2006/01/02"). *)
Definition format_day (t : civil) : bytes :=
  digits 4 (t_year t) ++ str "/" ++ digits 2 (t_month t) ++ str "/" ++ digits 2 (t_day t).

(** Format("20060102T150405.000000000Z"). *)
Definition format_stamp (t : civil) : bytes :=
  digits 4 (t_year t) ++ digits 2 (t_month t) ++ digits 2 (t_day t) ++ str "T" ++
  digits 2 (t_hour t) ++ digits 2 (t_minute t) ++ digits 2 (t_second t) ++ str "." ++
  digits 9 (t_nano t) ++ str "Z".

(** ** The file system *)

(** The regular files by name.  Directories, permissions and links are not modelled; any
    operation may fail. *)
Definition fs := bytes -> option bytes.
Definition fs_set (f : fs) (p : bytes) (c : bytes) : fs := fun q => if beqb q p then Some c else f q.

Inductive fs_event :=
| FMkdir (dir : bytes) (ok : bool)                  (* os.MkdirAll *)
| FOpen (p : bytes) (excl : bool) (ok : bool)       (* O_CREATE with O_EXCL or with O_TRUNC *)
| FTemp (p : bytes -> bytes) (r : option bytes)     (* ioutil.TempFile: the random part *)
| FWrite (p : bytes) (data : bytes) (n : nat)       (* n bytes of data reach the file *)
| FClose (p : bytes)
| FExit.                                            (* rtx.Must ends the process *)

Inductive fs_step : fs -> fs_event -> fs -> Prop :=
| fs_mkdir f d ok : fs_step f (FMkdir d ok) f
| fs_open_fails f p x : fs_step f (FOpen p x false) f
| fs_open_excl f p : f p = None -> fs_step f (FOpen p true true) (fs_set f p [])
| fs_open_trunc f p : fs_step f (FOpen p false true) (fs_set f p [])
| fs_temp_fails f p : fs_step f (FTemp p None) f
| fs_temp f p r : f (p r) = None -> fs_step f (FTemp p (Some r)) (fs_set f (p r) [])
| fs_write f p old data n : f p = Some old -> (n <= length data)%nat ->
    fs_step f (FWrite p data n) (fs_set f p (old ++ firstn n data))
| fs_close f p : fs_step f (FClose p) f
| fs_exit f : fs_step f FExit f.

Inductive fs_run : fs -> list fs_event -> fs -> Prop :=
| fs_done f : fs_run f [] f
| fs_more f e g tr h : fs_step f e g -> fs_run g tr h -> fs_run f (e :: tr) h.

(** ** NDT5 *)

(** protocol.go:101. *)
Definition bad_uuid : bytes := str "ERROR_DISCOVERING_UUID".

(** json.Encoder.Encode of a record: an error iff some number in it is not finite; the
    text and a newline otherwise.  The text is a parameter. *)
Definition finite_record (r : record) : bool :=
  match r_c2s r with Some u => f_finite (u_mean u) | None => true end &&
  match r_s2c r with Some d => f_finite (d_mean d) && f_finite (d_client_mbps d) | None => true end.
Definition encode (text : record -> bytes) (r : record) : option bytes :=
  if finite_record r then Some (text r ++ [10]) else None.

(** The rest of SaveData once the file is open, ndt5.go:56-64.  The encoder writes once. *)
Definition save_in (p : bytes) (data : option bytes) : prog fs_event unit :=
  match data with
  | None => Do (fun _ : unit => FClose p) (fun _ => Ret tt)
  | Some d => Do (FWrite p d) (fun _ => Do (fun _ : unit => FClose p) (fun _ => Ret tt))
  end.

(** The name UUIDToFile gives TempFile, protocol.go:106: joined by the library. *)
Definition temp_name (dir rnd : bytes) : bytes := dir ++ str "/" ++ bad_uuid ++ rnd ++ str ".json".

Definition ndt5_dir (datadir : bytes) (t : civil) : bytes := path_join [datadir; format_day t].
Definition ndt5_name (dir uuid : bytes) : bytes := path_join [dir; uuid ++ str ".json"].

(** SaveData, ndt5.go:41-65, with UUIDToFile, protocol.go:104-114.  [t]: the record's
    StartTime; its zone is that of the process. *)
Definition save_data (datadir : bytes) (t : civil) (uuid : bytes) (data : option bytes) : prog fs_event unit :=
  let dir := ndt5_dir datadir t in
  Do (FMkdir dir) (fun ok : bool =>
    if negb ok then Ret tt
    else if beqb uuid bad_uuid then
      Do (FTemp (temp_name dir)) (fun r =>
        match r with
        | None => Ret tt
        | Some r => save_in (temp_name dir r) data
        end)
    else
      Do (FOpen (ndt5_name dir uuid) false) (fun ok : bool =>
        if ok then save_in (ndt5_name dir uuid) data else Ret tt)).

(** ** ndt7 *)

Definition ndt7_dir (datadir : bytes) (t : civil) : bytes := path_join [datadir; str "ndt7"; format_day t].
Definition ndt7_name (datadir what : bytes) (t : civil) (uuid : bytes) (compress : bool) : bytes :=
  ndt7_dir datadir t ++ str "/ndt7-" ++ what ++ str "-" ++ format_stamp t ++ str "." ++ uuid ++ str ".json" ++
  (if compress then str ".gz" else []).

(** Writes one after the other, up to the first that fails. *)
Fixpoint write_all (p : bytes) (chunks : list bytes) (k : bool -> prog fs_event unit) : prog fs_event unit :=
  match chunks with
  | [] => k true
  | c :: l => Do (FWrite p c) (fun n => if (n =? length c)%nat then write_all p l k else k false)
  end.

(** The writes of a gzip.Writer: [fst (gz d)] during Write of d, [snd (gz d)] during Close.
    An arbitrary function. *)
Definition writer := bytes -> list bytes * list bytes.
Definition plain_writer : writer := fun d => ([d], []).

(** writeResult, handler.go:204-212, with NewFile and newFile, file.go:34-79, WriteResult,
    file.go:94-101, and Close, file.go:82-91, whose error is only logged.  The
    [data] is what Marshal makes; that it can fail on a time is in ZoneModel.
    gzip.NewWriterLevel does not fail for gzip.BestSpeed. *)
Definition write_result (datadir what : bytes) (t : civil) (uuid : bytes) (compress : bool) (gz : writer)
  (data : bytes) : prog fs_event unit :=
  let p := ndt7_name datadir what t uuid compress in
  let w := if compress then gz else plain_writer in
  let exit := Do (fun _ : unit => FExit) (fun _ => Ret tt) in
  Do (FMkdir (ndt7_dir datadir t)) (fun ok : bool =>
    if negb ok then exit
    else Do (FOpen p true) (fun ok : bool =>
      if negb ok then exit
      else write_all p (fst (w data)) (fun ok =>
        if negb ok then exit
        else write_all p (snd (w data)) (fun _ =>
          Do (fun _ : unit => FClose p) (fun _ => Ret tt))))).
