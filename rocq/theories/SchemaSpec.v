(** Which JSON rows BigQuery loads into a table with a schema. *)
From Coq Require Import String ZArith List Bool.
From Coq Require Floats.SpecFloat.
From Verif Require Import Base JsonSpec GoFloat TimeSpec ControlModel Ndt7Model CodecModel CodecSpec SchemaModel.
Import ListNotations.
Open Scope Z_scope.

(** Column names are compared without regard to case. *)
Definition folded (name : bytes) : bytes := map lower_case name.

(** The instants a TIMESTAMP can be: from the year 1 to the year 9999. *)
Definition timestamp (t : Z) : Prop := - 62135596800 * 10 ^ 9 <= t < 253402300800 * 10 ^ 9.

Fixpoint required_names (cs : cols) : list bytes :=
  match cs with
  | CNil => []
  | CCons name _ req _ r => (if req then [folded name] else []) ++ required_names r
  end.

(** What may stand in a column: null unless it is required, or an array of values if it is
    repeated, or a value. *)
Definition slot (rep req : bool) (value : json -> Prop) (j : json) : Prop :=
  (j = JNull /\ req = false) \/
  (if rep then exists js, j = JArr js /\ Forall value js else value j).

(** A value of a column type; [cell]: what stands in the column with a name. *)
Fixpoint value_of (c : col) (j : json) : Prop :=
  match c with
  | CString => exists s, j = JStr s
  | CInteger => exists n, j = JNum (itoa n) /\ - 2 ^ 63 <= n < 2 ^ 63
  | CFloat => exists w x, j = JNum w /\ parse_float w = Some x /\ f_finite x = true
  | CTimestamp => exists w t, j = JStr w /\ denotes w t /\ timestamp t
  | CRecord cs => exists l, j = JObj l /\ NoDup (map folded (map fst l)) /\
      incl (required_names cs) (map folded (map fst l)) /\ Forall (fun m => cell cs (fst m) (snd m)) l
  end
with cell (cs : cols) (name : bytes) (j : json) : Prop :=
  match cs with
  | CNil => False
  | CCons n rep req c r => if beqb (folded n) (folded name) then slot rep req (value_of c) j else cell r name j
  end.

(** A row. *)
Definition loads (s : cols) (j : json) : Prop := value_of (CRecord s) j.

(** A schema BigQuery accepts: names of letters, digits and underscores that do not begin
    with a digit, different without regard to case, and no empty records. *)
Definition legal_name (name : bytes) : Prop :=
  match name with
  | [] => False
  | b :: r => (letter b \/ b = 95) /\ Forall (fun b => letter b \/ 48 <= b <= 57 \/ b = 95) r
  end.
Fixpoint column_names (cs : cols) : list bytes :=
  match cs with CNil => [] | CCons name _ _ _ r => folded name :: column_names r end.
Fixpoint legal_col (c : col) : Prop :=
  match c with CRecord cs => cs <> CNil /\ NoDup (column_names cs) /\ legal cs | _ => True end
with legal (cs : cols) : Prop :=
  match cs with CNil => True | CCons name _ _ c r => legal_name name /\ legal_col c /\ legal r end.

(** The values the fields of a Go struct have: integers in the range of their types, floats
    that are a float64, times of at most 10^18 seconds (30 000 million years) from 1970. *)
Fixpoint typedt (t : gtype) : dent t -> Prop :=
  match t with
  | TStr => fun _ => True
  | TInt lo hi => fun n => lo <= n <= hi
  | TFloat => fun x => Floats.SpecFloat.valid_binary 53 1024 x = true
  | TTime => fun t => - 10 ^ 27 <= t <= 10 ^ 27
  | TPtr fs => fun o => match o with None => True | Some v => typed fs v end
  | TSlice fs => Forall (typed fs)
  end
with typed (fs : gfields) : dens fs -> Prop :=
  match fs with
  | FNil => fun _ => True
  | FCons _ _ t r => fun v => typedt t (fst v) /\ typed r (snd v)
  end.

(** Every time in an archived result can be a TIMESTAMP. *)
Definition maybe (o : option Z) : Prop := match o with Some t => timestamp t | None => True end.
Definition measurement_dated (m : measurement) : Prop := forall c, m_conn m = Some c -> timestamp (ci_start c).
Definition archival_dated (a : archival) : Prop :=
  maybe (a_start a) /\ maybe (a_end a) /\ Forall measurement_dated (a_server a ++ a_client a).
Definition result7_dated (r : result7) : Prop :=
  timestamp (n_start r) /\ timestamp (n_end r) /\
  forall a, n_upload r = Some a \/ n_download r = Some a -> archival_dated a.
Definition record_dated (r : record) : Prop :=
  timestamp (r_start r) /\ maybe (r_end r) /\
  (forall u, r_c2s r = Some u -> maybe (u_start u) /\ maybe (u_end u)) /\
  (forall d, r_s2c r = Some d -> maybe (d_start d) /\ maybe (d_end d)).
