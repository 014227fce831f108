(** Model of cmd/generate-schemas/main.go:24-43: the BigQuery schemas of the archived
    documents.  bigquery.InferSchema and bqx.RemoveRequired are written from knowledge of
    these libraries; they see the same struct types as encoding/json (CodecModel). *)
From Coq Require Import String ZArith List Bool.
From Verif Require Import Base CodecModel.
Import ListNotations.
Open Scope Z_scope.

(** ** Schemas *)

(** The type of a column; a column has a name, and is repeated or required. *)
Inductive col := CString | CInteger | CFloat | CTimestamp | CRecord (cs : cols)
with cols := CNil | CCons (name : bytes) (repeated required : bool) (c : col) (rest : cols).

(** bigquery.InferSchema: a pointer to a struct is a record that may be missing, a slice is
    a repeated record.  No type occurs that it refuses (uint64, maps, interfaces); a named
    string is a string, a time.Duration an integer. *)
Fixpoint infert (t : gtype) : bool * bool * col :=
  match t with
  | TStr => (false, true, CString)
  | TInt _ _ => (false, true, CInteger)
  | TFloat => (false, true, CFloat)
  | TTime => (false, true, CTimestamp)
  | TPtr fs => (false, false, CRecord (infers fs))
  | TSlice fs => (true, false, CRecord (infers fs))
  end
with infers (fs : gfields) : cols :=
  match fs with
  | FNil => CNil
  | FCons name _ t r => let '(rep, req, c) := infert t in CCons name rep req c (infers r)
  end.

(** bqx.RemoveRequired. *)
Fixpoint relax_col (c : col) : col :=
  match c with CRecord cs => CRecord (relax cs) | _ => c end
with relax (cs : cols) : cols :=
  match cs with
  | CNil => CNil
  | CCons name rep _ c r => CCons name rep false (relax_col c) (relax r)
  end.

Definition schema_of (fs : gfields) : cols := relax (infers fs).

(** ** The program *)

(** The schemas in files; None: the file is missing or is not a schema. *)
Definition files := bytes -> option cols.
(** ioutil.WriteFile may fail, before or after the old content is lost. *)
Inductive written := Written | Unchanged | Spoiled.
Definition write_file (w : written) (path : bytes) (s : cols) (f : files) : files :=
  match w with
  | Written => fun p => if beqb p path then Some s else f p
  | Unchanged => f
  | Spoiled => fun p => if beqb p path then None else f p
  end.

(** main.go:24-43, after the flags: both schemas are those of data.NDT7Result (main.go:27
    and :36), and the errors of WriteFile are dropped (main.go:33 and :42).  The result: the
    files and the exit status. *)
Definition generate (k : codec) (path7 path5 : bytes) (w7 w5 : written) (f : files) : files * Z :=
  (write_file w5 path5 (schema_of (ndt7_fields k))
    (write_file w7 path7 (schema_of (ndt7_fields k)) f), 0).
