(** Vocabulary for stating the properties of NDT5 messages: JSON field lookup,
    decimal numbers, metric lines.  Independent of the model of the code (only the
    shape [fval] of reflected values is shared). *)
From Coq Require Import String ZArith List Bool.
From Verif Require Import Base TextSpec JsonSpec MessagerModel.
Import ListNotations.
Open Scope Z_scope.

(** ** Fields of a JSON object *)

(** The ways encoding/json accepts a lower-case ASCII letter of a field name: either
    case, and the two non-ASCII letters that fold to s and k. *)
Definition letter_variants (c : Z) : list bytes :=
  [[c]; [c - 32]] ++ (if c =? 115 then [utf8_char 383] else [])
                  ++ (if c =? 107 then [utf8_char 8490] else []).

(** [k] is a spelling of the (lower-case) field name. *)
Definition spells (name k : bytes) : Prop :=
  exists parts, Forall2 (fun c p => In p (letter_variants c)) name parts /\ k = concat parts.

(** Members that select one of the two fields are strings or null. *)
Definition well_typed (l : list (bytes * json)) : Prop :=
  forall k v, In (k, v) l -> spells (str "msg") k \/ spells (str "tests") k ->
    v = JNull \/ exists s, v = JStr s.

(** The field's value is that of the last member that sets it to a string; empty if
    there is none. *)
Definition field_value (name : bytes) (l : list (bytes * json)) (s : bytes) : Prop :=
  (exists l1 k l2, l = l1 ++ (k, JStr s) :: l2 /\ spells name k /\
     forall k' s', In (k', JStr s') l2 -> ~ spells name k') \/
  (s = [] /\ forall k' s', In (k', JStr s') l -> ~ spells name k').

(** A body that is an NDT message with the two field values. *)
Definition ndt_message (body msg tests : bytes) : Prop :=
  exists l, json_text body (JObj l) /\ well_typed l /\
    field_value (str "msg") l msg /\ field_value (str "tests") l tests.

(** ** Decimal numbers *)

(** A decimal numeral in the 64-bit range and its value. *)
Definition numeral (s : bytes) (n : Z) : Prop :=
  exists sign ds, s = sign ++ ds /\ ds <> [] /\ digits ds /\ - 2 ^ 63 <= n < 2 ^ 63 /\
    ((sign = [] \/ sign = str "+") /\ n = fold_left (fun a b => a * 10 + (b - 48)) ds 0
     \/ sign = str "-" /\ n = - fold_left (fun a b => a * 10 + (b - 48)) ds 0).

(** ** Metric lines *)

(** The (dotted path, printed value) pairs of the printable leaves of a struct, in
    declaration order, depth first. *)
Fixpoint leaves_of (v : fval) : list (bytes * bytes) :=
  match v with
  | FInt n => [([], itoa n)]
  | FNamedInt s | FStr s | FStringer s => [([], s)]
  | FStruct fs =>
      flat_map (fun f => map (fun l => (str "." ++ fst f ++ fst l, snd l)) (leaves_of (snd f))) fs
  | FOther => []
  end.
Definition leaves (fs : list (bytes * fval)) : list (bytes * bytes) :=
  flat_map (fun f => map (fun l => (fst f ++ fst l, snd l)) (leaves_of (snd f))) fs.

(** The line for one leaf. *)
Definition metric_line (prefix : bytes) (l : bytes * bytes) : bytes :=
  prefix ++ fst l ++ str ": " ++ snd l ++ str "
".

(** The struct behind any number of non-nil pointers. *)
Inductive points_to : mval -> list (bytes * fval) -> Prop :=
| pt_struct fs : points_to (MStruct fs) fs
| pt_ptr m fs : points_to m fs -> points_to (MPtr (Some m)) fs.

(** The first failing position of a sequence of sends: everything in [a] was
    accepted, [l] was not. *)
Definition first_failure (send : list bytes -> bytes -> bool) (a : list bytes) (l : bytes) : Prop :=
  send a l = false /\ forall a1 x a2, a = a1 ++ x :: a2 -> send a1 x = true.
