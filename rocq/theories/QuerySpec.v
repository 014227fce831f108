(** Specification of query strings, independent of the model: which name-value pairs a
    query string contains. *)
From Coq Require Import String ZArith List Bool.
From Verif Require Import Base JsonSpec.
Import ListNotations.
Open Scope Z_scope.

(** Percent-decoding: %XX stands for a byte, + for a blank, every other byte but % for
    itself. *)
Inductive decodes : bytes -> bytes -> Prop :=
| d_nil : decodes [] []
| d_hex x y h l r v : hex1 x h -> hex1 y l -> decodes r v -> decodes (37 :: x :: y :: r) (h * 16 + l :: v)
| d_plus r v : decodes r v -> decodes (43 :: r) (32 :: v)
| d_byte b r v : b <> 37 -> b <> 43 -> decodes r v -> decodes (b :: r) (b :: v).

(** The pieces of a string between ampersands. *)
Inductive split_at_amp : bytes -> list bytes -> Prop :=
| sa_last p : ~ In 38 p -> split_at_amp p [p]
| sa_more p r ps : ~ In 38 p -> split_at_amp r ps -> split_at_amp (p ++ 38 :: r) (p :: ps).

(** The pair a piece stands for: name=value, or a name alone, without semicolons. *)
Definition stands_for (p : bytes) (kv : bytes * bytes) : Prop :=
  p <> [] /\ ~ In 59 p /\
  exists name value, ~ In 61 name /\ (p = name ++ 61 :: value \/ p = name /\ value = []) /\
    decodes name (fst kv) /\ decodes value (snd kv).

(** The pairs of a list of pieces; pieces that stand for nothing are dropped. *)
Inductive pairs_of_pieces : list bytes -> list (bytes * bytes) -> Prop :=
| pp_nil : pairs_of_pieces [] []
| pp_keep p kv ps l : stands_for p kv -> pairs_of_pieces ps l -> pairs_of_pieces (p :: ps) (kv :: l)
| pp_drop p ps l : (forall kv, ~ stands_for p kv) -> pairs_of_pieces ps l -> pairs_of_pieces (p :: ps) l.

(** The pairs of a query string, in order. *)
Definition query_pairs (q : bytes) (l : list (bytes * bytes)) : Prop :=
  exists ps, split_at_amp q ps /\ pairs_of_pieces ps l.

(** A query string that a strict parser would refuse: some non-empty piece stands for
    nothing. *)
Definition malformed (q : bytes) : Prop :=
  exists ps p, split_at_amp q ps /\ In p ps /\ p <> [] /\ forall kv, ~ stands_for p kv.

(** The values of a name, in order, and the first one. *)
Definition values_of (k : bytes) (l : list (bytes * bytes)) : list bytes :=
  map snd (filter (fun kv => beqb (fst kv) k) l).
Definition first_value (k : bytes) (l : list (bytes * bytes)) (v : bytes) : Prop :=
  exists rest, values_of k l = v :: rest.
