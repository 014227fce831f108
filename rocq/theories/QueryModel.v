(** Model of the query parameters of ndt7 requests: net/url's Query and the two
    functions of ndt7/handler/handler.go that read its result. *)
From Coq Require Import String ZArith List Bool.
From Verif Require Import Base GoJSON GoStrings.
Import ListNotations.
Open Scope Z_scope.

(** ** net/url (standard library) *)

(** QueryUnescape: %XX is a byte, + is a blank; a percent sign that is not followed by
    two hexadecimal digits is an error. *)
Fixpoint query_unescape (s : bytes) : option bytes :=
  match s with
  | [] => Some []
  | b :: r =>
      if b =? 37 then
        match r with
        | x :: y :: r' =>
            if is_hex x && is_hex y
            then option_map (cons (hexval x * 16 + hexval y)) (query_unescape r')
            else None
        | _ => None
        end
      else option_map (cons (if b =? 43 then 32 else b)) (query_unescape r)
  end.

(** The pieces between ampersands, as strings.Cut in the loop of parseQuery yields
    them (and a last empty piece, which that loop skips anyway). *)
Fixpoint pieces (s : bytes) : list bytes :=
  match s with
  | [] => [[]]
  | b :: r =>
      if b =? 38 then [] :: pieces r
      else match pieces r with
           | p :: ps => (b :: p) :: ps
           | [] => [[b]]
           end
  end.

(** url.Values: names with their values; the order of the list is the order in which
    the names were first seen, which the Go map does not keep. *)
Definition values := list (bytes * list bytes).

(** m[key] = append(m[key], value) *)
Fixpoint add_value (k v : bytes) (m : values) : values :=
  match m with
  | [] => [(k, [v])]
  | (k', vs) :: r => if beqb k k' then (k', vs ++ [v]) :: r else (k', vs) :: add_value k v r
  end.

(** One iteration of the loop of parseQuery: the pair, if the piece is kept. *)
Definition query_pair (p : bytes) : option (bytes * bytes) :=
  if mem 59 p then None
  else match p with
       | [] => None
       | _ =>
           let '(k, v) := split2 61 p in
           match query_unescape k, query_unescape (match v with Some v => v | None => [] end) with
           | Some k, Some v => Some (k, v)
           | _, _ => None
           end
       end.

(** URL.Query: errors are dropped.  The limit on the number of parameters that very
    recent Go releases impose is not modelled. *)
Definition query (q : bytes) : values :=
  fold_left (fun m p => match query_pair p with Some (k, v) => add_value k v m | None => m end)
    (pieces q) [].

(** ** ndt7/handler/handler.go *)

(** sender.Params, ndt7/download/sender/sender.go:20-23. *)
Record params := Params { p_early : bool; p_max_bytes : Z }.

(** A result, an error, or a run-time panic (index out of range). *)
Inductive checked (A : Type) := Accept (a : A) | Reject | IndexPanic.
Arguments Accept {A}. Arguments Reject {A}. Arguments IndexPanic {A}.

(** validateEarlyExit, handler.go:267-288; [vs] is the map in the order of iteration. *)
Fixpoint validate_early_exit (vs : values) : checked params :=
  match vs with
  | [] => Accept (Params false 0)
  | (name, l) :: r =>
      if negb (beqb name (str "early_exit")) then validate_early_exit r
      else match l with
           | [] => IndexPanic
           | value :: _ =>
               if negb (beqb value (str "250")) then Reject
               else Accept (Params true (wrap64 (match atoi value with Some n => n | None => 0 end * 1000000)))
           end
  end.

(** appendClientMetadata, handler.go:252-264: the pairs that are appended; [None] is a
    panic. *)
Fixpoint client_metadata (vs : values) : option (list (bytes * bytes)) :=
  match vs with
  | [] => Some []
  | (name, l) :: r =>
      if has_prefix (str "server_") name then client_metadata r
      else match l with
           | [] => None
           | value :: _ => option_map (cons (name, value)) (client_metadata r)
           end
  end.
