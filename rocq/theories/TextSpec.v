(** Independent specification of text: UTF-8 (RFC 3629) and what "replace invalid
    bytes by U+FFFD" means.  Does not use the model of the code. *)
From Coq Require Import ZArith List Bool.
From Verif Require Import Base.
Import ListNotations.
Open Scope Z_scope.

(** Unicode scalar values. *)
Definition scalar (c : Z) : Prop := 0 <= c < 55296 \/ 57344 <= c <= 1114111.

(** The UTF-8 form of a scalar value, RFC 3629 section 3. *)
Definition utf8_char (c : Z) : bytes :=
  if c <? 128 then [c]
  else if c <? 2048 then [192 + c / 64; 128 + c mod 64]
  else if c <? 65536 then [224 + c / 4096; 128 + (c / 64) mod 64; 128 + c mod 64]
  else [240 + c / 262144; 128 + (c / 4096) mod 64; 128 + (c / 64) mod 64; 128 + c mod 64].

(** Valid UTF-8 text: the concatenation of the forms of some scalar values. *)
Definition utf8_valid (s : bytes) : Prop :=
  exists cs, Forall scalar cs /\ s = flat_map utf8_char cs.

(** No character starts at the beginning of [s]. *)
Definition no_char_at (s : bytes) : Prop :=
  forall c t, scalar c -> s <> utf8_char c ++ t.

(** U+FFFD in UTF-8. *)
Definition replacement : bytes := utf8_char 65533.

(** [repaired s t]: t is s with every byte that does not belong to a character
    replaced by U+FFFD. *)
Inductive repaired : bytes -> bytes -> Prop :=
| rep_nil : repaired [] []
| rep_char c s t : scalar c -> repaired s t -> repaired (utf8_char c ++ s) (utf8_char c ++ t)
| rep_bad b s t : no_char_at (b :: s) -> repaired s t -> repaired (b :: s) (replacement ++ t).
