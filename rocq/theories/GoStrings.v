(** The functions of Go's package strings that the server uses on client data. *)
From Coq Require Import String ZArith List Bool.
From Verif Require Import Base.
Import ListNotations.
Open Scope Z_scope.

(** UTF-8 encodings of the characters with the White_Space property
    (unicode.IsSpace): tab, newline, vertical tab, form feed, carriage return,
    space, U+0085, U+00A0, U+1680, U+2000-U+200A, U+2028, U+2029, U+202F, U+205F,
    U+3000. *)
Definition space_encodings : list bytes :=
  [ [9]; [10]; [11]; [12]; [13]; [32]; [194; 133]; [194; 160]; [225; 154; 128];
    [226; 128; 128]; [226; 128; 129]; [226; 128; 130]; [226; 128; 131]; [226; 128; 132];
    [226; 128; 133]; [226; 128; 134]; [226; 128; 135]; [226; 128; 136]; [226; 128; 137];
    [226; 128; 138]; [226; 128; 168]; [226; 128; 169]; [226; 128; 175];
    [226; 129; 159]; [227; 128; 128] ].

(** The length of the white-space character at the start of s, 0 if there is none. *)
Definition leading_space (s : bytes) : nat :=
  match find (fun e => has_prefix e s) space_encodings with
  | Some e => List.length e
  | None => 0
  end.
(** Same at the end. *)
Definition trailing_space (s : bytes) : nat :=
  match find (fun e => has_suffix e s) space_encodings with
  | Some e => List.length e
  | None => 0
  end.

(** strings.TrimLeftFunc / TrimRightFunc with unicode.IsSpace: utf8.DecodeRune and
    DecodeLastRune return such a character exactly if the string starts or ends with
    its encoding.  The fuel is the length of the string. *)
Fixpoint trim_left (fuel : nat) (s : bytes) : bytes :=
  match fuel with
  | O => s
  | S f => match leading_space s with O => s | n => trim_left f (skipn n s) end
  end.
Fixpoint trim_right (fuel : nat) (s : bytes) : bytes :=
  match fuel with
  | O => s
  | S f => match trailing_space s with O => s | n => trim_right f (firstn (List.length s - n) s) end
  end.

(** strings.TrimSpace. *)
Definition trim_space (s : bytes) : bytes :=
  let l := trim_left (List.length s) s in trim_right (List.length l) l.

(** strings.SplitN(s, sep, 2) for a one-byte separator: the part before the first
    separator, and the rest if there is one. *)
Fixpoint split2 (sep : Z) (s : bytes) : bytes * option bytes :=
  match s with
  | [] => ([], None)
  | b :: r =>
      if b =? sep then ([], Some r)
      else let '(a, rest) := split2 sep r in (b :: a, rest)
  end.

(** strings.Join. *)
Fixpoint join (sep : bytes) (l : list bytes) : bytes :=
  match l with
  | [] => []
  | [x] => x
  | x :: r => x ++ sep ++ join sep r
  end.
