(** Go basics used by every model file: bytes, strings, decimal conversion.

    Bytes are integers in [0,256); a Go [string] or [[]byte] is a list of bytes.
    The model functions are total on all of [list Z]; [bytes_ok] says that a list
    really is a byte string. *)
From Coq Require Import String Ascii ZArith List Bool.
Import ListNotations.
Open Scope Z_scope.

(** A Go string or byte slice. *)
Definition bytes := list Z.

(** A value of Go type [byte]. *)
Definition byte_ok (b : Z) : Prop := 0 <= b < 256.
Definition bytes_ok (s : bytes) : Prop := Forall byte_ok s.
Definition byte_okb (b : Z) : bool := (0 <=? b) && (b <? 256).
Definition bytes_okb (s : bytes) : bool := forallb byte_okb s.

(** Go's [len]. *)
Definition len {A} (s : list A) : Z := Z.of_nat (List.length s).

(** Go's [s[:n]] and [s[n:]] for 0 <= n (callers guard the upper bound). *)
Definition take {A} (n : Z) (s : list A) : list A := firstn (Z.to_nat n) s.
Definition drop {A} (n : Z) (s : list A) : list A := skipn (Z.to_nat n) s.

(** A byte slice of [n] zero bytes: [make([]byte, n)]. *)
Definition zeros (n : Z) : bytes := repeat 0 (Z.to_nat n).

(** Literal Go strings. *)
Fixpoint str (s : string) : bytes :=
  match s with
  | EmptyString => []
  | String c r => Z.of_nat (nat_of_ascii c) :: str r
  end.

(** Go's [==] on strings. *)
Fixpoint beqb (a b : bytes) : bool :=
  match a, b with
  | [], [] => true
  | x :: a', y :: b' => (x =? y) && beqb a' b'
  | _, _ => false
  end.

(** strings.HasPrefix *)
Fixpoint has_prefix (p s : bytes) : bool :=
  match p, s with
  | [], _ => true
  | x :: p', y :: s' => (x =? y) && has_prefix p' s'
  | _ :: _, [] => false
  end.

(** strings.HasSuffix *)
Definition has_suffix (p s : bytes) : bool := has_prefix (rev p) (rev s).

(** Membership of a byte in a list of bytes. *)
Definition mem (x : Z) (l : list Z) : bool := existsb (Z.eqb x) l.

(** ** Decimal conversion: strconv.FormatInt(x, 10), fmt's %d, strconv.Atoi *)

(** Decimal digits of a non-negative number; [fuel] bounds the digit count. *)
Fixpoint dec_digits (fuel : nat) (n : Z) (acc : bytes) : bytes :=
  match fuel with
  | O => acc
  | S f =>
      let acc' := (48 + n mod 10) :: acc in
      if n / 10 =? 0 then acc' else dec_digits f (n / 10) acc'
  end.

(** Decimal form of a non-negative number. *)
Definition dec_nonneg (n : Z) : bytes :=
  dec_digits (S (Z.to_nat (Z.log2 n))) n [].

(** strconv.FormatInt(n, 10) / fmt.Sprintf("%d", n). *)
Definition itoa (n : Z) : bytes :=
  if n <? 0 then 45 :: dec_nonneg (- n) else dec_nonneg n.

Definition is_digit (b : Z) : bool := (48 <=? b) && (b <=? 57).

(** Value of a digit string. *)
Definition dec_value (s : bytes) : Z :=
  fold_left (fun a b => a * 10 + (b - 48)) s 0.

(** The range of Go's [int] (64-bit platforms) and [int64]. *)
Definition min_int64 : Z := - 2 ^ 63.
Definition max_int64 : Z := 2 ^ 63 - 1.
Definition int64_ok (n : Z) : Prop := min_int64 <= n <= max_int64.
Definition int64_okb (n : Z) : bool := (min_int64 <=? n) && (n <=? max_int64).

(** Two's complement wrap-around of int64 arithmetic. *)
Definition wrap64 (n : Z) : Z := (n + 2 ^ 63) mod 2 ^ 64 - 2 ^ 63.
(** Wrap-around of uint32 arithmetic. *)
Definition wrap_u32 (n : Z) : Z := n mod 2 ^ 32.

(** strconv.Atoi / strconv.ParseInt(s, 10, 64): optional sign, at least one
    digit, digits only, 64-bit range.  [None] is the error case (the value Go
    returns next to an error is never used by the callers modelled here). *)
Definition atoi (s : bytes) : option Z :=
  let '(neg, ds) :=
    match s with
    | b :: r => if b =? 45 then (true, r) else if b =? 43 then (false, r) else (false, s)
    | [] => (false, [])
    end in
  match ds with
  | [] => None
  | _ =>
      if forallb is_digit ds then
        let v := if neg : bool then - dec_value ds else dec_value ds in
        if int64_okb v then Some v else None
      else None
  end.

(** Errors are opaque: only their presence matters, except where a property
    talks about the text. *)
Definition is_some {A} (o : option A) : bool :=
  match o with Some _ => true | None => false end.
