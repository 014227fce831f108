(** Specification of numbers as text. *)
From Coq Require Import String ZArith QArith Qabs Qpower List Bool.
From Coq Require Import Floats.SpecFloat.
From Verif Require Import Base JsonSpec GoFloat RateSpec.
Import ListNotations.
Open Scope Z_scope.

(** The number a list of decimal digits stands for. *)
Definition decimal (ds : bytes) : Z := fold_left (fun a b => a * 10 + (b - 48)) ds 0.

(** ** Numbers that are printed *)

(** The sign bit. *)
Definition negative (v : f64) : bool :=
  match v with S754_zero s | S754_infinity s | S754_finite s _ _ => s | S754_nan => false end.

(** [t] is the text of n/10000, or of its opposite: a minus sign if it is negative, the
    integer part without superfluous zeros, a point and four digits. *)
Definition fixed_text (neg : bool) (n : Z) (t : bytes) : Prop :=
  exists ip fp, t = (if neg then str "-" else []) ++ ip ++ str "." ++ fp /\
    ip <> [] /\ digits ip /\ (1 < len ip -> hd 0 ip <> 48) /\
    digits fp /\ len fp = 4 /\ decimal (ip ++ fp) = n.

(** [n] is the whole number nearest to [x], the even one if there are two. *)
Definition nearest (n : Z) (x : Q) : Prop :=
  (Qabs (inject_Z n - x) <= 1 # 2)%Q /\ ((Qabs (inject_Z n - x) == 1 # 2)%Q -> Z.even n = true).

(** ** Numbers that are read *)

Definition a_sign (s : bytes) (neg : bool) : Prop :=
  (neg = false /\ (s = [] \/ s = str "+")) \/ (neg = true /\ s = str "-").

(** An exponent: a letter, perhaps a sign, and digits. *)
Definition exponent (letters : list Z) (s : bytes) (x : Z) : Prop :=
  exists c sg neg ds, s = c :: sg ++ ds /\ In c letters /\ a_sign sg neg /\ ds <> [] /\ digits ds /\
    x = if neg then - decimal ds else decimal ds.

(** [t] is a decimal number: perhaps a sign, digits of which the last [k] follow a point,
    and perhaps an exponent [x].  Its value is n * 10^(x - k), or the opposite. *)
Definition decimal_number (t : bytes) (neg : bool) (n k x : Z) : Prop :=
  exists sg ip dot fp ep, t = sg ++ ip ++ dot ++ fp ++ ep /\ a_sign sg neg /\
    digits ip /\ digits fp /\ ip ++ fp <> [] /\ (dot = str "." \/ (dot = [] /\ fp = [])) /\
    ((ep = [] /\ x = 0) \/ exponent [101; 69] ep x) /\
    n = decimal (ip ++ fp) /\ k = len fp.

(** Hexadecimal digits, in either case. *)
Definition hex_value (b : Z) : Z := if b <=? 57 then b - 48 else if b <=? 70 then b - 55 else b - 87.
Definition hex_digits (s : bytes) : Prop :=
  Forall (fun b => 48 <= b <= 57 \/ 65 <= b <= 70 \/ 97 <= b <= 102) s.
(** The same for a hexadecimal number, which always has an exponent: its value is
    n * 2^(x - 4 k). *)
Definition hex_number (t : bytes) (neg : bool) (n k x : Z) : Prop :=
  exists sg c ip dot fp ep, t = sg ++ [48; c] ++ ip ++ dot ++ fp ++ ep /\ a_sign sg neg /\ (c = 120 \/ c = 88) /\
    hex_digits ip /\ hex_digits fp /\ ip ++ fp <> [] /\ (dot = str "." \/ (dot = [] /\ fp = [])) /\
    exponent [112; 80] ep x /\
    n = fold_left (fun a b => a * 16 + hex_value b) (ip ++ fp) 0 /\ k = len fp.

(** [v] is [x], or its opposite if [neg], correctly rounded to 53 bits: the relative error is
    at most 2^-53, and there is none if [x] has no more than 53 bits. *)
Definition rounded_to (v : f64) (neg : bool) (x : Q) : Prop :=
  exists m e, v = S754_finite neg m e /\
    let y := (inject_Z (Zpos m) * (2 # 1) ^ e)%Q in
    (Qabs (y - x) <= x * (1 # 2 ^ 53))%Q /\
    (forall n j, 0 < n < 2 ^ 53 -> (x == inject_Z n * (2 # 1) ^ j)%Q -> (y == x)%Q).
