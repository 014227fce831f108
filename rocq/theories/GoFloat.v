(** Go's float64, modelled with the standard library's SpecFloat (IEEE 754
    binary64, round to nearest even), and the conversions the server uses. *)
From Coq Require Import String ZArith List Bool.
From Coq Require Import Floats.SpecFloat.
From Verif Require Import Base.
Import ListNotations.
Open Scope Z_scope.

(** A float64 value. *)
Definition f64 := spec_float.

Definition f_zero : f64 := S754_zero false.

(** float64(n) for an integer n. *)
Definition f_of_int (n : Z) : f64 := binary_normalize 53 1024 n 0 false.

(** The four operators the server uses. *)
Definition fmul (a b : f64) : f64 := SFmul 53 1024 a b.
Definition fdiv (a b : f64) : f64 := SFdiv 53 1024 a b.
Definition fadd (a b : f64) : f64 := SFadd 53 1024 a b.
Definition fltb (a b : f64) : bool := SFltb a b.

(** x == 0 (true of both zeros, false of NaN). *)
Definition f_is_zero (x : f64) : bool :=
  match x with S754_zero _ => true | _ => false end.

(** Neither NaN nor an infinity. *)
Definition f_finite (x : f64) : bool :=
  match x with S754_zero _ | S754_finite _ _ _ => true | _ => false end.

(** int64(x): truncation.  Out of range the Go specification leaves the value open;
    this is what amd64 gives. *)
Definition f_to_int64 (x : f64) : Z :=
  match x with
  | S754_zero _ => 0
  | S754_infinity _ | S754_nan => min_int64
  | S754_finite s m e =>
      let a := if 0 <=? e then Zpos m * 2 ^ e else Zpos m / 2 ^ (- e) in
      let v := if s then - a else a in
      if int64_okb v then v else min_int64
  end.

(** time.Duration.Seconds(): float64(d / Second) + float64(d % Second) / 1e9, with
    Go's truncated division; d is a number of nanoseconds. *)
Definition dur_seconds (d : Z) : f64 :=
  fadd (f_of_int (Z.quot d 1000000000))
       (fdiv (f_of_int (Z.rem d 1000000000)) (f_of_int 1000000000)).

(** fmt's %.4f.  strconv rounds the exact decimal value to the nearest multiple of
    1/10000, ties to even. *)
Definition pad4 (n : Z) : bytes :=
  let s := dec_nonneg n in repeat 48 (4 - List.length s)%nat ++ s.
Definition round_half_even (num den : Z) : Z :=
  let q := num / den in
  let r := num mod den in
  if 2 * r <? den then q
  else if den <? 2 * r then q + 1
  else if Z.even q then q else q + 1.
Definition ten_thousandths (m e : Z) : Z :=
  if 0 <=? e then m * 2 ^ e * 10000 else round_half_even (m * 10000) (2 ^ (- e)).
Definition fixed4 (n : Z) : bytes :=
  dec_nonneg (n / 10000) ++ str "." ++ pad4 (n mod 10000).
Definition format_f4 (x : f64) : bytes :=
  match x with
  | S754_nan => str "NaN"
  | S754_infinity false => str "+Inf"
  | S754_infinity true => str "-Inf"
  | S754_zero s => (if s then str "-" else []) ++ fixed4 0
  | S754_finite s m e => (if s then str "-" else []) ++ fixed4 (ten_thousandths (Zpos m) e)
  end.

(** ** strconv.ParseFloat(s, 64)

    [None] is an error (syntax or range).  The library's rounding is modelled as
    correct rounding of the exact value; its cut-off of decimal mantissas after 800
    digits is not modelled. *)

Definition to_lower (b : Z) : Z := if (65 <=? b) && (b <=? 90) then b + 32 else b.
Definition lower (s : bytes) : bytes := map to_lower s.

(** special(), strconv/atof.go: infinities with optional sign, NaN without. *)
Definition parse_special (s : bytes) : option f64 :=
  let l := lower s in
  let body := match l with c :: r => if (c =? 43) || (c =? 45) then r else l | [] => [] end in
  let neg := match l with c :: _ => c =? 45 | [] => false end in
  if beqb body (str "inf") || beqb body (str "infinity") then Some (S754_infinity neg)
  else if beqb l (str "nan") then Some S754_nan
  else None.

Definition is_hex_letter (b : Z) : bool := (97 <=? to_lower b) && (to_lower b <=? 102).
Definition digit_val (b : Z) : Z := if is_digit b then b - 48 else to_lower b - 87.

(** The mantissa loop of readFloat: value, digits after the point, point seen, digit
    seen, underscore seen, rest. *)
Fixpoint read_mant (hex : bool) (s : bytes) (v frac : Z) (dot dig und : bool)
  : Z * Z * bool * bool * bytes :=
  match s with
  | [] => (v, frac, dig, und, [])
  | b :: r =>
      if b =? 95 then read_mant hex r v frac dot dig true
      else if b =? 46 then
        if dot then (v, frac, dig, und, s) else read_mant hex r v frac true dig und
      else if is_digit b || (hex && is_hex_letter b) then
        read_mant hex r (v * (if hex then 16 else 10) + digit_val b)
                  (if dot then frac + 1 else frac) dot true und
      else (v, frac, dig, und, s)
  end.

(** The exponent digits: value (stops growing at 10000), underscore seen, rest. *)
Fixpoint read_exp (s : bytes) (e : Z) (und : bool) : Z * bool * bytes :=
  match s with
  | b :: r =>
      if b =? 95 then read_exp r e true
      else if is_digit b then read_exp r (if e <? 10000 then e * 10 + (b - 48) else e) und
      else (e, und, s)
  | [] => (e, und, [])
  end.

(** underscoreOK, strconv/atoi.go, on the text after the sign; [last] is the kind of
    the previous character: a digit, an underscore or something else. *)
Inductive ukind := UStart | UDigit | UUnder | UOther.
Fixpoint underscore_ok (hex : bool) (s : bytes) (last : ukind) : bool :=
  match s with
  | [] => match last with UUnder => false | _ => true end
  | b :: r =>
      if is_digit b || (hex && is_hex_letter b) then underscore_ok hex r UDigit
      else if b =? 95 then
        match last with UDigit => underscore_ok hex r UUnder | _ => false end
      else match last with UUnder => false | _ => underscore_ok hex r UOther end
  end.

(** The exactly rounded value of v * base^x (base 2 or 10). *)
Definition round_scaled (neg : bool) (v x : Z) (base : Z) : f64 :=
  match v with
  | Zpos m =>
      let p := base ^ Z.abs x in
      if 0 <=? x then
        binary_normalize 53 1024 (if neg then - (v * p) else v * p) 0 false
      else
        match p with
        | Zpos d => SFdiv 53 1024 (S754_finite neg m 0) (S754_finite false d 0)
        | _ => S754_zero neg
        end
  | _ => S754_zero neg
  end.

(** readFloat and atof64 without the special values. *)
Definition parse_number (s : bytes) : option f64 :=
  let '(neg, t) :=
    match s with
    | b :: r => if b =? 45 then (true, r) else if b =? 43 then (false, r) else (false, s)
    | [] => (false, [])
    end in
  let '(hex, body) :=
    match t with
    | z :: x :: r => if (z =? 48) && (to_lower x =? 120) && (0 <? len r) then (true, r) else (false, t)
    | _ => (false, t)
    end in
  let '(v, frac, dig, und, rest) := read_mant hex body 0 0 false false false in
  if negb dig then None else
  let exp_char := if hex then 112 else 101 in
  let fin (e : Z) (und : bool) :=
    if und && negb (underscore_ok hex body (if hex then UDigit else UStart)) then None
    else
      let x := if hex then round_scaled neg v (e - 4 * frac) 2
               else round_scaled neg v (e - frac) 10 in
      if f_finite x then Some x else None in
  match rest with
  | [] => if hex then None else fin 0 und
  | c :: r =>
      if to_lower c =? exp_char then
        let '(eneg, ds) :=
          match r with
          | b :: r' => if b =? 45 then (true, r') else if b =? 43 then (false, r') else (false, r)
          | [] => (false, [])
          end in
        match ds with
        | d :: _ =>
            if is_digit d then
              let '(e, und', tail) := read_exp ds 0 und in
              match tail with
              | [] => fin (if eneg : bool then - e else e) und'
              | _ => None
              end
            else None
        | [] => None
        end
      else None
  end.

(** strconv.ParseFloat(s, 64). *)
Definition parse_float (s : bytes) : option f64 :=
  match parse_special s with
  | Some x => Some x
  | None => parse_number s
  end.
