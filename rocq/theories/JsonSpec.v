(** Declarative grammar of JSON texts (RFC 8259) with the two liberties Go's
    encoding/json takes inside strings: a byte that is not part of a UTF-8
    character and an unpaired surrogate escape both stand for U+FFFD.  Nesting is
    limited to 10000.  Independent of the parser in GoJSON.v. *)
From Coq Require Import String ZArith List Bool.
From Verif Require Import Base TextSpec.
Import ListNotations.
Open Scope Z_scope.

(** JSON values. A number is kept as its literal. *)
Inductive json :=
| JNull | JBool (b : bool) | JNum (w : bytes) | JStr (s : bytes)
| JArr (l : list json) | JObj (l : list (bytes * json)).

(** White space: blank, tab, line feed, carriage return. *)
Definition ws_char (b : Z) : Prop := b = 32 \/ b = 9 \/ b = 10 \/ b = 13.
Definition ws (w : bytes) : Prop := Forall ws_char w.

Definition digit (b : Z) : Prop := 48 <= b <= 57.
Definition digits (w : bytes) : Prop := Forall digit w.

(** A hexadecimal digit and its value. *)
Inductive hex1 : Z -> Z -> Prop :=
| hex_09 b : 48 <= b <= 57 -> hex1 b (b - 48)
| hex_AF b : 65 <= b <= 70 -> hex1 b (b - 55)
| hex_af b : 97 <= b <= 102 -> hex1 b (b - 87).

(** Four hexadecimal digits and their value. *)
Inductive hex4 : bytes -> Z -> Prop :=
| hex4_intro a b c d x y z t :
    hex1 a x -> hex1 b y -> hex1 c z -> hex1 d t ->
    hex4 [a; b; c; d] (x * 4096 + y * 256 + z * 16 + t).

Definition high_surrogate (c : Z) : Prop := 55296 <= c <= 56319.
Definition low_surrogate (c : Z) : Prop := 56320 <= c <= 57343.
Definition surrogate (c : Z) : Prop := 55296 <= c <= 57343.

(** Two-character escapes: quote, backslash, slash, b, f, n, r, t. *)
Definition simple_escape (e x : Z) : Prop :=
  In (e, x) [(34, 34); (92, 92); (47, 47); (98, 8); (102, 12); (110, 10); (114, 13); (116, 9)].

(** The inside of a string literal and the text it stands for. *)
Inductive jchars : bytes -> bytes -> Prop :=
| jc_nil : jchars [] []
| jc_char c r v : scalar c -> 32 <= c -> c <> 34 -> c <> 92 ->
    jchars r v -> jchars (utf8_char c ++ r) (utf8_char c ++ v)
| jc_bad b r v : 128 <= b -> no_char_at (b :: r) ->
    jchars r v -> jchars (b :: r) (replacement ++ v)
| jc_esc e x r v : simple_escape e x -> jchars r v -> jchars (92 :: e :: r) (x :: v)
| jc_u h c r v : hex4 h c -> ~ surrogate c ->
    jchars r v -> jchars (92 :: 117 :: h ++ r) (utf8_char c ++ v)
| jc_pair h1 hi h2 lo r v :
    hex4 h1 hi -> high_surrogate hi -> hex4 h2 lo -> low_surrogate lo ->
    jchars r v ->
    jchars (92 :: 117 :: h1 ++ 92 :: 117 :: h2 ++ r)
           (utf8_char (65536 + (hi - 55296) * 1024 + (lo - 56320)) ++ v)
| jc_lone h c r v :
    hex4 h c -> surrogate c ->
    ~ (high_surrogate c /\
       exists h2 lo r', r = 92 :: 117 :: h2 ++ r' /\ hex4 h2 lo /\ low_surrogate lo) ->
    jchars r v -> jchars (92 :: 117 :: h ++ r) (replacement ++ v).

(** Numbers. *)
Definition jnumber (w : bytes) : Prop :=
  exists sign int frac exp, w = sign ++ int ++ frac ++ exp /\
    (sign = [] \/ sign = [45]) /\
    (int = [48] \/ exists d ds, int = d :: ds /\ 49 <= d <= 57 /\ digits ds) /\
    (frac = [] \/ exists ds, frac = 46 :: ds /\ digits ds /\ ds <> []) /\
    (exp = [] \/ exists e s ds, exp = e :: s ++ ds /\ (e = 101 \/ e = 69) /\
                (s = [] \/ s = [43] \/ s = [45]) /\ digits ds /\ ds <> []).

(** Values, array elements and object members at nesting depth d. *)
Inductive jval (d : Z) : bytes -> json -> Prop :=
| jv_null : jval d (str "null") JNull
| jv_true : jval d (str "true") (JBool true)
| jv_false : jval d (str "false") (JBool false)
| jv_num w : jnumber w -> jval d w (JNum w)
| jv_str raw v : jchars raw v -> jval d (34 :: raw ++ [34]) (JStr v)
| jv_arr0 w : d < 10000 -> ws w -> jval d (91 :: w ++ [93]) (JArr [])
| jv_arr w e l : d < 10000 -> ws w -> jelems (d + 1) e l ->
    jval d (91 :: w ++ e ++ [93]) (JArr l)
| jv_obj0 w : d < 10000 -> ws w -> jval d (123 :: w ++ [125]) (JObj [])
| jv_obj w m l : d < 10000 -> ws w -> jmembers (d + 1) m l ->
    jval d (123 :: w ++ m ++ [125]) (JObj l)
with jelems (d : Z) : bytes -> list json -> Prop :=
| je_one x v w : jval d x v -> ws w -> jelems d (x ++ w) [v]
| je_more x v w1 w2 e l : jval d x v -> ws w1 -> ws w2 -> jelems d e l ->
    jelems d (x ++ w1 ++ 44 :: w2 ++ e) (v :: l)
with jmembers (d : Z) : bytes -> list (bytes * json) -> Prop :=
| jm_one raw k w1 w2 x v w3 :
    jchars raw k -> ws w1 -> ws w2 -> jval d x v -> ws w3 ->
    jmembers d (34 :: raw ++ 34 :: w1 ++ 58 :: w2 ++ x ++ w3) [(k, v)]
| jm_more raw k w1 w2 x v w3 w4 m l :
    jchars raw k -> ws w1 -> ws w2 -> jval d x v -> ws w3 -> ws w4 -> jmembers d m l ->
    jmembers d (34 :: raw ++ 34 :: w1 ++ 58 :: w2 ++ x ++ w3 ++ 44 :: w4 ++ m) ((k, v) :: l).

(** A JSON text. *)
Definition json_text (s : bytes) (v : json) : Prop :=
  exists w1 x w2, s = w1 ++ x ++ w2 /\ ws w1 /\ ws w2 /\ jval 0 x v.
