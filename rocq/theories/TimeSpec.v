(** The Gregorian calendar, and what a text of RFC 3339 stands for. *)
From Coq Require Import String ZArith List Bool.
From Verif Require Import Base.
Import ListNotations.
Open Scope Z_scope.

(** A date: year, month, day of the month. *)
Definition date := (Z * Z * Z)%type.

Definition leap_year (y : Z) : bool :=
  (y mod 4 =? 0) && (negb (y mod 100 =? 0) || (y mod 400 =? 0)).
Definition month_length (y m : Z) : Z :=
  if m =? 2 then if leap_year y then 29 else 28
  else if existsb (Z.eqb m) [4; 6; 9; 11] then 30 else 31.
Definition real_date (d : date) : Prop :=
  let '(y, m, d) := d in 1 <= m <= 12 /\ 1 <= d <= month_length y m.
(** The day after. *)
Definition tomorrow (d : date) : date :=
  let '(y, m, d) := d in
  if d <? month_length y m then (y, m, d + 1)
  else if m <? 12 then (y, m + 1, 1)
  else (y + 1, 1, 1).

(** Day n has date d, where day 0 is 1 January 1970. *)
Inductive date_of : Z -> date -> Prop :=
| date_epoch : date_of 0 (1970, 1, 1)
| date_after n d : date_of n d -> date_of (n + 1) (tomorrow d)
| date_before n d : real_date d -> date_of (n + 1) (tomorrow d) -> date_of n d.

(** A number of [w] decimal digits. *)
Definition number (w : nat) (s : bytes) (n : Z) : Prop :=
  List.length s = w /\ forallb is_digit s = true /\ dec_value s = n.

(** The instant, in nanoseconds since 1970, of a time of day in a zone that is z minutes east
    of UTC. *)
Definition instant (day hour minute second nano z : Z) : Z :=
  (((day * 24 + hour) * 60 + minute - z) * 60 + second) * 10 ^ 9 + nano.

(** The fraction of a second in nanoseconds: none, or a dot and at most nine digits. *)
Inductive frac_text : bytes -> Z -> Prop :=
| frac_none : frac_text [] 0
| frac_some f n : (1 <= List.length f <= 9)%nat -> number (List.length f) f n ->
    frac_text (str "." ++ f) (n * 10 ^ (9 - len f)).
(** The zone in minutes. *)
Inductive zone_of : bytes -> Z -> Prop :=
| zone_utc : zone_of (str "Z") 0
| zone_east hh mm h m : number 2 hh h -> number 2 mm m -> 0 <= h < 24 -> 0 <= m < 60 ->
    zone_of (str "+" ++ hh ++ str ":" ++ mm) (h * 60 + m)
| zone_west hh mm h m : number 2 hh h -> number 2 mm m -> 0 <= h < 24 -> 0 <= m < 60 ->
    zone_of (str "-" ++ hh ++ str ":" ++ mm) (- (h * 60 + m)).
(** [denotes w t]: the text w of RFC 3339 stands for the instant t. *)
Inductive denotes : bytes -> Z -> Prop :=
| denotes_text yy mo dd hh mi ss f z y m d h i s nano zone day :
    number 4 yy y -> number 2 mo m -> number 2 dd d -> number 2 hh h -> number 2 mi i -> number 2 ss s ->
    frac_text f nano -> zone_of z zone -> real_date (y, m, d) -> date_of day (y, m, d) ->
    0 <= h < 24 -> 0 <= i < 60 -> 0 <= s < 60 ->
    denotes (yy ++ str "-" ++ mo ++ str "-" ++ dd ++ str "T" ++ hh ++ str ":" ++ mi ++ str ":" ++ ss ++ f ++ z)
      (instant day h i s nano zone).

(** The order in which names are sorted. *)
Inductive sorts_before : bytes -> bytes -> Prop :=
| sorts_end b s : sorts_before [] (b :: s)
| sorts_byte a b s s' : a < b -> sorts_before (a :: s) (b :: s')
| sorts_next b s s' : sorts_before s s' -> sorts_before (b :: s) (b :: s').
