(** Specification of the texts that are read as times. *)
From Coq Require Import String ZArith List Bool.
From Verif Require Import Base TimeSpec.
Import ListNotations.
Open Scope Z_scope.

(** An hour has two digits or one. *)
Definition hour_of (s : bytes) (h : Z) : Prop := number 2 s h \/ number 1 s h.
(** The fraction in nanoseconds: a dot or a comma and digits, of which nine count. *)
Inductive fraction_of : bytes -> Z -> Prop :=
| fraction_none : fraction_of [] 0
| fraction_some sep f n g : sep = 46 \/ sep = 44 -> (1 <= List.length f <= 9)%nat -> number (List.length f) f n ->
    (g = [] \/ (List.length f = 9%nat /\ forallb is_digit g = true)) ->
    fraction_of (sep :: f ++ g) (n * 10 ^ (9 - len f)).
(** The zone in minutes: up to 24 hours and 60 minutes. *)
Inductive wide_zone : bytes -> Z -> Prop :=
| wide_utc : wide_zone (str "Z") 0
| wide_east hh mm h m : number 2 hh h -> number 2 mm m -> 0 <= h <= 24 -> 0 <= m <= 60 ->
    wide_zone (43 :: hh ++ 58 :: mm) (h * 60 + m)
| wide_west hh mm h m : number 2 hh h -> number 2 mm m -> 0 <= h <= 24 -> 0 <= m <= 60 ->
    wide_zone (45 :: hh ++ 58 :: mm) (- (h * 60 + m)).

(** [w] is accepted as a time, with these liberties: it stands for the instant [t], said in
    the zone [zone]. *)
Inductive time_text : bytes -> Z -> Z -> Prop :=
| time_text_intro yy mo dd hh mi ss f z y m d h i s nano zone day :
    number 4 yy y -> number 2 mo m -> number 2 dd d -> hour_of hh h -> number 2 mi i -> number 2 ss s ->
    fraction_of f nano -> wide_zone z zone -> real_date (y, m, d) -> date_of day (y, m, d) ->
    0 <= h < 24 -> 0 <= i < 60 -> 0 <= s < 60 ->
    time_text (yy ++ str "-" ++ mo ++ str "-" ++ dd ++ str "T" ++ hh ++ str ":" ++ mi ++ str ":" ++ ss ++ f ++ z)
      (instant day h i s nano zone) zone.
