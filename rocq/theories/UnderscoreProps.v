(** Property C77, continued: numbers with underscores. *)
From Coq Require Import String ZArith List Bool Lia.
From Coq Require Import Floats.SpecFloat.
From Verif Require Import Base JsonSpec GoFloat NumberSpec UnderscoreSpec UnderscoreProofs.
Import ListNotations.
Open Scope Z_scope.

(** A text with underscores is a number exactly if they are well placed and the text without
    them is one, and then it is the same number. *)
Theorem C77_underscores : forall t v, In 95 t ->
  (parse_float t = Some v <-> well_placed t /\ parse_float (plain_text t) = Some v).
Proof. exact underscores. Qed.
Print Assumptions C77_underscores.

Example C77_underscores_example :
  parse_float (str "93_500.2_5") = parse_float (str "93500.25") /\ parse_float (str "93_500.2_5") <> None /\
  parse_float (str "0x_1.8p1_0") = Some (f_of_int 1536) /\
  parse_float (str "_1") = None /\ parse_float (str "1_") = None /\ parse_float (str "1__0") = None /\
  parse_float (str "1_.5") = None /\ parse_float (str "0_x1p3") = None /\ well_placed (str "1_0").
Proof.
  repeat (split; [vm_compute; first [reflexivity|discriminate]|]). left. intros a b E.
  assert (a = str "1" /\ b = str "0") as [-> ->].
  { destruct a as [|x a]; [discriminate|]. injection E as <- E. destruct a as [|y a]; [injection E as <-; auto|].
    injection E as <- E. destruct a as [|z a]; [discriminate|]. injection E as <- E. destruct a; discriminate. }
  split; [exists [], 49|exists 48, []]; split; try reflexivity; unfold decimal_digit; lia.
Qed.
