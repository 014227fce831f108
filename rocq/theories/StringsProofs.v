(** Lemmas about Go's string functions. *)
From Coq Require Import String ZArith List Bool Lia.
From Coq Require Import ZifyBool ZifyNat.
From Verif Require Import Base BaseFacts TextSpec GoStrings ControlSpec.
Import ListNotations.
Open Scope Z_scope.

Lemma space_encodings_eq : space_encodings = map utf8_char white_space.
Proof. reflexivity. Qed.

Lemma leading_space_spec s :
  match leading_space s with
  | O => forall c r, In c white_space -> s <> utf8_char c ++ r
  | S n => exists c r, In c white_space /\ s = utf8_char c ++ r /\ List.length (utf8_char c) = S n
  end.
Proof.
  unfold leading_space. rewrite space_encodings_eq.
  destruct (find _ _) as [e|] eqn:F.
  - apply find_some in F. destruct F as [Hin Hp]. apply in_map_iff in Hin.
    destruct Hin as (c & <- & Hc). apply has_prefix_spec in Hp. destruct Hp as [r ->].
    destruct (List.length (utf8_char c)) as [|n] eqn:L.
    + exfalso. clear r. cbn in Hc. repeat destruct Hc as [<-|Hc]; try discriminate. contradiction.
    + exists c, r. auto.
  - intros c r Hc Hs. pose proof (find_none _ _ F (utf8_char c)) as H.
    rewrite Hs, has_prefix_app in H. discriminate H. apply in_map. exact Hc.
Qed.

Lemma trailing_space_spec s :
  match trailing_space s with
  | O => forall c r, In c white_space -> s <> r ++ utf8_char c
  | S n => exists c r, In c white_space /\ s = r ++ utf8_char c /\ List.length (utf8_char c) = S n
  end.
Proof.
  unfold trailing_space. rewrite space_encodings_eq.
  destruct (find _ _) as [e|] eqn:F.
  - apply find_some in F. destruct F as [Hin Hp]. apply in_map_iff in Hin.
    destruct Hin as (c & <- & Hc). apply has_suffix_spec in Hp. destruct Hp as [r ->].
    destruct (List.length (utf8_char c)) as [|n] eqn:L.
    + exfalso. clear r. cbn in Hc. repeat destruct Hc as [<-|Hc]; try discriminate. contradiction.
    + exists c, r. auto.
  - intros c r Hc Hs. pose proof (find_none _ _ F (utf8_char c)) as H.
    assert (has_suffix (utf8_char c) s = true) as H1 by (apply has_suffix_spec; eauto).
    rewrite H in H1. discriminate H1. apply in_map. exact Hc.
Qed.

Lemma trim_left_spec : forall fuel s, (List.length s <= fuel)%nat ->
  (exists cs, incl cs white_space /\ s = flat_map utf8_char cs ++ trim_left fuel s) /\
  (forall c r, In c white_space -> trim_left fuel s <> utf8_char c ++ r).
Proof.
  induction fuel as [|f IH]; intros s Hl; cbn [trim_left].
  - destruct s; [|cbn in Hl; lia]. split; [exists []; split; [intros ? []|reflexivity]|].
    intros c r Hc. cbn in Hc. repeat destruct Hc as [<-|Hc]; try discriminate. contradiction.
  - pose proof (leading_space_spec s) as H. destruct (leading_space s) as [|n].
    + split; [|exact H]. exists []. split; [intros ? []|reflexivity].
    + destruct H as (c & r & Hc & -> & L). rewrite <- L, skipn_app, skipn_all, Nat.sub_diag.
      cbn [skipn app].
      destruct (IH r) as [(cs & Hcs & Hr) Hn]; [rewrite app_length in Hl; lia|].
      split; [|exact Hn]. exists (c :: cs). split.
      * intros x [<-|Hx]; auto.
      * cbn [flat_map]. rewrite <- app_assoc, <- Hr. reflexivity.
Qed.

Lemma trim_right_spec : forall fuel s, (List.length s <= fuel)%nat ->
  (exists ds, incl ds white_space /\ s = trim_right fuel s ++ flat_map utf8_char ds) /\
  (forall c r, In c white_space -> trim_right fuel s <> r ++ utf8_char c).
Proof.
  induction fuel as [|f IH]; intros s Hl; cbn [trim_right].
  - destruct s; [|cbn in Hl; lia]. split; [exists []; split; [intros ? []|reflexivity]|].
    intros c r Hc H. symmetry in H. apply app_eq_nil in H. destruct H as [_ H].
    cbn in Hc. repeat destruct Hc as [<-|Hc]; try discriminate. contradiction.
  - pose proof (trailing_space_spec s) as H. destruct (trailing_space s) as [|n].
    + split; [|exact H]. exists []. rewrite app_nil_r. split; [intros ? []|reflexivity].
    + destruct H as (c & r & Hc & -> & L).
      replace (List.length (r ++ utf8_char c) - S n)%nat with (List.length r)
        by (rewrite app_length; lia).
      rewrite firstn_app, Nat.sub_diag, firstn_O, firstn_all, app_nil_r.
      destruct (IH r) as [(ds & Hds & Hr) Hn]; [rewrite app_length in Hl; lia|].
      split; [|exact Hn]. exists (ds ++ [c]). split.
      * intros x Hx. apply in_app_or in Hx. destruct Hx as [Hx|[<-|[]]]; auto.
      * rewrite flat_map_app. cbn [flat_map]. rewrite app_nil_r, app_assoc, <- Hr. reflexivity.
Qed.

Lemma trim_space_trimmed s : trimmed s (trim_space s).
Proof.
  unfold trim_space. set (l := trim_left (List.length s) s).
  destruct (trim_left_spec (List.length s) s (le_n _)) as [(cs & Hcs & Es) Hn]. fold l in Es, Hn.
  destruct (trim_right_spec (List.length l) l (le_n _)) as [(ds & Hds & El) Hm].
  set (t := trim_right (List.length l) l) in *.
  split; [|split; [|exact Hm]].
  - exists cs, ds. rewrite <- El. auto.
  - intros c r Hc E. apply (Hn c (r ++ flat_map utf8_char ds) Hc).
    rewrite El, E, app_assoc. reflexivity.
Qed.

(** *** SplitN *)

Lemma split2_spec sep s :
  match split2 sep s with
  | (a, None) => s = a /\ ~ In sep s
  | (a, Some b) => s = a ++ sep :: b /\ ~ In sep a
  end.
Proof.
  induction s as [|x r IH]; cbn [split2].
  - auto.
  - destruct (x =? sep) eqn:E.
    + apply Z.eqb_eq in E. subst. auto.
    + apply Z.eqb_neq in E. destruct (split2 sep r) as [a [b|]]; destruct IH as [-> H].
      * split; [reflexivity|]. intros [?|?]; auto.
      * split; [reflexivity|]. intros [?|?]; auto.
Qed.
