(** Cleaning of paths. *)
From Coq Require Import String ZArith List Bool Lia.
From Verif Require Import Base BaseFacts MainModel PathSpec.
Import ListNotations.
Open Scope Z_scope.

Lemma path_cons s l : path_of (s :: l) = 47 :: s ++ path_of l.
Proof. reflexivity. Qed.
Lemma path_app a b : path_of (a ++ b) = path_of a ++ path_of b.
Proof. unfold path_of. rewrite map_app, concat_app. reflexivity. Qed.
Lemma unslashed_path l : unslashed l = path_of l.
Proof. induction l as [|s l IH]; [reflexivity|]. cbn [unslashed]. rewrite IH. reflexivity. Qed.

Lemma slashed_app s r : ~ In 47 s -> slashed (s ++ 47 :: r) = s :: slashed r.
Proof.
  induction s as [|b s IH]; intros N; [reflexivity|]. cbn [app slashed].
  destruct (Z.eqb_spec b 47) as [->|B]; [exfalso; apply N; left; reflexivity|]. rewrite IH; [reflexivity|].
  intros X. apply N. right. exact X.
Qed.
Lemma slashed_one s : ~ In 47 s -> slashed s = [s].
Proof.
  induction s as [|b s IH]; intros N; [reflexivity|]. cbn [slashed].
  destruct (Z.eqb_spec b 47) as [->|B]; [exfalso; apply N; left; reflexivity|]. rewrite IH; [reflexivity|].
  intros X. apply N. right. exact X.
Qed.
Lemma slashed_path segs : Forall (fun s => ~ In 47 s) segs -> forall s, ~ In 47 s -> slashed (s ++ path_of segs) = s :: segs.
Proof.
  induction 1 as [|x l X L IH]; intros s S.
  - cbn. rewrite app_nil_r. apply slashed_one, S.
  - rewrite path_cons, slashed_app by exact S. rewrite IH by exact X. reflexivity.
Qed.
Lemma slashed_pieces q : Forall (fun s => ~ In 47 s) (slashed q) /\ slashed q <> [].
Proof.
  induction q as [|b q [F N]]; [split; [constructor; [intros []|constructor]|discriminate]|]. cbn [slashed].
  destruct (Z.eqb_spec b 47) as [->|B]; [split; [constructor; [intros []|exact F]|discriminate]|].
  destruct (slashed q) as [|p ps]; [contradiction|]. split; [|discriminate]. apply Forall_cons_iff in F as [F1 F2].
  constructor; [|exact F2]. intros [X|X]; [congruence|contradiction].
Qed.
Lemma path_slashed q : path_of (slashed q) = 47 :: q.
Proof.
  induction q as [|b q IH]; [reflexivity|]. cbn [slashed]. destruct (Z.eqb_spec b 47) as [->|B].
  - rewrite path_cons, IH. reflexivity.
  - pose proof (proj2 (slashed_pieces q)) as N. destruct (slashed q) as [|p ps]; [contradiction|].
    rewrite path_cons in *. injection IH as IH. cbn [app]. rewrite IH. reflexivity.
Qed.
Lemma path_inj a b : Forall (fun s => ~ In 47 s) a -> Forall (fun s => ~ In 47 s) b -> path_of a = path_of b -> a = b.
Proof.
  intros A B E. assert (N : ~ In 47 ([] : bytes)) by (intros []).
  pose proof (slashed_path a A [] N) as X. pose proof (slashed_path b B [] N) as Y. cbn [app] in *. rewrite E, Y in X. injection X as ->. reflexivity.
Qed.

Lemma clean_app a : forall b acc, clean_segments (a ++ b) acc = clean_segments b (clean_segments a acc).
Proof.
  induction a as [|s a IH]; intros b acc; [reflexivity|]. cbn [app clean_segments].
  destruct (beqb s [] || beqb s (str ".")); [apply IH|]. destruct (beqb s (str "..")); apply IH.
Qed.
Lemma beqb_no a b : a <> b -> beqb a b = false.
Proof. intros N. destruct (beqb a b) eqn:E; [apply beqb_spec in E; contradiction|reflexivity]. Qed.
Lemma leads_clean segs place : leads segs place -> clean_segments segs [] = rev place.
Proof.
  induction 1 as [|segs place s S L IH|segs place d L IH|segs L IH|segs place s (O1 & O2 & O3) L IH]; [reflexivity|..]; rewrite clean_app, IH.
  - destruct S as [-> | ->]; reflexivity.
  - rewrite rev_app_distr. reflexivity.
  - reflexivity.
  - rewrite rev_app_distr. cbn [clean_segments rev app]. rewrite !beqb_no by assumption. reflexivity.
Qed.
Lemma leads_total segs : exists place, leads segs place.
Proof.
  induction segs as [|s segs [place L]] using rev_ind; [exists []; constructor|].
  destruct (list_eq_dec Z.eq_dec s []) as [E1|E1]; [exists place; apply leads_stay; auto|].
  destruct (list_eq_dec Z.eq_dec s (str ".")) as [E2|E2]; [exists place; apply leads_stay; auto|].
  destruct (list_eq_dec Z.eq_dec s (str "..")) as [->|E3].
  - destruct place as [|d place _] using rev_ind; [exists []; apply leads_top, L|exists place; eapply leads_up, L].
  - exists (place ++ [s]). apply leads_down; [repeat split; assumption|exact L].
Qed.
Lemma leads_ordinary segs place : leads segs place -> Forall ordinary place.
Proof.
  induction 1 as [|segs place s S L IH|segs place d L IH|segs L IH|segs place s O L IH]; auto.
  - apply Forall_app in IH as [IH _]. exact IH.
  - apply Forall_app. split; [exact IH|constructor; [exact O|constructor]].
Qed.
Lemma leads_sub segs place : leads segs place -> incl place segs.
Proof.
  induction 1 as [|segs place s S L IH|segs place d L IH|segs L IH|segs place s O L IH]; intros x X; try solve [destruct X].
  - apply in_or_app. left. apply IH, X.
  - apply in_or_app. left. apply IH, in_or_app. left. exact X.
  - apply in_app_or in X as [X|X]; apply in_or_app; [left; apply IH, X|right; exact X].
Qed.
Lemma leads_self l : Forall ordinary l -> leads l l.
Proof.
  induction l as [|s l IH] using rev_ind; intros F; [constructor|]. apply Forall_app in F as [F1 F2]. inversion F2; subst.
  apply leads_down; [assumption|apply IH, F1].
Qed.

Lemma suffix_last l b : has_suffix [b] (l ++ [b]) = true.
Proof.
  unfold has_suffix. rewrite rev_app_distr. cbn. rewrite Z.eqb_refl. reflexivity.
Qed.
Lemma suffix_other l b c : b <> c -> has_suffix [b] (l ++ [c]) = false.
Proof.
  intros N. unfold has_suffix. rewrite rev_app_distr. cbn. destruct (Z.eqb_spec b c); [contradiction|reflexivity].
Qed.
Lemma path_suffix segs s : ~ In 47 s -> has_suffix [47] (path_of (segs ++ [s])) = match s with [] => true | _ => false end.
Proof.
  intros N. rewrite path_app. change (path_of [s]) with (47 :: s ++ []). rewrite app_nil_r.
  destruct s as [|b s _] using rev_ind; [apply suffix_last|]. 
  change (path_of segs ++ 47 :: s ++ [b]) with (path_of segs ++ (47 :: s) ++ [b]). rewrite app_assoc, suffix_other.
  - destruct s; reflexivity.
  - intros <-. apply N, in_or_app. right. left. reflexivity.
Qed.

Lemma directory : forall segs place, pieces segs -> leads segs place ->
  clean_path (path_of segs) =
    match place with [] => str "/" | _ => path_of place ++ match last segs [] with [] => str "/" | _ => [] end end.
Proof.
  intros segs place [N F] L. unfold clean_path.
  assert (P : match path_of segs with 47 :: _ => path_of segs | _ => 47 :: path_of segs end = path_of segs).
  { destruct segs as [|s l]; [contradiction|]. rewrite path_cons. reflexivity. }
  rewrite P. cbv zeta.
  assert (S : slashed (path_of segs) = [] :: segs) by (apply (slashed_path segs F []); intros []).
  rewrite S. change (clean_segments ([] :: segs) []) with (clean_segments segs []). rewrite (leads_clean _ _ L), rev_involutive, unslashed_path.
  destruct (exists_last N) as (init & s & ->). rewrite last_last. apply Forall_app in F as [_ F]. inversion F as [|? ? X _]; subst.
  match goal with |- (if ?b && _ then _ else _) = _ => replace b with (match s with [] => true | _ => false end) by (symmetry; exact (path_suffix init s X)) end.
  destruct place as [|d place].
  - cbn [path_of map concat]. destruct s; reflexivity.
  - pose proof (leads_ordinary _ _ L) as O. apply Forall_cons_iff in O as [[O _] _].
    assert (B : beqb (path_of (d :: place)) [47] = false).
    { apply beqb_no. rewrite path_cons. destruct d; [contradiction|discriminate]. }
    rewrite path_cons in *. destruct s; [|cbn [andb]; rewrite app_nil_r; reflexivity]. rewrite B. reflexivity.
Qed.

Lemma cleaned : forall segs, pieces segs -> (clean_path (path_of segs) = path_of segs <-> clean segs).
Proof.
  intros segs [N F]. split.
  - intros E. destruct (leads_total segs) as [place L]. rewrite (directory segs place (conj N F) L) in E.
    assert (FP : Forall (fun s => ~ In 47 s) place).
    { apply Forall_forall. intros s I. rewrite Forall_forall in F. apply F, (leads_sub _ _ L), I. }
    destruct place as [|d place].
    + left. change (str "/") with (path_of [[]]) in E. symmetry. apply path_inj; [constructor; [intros []|constructor]|exact F|exact E].
    + right. exists (d :: place). split; [discriminate|]. split; [exact (leads_ordinary _ _ L)|]. destruct (last segs []).
      * right. symmetry. change (str "/") with (path_of [[]]) in E. rewrite <- path_app in E. apply path_inj; [|exact F|exact E].
        apply Forall_app. split; [exact FP|constructor; [intros []|constructor]].
      * left. symmetry. rewrite app_nil_r in E. apply path_inj; assumption.
  - intros [->|(l & M & O & [-> | ->])]; [reflexivity|..].
    + rewrite (directory l l (conj N F) (leads_self l O)). destruct l as [|d l]; [contradiction|].
      destruct (exists_last M) as (init & s & E). rewrite E, last_last. rewrite E in O. apply Forall_app in O as [_ O].
      inversion O as [|? ? [X _] _]; subst. destruct s; [contradiction|]. apply app_nil_r.
    + rewrite (directory (l ++ [[]]) l (conj N F)).
      * rewrite last_last, path_app. destruct l; [contradiction|]. reflexivity.
      * apply leads_stay; [left; reflexivity|apply leads_self, O].
Qed.

Lemma clean_slash p : exists q, clean_path p = 47 :: q.
Proof.
  unfold clean_path. cbv zeta. generalize (match p with 47 :: _ => p | _ => 47 :: p end). intros p'.
  rewrite unslashed_path. destruct (rev _) as [|d l]; [destruct (_ && _); eexists; reflexivity|]. rewrite path_cons.
  destruct (_ && _); eexists; reflexivity.
Qed.
Lemma redirected : forall m r, rq_connect r = false ->
  (route m r = Redirected <-> forall segs, pieces segs -> rq_escaped r = path_of segs -> ~ clean segs).
Proof.
  intros m r C. unfold route. rewrite C. cbn [negb andb]. split.
  - intros H segs P E Cl. rewrite E in H. apply (cleaned segs P) in Cl. rewrite Cl, beqb_refl in H. cbn [negb] in H.
    destruct P as [N _]. destruct segs as [|s l]; [contradiction|]. rewrite path_cons in H.
    destruct (lookup _ _); [discriminate|]. destruct (root m); discriminate.
  - intros H. destruct (beqb (clean_path (rq_escaped r)) (rq_escaped r)) eqn:E; [exfalso|reflexivity].
    apply beqb_spec in E. destruct (clean_slash (rq_escaped r)) as [q Q]. rewrite E in Q.
    pose proof (slashed_pieces q) as [F N]. assert (X : rq_escaped r = path_of (slashed q)) by (rewrite path_slashed; exact Q).
    apply (H _ (conj N F) X). apply cleaned; [split; assumption|]. rewrite <- X. exact E.
Qed.
