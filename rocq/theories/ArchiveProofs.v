(** Proofs about result files. *)
From Coq Require Import String ZArith List Bool Lia.
From Verif Require Import Base BaseFacts GoFloat GoStrings Effect ControlModel ArchiveModel.
Import ListNotations.
Open Scope Z_scope.

(** ** Digits *)
Lemma digits_length w : forall n, length (digits w n) = w.
Proof. induction w as [|w IH]; intros n; [reflexivity|]. cbn. rewrite app_length, IH. cbn. lia. Qed.

Lemma digits_inj w : forall a b, 0 <= a < 10 ^ Z.of_nat w -> 0 <= b < 10 ^ Z.of_nat w ->
  digits w a = digits w b -> a = b.
Proof.
  induction w as [|w IH]; intros a b A B E; [cbn in *; lia|]. cbn [digits] in E.
  rewrite Nat2Z.inj_succ, Z.pow_succ_r in A, B by lia.
  apply app_inj_tail in E as [E1 E2].
  apply IH in E1; [|split; [apply Z.div_pos; lia|apply Z.div_lt_upper_bound; lia]..].
  rewrite (Z.div_mod a 10), (Z.div_mod b 10), E1 by lia. lia.
Qed.

Lemma digits_chars w : forall n, 0 <= n -> Forall (fun b => 48 <= b <= 57) (digits w n).
Proof.
  induction w as [|w IH]; intros n N; [constructor|]. cbn [digits]. apply Forall_app. split; [apply IH, Z.div_pos; lia|].
  constructor; [|constructor]. pose proof (Z.mod_pos_bound n 10 ltac:(lia)). lia.
Qed.

Lemma app_inv_len {A} (a b c d : list A) : length a = length c -> a ++ b = c ++ d -> a = c /\ b = d.
Proof.
  revert c. induction a as [|x a IH]; intros [|y c] L E; try discriminate; [auto|].
  injection E as -> E. destruct (IH c); [now injection L|assumption|]. subst. auto.
Qed.

(** A time with a four-digit year. *)
Definition civil_ok (t : civil) : Prop :=
  0 <= t_year t < 10000 /\ 1 <= t_month t <= 12 /\ 1 <= t_day t <= 31 /\
  0 <= t_hour t < 24 /\ 0 <= t_minute t < 60 /\ 0 <= t_second t < 60 /\ 0 <= t_nano t < 1000000000.

Lemma format_stamp_length t : length (format_stamp t) = 26%nat.
Proof. unfold format_stamp. rewrite !app_length, !digits_length. reflexivity. Qed.
Lemma format_day_length t : length (format_day t) = 10%nat.
Proof. unfold format_day. rewrite !app_length, !digits_length. reflexivity. Qed.

Ltac peel E :=
  apply app_inv_len in E as [? E]; [|rewrite ?digits_length; reflexivity].

Lemma format_stamp_inj t t' : civil_ok t -> civil_ok t' -> format_stamp t = format_stamp t' -> t = t'.
Proof.
  intros (A1 & A2 & A3 & A4 & A5 & A6 & A7) (B1 & B2 & B3 & B4 & B5 & B6 & B7) E. unfold format_stamp in E.
  do 9 peel E.
  repeat match goal with H : digits _ _ = digits _ _ |- _ => apply digits_inj in H; [|cbn; lia..] end.
  destruct t, t'; cbn in *. congruence.
Qed.

Lemma format_day_inj t t' : civil_ok t -> civil_ok t' -> format_day t = format_day t' ->
  t_year t = t_year t' /\ t_month t = t_month t' /\ t_day t = t_day t'.
Proof.
  intros (A1 & A2 & A3 & _) (B1 & B2 & B3 & _) E. unfold format_day in E. do 4 peel E.
  repeat match goal with H : digits _ _ = digits _ _ |- _ => apply digits_inj in H; [|cbn; lia..] end. auto.
Qed.

(** ** Paths *)

(** An element that path.Clean keeps. *)
Definition ordinary (x : bytes) : Prop := x <> [] /\ x <> str "." /\ x <> str ".." /\ ~ In slash x.

Lemma split_path_ordinary x : ~ In slash x -> split_path x = [x].
Proof.
  induction x as [|b x IH]; intros N; [reflexivity|]. cbn [split_path].
  destruct (Z.eqb_spec b slash) as [->|]; [exfalso; apply N; left; reflexivity|].
  rewrite IH; [reflexivity|]. intros I. apply N. right. exact I.
Qed.

Lemma split_path_nonempty s : split_path s <> [].
Proof. destruct s as [|b s]; [discriminate|]. cbn. destruct (_ =? _); [discriminate|]. destruct (split_path s); discriminate. Qed.

Lemma split_path_app a b : split_path (a ++ slash :: b) = split_path a ++ split_path b.
Proof.
  induction a as [|x a IH]; [reflexivity|]. cbn [app split_path]. destruct (x =? slash); rewrite IH; [reflexivity|].
  pose proof (split_path_nonempty a) as N. destruct (split_path a); [congruence|]. reflexivity.
Qed.

Lemma split_path_join l : l <> [] -> Forall (fun x => ~ In slash x) l -> split_path (join [slash] l) = l.
Proof.
  intros N F. induction F as [|x l Hx Hl IH]; [congruence|]. destruct l as [|y l].
  - cbn. apply split_path_ordinary, Hx.
  - change (join [slash] (x :: y :: l)) with (x ++ slash :: join [slash] (y :: l)).
    rewrite split_path_app, IH by discriminate. rewrite split_path_ordinary by exact Hx. reflexivity.
Qed.

Lemma split_path_no_slash s : Forall (fun x => ~ In slash x) (split_path s).
Proof.
  induction s as [|b s IH]; [repeat constructor; auto|]. cbn. destruct (Z.eqb_spec b slash) as [->|N].
  - constructor; [cbn; auto|exact IH].
  - destruct (split_path s) as [|x l]; inversion IH; subst; constructor; auto; intros [I|I]; subst; try congruence; auto.
Qed.

Lemma push_ordinary r k x : ordinary x -> path_push r k x = x :: k.
Proof.
  intros (A & B & C & _). unfold path_push.
  destruct (beqb x []) eqn:E1; [apply beqb_spec in E1; congruence|].
  destruct (beqb x (str ".")) eqn:E2; [apply beqb_spec in E2; congruence|].
  destruct (beqb x (str "..")) eqn:E3; [apply beqb_spec in E3; congruence|]. reflexivity.
Qed.

Lemma push_all r l : forall k, Forall ordinary l -> fold_left (path_push r) l k = rev l ++ k.
Proof.
  induction l as [|x l IH]; intros k F; [reflexivity|]. inversion F; subst. cbn. rewrite push_ordinary, IH by assumption.
  rewrite <- app_assoc. reflexivity.
Qed.

(** What path.Clean may keep, the last first: ordinary elements, then dot-dots, none of
    these in a rooted path. *)
Inductive kept_ok (r : bool) : list bytes -> Prop :=
| kept_nil : kept_ok r []
| kept_dots k : r = false -> kept_ok r k -> Forall (eq (str "..")) k -> kept_ok r (str ".." :: k)
| kept_cons x k : ordinary x -> kept_ok r k -> kept_ok r (x :: k).

Lemma dotdot_not_ordinary : ~ ordinary (str "..").
Proof. intros (_ & _ & C & _). apply C. reflexivity. Qed.

Lemma push_ok r k x : ~ In slash x -> kept_ok r k -> kept_ok r (path_push r k x).
Proof.
  intros N K. unfold path_push. destruct (beqb x []) eqn:E1; [exact K|]. destruct (beqb x (str ".")) eqn:E2; [exact K|].
  cbn [orb]. destruct (beqb x (str "..")) eqn:E3.
  - apply beqb_spec in E3. subst x. destruct k as [|y k].
    + destruct r; [constructor|]. apply kept_dots; auto.
    + destruct (beqb y (str "..")) eqn:E4.
      * apply beqb_spec in E4. subst y. inversion K; subst.
        -- apply kept_dots; auto.
        -- exfalso. eapply dotdot_not_ordinary; eassumption.
      * inversion K; subst; [discriminate|assumption].
  - apply kept_cons; [|exact K]. repeat split; [intros ->; discriminate E1|intros ->; discriminate E2|intros ->; discriminate E3|exact N].
Qed.

Lemma push_list_ok r l : forall k, Forall (fun x => ~ In slash x) l -> kept_ok r k -> kept_ok r (fold_left (path_push r) l k).
Proof.
  induction l as [|x l IH]; intros k F K; [exact K|]. inversion F; subst. cbn. apply IH; [assumption|].
  apply push_ok; assumption.
Qed.

Lemma kept_no_slash r k : kept_ok r k -> Forall (fun x => ~ In slash x) k.
Proof.
  induction 1 as [| |x k O K IH]; [constructor| |].
  - constructor; [cbn; intros [|[|[]]]; discriminate|assumption].
  - constructor; [apply O|assumption].
Qed.

Lemma kept_nonempty r k : kept_ok r k -> Forall (fun x => x <> []) k.
Proof. induction 1 as [| |x k O K IH]; constructor; try discriminate; try assumption. apply O. Qed.

(** Cleaning what was kept keeps it. *)
Lemma push_again r k : kept_ok r k -> fold_left (path_push r) (rev k) [] = k.
Proof.
  induction 1 as [|k R K IH D|x k O K IH]; [reflexivity| |]; cbn [rev]; rewrite fold_left_app, IH; cbn [fold_left].
  - unfold path_push. cbn. destruct k as [|y k]; [rewrite R; reflexivity|]. inversion D; subst. reflexivity.
  - apply push_ordinary, O.
Qed.

(** The text before the names of the entries of a directory. *)
Definition render (r : bool) (kept : list bytes) : bytes :=
  (if r then [slash] else []) ++ flat_map (fun x => x ++ [slash]) (rev kept).

Lemma join_last l x : join [slash] (l ++ [x]) = flat_map (fun y => y ++ [slash]) l ++ x.
Proof.
  induction l as [|y l IH]; [reflexivity|]. cbn [app flat_map]. destruct (l ++ [x]) as [|z m] eqn:E.
  - destruct l; discriminate.
  - change (join [slash] (y :: z :: m)) with (y ++ [slash] ++ join [slash] (z :: m)). rewrite IH.
    rewrite <- !app_assoc. reflexivity.
Qed.

(** The elements kept of the directory, and whether it is rooted. *)
Definition kept_of (s : bytes) : list bytes := fold_left (path_push (is_rooted s)) (split_path s) [].

Lemma kept_of_ok s : kept_ok (is_rooted s) (kept_of s).
Proof. apply push_list_ok; [apply split_path_no_slash|constructor]. Qed.

Lemma rooted_join l : Forall ordinary l -> is_rooted (join [slash] l) = false.
Proof.
  intros O. destruct O as [|y m Oy Om]; [reflexivity|]. destruct Oy as (N & _ & _ & S). destruct y as [|c y]; [congruence|].
  assert (C : c =? slash = false) by (apply Z.eqb_neq; intros ->; apply S; left; reflexivity).
  destruct m; exact C.
Qed.

Lemma join_cons a m : m <> [] -> join [slash] (a :: m) = a ++ slash :: join [slash] m.
Proof. destruct m; [congruence|reflexivity]. Qed.

(** path.Join of a directory with ordinary elements. *)
Lemma join_under d l x : Forall ordinary (l ++ [x]) ->
  path_join (d :: l ++ [x]) = render (is_rooted d) (kept_of d) ++ join [slash] (l ++ [x]).
Proof.
  intros O. assert (NE : l ++ [x] <> []) by (destruct l; discriminate).
  assert (F : filter (fun x => negb (beqb x [])) (l ++ [x]) = l ++ [x]).
  { clear NE. induction O as [|y m Oy Om IH]; [reflexivity|]. cbn. destruct (beqb y []) eqn:E; [apply beqb_spec in E; exfalso; exact (proj1 Oy E)|].
    cbn. f_equal. exact IH. }
  assert (NS : Forall (fun x => ~ In slash x) (l ++ [x])) by (eapply Forall_impl; [|exact O]; intros y Hy; apply Hy).
  unfold path_join. cbn [filter]. rewrite F.
  assert (C : forall r (k0 : list bytes), rev (fold_left (path_push r) (l ++ [x]) k0) = rev k0 ++ l ++ [x]).
  { intros r k0. rewrite push_all by exact O. rewrite rev_app_distr, rev_involutive. reflexivity. }
  assert (J : forall k0 : list bytes, join [slash] (rev k0 ++ l ++ [x]) = flat_map (fun y => y ++ [slash]) (rev k0) ++ join [slash] (l ++ [x])).
  { intros k0. rewrite app_assoc, !join_last, flat_map_app, <- app_assoc. reflexivity. }
  destruct d as [|b d].
  - cbn [beqb negb]. destruct (l ++ [x]) as [|y m] eqn:E; [congruence|].
    unfold path_clean. rewrite <- E in *.
    assert (R : is_rooted (join [slash] (l ++ [x])) = false).
    { apply rooted_join, O. }
    rewrite R, split_path_join by assumption. rewrite C. cbn [rev app]. unfold render. cbn.
    destruct (join [slash] (l ++ [x])) eqn:E2; [|reflexivity].
    exfalso. rewrite join_last in E2. apply app_eq_nil in E2 as [_ E2]. subst x.
    apply Forall_app in O as [_ O]. inversion O as [|? ? Ox _]. exact (proj1 Ox eq_refl).
  - change (negb (beqb (b :: d) [])) with true. cbv iota.
    destruct (l ++ [x]) as [|y m] eqn:E; [congruence|]. rewrite <- E in *.
    rewrite (join_cons (b :: d) _ NE).
    unfold path_clean. change (is_rooted ((b :: d) ++ slash :: join [slash] (l ++ [x]))) with (is_rooted (b :: d)).
    rewrite split_path_app, split_path_join, fold_left_app by assumption.
    fold (kept_of (b :: d)). rewrite C, J. unfold render. rewrite <- app_assoc.
    destruct ((if is_rooted (b :: d) then [slash] else []) ++ flat_map (fun y0 => y0 ++ [slash]) (rev (kept_of (b :: d))) ++ join [slash] (l ++ [x])) eqn:E2; [|reflexivity].
    exfalso. apply app_eq_nil in E2 as [_ E2]. apply app_eq_nil in E2 as [_ E2]. rewrite join_last in E2. apply app_eq_nil in E2 as [_ E2]. subst x.
    apply Forall_app in O as [_ O]. inversion O as [|? ? Ox _]. exact (proj1 Ox eq_refl).
Qed.

(** A cleaned path. *)
Definition clean_text (r : bool) (k : list bytes) : bytes := (if r then [slash] else []) ++ join [slash] (rev k).

Lemma kept_first_char r k : kept_ok r k -> is_rooted (join [slash] (rev k)) = false.
Proof.
  intros K. assert (F : Forall (fun x => x <> [] /\ ~ In slash x) (rev k)).
  { apply Forall_rev. pose proof (kept_no_slash r k K) as A. pose proof (kept_nonempty r k K) as B.
    rewrite Forall_forall in *. intros x I. auto. }
  destruct (rev k) as [|y m]; [reflexivity|]. inversion F as [|? ? [N S] _]; subst. destruct y as [|c y]; [congruence|].
  assert (C : c =? slash = false) by (apply Z.eqb_neq; intros ->; apply S; left; reflexivity).
  destruct m; exact C.
Qed.

Lemma clean_text_rooted r k : kept_ok r k -> is_rooted (clean_text r k) = r.
Proof. intros K. unfold clean_text. destruct r; [reflexivity|]. apply (kept_first_char false), K. Qed.

Lemma clean_text_kept r k : k <> [] -> kept_ok r k -> kept_of (clean_text r k) = k.
Proof.
  intros N K. unfold kept_of. rewrite clean_text_rooted by exact K. unfold clean_text.
  assert (NR : rev k <> []) by (intros E; apply N; rewrite <- (rev_involutive k), E; reflexivity).
  assert (S : split_path (join [slash] (rev k)) = rev k).
  { apply split_path_join; [exact NR|]. apply Forall_rev. eapply kept_no_slash, K. }
  destruct r; cbn [app].
  - cbn [split_path]. change (slash =? slash) with true. cbv iota. rewrite S. cbn [fold_left].
    change (path_push true [] []) with (@nil bytes). apply push_again, K.
  - rewrite S. apply push_again, K.
Qed.

Lemma clean_text_render r k x k' : k = x :: k' -> render r k = clean_text r k ++ [slash].
Proof.
  intros ->. unfold render, clean_text. cbn [rev]. rewrite flat_map_app, join_last, <- !app_assoc. cbn.
  rewrite app_nil_r. reflexivity.
Qed.

(** The directory part of a joined path. *)
Lemma render_twice d l x : Forall ordinary (l ++ [x]) ->
  let p := path_join (d :: l ++ [x]) in render (is_rooted p) (kept_of p) = p ++ [slash].
Proof.
  intros O p. set (k := rev (l ++ [x]) ++ kept_of d). set (r := is_rooted d).
  assert (K : kept_ok r k).
  { unfold k. rewrite <- push_all with (r := r) by exact O.
    apply push_list_ok; [eapply Forall_impl; [|exact O]; intros y Hy; apply Hy|apply kept_of_ok]. }
  assert (P : p = clean_text r k).
  { unfold p, clean_text, k. rewrite join_under by exact O. unfold render. rewrite rev_app_distr, rev_involutive.
    rewrite (app_assoc (rev (kept_of d)) l [x]), !join_last, flat_map_app, <- !app_assoc. reflexivity. }
  assert (N : k = x :: rev l ++ kept_of d) by (unfold k; rewrite rev_app_distr; reflexivity).
  rewrite P, clean_text_rooted, clean_text_kept by (try exact K; rewrite N; discriminate).
  eapply clean_text_render, N.
Qed.

(** ** Names of result files *)
Definition dir_prefix (datadir : bytes) : bytes := render (is_rooted datadir) (kept_of datadir).

Lemma digits_ordinary w n : 0 <= n -> (0 < w)%nat -> ordinary (digits w n).
Proof.
  intros N W. pose proof (digits_chars w n N) as F. pose proof (digits_length w n) as L. repeat split.
  - intros E. rewrite E in L. cbn in L. lia.
  - intros E. rewrite E in F. inversion F; subst. cbn in *. lia.
  - intros E. rewrite E in F. inversion F; subst. cbn in *. lia.
  - intros I. rewrite Forall_forall in F. apply F in I. unfold slash in I. lia.
Qed.

Lemma path_join_day d l t : civil_ok t ->
  path_join (d :: l ++ [format_day t]) =
  path_join (d :: l ++ [digits 4 (t_year t); digits 2 (t_month t)] ++ [digits 2 (t_day t)]).
Proof.
  intros (A1 & A2 & A3 & _). unfold path_join.
  assert (F : forall x : bytes, x <> [] -> forall l, filter (fun x => negb (beqb x [])) (l ++ [x]) = filter (fun x => negb (beqb x [])) l ++ [x]).
  { intros x N m. rewrite filter_app. cbn. destruct (beqb x []) eqn:E; [apply beqb_spec in E; congruence|reflexivity]. }
  rewrite !(app_comm_cons _ _ d), app_assoc.
  rewrite !F by (intros E; apply (f_equal (@length Z)) in E; rewrite ?format_day_length, ?digits_length in E; discriminate).
  rewrite (filter_app _ (d :: l)).
  replace (filter _ [digits 4 (t_year t); digits 2 (t_month t)]) with [digits 4 (t_year t); digits 2 (t_month t)].
  2: { cbn [filter]. destruct (beqb (digits 4 _) []) eqn:E; [apply beqb_spec in E; apply (f_equal (@length Z)) in E; rewrite digits_length in E; discriminate|].
       destruct (beqb (digits 2 _) []) eqn:E2; [apply beqb_spec in E2; apply (f_equal (@length Z)) in E2; rewrite digits_length in E2; discriminate|]. reflexivity. }
  set (m := filter _ (d :: l)).
  assert (J : join [slash] (m ++ [format_day t]) =
              join [slash] ((m ++ [digits 4 (t_year t); digits 2 (t_month t)]) ++ [digits 2 (t_day t)])).
  { rewrite !join_last, flat_map_app, <- app_assoc. reflexivity. }
  destruct m; cbn [app] in *; f_equal; exact J.
Qed.

Lemma join_day l t : join [slash] (l ++ [digits 4 (t_year t); digits 2 (t_month t)] ++ [digits 2 (t_day t)]) =
  flat_map (fun y => y ++ [slash]) l ++ format_day t.
Proof.
  rewrite app_assoc, join_last, flat_map_app, <- app_assoc. reflexivity.
Qed.

Lemma day_ordinary t : civil_ok t -> Forall ordinary ([digits 4 (t_year t); digits 2 (t_month t)] ++ [digits 2 (t_day t)]).
Proof. intros (A1 & A2 & A3 & _). repeat (apply Forall_cons; [apply digits_ordinary; lia|]). constructor. Qed.

Lemma ndt7_dir_spec d t : civil_ok t -> ndt7_dir d t = dir_prefix d ++ str "ndt7/" ++ format_day t.
Proof.
  intros C. unfold ndt7_dir. change [d; str "ndt7"; format_day t] with (d :: [str "ndt7"] ++ [format_day t]).
  rewrite path_join_day, app_assoc, join_under by (try exact C; try (rewrite <- app_assoc; apply Forall_app; split; [|apply day_ordinary, C]; constructor; [|constructor]; repeat split; try discriminate; cbn; intuition discriminate)).
  rewrite <- app_assoc, join_day. reflexivity.
Qed.

Lemma ndt5_dir_spec d t : civil_ok t -> ndt5_dir d t = dir_prefix d ++ format_day t.
Proof.
  intros C. unfold ndt5_dir. change [d; format_day t] with (d :: [] ++ [format_day t]).
  rewrite path_join_day, app_assoc, join_under by (try exact C; apply day_ordinary, C).
  rewrite <- app_assoc, join_day. reflexivity.
Qed.

Lemma ndt5_name_spec d t u : civil_ok t -> ~ In slash u ->
  ndt5_name (ndt5_dir d t) u = dir_prefix d ++ format_day t ++ str "/" ++ u ++ str ".json".
Proof.
  intros C N. unfold ndt5_name. change [ndt5_dir d t; u ++ str ".json"] with (ndt5_dir d t :: [] ++ [u ++ str ".json"]).
  assert (L : (5 <= length (u ++ str ".json"))%nat) by (rewrite app_length; cbn; lia).
  rewrite join_under.
  2: { constructor; [|constructor]. repeat split; try (intros E; rewrite E in L; cbn in L; lia).
       rewrite in_app_iff. intros [I|I]; [exact (N I)|]. cbn in I. unfold slash in I. intuition discriminate. }
  pose proof (render_twice d [digits 4 (t_year t); digits 2 (t_month t)] (digits 2 (t_day t)) (day_ordinary t C)) as R.
  cbv zeta in R. change (d :: [digits 4 (t_year t); digits 2 (t_month t)] ++ [digits 2 (t_day t)])
    with (d :: [] ++ [digits 4 (t_year t); digits 2 (t_month t)] ++ [digits 2 (t_day t)]) in R.
  rewrite <- path_join_day in R by exact C. change (path_join (d :: [] ++ [format_day t])) with (ndt5_dir d t) in R.
  rewrite R, ndt5_dir_spec by exact C. cbn [app join]. rewrite <- !app_assoc. reflexivity.
Qed.

Lemma suffix_inj (u u' : bytes) (c c' : bool) :
  u ++ str ".json" ++ (if c then str ".gz" else []) = u' ++ str ".json" ++ (if c' then str ".gz" else []) ->
  u = u' /\ c = c'.
Proof.
  intros E. apply (f_equal (@rev Z)) in E. rewrite !rev_app_distr in E.
  destruct c, c'; cbn in E; try discriminate; repeat injection E as E;
    apply (f_equal (@rev Z)) in E; rewrite !rev_involutive in E; auto.
Qed.

Lemma ndt7_name_inj d what t u c what' t' u' c' : civil_ok t -> civil_ok t' ->
  In what [str "download"; str "upload"] -> In what' [str "download"; str "upload"] ->
  ndt7_name d what t u c = ndt7_name d what' t' u' c' -> what = what' /\ t = t' /\ u = u' /\ c = c'.
Proof.
  intros C C' W W' E. unfold ndt7_name in E. rewrite !ndt7_dir_spec in E by assumption. rewrite <- !app_assoc in E.
  apply app_inv_head in E. apply app_inv_head in E.
  apply app_inv_len in E as [_ E]; [|rewrite !format_day_length; reflexivity]. apply app_inv_head in E.
  assert (what = what' /\ format_stamp t ++ str "." ++ u ++ str ".json" ++ (if c then str ".gz" else []) =
          format_stamp t' ++ str "." ++ u' ++ str ".json" ++ (if c' then str ".gz" else [])) as [-> E2].
  { destruct W as [<-|[<-|[]]], W' as [<-|[<-|[]]]; try discriminate E; (split; [reflexivity|]);
      apply app_inv_head in E; apply app_inv_head in E; exact E. }
  apply app_inv_len in E2 as [S E2]; [|rewrite !format_stamp_length; reflexivity].
  apply app_inv_head in E2. apply suffix_inj in E2 as [-> ->]. apply format_stamp_inj in S; auto.
Qed.

Lemma ndt5_name_inj d t u t' u' : civil_ok t -> civil_ok t' -> ~ In slash u -> ~ In slash u' ->
  ndt5_name (ndt5_dir d t) u = ndt5_name (ndt5_dir d t') u' ->
  (t_year t = t_year t' /\ t_month t = t_month t' /\ t_day t = t_day t') /\ u = u'.
Proof.
  intros C C' N N' E. rewrite !ndt5_name_spec in E by assumption. apply app_inv_head in E.
  apply app_inv_len in E as [D E]; [|rewrite !format_day_length; reflexivity]. apply app_inv_head in E.
  apply app_inv_tail in E. apply format_day_inj in D; auto.
Qed.

(** The directory prefix in terms of path.Clean. *)
Lemma dir_prefix_clean d : d <> [] ->
  dir_prefix d = if beqb (path_clean d) (str ".") then []
                 else if beqb (path_clean d) (str "/") then str "/" else path_clean d ++ str "/".
Proof.
  intros N. unfold dir_prefix, path_clean. fold (kept_of d). pose proof (kept_of_ok d) as K.
  set (r := is_rooted d) in *. fold (clean_text r (kept_of d)). destruct (kept_of d) as [|x k] eqn:E.
  - destruct r; reflexivity.
  - rewrite (clean_text_render r (x :: k) x k eq_refl).
    assert (L : forall c, clean_text r (x :: k) = [c] -> r = false /\ rev (x :: k) = [[c]]).
    { intros c H. unfold clean_text in H. pose proof (kept_nonempty r _ K) as F. destruct r.
      - exfalso. cbn [rev] in H. rewrite join_last in H. injection H as _ H. apply app_eq_nil in H as [_ ->]. inversion F. congruence.
      - cbn [app] in H. split; [reflexivity|]. cbn [rev] in *. rewrite join_last in H.
        assert (F' : Forall (fun y : bytes => y <> []) (rev k)) by (apply Forall_rev; inversion F; assumption).
        destruct (rev k) as [|y m]; [cbn in H |- *; rewrite H; reflexivity|]. exfalso. inversion F'; subst. destruct y as [|b y]; [congruence|].
        cbn in H. injection H as _ H. destruct y; discriminate. }
    destruct (clean_text r (x :: k)) as [|b m] eqn:T.
    + exfalso. unfold clean_text in T. apply app_eq_nil in T as [_ T]. cbn [rev] in T. rewrite join_last in T.
      apply app_eq_nil in T as [_ ->]. pose proof (kept_nonempty r _ K) as F. inversion F. congruence.
    + destruct (beqb (b :: m) (str ".")) eqn:E1.
      * apply beqb_spec in E1. exfalso. rewrite E1 in *. destruct (L _ eq_refl) as [-> R].
        assert (X : x :: k = [str "."]) by (rewrite <- (rev_involutive (x :: k)), R; reflexivity).
        rewrite X in K. inversion K as [| |? ? O _]; subst. destruct O as (_ & O & _). apply O. reflexivity.
      * destruct (beqb (b :: m) (str "/")) eqn:E2; [|reflexivity].
        apply beqb_spec in E2. exfalso. rewrite E2 in *. destruct (L _ eq_refl) as [-> R].
        assert (X : x :: k = [str "/"]) by (rewrite <- (rev_involutive (x :: k)), R; reflexivity).
        rewrite X in K. pose proof (kept_no_slash _ _ K) as S. inversion S as [|? ? S1 _]. apply S1. left. reflexivity.
Qed.

(** ** Runs on a file system *)
Lemma set_same f p c : fs_set f p c p = Some c.
Proof. unfold fs_set. rewrite beqb_refl. reflexivity. Qed.
Lemma set_other f p c q : q <> p -> fs_set f p c q = f q.
Proof. intros N. unfold fs_set. destruct (beqb q p) eqn:E; [apply beqb_spec in E; congruence|reflexivity]. Qed.

(** What may happen to the file [p]: it grows by the first bytes of [s]. *)
Definition grown (p : bytes) (s : bytes) (n : nat) (f g : fs) : Prop :=
  (forall q, q <> p -> g q = f q) /\ exists old, f p = Some old /\ g p = Some (old ++ firstn n s).

Lemma firstn_concat (c : bytes) l : firstn (length c) (c ++ concat l) = c.
Proof. rewrite firstn_app, Nat.sub_diag, firstn_all, app_nil_r. reflexivity. Qed.

Lemma write_all_starts p l k : forall f tr g old, starts (write_all p l k) tr -> fs_run f tr g -> f p = Some old ->
  (exists n, grown p (concat l) n f g) \/
  (exists ok n f1 tr1 tr2, tr = tr1 ++ tr2 /\ fs_run f tr1 f1 /\ starts (k ok) tr2 /\ fs_run f1 tr2 g /\
     grown p (concat l) n f f1 /\ (n <= length (concat l))%nat /\ (ok = true <-> n = length (concat l) \/ l = [])).
Proof.
  induction l as [|c l IH]; intros f tr g old S R O; cbn [write_all] in S.
  - right. exists true, 0%nat, f, [], tr. split; [reflexivity|]. split; [constructor|]. split; [exact S|]. split; [exact R|].
    split; [|split; [cbn; lia|tauto]]. split; [auto|]. exists old. rewrite app_nil_r. auto.
  - destruct S as [->|(n & tr' & -> & S)].
    + left. exists 0%nat. inversion R; subst. split; [auto|]. exists old. rewrite app_nil_r. auto.
    + inversion R as [|? ? f1 ? ? St R']; subst. inversion St as [| | | | | |? ? old' ? ? O' L| |]; subst.
      rewrite O in O'. injection O' as <-.
      destruct (Nat.eqb_spec n (length c)) as [->|NE].
      * rewrite firstn_all in *. specialize (IH _ _ _ (old ++ c) S R' (set_same _ _ _)).
        destruct IH as [(n & Ot & o & E1 & E2)|(ok & n & f1 & tr1 & tr2 & E & R1 & S2 & R2 & (Ot & o & E1 & E2) & N & OK)].
        -- left. exists (length c + n)%nat. rewrite set_same in E1. injection E1 as <-. split.
           ++ intros q Q. rewrite Ot by exact Q. apply set_other, Q.
           ++ exists old. split; [exact O|]. cbn [concat]. rewrite E2, firstn_app_2, <- app_assoc. reflexivity.
        -- right. exists ok, (length c + n)%nat, f1, (FWrite p c (length c) :: tr1), tr2.
           rewrite set_same in E1. injection E1 as <-.
           split; [rewrite E; reflexivity|]. split.
           { econstructor; [|exact R1]. replace (old ++ c) with (old ++ firstn (length c) c) by (rewrite firstn_all; reflexivity). apply fs_write; [exact O|lia]. }
           split; [exact S2|]. split; [exact R2|]. split.
           { split; [intros q Q; rewrite Ot by exact Q; apply set_other, Q|]. exists old. split; [exact O|].
             cbn [concat]. rewrite E2, firstn_app_2, <- app_assoc. reflexivity. }
           cbn [concat]. rewrite app_length. split; [lia|]. rewrite OK. split.
           ++ intros [->| ->]; [left; reflexivity|]. left. cbn in *. lia.
           ++ intros [E3|E3]; [left; lia|discriminate].
      * right. exists false, n, (fs_set f p (old ++ firstn n c)), [FWrite p c n], tr'.
        split; [reflexivity|]. split; [econstructor; [exact St|constructor]|]. split; [exact S|]. split; [exact R'|].
        split.
        { split; [intros q Q; apply set_other, Q|]. exists old. split; [exact O|]. rewrite set_same. cbn [concat].
          rewrite firstn_app. replace (n - length c)%nat with 0%nat by lia. rewrite app_nil_r. reflexivity. }
        cbn [concat]. rewrite app_length. split; [lia|]. split; [discriminate|]. intros [E|E]; [lia|discriminate].
Qed.

(** An event that is not the end of the process, and a write that is complete. *)
Definition goes_on (e : fs_event) : Prop := e <> FExit.
Definition complete (e : fs_event) : Prop := match e with FWrite _ d n => n = length d | _ => True end.

Lemma write_all_run p l k a : forall f tr g old, run (write_all p l k) tr a -> fs_run f tr g -> f p = Some old ->
  exists ok n f1 tr1 tr2, tr = tr1 ++ tr2 /\ fs_run f tr1 f1 /\ run (k ok) tr2 a /\ fs_run f1 tr2 g /\
     grown p (concat l) n f f1 /\ (n <= length (concat l))%nat /\ (ok = true -> n = length (concat l)) /\
     Forall goes_on tr1 /\ (Forall complete tr1 -> ok = true).
Proof.
  induction l as [|c l IH]; intros f tr g old S R O; cbn [write_all] in S.
  - exists true, 0%nat, f, [], tr. split; [reflexivity|]. split; [constructor|]. split; [exact S|]. split; [exact R|].
    split; [|cbn; repeat split; auto; constructor]. split; [auto|]. exists old. rewrite app_nil_r. auto.
  - destruct S as (n & tr' & -> & S).
    inversion R as [|? ? f1 ? ? St R']; subst. inversion St as [| | | | | |? ? old' ? ? O' L| |]; subst.
    rewrite O in O'. injection O' as <-.
    destruct (Nat.eqb_spec n (length c)) as [->|NE].
    + rewrite firstn_all in *. specialize (IH _ _ _ (old ++ c) S R' (set_same _ _ _)).
      destruct IH as (ok & n & f1 & tr1 & tr2 & E & R1 & S2 & R2 & (Ot & o & E1 & E2) & N & OK & G & CC).
      exists ok, (length c + n)%nat, f1, (FWrite p c (length c) :: tr1), tr2.
      rewrite set_same in E1. injection E1 as <-.
      split; [rewrite E; reflexivity|]. split.
      { econstructor; [|exact R1]. replace (old ++ c) with (old ++ firstn (length c) c) by (rewrite firstn_all; reflexivity). apply fs_write; [exact O|lia]. }
      split; [exact S2|]. split; [exact R2|]. split.
      { split; [intros q Q; rewrite Ot by exact Q; apply set_other, Q|]. exists old. split; [exact O|].
        cbn [concat]. rewrite E2, firstn_app_2, <- app_assoc. reflexivity. }
      cbn [concat]. rewrite app_length. split; [lia|]. split; [intros K; rewrite (OK K); reflexivity|].
      split; [constructor; [discriminate|exact G]|]. intros F. inversion F; subst. auto.
    + exists false, n, (fs_set f p (old ++ firstn n c)), [FWrite p c n], tr'.
      split; [reflexivity|]. split; [econstructor; [exact St|constructor]|]. split; [exact S|]. split; [exact R'|].
      split.
      { split; [intros q Q; apply set_other, Q|]. exists old. split; [exact O|]. rewrite set_same. cbn [concat].
        rewrite firstn_app. replace (n - length c)%nat with 0%nat by lia. rewrite app_nil_r. reflexivity. }
      cbn [concat]. rewrite app_length. split; [lia|]. split; [discriminate|].
      split; [constructor; [discriminate|constructor]|]. intros F. inversion F as [|? ? X]; subst. cbn in X. congruence.
Qed.

Lemma firstn_app_any (n m : nat) (a b : bytes) : n = length a -> firstn n a ++ firstn m b = firstn (n + m) (a ++ b).
Proof. intros ->. rewrite firstn_app_2, firstn_all. reflexivity. Qed.

Lemma firstn_app_le (n : nat) (a b : bytes) : (n <= length a)%nat -> firstn n (a ++ b) = firstn n a.
Proof. intros L. rewrite firstn_app. replace (n - length a)%nat with 0%nat by lia. apply app_nil_r. Qed.

Section Write7.
  Variables (d what : bytes) (t : civil) (u : bytes) (c : bool) (gz : writer) (data : bytes).
  Let p := ndt7_name d what t u c.
  Let w := if c then gz else plain_writer.
  Let s := concat (fst (w data)) ++ concat (snd (w data)).

  (** What a save that was cut off at any point leaves. *)
  Lemma write_result_starts f tr g : starts (write_result d what t u c gz data) tr -> fs_run f tr g ->
    (forall q, q <> p -> g q = f q) /\
    (g p = f p \/ f p = None /\ exists n, (n <= length s)%nat /\ g p = Some (firstn n s)).
  Proof.
    intros S R. unfold write_result in S. fold p w in S.
    destruct S as [->|(ok & tr' & -> & S)]; [inversion R; subst; auto|].
    inversion R as [|? ? f1 ? ? St R']; subst. inversion St; subst. clear St R.
    destruct ok; cbn [negb] in S.
    2: { destruct S as [->|(ok & tr'' & -> & S)]; [inversion R'; subst; auto|]. cbn in S. subst tr''.
         inversion R' as [|? ? f2 ? ? St R2]; subst. inversion St; subst. inversion R2; subst. auto. }
    destruct S as [->|(ok & tr'' & -> & S)]; [inversion R'; subst; auto|].
    inversion R' as [|? ? f2 ? ? St R2]; subst. destruct ok; cbn [negb] in S.
    2: { inversion St; subst. destruct S as [->|(ok & tr''' & -> & S)]; [inversion R2; subst; auto|]. cbn in S. subst tr'''.
         inversion R2 as [|? ? f3 ? ? St3 R3]; subst. inversion St3; subst. inversion R3; subst. auto. }
    inversion St as [| |? ? FN| | | | | |]; subst. clear St R'. set (f2 := fs_set f1 p []) in *.
    assert (O2 : f2 p = Some []) by apply set_same.
    assert (Q2 : forall q, q <> p -> f2 q = f1 q) by (intros; apply set_other; assumption).
    assert (Fin : forall n f3, grown p (concat (fst (w data))) n f2 f3 -> (n <= length (concat (fst (w data))))%nat ->
      (forall q, q <> p -> f3 q = f1 q) /\ f3 p = Some (firstn n (concat (fst (w data))))).
    { intros n f3 (Ot & old & E1 & E2) N. rewrite O2 in E1. injection E1 as <-. split; [|exact E2].
      intros q Q. rewrite Ot by exact Q. auto. }
    destruct (write_all_starts p _ _ _ _ _ _ S R2 O2) as [(n & G)|(ok & n & f3 & tr1 & tr2 & E & R3 & S4 & R4 & G & N & OK)].
    - destruct G as (Ot & old & E1 & E2). rewrite O2 in E1. injection E1 as <-. split.
      + intros q Q. rewrite Ot by exact Q. auto.
      + right. split; [exact FN|]. exists (Nat.min n (length (concat (fst (w data))))).
        unfold s. rewrite app_length. split; [lia|]. rewrite E2, firstn_app_le by lia. cbn [app]. f_equal.
        destruct (Nat.le_ge_cases n (length (concat (fst (w data))))).
        * rewrite Nat.min_l by assumption. reflexivity.
        * rewrite Nat.min_r by assumption. rewrite !firstn_all2 by lia. reflexivity.
    - destruct (Fin n f3 G N) as [Q3 O3]. destruct ok; cbn [negb] in S4.
      + assert (n = length (concat (fst (w data)))) as ->.
        { destruct (proj1 OK eq_refl) as [->|E0]; [reflexivity|]. rewrite E0 in *. cbn in *. lia. }
        rewrite firstn_all in O3.
        assert (Last : forall m f4 tr5, grown p (concat (snd (w data))) m f3 f4 ->
           (fs_run f4 tr5 g) -> (tr5 = [] \/ tr5 = [FClose p]) ->
           (forall q, q <> p -> g q = f1 q) /\
           (g p = f1 p \/ f1 p = None /\ exists n, (n <= length s)%nat /\ g p = Some (firstn n s))).
        { intros m f4 tr5 (Ot & old & E1 & E2) R5 T5. rewrite O3 in E1. injection E1 as <-.
          assert (g = f4) as ->. { destruct T5 as [->| ->]; inversion R5 as [|? ? ? ? ? St5 R6]; subst; [reflexivity|]. inversion St5; subst. inversion R6; subst. reflexivity. }
          split; [intros q Q; rewrite Ot by exact Q; auto|]. right. split; [exact FN|].
          set (a := concat (fst (w data))) in *. set (b := concat (snd (w data))) in *.
          exists (length a + Nat.min m (length b))%nat. unfold s. rewrite app_length. split; [lia|].
          rewrite E2, firstn_app_2. f_equal. f_equal. destruct (Nat.le_ge_cases m (length b)).
          - rewrite Nat.min_l by assumption. reflexivity.
          - rewrite Nat.min_r by assumption. rewrite !firstn_all2 by lia. reflexivity. }
        destruct (write_all_starts p _ _ _ _ _ _ S4 R4 O3) as [(m & G4)|(ok & m & f4 & tr3 & tr4 & E4 & R5 & S6 & R6 & G4 & _ & _)].
        * eapply (Last m g []); [exact G4|constructor|left; reflexivity].
        * eapply Last; [exact G4|exact R6|]. destruct S6 as [->|(ok' & tr5 & -> & S7)]; [left; reflexivity|].
          cbn in S7. subst tr5. right. reflexivity.
      + assert (g = f3) as ->.
        { destruct S4 as [->|(ok' & tr5 & -> & S7)]; [inversion R4; reflexivity|]. cbn in S7. subst tr5.
          inversion R4 as [|? ? ? ? ? St5 R6]; subst. inversion St5; subst. inversion R6; subst. reflexivity. }
        split; [exact Q3|]. right. split; [exact FN|]. exists n. unfold s. rewrite app_length. split; [lia|].
        rewrite firstn_app_le by exact N. exact O3.
  Qed.

  (** What a save that ran to its end leaves. *)
  Lemma write_result_run f tr g x : run (write_result d what t u c gz data) tr x -> fs_run f tr g ->
    (f p <> None -> In FExit tr /\ forall q, g q = f q) /\
    (~ In FExit tr -> exists n, (length (concat (fst (w data))) <= n <= length s)%nat /\ g p = Some (firstn n s) /\
                      (Forall complete tr -> n = length s)).
  Proof.
    intros S R. unfold write_result in S. fold p w in S.
    destruct S as (ok & tr' & -> & S).
    inversion R as [|? ? f1 ? ? St R']; subst. inversion St; subst. clear St R.
    destruct ok; cbn [negb] in S.
    2: { destruct S as (ok & tr'' & -> & S). cbn in S. destruct S as [-> _].
         inversion R' as [|? ? f2 ? ? St R2]; subst. inversion St; subst. inversion R2; subst.
         split; [cbn; auto|]. intros N. exfalso. apply N. cbn. auto. }
    destruct S as (ok & tr'' & -> & S).
    inversion R' as [|? ? f2 ? ? St R2]; subst. destruct ok; cbn [negb] in S.
    2: { inversion St; subst. destruct S as (ok & tr''' & -> & S). cbn in S. destruct S as [-> _].
         inversion R2 as [|? ? f3 ? ? St3 R3]; subst. inversion St3; subst. inversion R3; subst.
         split; [cbn; auto|]. intros N. exfalso. apply N. cbn. auto. }
    inversion St as [| |? ? FN| | | | | |]; subst. clear St R'. set (f2 := fs_set f1 p []) in *.
    assert (O2 : f2 p = Some []) by apply set_same.
    split; [congruence|]. intros NE.
    destruct (write_all_run p _ _ _ _ _ _ _ S R2 O2) as (ok & n & f3 & tr1 & tr2 & E & R3 & S4 & R4 & G & N & OK & _ & CC).
    destruct G as (Ot & old & E1 & E2). rewrite O2 in E1. injection E1 as <-. cbn [app] in E2.
    destruct ok; cbn [negb] in S4.
    2: { exfalso. destruct S4 as (ok' & tr5 & -> & S7). apply NE. rewrite E. cbn. right. right. apply in_or_app. right. left. reflexivity. }
    rewrite (OK eq_refl), firstn_all in E2.
    destruct (write_all_run p _ _ _ _ _ _ _ S4 R4 E2) as (ok & m & f4 & tr3 & tr4 & E4 & R5 & S6 & R6 & G4 & N4 & OK4 & _ & CC4).
    destruct G4 as (Ot4 & old & E1 & E5). rewrite E2 in E1. injection E1 as <-.
    destruct S6 as (ok' & tr5 & -> & S7). cbn in S7. destruct S7 as [-> _].
    inversion R6 as [|? ? ? ? ? St5 R7]; subst. inversion St5; subst. inversion R7; subst.
    exists (length (concat (fst (w data))) + m)%nat. unfold s. rewrite app_length. split; [lia|]. split.
    - rewrite firstn_app_2. exact E5.
    - intros F. f_equal. apply OK4, CC4. inversion F as [|? ? _ F2]; subst. inversion F2 as [|? ? _ F3]; subst.
      apply Forall_app in F3 as [_ F3]. apply Forall_app in F3 as [F3 _]. exact F3.
  Qed.
End Write7.

(** No operation failed. *)
Definition succeeded (e : fs_event) : Prop :=
  match e with
  | FMkdir _ ok | FOpen _ _ ok => ok = true
  | FTemp _ r => r <> None
  | FWrite _ d n => n = length d
  | FClose _ => True
  | FExit => False
  end.

Definition content (data : option bytes) : bytes := match data with Some x => x | None => [] end.

Lemma save_in_starts p data f tr g : starts (save_in p data) tr -> fs_run f tr g -> f p = Some [] ->
  (forall q, q <> p -> g q = f q) /\ (exists n, g p = Some (firstn n (content data))).
Proof.
  intros S R O. destruct data as [x|]; cbn in S.
  - destruct S as [->|(n & tr' & -> & S)].
    + inversion R; subst. split; [auto|]. exists 0%nat. exact O.
    + inversion R as [|? ? f1 ? ? St R']; subst. inversion St as [| | | | | |? ? old' ? ? O' L| |]; subst.
      rewrite O in O'. injection O' as <-.
      assert (g = fs_set f p (firstn n x)) as ->.
      { destruct S as [->|(ok' & tr5 & -> & ->)]; [inversion R'; reflexivity|].
        inversion R' as [|? ? ? ? ? St5 R6]; subst. inversion St5; subst. inversion R6; subst. reflexivity. }
      split; [intros q Q; apply set_other, Q|]. exists n. apply set_same.
  - assert (g = f) as ->.
    { destruct S as [->|(ok' & tr5 & -> & ->)]; [inversion R; reflexivity|].
      inversion R as [|? ? ? ? ? St5 R6]; subst. inversion St5; subst. inversion R6; subst. reflexivity. }
    split; [auto|]. exists 0%nat. exact O.
Qed.

Section Save5.
  Variables (d : bytes) (t : civil) (u : bytes) (data : option bytes).

  (** The file of the record; [r]: the random part, if there is one. *)
  Definition ndt5_file (r : bytes) : bytes :=
    if beqb u bad_uuid then temp_name (ndt5_dir d t) r else ndt5_name (ndt5_dir d t) u.

  Lemma save_data_starts f tr g : starts (save_data d t u data) tr -> fs_run f tr g ->
    exists r, (forall q, q <> ndt5_file r -> g q = f q) /\
      (g (ndt5_file r) = f (ndt5_file r) \/
       (u = bad_uuid -> f (ndt5_file r) = None) /\ exists n, g (ndt5_file r) = Some (firstn n (content data))).
  Proof.
    intros S R. unfold save_data in S. unfold ndt5_file.
    destruct S as [->|(ok & tr' & -> & S)]; [inversion R; subst; exists []; auto|].
    inversion R as [|? ? f1 ? ? St R']; subst. inversion St; subst. clear St R.
    destruct ok; cbn [negb] in S; [|cbn in S; subst; inversion R'; subst; exists []; auto].
    destruct (beqb u bad_uuid) eqn:B.
    - destruct S as [->|(r & tr'' & -> & S)]; [inversion R'; subst; exists []; auto|].
      inversion R' as [|? ? f2 ? ? St R2]; subst. destruct r as [r|].
      + inversion St as [| | | | |? ? ? FN| | |]; subst. destruct (save_in_starts _ _ _ _ _ S R2 (set_same _ _ _)) as [Ot (n & E)].
        exists r. split; [intros q Q; rewrite Ot by exact Q; apply set_other, Q|]. right. split; [auto|]. eauto.
      + inversion St; subst. cbn in S. subst. inversion R2; subst. exists []. auto.
    - destruct S as [->|(ok & tr'' & -> & S)]; [inversion R'; subst; exists []; auto|].
      inversion R' as [|? ? f2 ? ? St R2]; subst. destruct ok.
      + inversion St; subst. destruct (save_in_starts _ _ _ _ _ S R2 (set_same _ _ _)) as [Ot (n & E)].
        exists []. split; [intros q Q; rewrite Ot by exact Q; apply set_other, Q|]. right. split; [|eauto].
        intros ->. rewrite beqb_refl in B. discriminate.
      + inversion St; subst. cbn in S. subst. inversion R2; subst. exists []. auto.
  Qed.

  Lemma save_data_run f tr g x : run (save_data d t u data) tr x -> fs_run f tr g -> Forall succeeded tr ->
    exists r, g (ndt5_file r) = Some (content data).
  Proof.
    intros S R F. unfold save_data in S. unfold ndt5_file.
    destruct S as (ok & tr' & -> & S). inversion F as [|? ? F1 F']; subst. cbn in F1. subst ok.
    inversion R as [|? ? f1 ? ? St R']; subst. inversion St; subst. clear St R F. cbn [negb] in S.
    assert (Fin : forall p f2 tr2, f2 p = Some [] -> run (save_in p data) tr2 x -> fs_run f2 tr2 g ->
      Forall succeeded tr2 -> g p = Some (content data)).
    { intros p f2 tr2 O S2 R2 F2. destruct data as [y|]; cbn in S2.
      - destruct S2 as (n & tr3 & -> & ok & tr4 & -> & -> & _). inversion F2 as [|? ? F3 _]; subst. cbn in F3. subst n.
        inversion R2 as [|? ? f3 ? ? St R3]; subst. inversion St as [| | | | | |? ? old' ? ? O' L| |]; subst.
        rewrite O in O'. injection O' as <-. inversion R3 as [|? ? f4 ? ? St4 R4]; subst. inversion St4; subst. inversion R4; subst.
        rewrite firstn_all. apply set_same.
      - destruct S2 as (n & tr3 & -> & -> & _). inversion R2 as [|? ? f3 ? ? St R3]; subst. inversion St; subst. inversion R3; subst. exact O. }
    destruct (beqb u bad_uuid) eqn:B.
    - destruct S as (r & tr'' & -> & S). inversion F' as [|? ? F1 F'']; subst. cbn in F1. destruct r as [r|]; [|congruence].
      inversion R' as [|? ? f2 ? ? St R2]; subst. inversion St; subst. exists r. eapply Fin; [|exact S|exact R2|exact F'']. apply set_same.
    - destruct S as (ok & tr'' & -> & S). inversion F' as [|? ? F1 F'']; subst. cbn in F1. subst ok.
      inversion R' as [|? ? f2 ? ? St R2]; subst. inversion St; subst. exists []. eapply Fin; [|exact S|exact R2|exact F'']. apply set_same.
  Qed.
End Save5.

(** ** Interleaving *)
Definition at_path (p : bytes) (e : fs_event) : bool :=
  match e with
  | FOpen q _ _ | FWrite q _ _ => beqb q p
  | FTemp q (Some r) => beqb (q r) p
  | _ => false
  end.

Lemma other_step f e g p : fs_step f e g -> at_path p e = false -> g p = f p.
Proof.
  intros S A. destruct S; cbn in A; try reflexivity; apply set_other; intros ->; rewrite beqb_refl in A; discriminate.
Qed.

Lemma same_step f e g p f' : fs_step f e g -> at_path p e = true -> f' p = f p ->
  exists g', fs_step f' e g' /\ g' p = g p.
Proof.
  intros S A E. destruct S; cbn in A; try discriminate; apply beqb_spec in A; subst p;
    try (eexists; split; [econstructor; congruence|rewrite ?set_same; congruence]).
eexists. split; [econstructor; [rewrite E; eassumption|assumption]|]. rewrite !set_same. reflexivity.
Qed.

Lemma project f tr g p : fs_run f tr g -> forall f', f' p = f p ->
  exists g', fs_run f' (filter (at_path p) tr) g' /\ g' p = g p.
Proof.
  induction 1 as [f|f e g tr h S R IH]; intros f' E; cbn [filter].
  - exists f'. split; [constructor|exact E].
  - destruct (at_path p e) eqn:A.
    + destruct (same_step f e g p f' S A E) as (g1 & S1 & E1). destruct (IH g1 E1) as (g' & R' & E').
      exists g'. split; [econstructor; eassumption|exact E'].
    + apply IH. rewrite E. symmetry. eapply other_step; eassumption.
Qed.

(** Events that leave all files alone. *)
Definition neutral (e : fs_event) : Prop :=
  match e with FMkdir _ _ | FClose _ | FExit | FTemp _ None => True | _ => False end.

Lemma neutral_step f e : neutral e -> fs_step f e f.
Proof. destruct e as [| |? []| | |]; cbn; try tauto; constructor. Qed.

Lemma unfilter p tr : Forall (fun e => at_path p e = true \/ neutral e) tr -> forall f g,
  fs_run f (filter (at_path p) tr) g -> fs_run f tr g.
Proof.
  induction 1 as [|e tr [A|N] F IH]; intros f g R; [exact R| |].
  - cbn [filter] in R. rewrite A in R. inversion R; subst. econstructor; [eassumption|]. apply IH. assumption.
  - assert (A : at_path p e = false) by (destruct e as [| |? []| | |]; cbn in *; tauto). cbn [filter] in R. rewrite A in R.
    econstructor; [apply neutral_step, N|]. apply IH, R.
Qed.

Lemma write_all_events p l k : (forall ok tr, starts (k ok) tr -> Forall (fun e => at_path p e = true \/ neutral e) tr) ->
  forall tr, starts (write_all p l k) tr -> Forall (fun e => at_path p e = true \/ neutral e) tr.
Proof.
  intros K. induction l as [|c l IH]; intros tr S; cbn [write_all] in S; [eapply K, S|].
  destruct S as [->|(n & tr' & -> & S)]; constructor; [left; apply beqb_refl|].
  destruct (Nat.eqb n (length c)); [apply IH, S|eapply K, S].
Qed.

Lemma write_result_events d what t u c gz data tr : starts (write_result d what t u c gz data) tr ->
  Forall (fun e => at_path (ndt7_name d what t u c) e = true \/ neutral e) tr.
Proof.
  unfold write_result. set (p := ndt7_name d what t u c). set (w := if c then gz else plain_writer).
  assert (X : forall tr, starts (Do (fun _ : unit => FExit) (fun _ => Ret tt)) tr -> Forall (fun e => at_path p e = true \/ neutral e) tr).
  { intros tr' [->|(n & t' & -> & S)]; [constructor|]. cbn in S. subst t'. apply Forall_cons; [right; exact I|constructor]. }
  intros [->|(ok & tr' & -> & S)]; constructor; [cbn; auto|]. destruct ok; cbn [negb] in S; [|apply X, S].
  destruct S as [->|(ok & tr'' & -> & S)]; constructor; [left; apply beqb_refl|]. destruct ok; cbn [negb] in S; [|apply X, S].
  revert S. apply write_all_events. intros ok tr3 S. destruct ok; cbn [negb] in S; [|apply X, S].
  revert S. apply write_all_events. intros ok tr4 [->|(n & t' & -> & S)]; [constructor|]. cbn in S. subst t'. apply Forall_cons; [right; exact I|constructor].
Qed.

(** A save among other saves. *)
Lemma interleaved d what t u c gz data tr0 f tr g : let p := ndt7_name d what t u c in
  starts (write_result d what t u c gz data) tr0 ->
  filter (at_path p) tr = filter (at_path p) tr0 -> fs_run f tr g ->
  exists g', fs_run f tr0 g' /\ g' p = g p.
Proof.
  intros p S E R. destruct (project f tr g p R f eq_refl) as (g' & R' & E'). exists g'. split; [|exact E'].
  apply (unfilter p); [apply write_result_events with gz data, S|]. rewrite <- E. exact R'.
Qed.

Lemma partial_document : forall datadir what t uuid data, (1 < length data)%nat ->
  exists tr after, starts (write_result datadir what t uuid false plain_writer data) tr /\
    fs_run (fun _ => None) tr after /\ after (ndt7_name datadir what t uuid false) = Some (firstn 1 data) /\
    firstn 1 data <> data /\ firstn 1 data <> [].
Proof.
  intros d what t u data L. set (p := ndt7_name d what t u false).
  exists [FMkdir (ndt7_dir d t) true; FOpen p true true; FWrite p data 1].
  exists (fs_set (fs_set (fun _ => None) p []) p ([] ++ firstn 1 data)).
  split; [|split; [|split]].
  - unfold write_result. fold p. right. exists true. eexists. split; [reflexivity|]. right. exists true. eexists. split; [reflexivity|].
    cbn [negb plain_writer fst write_all]. right. exists 1%nat. eexists. split; [reflexivity|].
    destruct (Nat.eqb_spec 1 (length data)) as [E|N]; [rewrite <- E in L; lia|]. cbn. left. reflexivity.
  - econstructor; [constructor|]. econstructor; [apply fs_open_excl; reflexivity|]. econstructor; [|constructor].
    apply fs_write; [apply set_same|lia].
  - apply set_same.
  - destruct data as [|x [|y data]]; cbn in L; try lia. cbn. split; discriminate.
Qed.

Lemma replaced : forall datadir t uuid old data, uuid <> str "ERROR_DISCOVERING_UUID" ->
  let p := ndt5_name (ndt5_dir datadir t) uuid in
  exists tr after, run (save_data datadir t uuid (Some data)) tr tt /\
    fs_run (fs_set (fun _ => None) p old) tr after /\ after p = Some data.
Proof.
  intros d t u old data N p. set (f := fs_set (fun _ => None) p old).
  exists [FMkdir (ndt5_dir d t) true; FOpen p false true; FWrite p data (length data); FClose p].
  exists (fs_set (fs_set f p []) p ([] ++ firstn (length data) data)). split; [|split].
  - unfold save_data. destruct (beqb u bad_uuid) eqn:B; [apply beqb_spec in B; contradiction|].
    exists true. eexists. split; [reflexivity|]. exists true. eexists. split; [reflexivity|]. fold p.
    exists (length data). eexists. split; [reflexivity|]. exists tt. eexists. split; [reflexivity|]. split; reflexivity.
  - econstructor; [constructor|]. econstructor; [apply fs_open_trunc|]. econstructor; [apply fs_write; [apply set_same|lia]|].
    econstructor; [constructor|]. constructor.
  - rewrite set_same, firstn_all. reflexivity.
Qed.

Lemma silent_loss : forall datadir what t uuid data gz last rest, snd (gz data) = last :: rest -> last <> [] ->
  let p := ndt7_name datadir what t uuid true in
  exists tr after, run (write_result datadir what t uuid true gz data) tr tt /\
    fs_run (fun _ => None) tr after /\ ~ In FExit tr /\ after p = Some (concat (fst (gz data))).
Proof.
  intros d what t u data gz last rest E NE p. set (chunks := fst (gz data)).
  set (ws := map (fun c => FWrite p c (length c)) chunks).
  assert (W : forall l k (tr : list fs_event) f old, f p = Some old ->
     (forall f1, f1 p = Some (old ++ concat l) -> exists tr1 g, run (k true) tr1 tt /\ fs_run f1 tr1 g /\ ~ In FExit tr1 /\ g p = Some (old ++ concat l)) ->
     exists tr g, run (write_all p l k) tr tt /\ fs_run f tr g /\ ~ In FExit tr /\ g p = Some (old ++ concat l)).
  { clear. induction l as [|c l IH]; intros k tr f old O H.
    - rewrite app_nil_r in *. apply H, O.
    - destruct (IH k tr (fs_set f p (old ++ firstn (length c) c)) (old ++ c)) as (tr' & g & A & B & C & D).
      + rewrite set_same, firstn_all. reflexivity.
      + intros f1 F1. cbn [concat] in H. rewrite app_assoc in H. apply H, F1.
      + exists (FWrite p c (length c) :: tr'), g. split; [|split; [|split]].
        * exists (length c). eexists. split; [reflexivity|]. rewrite Nat.eqb_refl. exact A.
        * econstructor; [apply fs_write; [exact O|lia]|exact B].
        * intros [X|X]; [discriminate|exact (C X)].
        * cbn [concat]. rewrite app_assoc. exact D. }
  unfold write_result. fold p.
  destruct (W chunks (fun ok => if negb ok then Do (fun _ : unit => FExit) (fun _ => Ret tt)
        else write_all p (snd (gz data)) (fun _ => Do (fun _ : unit => FClose p) (fun _ => Ret tt))) []
        (fs_set (fun _ => None) p []) []) as (tr & g & A & B & C & D).
  { apply set_same. }
  { intros f1 F1. cbn [negb]. rewrite E. exists [FWrite p last 0; FClose p], (fs_set f1 p (([] ++ concat chunks) ++ firstn 0 last)).
    split; [|split; [|split]].
    - exists 0%nat. eexists. split; [reflexivity|]. destruct last; [congruence|]. exists tt. eexists. split; [reflexivity|]. split; reflexivity.
    - econstructor; [apply fs_write; [exact F1|lia]|]. econstructor; constructor.
    - cbn. intuition discriminate.
    - rewrite set_same. cbn [firstn]. rewrite app_nil_r. reflexivity. }
  exists (FMkdir (ndt7_dir d t) true :: FOpen p true true :: tr), g. split; [|split; [|split]].
  - exists true. eexists. split; [reflexivity|]. exists true. eexists. split; [reflexivity|]. exact A.
  - econstructor; [constructor|]. econstructor; [apply fs_open_excl; reflexivity|]. exact B.
  - intros [X|[X|X]]; [discriminate|discriminate|exact (C X)].
  - exact D.
Qed.
