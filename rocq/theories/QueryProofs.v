(** Query strings: the model's parser meets the specification. *)
From Coq Require Import String ZArith List Bool Lia Permutation.
From Verif Require Import Base BaseFacts JsonSpec JsonProofs GoJSON GoStrings QueryModel QuerySpec.
Import ListNotations.
Open Scope Z_scope.

(** ** Percent-decoding *)

Lemma unescape_sound : forall n s v, (List.length s <= n)%nat -> query_unescape s = Some v -> decodes s v.
Proof.
  induction n as [|n IH]; intros s v Hn H.
  - destruct s; cbn in *; [injection H as <-; constructor|lia].
  - destruct s as [|b r]; cbn in *; [injection H as <-; constructor|].
    destruct (b =? 37) eqn:Eb.
    + apply Z.eqb_eq in Eb. subst b. destruct r as [|x [|y r]]; try discriminate.
      destruct (is_hex x && is_hex y) eqn:Eh; [|discriminate]. apply andb_prop in Eh. destruct Eh as [Hx Hy].
      destruct (query_unescape r) as [v'|] eqn:E; [|discriminate]. injection H as <-.
      constructor; [apply hex1_spec; auto|apply hex1_spec; auto|]. apply IH; [cbn in Hn; lia|exact E].
    + apply Z.eqb_neq in Eb. destruct (query_unescape r) as [v'|] eqn:E; [|discriminate]. injection H as <-.
      apply IH in E; [|lia]. destruct (b =? 43) eqn:Ep.
      * apply Z.eqb_eq in Ep. subst b. constructor. exact E.
      * apply Z.eqb_neq in Ep. constructor; auto.
Qed.

Lemma unescape_complete s v : decodes s v -> query_unescape s = Some v.
Proof.
  induction 1 as [|x y h l r v Hx Hy _ IH|r v _ IH|b r v N1 N2 _ IH]; [reflexivity|..].
  - apply hex1_spec in Hx, Hy. destruct Hx as [Hx <-], Hy as [Hy <-]. cbn. rewrite Hx, Hy, IH. reflexivity.
  - cbn. rewrite IH. reflexivity.
  - cbn [query_unescape]. apply Z.eqb_neq in N1, N2. rewrite N1, N2, IH. reflexivity.
Qed.

Lemma unescape_spec s v : query_unescape s = Some v <-> decodes s v.
Proof. split; [apply (unescape_sound (List.length s)); lia|apply unescape_complete]. Qed.

(** ** Pieces *)

Lemma pieces_nonempty s : exists p ps, pieces s = p :: ps.
Proof.
  destruct s as [|b r]; cbn; [eauto|]. destruct (b =? 38); [eauto|]. destruct (pieces r); eauto.
Qed.

Lemma pieces_split s : split_at_amp s (pieces s).
Proof.
  induction s as [|b r IH]; cbn; [constructor; auto|].
  destruct (b =? 38) eqn:E.
  - apply Z.eqb_eq in E. subst b. apply (sa_more []); auto.
  - apply Z.eqb_neq in E. destruct (pieces_nonempty r) as (p & ps & Ep). rewrite Ep in *.
    inversion IH; subst.
    + constructor. intros [->|H]; [congruence|contradiction].
    + apply (sa_more (b :: p)); [|assumption]. intros [->|H]; [congruence|contradiction].
Qed.

Lemma pieces_no_amp p : ~ In 38 p -> pieces p = [p].
Proof.
  induction p as [|b r IH]; cbn; [reflexivity|]. intros H.
  destruct (b =? 38) eqn:E; [apply Z.eqb_eq in E; tauto|]. rewrite IH by tauto. reflexivity.
Qed.
Lemma pieces_amp p r : ~ In 38 p -> pieces (p ++ 38 :: r) = p :: pieces r.
Proof.
  induction p as [|b q IH]; cbn; [reflexivity|]. intros H.
  destruct (b =? 38) eqn:E; [apply Z.eqb_eq in E; tauto|]. rewrite IH by tauto. reflexivity.
Qed.
Lemma split_pieces s ps : split_at_amp s ps -> pieces s = ps.
Proof.
  induction 1; [apply pieces_no_amp; assumption|]. rewrite pieces_amp by assumption. congruence.
Qed.

(** ** Pairs *)

Lemma split2_none sep s k : split2 sep s = (k, None) <-> k = s /\ ~ In sep s.
Proof.
  revert k. induction s as [|b r IH]; intros k; cbn.
  - split; [intros E; injection E as <-; auto|intros [-> _]; reflexivity].
  - destruct (b =? sep) eqn:E.
    + apply Z.eqb_eq in E. split; [discriminate|tauto].
    + apply Z.eqb_neq in E. destruct (split2 sep r) as [x [y|]] eqn:Es.
      * split; [discriminate|]. intros [-> H]. exfalso.
        assert (Q : (x, Some y) = (r, @None bytes)) by (apply IH; tauto). discriminate.
      * destruct (proj1 (IH x) eq_refl) as [-> N]. split; [|intros [-> _]; reflexivity].
        intros H. injection H as <-. split; [reflexivity|]. intros [H|H]; [congruence|contradiction].
Qed.
Lemma split2_some sep s k v : split2 sep s = (k, Some v) <-> s = k ++ sep :: v /\ ~ In sep k.
Proof.
  revert k. induction s as [|b r IH]; intros k; cbn.
  - split; [discriminate|]. intros [H _]. destruct k; discriminate.
  - destruct (b =? sep) eqn:E.
    + apply Z.eqb_eq in E. subst. split.
      * intros H. injection H as <- <-. cbn. auto.
      * intros [H N]. destruct k as [|c k]; cbn in H; [injection H as ->; reflexivity|].
        injection H as H1 H2. exfalso. apply N. left. auto.
    + apply Z.eqb_neq in E. destruct (split2 sep r) as [x [y|]] eqn:Es.
      * split.
        -- intros H. injection H as <- <-. destruct (proj1 (IH x) eq_refl) as [-> N].
           cbn. split; [reflexivity|]. intros [H|H]; [congruence|contradiction].
        -- intros [H N]. destruct k as [|c k]; cbn in H; injection H as H1 H2; [congruence|]. subst.
           assert (Some v = Some y /\ k = x) as [H1 H2].
           { assert (Q : (x, Some y) = (k, Some v)).
             { apply IH. split; [reflexivity|]. cbn in N. tauto. }
             injection Q as -> ->. auto. }
           injection H1 as ->. subst. reflexivity.
      * split; [discriminate|]. intros [H N]. exfalso. apply split2_none in Es. destruct Es as [_ Es].
        destruct k as [|c k]; cbn in H; injection H as H1 H2; [congruence|]. subst. apply Es.
        apply in_or_app. right. left. reflexivity.
Qed.

Lemma decodes_fun s v v' : decodes s v -> decodes s v' -> v = v'.
Proof. intros H H'. apply unescape_complete in H, H'. congruence. Qed.

Lemma query_pair_spec p kv : query_pair p = Some kv <-> stands_for p kv.
Proof.
  unfold query_pair, stands_for. destruct kv as [k v]. cbn [fst snd].
  destruct (mem 59 p) eqn:M.
  { apply mem_spec in M. split; [discriminate|]. tauto. }
  assert (N : ~ In 59 p) by (intros H; apply mem_spec in H; congruence). clear M.
  destruct p as [|b r]; [split; [discriminate|]; intros (H & _); congruence|].
  set (p := b :: r) in *. assert (Np : p <> []) by discriminate. clearbody p.
  destruct (split2 61 p) as [n [x|]] eqn:S.
  - apply split2_some in S. destruct S as [-> S].
    destruct (query_unescape n) as [k'|] eqn:E1; [destruct (query_unescape x) as [v'|] eqn:E2|].
    + apply unescape_spec in E1, E2. split.
      * intros H. injection H as -> ->. split; [exact Np|]. split; [exact N|]. exists n, x. auto.
      * intros (_ & _ & n' & x' & S' & [E|[E ->]] & D1 & D2).
        -- assert (split2 61 (n ++ 61 :: x) = (n', Some x')) as Q by (apply split2_some; auto).
           assert (split2 61 (n ++ 61 :: x) = (n, Some x)) as Q' by (apply split2_some; auto).
           rewrite Q in Q'. injection Q' as -> ->.
           rewrite (decodes_fun _ _ _ E1 D1), (decodes_fun _ _ _ E2 D2). reflexivity.
        -- exfalso. apply S'. rewrite <- E. apply in_or_app. right. left. reflexivity.
    + split; [discriminate|]. intros (_ & _ & n' & x' & S' & [E|[E ->]] & D1 & D2).
      * assert (split2 61 (n ++ 61 :: x) = (n', Some x')) as Q by (apply split2_some; auto).
        assert (split2 61 (n ++ 61 :: x) = (n, Some x)) as Q' by (apply split2_some; auto).
        rewrite Q in Q'. injection Q' as -> ->. apply unescape_complete in D2. congruence.
      * exfalso. apply S'. rewrite <- E. apply in_or_app. right. left. reflexivity.
    + split; [discriminate|]. intros (_ & _ & n' & x' & S' & [E|[E ->]] & D1 & D2).
      * assert (split2 61 (n ++ 61 :: x) = (n', Some x')) as Q by (apply split2_some; auto).
        assert (split2 61 (n ++ 61 :: x) = (n, Some x)) as Q' by (apply split2_some; auto).
        rewrite Q in Q'. injection Q' as -> ->. apply unescape_complete in D1. congruence.
      * exfalso. apply S'. rewrite <- E. apply in_or_app. right. left. reflexivity.
  - apply split2_none in S. destruct S as [-> S].
    cbn [query_unescape]. destruct (query_unescape p) as [k'|] eqn:E1.
    + apply unescape_spec in E1. split.
      * intros H. injection H as -> <-. split; [exact Np|]. split; [exact N|]. exists p, [].
        split; [exact S|]. split; [auto|]. split; [exact E1|constructor].
      * intros (_ & _ & n' & x' & S' & [E|[E ->]] & D1 & D2).
        -- exfalso. apply S. rewrite E. apply in_or_app. right. left. reflexivity.
        -- subst n'. rewrite (decodes_fun _ _ _ E1 D1). inversion D2. reflexivity.
    + split; [discriminate|]. intros (_ & _ & n' & x' & S' & [E|[E ->]] & D1 & D2).
      * exfalso. apply S. rewrite E. apply in_or_app. right. left. reflexivity.
      * subst n'. apply unescape_complete in D1. congruence.
Qed.

Definition kept (ps : list bytes) : list (bytes * bytes) :=
  flat_map (fun p => match query_pair p with Some kv => [kv] | None => [] end) ps.

Lemma kept_pairs ps : pairs_of_pieces ps (kept ps).
Proof.
  induction ps as [|p ps IH]; cbn; [constructor|]. destruct (query_pair p) as [kv|] eqn:E.
  - apply query_pair_spec in E. constructor; assumption.
  - apply pp_drop; [|exact IH]. intros kv H. apply query_pair_spec in H. congruence.
Qed.
Lemma pairs_kept ps l : pairs_of_pieces ps l -> l = kept ps.
Proof.
  induction 1 as [|p kv ps l H _ IH|p ps l H _ IH]; cbn; [reflexivity|..].
  - apply query_pair_spec in H. rewrite H, IH. reflexivity.
  - destruct (query_pair p) as [kv|] eqn:E; [apply query_pair_spec in E; destruct (H _ E)|exact IH].
Qed.

Lemma query_pairs_spec q l : query_pairs q l <-> l = kept (pieces q).
Proof.
  split.
  - intros (ps & S & P). apply split_pieces in S. apply pairs_kept in P. congruence.
  - intros ->. exists (pieces q). split; [apply pieces_split|apply kept_pairs].
Qed.

(** ** The map *)

Definition gather (l : list (bytes * bytes)) : values :=
  fold_left (fun m kv => add_value (fst kv) (snd kv) m) l [].

Lemma query_gather q : query q = gather (kept (pieces q)).
Proof.
  unfold query, gather, kept. generalize (@nil (bytes * list bytes)).
  induction (pieces q) as [|p ps IH]; intros m; cbn; [reflexivity|].
  destruct (query_pair p) as [[k v]|]; cbn; apply IH.
Qed.

(** What the map holds: every name once, with its values in order. *)
Definition holds (m : values) (l : list (bytes * bytes)) : Prop :=
  NoDup (map fst m) /\ forall k vs, In (k, vs) m <-> vs <> [] /\ vs = values_of k l.

Lemma add_value_names k v m x : In x (map fst (add_value k v m)) <-> x = k \/ In x (map fst m).
Proof.
  induction m as [|[k' vs] m IH]; cbn; [intuition auto|].
  destruct (beqb k k') eqn:E; cbn.
  - apply beqb_spec in E. subst. intuition auto.
  - rewrite IH. intuition auto.
Qed.
Lemma add_value_nodup k v m : NoDup (map fst m) -> NoDup (map fst (add_value k v m)).
Proof.
  induction m as [|[k' vs] m IH]; cbn; intros H; [repeat constructor; auto|].
  destruct (beqb k k') eqn:E; cbn; [exact H|]. inversion H; subst. constructor; [|auto].
  rewrite add_value_names. intros [->|I]; [rewrite beqb_refl in E; discriminate|contradiction].
Qed.
Lemma add_value_other k v m x vs : x <> k -> (In (x, vs) (add_value k v m) <-> In (x, vs) m).
Proof.
  intros N. induction m as [|[k' ws] m IH]; cbn.
  - split; [intros [E|[]]; injection E; congruence|tauto].
  - destruct (beqb k k') eqn:E; cbn.
    + apply beqb_spec in E. subst. split; (intros [H|H]; [injection H; congruence|auto]).
    + rewrite IH. tauto.
Qed.
Lemma add_value_same k v m vs : NoDup (map fst m) ->
  (In (k, vs) (add_value k v m) <->
   (exists ws, In (k, ws) m /\ vs = ws ++ [v]) \/ ~ In k (map fst m) /\ vs = [v]).
Proof.
  induction m as [|[k' ws] m IH]; cbn; intros H.
  - split; [intros [E|[]]; injection E as <-; auto|]. intros [(ws & [] & _)|[_ ->]]. auto.
  - inversion H; subst. destruct (beqb k k') eqn:E; cbn.
    + apply beqb_spec in E. subst k'. split.
      * intros [Q|I]; [injection Q as <-; left; eauto|].
        exfalso. apply H2. apply (in_map fst) in I. exact I.
      * intros [(us & [Q|I] & ->)|[N _]].
        -- injection Q as ->. auto.
        -- exfalso. apply H2. apply (in_map fst) in I. exact I.
        -- exfalso. auto.
    + apply beqb_false in E. rewrite IH by assumption. split.
      * intros [Q|[(us & I & ->)|[N ->]]]; [injection Q; congruence|left; eauto|right].
        split; [|reflexivity]. intros [Q|I]; [congruence|contradiction].
      * intros [(us & [Q|I] & ->)|[N ->]]; [injection Q; congruence|right; left; eauto|]. right. right.
        split; [tauto|reflexivity].
Qed.

Lemma values_of_app k a b : values_of k (a ++ b) = values_of k a ++ values_of k b.
Proof. unfold values_of. rewrite filter_app, map_app. reflexivity. Qed.

Lemma gather_holds l : holds (gather l) l.
Proof.
  unfold gather. rewrite <- fold_left_rev_right. rewrite <- (rev_involutive l) at 2.
  induction (rev l) as [|[k v] r [IH1 IH2]]; cbn [fold_right].
  - split; [constructor|]. intros k vs. cbn. split; [tauto|]. intros [H ->]. apply H. reflexivity.
  - set (m := fold_right _ _ r) in *. cbn [fst snd] in *. split; [apply add_value_nodup; exact IH1|].
    intros x vs. cbn [rev]. rewrite values_of_app.
    destruct (beqb x k) eqn:E.
    + apply beqb_spec in E. subst x. rewrite add_value_same by exact IH1.
      replace (values_of k [(k, v)]) with [v] by (unfold values_of; cbn; rewrite beqb_refl; reflexivity).
      split.
      * intros [(ws & I & ->)|[N ->]].
        -- apply IH2 in I. destruct I as [_ ->]. split; [|reflexivity].
           destruct (values_of k (rev r)); discriminate.
        -- split; [discriminate|]. destruct (values_of k (rev r)) as [|w ws] eqn:V; [reflexivity|].
           exfalso. apply N. assert (I : In (k, w :: ws) m) by (apply IH2; split; [discriminate|auto]).
           apply (in_map fst) in I. exact I.
      * intros [N ->]. destruct (values_of k (rev r)) as [|w ws] eqn:V.
        -- right. split; [|reflexivity]. intros I. apply in_map_iff in I. destruct I as ([k' us] & Ek & I).
           cbn in Ek. subst k'. apply IH2 in I. destruct I as [N' ->]. auto.
        -- left. exists (w :: ws). split; [|reflexivity]. apply IH2. split; [discriminate|auto].
    + apply beqb_false in E. rewrite add_value_other by exact E.
      replace (values_of x [(k, v)]) with (@nil bytes).
      * rewrite app_nil_r. apply IH2.
      * unfold values_of. cbn. destruct (beqb k x) eqn:E'; [apply beqb_spec in E'; congruence|reflexivity].
Qed.

Lemma query_holds q l vs : query_pairs q l -> Permutation vs (query q) -> holds vs l.
Proof.
  intros H P. apply query_pairs_spec in H. subst l. rewrite query_gather in P.
  destruct (gather_holds (kept (pieces q))) as [N I]. split.
  - eapply Permutation_NoDup; [|exact N]. apply Permutation_map, Permutation_sym, P.
  - intros k ws. rewrite <- I. split; intros J.
    + exact (Permutation_in _ P J).
    + exact (Permutation_in _ (Permutation_sym P) J).
Qed.

(** ** The two readers *)

Lemma holds_cons k ws m l : holds ((k, ws) :: m) l ->
  ws = values_of k l /\ ws <> [] /\ NoDup (map fst m) /\ ~ In k (map fst m).
Proof.
  intros [N I]. cbn in N. inversion N; subst. destruct (proj1 (I k ws)) as [A B]; [left; reflexivity|]. auto.
Qed.

Lemma validate_find vs : validate_early_exit vs =
  match find (fun p => beqb (fst p) (str "early_exit")) vs with
  | None => Accept (Params false 0)
  | Some (_, []) => IndexPanic
  | Some (_, v :: _) => if beqb v (str "250") then Accept (Params true 250000000) else Reject
  end.
Proof.
  induction vs as [|[k ws] vs IH]; [reflexivity|]. cbn [validate_early_exit find fst].
  destruct (beqb k (str "early_exit")); cbn [negb]; [|exact IH]. destruct ws as [|v ws]; [reflexivity|].
  destruct (beqb v (str "250")) eqn:E; cbn [negb]; [|reflexivity].
  apply beqb_spec in E. subst v. reflexivity.
Qed.

Lemma find_holds vs l k : holds vs l ->
  find (fun p => beqb (fst p) k) vs =
  match values_of k l with [] => None | v :: r => Some (k, v :: r) end.
Proof.
  intros [N I]. destruct (find _ vs) as [[k' ws]|] eqn:F.
  - apply find_some in F. destruct F as [J E]. cbn in E. apply beqb_spec in E. subst k'.
    apply I in J. destruct J as [J ->]. destruct (values_of k l); [congruence|reflexivity].
  - destruct (values_of k l) as [|v r] eqn:V; [reflexivity|].
    assert (J : In (k, v :: r) vs) by (apply I; split; [discriminate|auto]).
    apply (find_none _ _ F) in J. cbn in J. rewrite beqb_refl in J. discriminate.
Qed.

Lemma early_exit_spec q l vs : query_pairs q l -> Permutation vs (query q) ->
  validate_early_exit vs =
  match values_of (str "early_exit") l with
  | [] => Accept (Params false 0)
  | v :: _ => if beqb v (str "250") then Accept (Params true 250000000) else Reject
  end.
Proof.
  intros H P. pose proof (query_holds _ _ _ H P) as Hh. rewrite validate_find, (find_holds _ l) by exact Hh.
  destruct (values_of _ l); reflexivity.
Qed.

Lemma metadata_map vs : (forall k ws, In (k, ws) vs -> ws <> []) ->
  client_metadata vs =
  Some (map (fun p => (fst p, hd [] (snd p))) (filter (fun p => negb (has_prefix (str "server_") (fst p))) vs)).
Proof.
  induction vs as [|[k ws] vs IH]; intros H; [reflexivity|]. cbn [client_metadata filter fst].
  rewrite IH by (intros; eapply H; right; eauto).
  destruct (has_prefix (str "server_") k); cbn [negb]; [reflexivity|].
  destruct ws as [|w ws]; [exfalso; eapply H; [left; reflexivity|reflexivity]|]. reflexivity.
Qed.

Lemma NoDup_fst_filter {A B} (f : A * B -> bool) l : NoDup (map fst l) -> NoDup (map fst (filter f l)).
Proof.
  induction l as [|[a b] l IH]; cbn; intros H; [constructor|]. inversion H; subst.
  destruct (f (a, b)); cbn; [|auto]. constructor; [|auto]. intros I. apply H2.
  apply in_map_iff in I. destruct I as ([a' b'] & E & I). cbn in E. subst a'. apply filter_In in I.
  destruct I as [I _]. apply (in_map fst) in I. exact I.
Qed.

Lemma metadata_spec q l vs : query_pairs q l -> Permutation vs (query q) ->
  exists ms, client_metadata vs = Some ms /\ NoDup (map fst ms) /\
    forall k v, In (k, v) ms <-> has_prefix (str "server_") k = false /\ first_value k l v.
Proof.
  intros H P. pose proof (query_holds _ _ _ H P) as [N I].
  rewrite metadata_map by (intros k ws J; apply I in J; tauto).
  eexists. split; [reflexivity|]. split.
  - rewrite map_map. cbn [fst]. apply NoDup_fst_filter, N.
  - intros k v. rewrite in_map_iff. split.
    + intros ([k' ws] & E & J). cbn in E. injection E as -> <-. apply filter_In in J. destruct J as [J F].
      cbn in F. apply negb_true_iff in F. split; [exact F|]. apply I in J. destruct J as [J ->].
      unfold first_value. destruct (values_of k l) as [|w ws]; [congruence|]. cbn. eauto.
    + intros (F & ws & V). exists (k, v :: ws). split; [reflexivity|]. apply filter_In. cbn [fst]. rewrite F.
      split; [|reflexivity]. apply I. split; [discriminate|auto].
Qed.
