(** Lemmas about the META test. *)
From Coq Require Import String ZArith List Bool Lia.
From Coq Require Import ZifyBool ZifyNat.
From Verif Require Import Base BaseFacts WireModel MessagerModel GoFloat GoStrings StringsProofs
  Web100Model Effect ControlModel ControlSpec ControlProofs.
Import ListNotations.
Open Scope Z_scope.

(** What a run of the loop looks like: messages, pairs, final error, stopped by the context. *)
Inductive loop_trace (m : encoding) : nat -> list event -> list bytes -> option err -> bool -> Prop :=
| lt_full : loop_trace m 0 [] [] None false
| lt_done f : loop_trace m (S f) [EvCtxDone true] [] None true
| lt_error f x e : heard m x = inr e ->
    loop_trace m (S f) [EvCtxDone false; EvRead x] [] (Some (ErrRecv e)) false
| lt_empty f x : heard m x = inl [] ->
    loop_trace m (S f) [EvCtxDone false; EvRead x] [] None false
| lt_msg f x msg tr l e d : heard m x = inl msg -> msg <> [] -> loop_trace m f tr l e d ->
    loop_trace m (S f) (EvCtxDone false :: EvRead x :: tr) (msg :: l) e d.

Definition pairs_of (l : list bytes) : list (bytes * bytes) :=
  flat_map (fun msg => match meta_pair msg with Some p => [p] | None => [] end) l.

Lemma meta_loop_runs {T} m : forall fuel count results (s : T) tr s' r,
  run (meta_loop fuel m count results s) tr (s', r) ->
  s' = s /\ exists l e d, loop_trace m fuel tr l e d /\
    r = Ok (count + len l, results ++ pairs_of l, e).
Proof.
  induction fuel as [|f IH]; intros count results s tr s' r H; cbn [meta_loop] in H.
  - exe H. split; [reflexivity|]. exists [], None, false. split; [constructor|].
    unfold len. cbn. rewrite app_nil_r, Z.add_0_r. reflexivity.
  - red_in H. destruct H as (b & t & -> & H). destruct b.
    + red_in H. destruct H as [-> H]. apply pair_inv in H. destruct H; subst.
      split; [reflexivity|]. exists [], None, true. split; [constructor|].
      unfold len. cbn. rewrite app_nil_r, Z.add_0_r. reflexivity.
    + red_in H. destruct H as (x & t2 & -> & H).
      assert (Hx : match (match m with TLV => tlv_receive x TestMsg | _ => json_receive x TestMsg end) with
                   | (_, Some e) => heard m x = inr e
                   | (Some t, None) => heard m x = inl t
                   | (None, None) => heard m x = inl [] end).
      { unfold heard. destruct (match m with TLV => _ | _ => _ end) as [[y|] [e|]]; reflexivity. }
      unfold receive_of in H.
      destruct (match m with TLV => _ | _ => _ end) as [y [e|]]; cbn [fst snd option_map] in *.
      * assert (Hr : run (@ret event bytes T _ (count, results, Some (ErrRecv e)) s) t2 (s', r))
          by (destruct y as [[|]|]; exact H). clear H. rename Hr into H.
        red_in H. destruct H as [-> H]. apply pair_inv in H. destruct H; subst.
        split; [reflexivity|]. exists [], (Some (ErrRecv e)), false.
        split; [apply lt_error; destruct y; exact Hx|].
        unfold len. cbn. rewrite app_nil_r, Z.add_0_r. reflexivity.
      * assert (Hstop : run (ret (count, results, None) s) t2 (s', r) -> heard m x = inl [] ->
          s' = s /\ exists l e d, loop_trace m (S f) (EvCtxDone false :: EvRead x :: t2) l e d /\
            r = Ok (count + len l, results ++ pairs_of l, e)).
        { intros H0 Hh. red_in H0. destruct H0 as [-> H0]. apply pair_inv in H0. destruct H0; subst.
          split; [reflexivity|]. exists [], None, false. split; [apply lt_empty; exact Hh|].
          unfold len. cbn. rewrite app_nil_r, Z.add_0_r. reflexivity. }
        destruct y as [[|z y]|]; [apply Hstop; [exact H|exact Hx] | | apply Hstop; [exact H|exact Hx]].
        cbn [bind pbind] in H. apply IH in H.
        destruct H as (-> & l & e & d & Hl & ->). split; [reflexivity|].
        exists ((z :: y) :: l), e, d. split; [apply lt_msg; [exact Hx|discriminate|exact Hl]|].
        unfold len. cbn [List.length pairs_of flat_map]. fold (pairs_of l).
        replace (count + 1 + Z.of_nat (List.length l)) with (count + Z.of_nat (S (List.length l))) by lia.
        destruct (meta_pair (z :: y)); [rewrite <- app_assoc|]; reflexivity.
Qed.

Lemma pairs_stored : forall l, stored_pairs l (pairs_of l).
Proof.
  induction l as [|msg l IH]; cbn [pairs_of flat_map]; [constructor|].
  pose proof (split2_spec 58 msg) as H. unfold meta_pair at 1.
  destruct (split2 58 msg) as [a [b|]].
  - destruct H as [-> Ha]. apply sp_pair; [|exact IH].
    exists a, b, (trim_space a), (trim_space b).
    split; [reflexivity|]. split; [exact Ha|].
    split; [apply trim_space_trimmed|]. split; [apply trim_space_trimmed|].
    unfold take, len. f_equal.
    + destruct (63 <? _) eqn:E; [reflexivity|]. symmetry. apply firstn_all2. lia.
    + destruct (255 <? _) eqn:E; [reflexivity|]. symmetry. apply firstn_all2. lia.
  - destruct H as [-> Ha]. apply sp_skip; [exact Ha|exact IH].
Qed.

Lemma stored_pairs_bounds : forall l ps, stored_pairs l ps ->
  (List.length ps <= List.length l)%nat /\
  Forall (fun p => (List.length (fst p) <= 63)%nat /\ (List.length (snd p) <= 255)%nat) ps.
Proof.
  induction 1 as [|msg l ps Hn H [IH1 IH2]|msg p l ps Hp H [IH1 IH2]]; cbn [List.length].
  - auto.
  - split; [lia|exact IH2].
  - split; [lia|]. constructor; [|exact IH2].
    destruct Hp as (a & b & n & v & _ & _ & _ & _ & ->). cbn [fst snd]. rewrite !firstn_length. lia.
Qed.

(** Facts about the loop's trace. *)
Definition quiet (e : event) : bool :=
  match e with EvCtxDone _ | EvRead _ => true | _ => false end.

Lemma loop_trace_facts m : forall f tr l e d, loop_trace m f tr l e d ->
  forallb quiet tr = true /\ (List.length (reads tr) <= f)%nat /\ (List.length l <= f)%nat /\
  io tr = map EvRead (reads tr) /\
  (exists xs ys, reads tr = xs ++ ys /\ map (heard m) xs = map inl l /\ Forall (fun x => x <> []) l /\
     match ys with
     | [] => d = true /\ e = None \/ d = false /\ e = None /\ List.length l = f
     | y :: ys' => ys' = [] /\ d = false /\
         match e with
         | None => heard m y = inl []
         | Some e => exists e', heard m y = inr e' /\ e = ErrRecv e'
         end
     end) /\
  (d = true <-> In true (deadline_checks tr)) /\
  (e <> None <-> exists x e', In x (reads tr) /\ heard m x = inr e').
Proof.
  induction 1 as [|f|f x e' Hx|f x Hx|f x msg tr l e d Hx Hm H IH].
  - split; [reflexivity|]. split; [cbn; lia|]. split; [cbn; lia|]. split; [reflexivity|]. split.
    { exists [], []. cbn. split; [reflexivity|]. split; [reflexivity|]. split; [constructor|]. tauto. }
    split; [cbn; split; [discriminate|intros []]|]. split; [congruence|intros (? & ? & [] & _)].
  - split; [reflexivity|]. split; [cbn; lia|]. split; [cbn; lia|]. split; [reflexivity|]. split.
    { exists [], []. cbn. split; [reflexivity|]. split; [reflexivity|]. split; [constructor|]. tauto. }
    split; [cbn; tauto|]. split; [congruence|intros (? & ? & [] & _)].
  - split; [reflexivity|]. split; [cbn; lia|]. split; [cbn; lia|]. split; [reflexivity|]. split.
    { exists [], [x]. cbn. split; [reflexivity|]. split; [reflexivity|]. split; [constructor|]. split; [reflexivity|]. split; [reflexivity|]. eauto. }
    split; [cbn; split; [discriminate|intros [|[]]; discriminate]|].
    split; [|discriminate]. intros _. exists x, e'. cbn. auto.
  - split; [reflexivity|]. split; [cbn; lia|]. split; [cbn; lia|]. split; [reflexivity|]. split.
    { exists [], [x]. cbn. split; [reflexivity|]. split; [reflexivity|]. split; [constructor|]. auto. }
    split; [cbn; split; [discriminate|intros [|[]]; discriminate]|].
    split; [congruence|]. intros (y & e' & [<-|[]] & Hy). congruence.
  - destruct IH as (I1 & I2 & I3 & I4 & I5 & I6 & I7).
    split; [cbn; exact I1|]. split; [unfold reads in *; cbn; lia|]. split; [cbn; lia|].
    split; [cbn; f_equal; exact I4|]. split.
    { destruct I5 as (xs & ys & E & Hxs & Hl & Hy). exists (x :: xs), ys. cbn.
      unfold reads in E. rewrite E. split; [reflexivity|].
      split; [f_equal; [exact Hx|exact Hxs]|]. split; [constructor; auto|].
      destruct ys; [|exact Hy]. destruct Hy as [Hy|(? & ? & ?)]; [auto|right; auto]. }
    split.
    { rewrite I6. cbn. split; [auto|]. intros [?|?]; [discriminate|auto]. }
    rewrite I7. cbn. split.
    + intros (y & e' & Hy & He). exists y, e'. auto.
    + intros (y & e' & [<-|Hy] & He); [congruence|]. eauto.
Qed.

(** All the runs of the META test. *)
Inductive meta_runs (g : config) (m : encoding)
  : list event -> list (bytes * bytes) * option err -> Prop :=
| mr_prepare e what :
    meta_runs g m [EvWrite (frame_of m TestPrepare []) (Some e);
                   EvCount (str "ClientTestErrors") [label g; str "meta"; what]] ([], Some e)
| mr_start e what :
    meta_runs g m [EvWrite (frame_of m TestPrepare []) None;
                   EvWrite (frame_of m TestStart []) (Some e);
                   EvCount (str "ClientTestErrors") [label g; str "meta"; what]] ([], Some e)
| mr_context tr l e d what : loop_trace m 20 tr l e d ->
    meta_runs g m (EvWrite (frame_of m TestPrepare []) None ::
                   EvWrite (frame_of m TestStart []) None :: tr ++
                   [EvCtxDone true;
                    EvCount (str "ClientTestErrors") [label g; str "meta"; what]])
              ([], Some ErrContext)
| mr_receive tr l e d what : loop_trace m 20 tr l (Some e) d ->
    meta_runs g m (EvWrite (frame_of m TestPrepare []) None ::
                   EvWrite (frame_of m TestStart []) None :: tr ++
                   [EvCtxDone false;
                    EvCount (str "ClientTestErrors") [label g; str "meta"; what]])
              ([], Some e)
| mr_finalize tr l d e what : loop_trace m 20 tr l None d ->
    meta_runs g m (EvWrite (frame_of m TestPrepare []) None ::
                   EvWrite (frame_of m TestStart []) None :: tr ++
                   [EvCtxDone false; EvObserve (str "SubmittedMetaValues") [] (f_of_int (len l));
                    EvWrite (frame_of m TestFinalize []) (Some e);
                    EvCount (str "ClientTestErrors") [label g; str "meta"; what]])
              ([], Some e)
| mr_ok tr l d : loop_trace m 20 tr l None d ->
    meta_runs g m (EvWrite (frame_of m TestPrepare []) None ::
                   EvWrite (frame_of m TestStart []) None :: tr ++
                   [EvCtxDone false; EvObserve (str "SubmittedMetaValues") [] (f_of_int (len l));
                    EvWrite (frame_of m TestFinalize []) None])
              (pairs_of l, None).

Lemma meta_manage_runs : forall g m s tr s' r,
  run (meta_manage g m s) tr (s', r) ->
  exists x, r = Ok x /\ meta_runs g m tr x.
Proof.
  intros g m s tr s' r H. unfold meta_manage in H.
  apply run_bind in H. destruct H as [(t1 & s1 & e1 & t2 & -> & H1 & H)|(p & -> & H)];
    [|exe H; discriminate].
  red_in H1. destruct H1 as (b & t & -> & -> & H1). apply pair_inv in H1. destruct H1 as [-> H1].
  injection H1 as ->. cbn [app].
  destruct b as [e|].
  { exe H. eexists. split; [reflexivity|]. constructor. }
  apply run_bind in H. destruct H as [(t1 & s1 & e1 & t3 & -> & H1 & H)|(p & -> & H)];
    [|exe H; discriminate].
  red_in H1. destruct H1 as (b & t & -> & -> & H1). apply pair_inv in H1. destruct H1 as [-> H1].
  injection H1 as ->. cbn [app].
  destruct b as [e|].
  { exe H. eexists. split; [reflexivity|]. constructor. }
  apply run_bind in H. destruct H as [(t1 & s1 & e1 & t4 & -> & H1 & H)|(p & -> & H)].
  2:{ apply meta_loop_runs in H. destruct H as (_ & l & e & d & _ & H). discriminate. }
  apply meta_loop_runs in H1. destruct H1 as (-> & l & e & d & Hl & H1).
  injection H1 as ->. change (Z.to_nat max_client_messages) with 20%nat in Hl.
  replace (0 + len l) with (len l) in H by lia. cbn [app] in *.
  exe H.
  - eexists. split; [reflexivity|]. eapply mr_context. exact Hl.
  - eexists. split; [reflexivity|]. eapply mr_receive. exact Hl.
  - eexists. split; [reflexivity|]. eapply mr_finalize. exact Hl.
  - eexists. split; [reflexivity|]. eapply mr_ok. exact Hl.
Qed.

(** ** Consequences for the conversation *)

Lemma io_loop m f tr l e d : loop_trace m f tr l e d -> io tr = map EvRead (reads tr).
Proof. intros H. apply loop_trace_facts in H. tauto. Qed.

Lemma follows_hears : forall xs t w b, follows t w b ->
  follows (map EvRead xs ++ t) (repeat Hear (List.length xs) ++ w) b.
Proof. induction xs; intros t w b H; cbn; [exact H|]. apply fol_hear. auto. Qed.

Lemma meta_follows : forall g m tr x, meta_runs g m tr x ->
  exists w, meta_word m w /\ follows (io tr) w (match snd x with None => true | _ => false end).
Proof.
  assert (H0 : forall m, meta_word m ([say m TestPrepare []; say m TestStart []] ++ repeat Hear 0 ++
                                      [say m TestFinalize []])).
  { intros m. exists 0%nat. split; [lia|reflexivity]. }
  assert (Hn : forall m tr l e d, loop_trace m 20 tr l e d ->
            meta_word m ([say m TestPrepare []; say m TestStart []] ++
                         repeat Hear (List.length (reads tr)) ++ [say m TestFinalize []])).
  { intros m tr l e d H. apply loop_trace_facts in H. destruct H as (_ & H & _).
    exists (List.length (reads tr)). split; [lia|reflexivity]. }
  intros g m tr x H.
  destruct H as [e what|e what|tr l e d what Hl|tr l e d what Hl|tr l d e what Hl|tr l d Hl].
  1,2: eexists; split; [apply H0|]; cbn; fol.
  all: eexists; split; [eapply Hn; exact Hl|]; cbn [io filter is_io app snd];
    change (filter is_io) with io; rewrite io_app, (io_loop _ _ _ _ _ _ Hl);
    cbn [io filter is_io]; fol; apply follows_hears; fol.
Qed.

Lemma quiet_facts : forall tr, forallb quiet tr = true ->
  forallb test_event tr = true /\ closed tr = [] /\ served tr = [] /\ started tr = [] /\
  waited tr = [] /\ writes tr = [] /\ served_with_error tr = [].
Proof.
  induction tr as [|e tr IH]; cbn [forallb]; intros H; [cbn; auto 10|].
  apply andb_prop in H. destruct H as [He H]. apply IH in H.
  destruct e; try discriminate He; exact H.
Qed.

Lemma meta_events : forall g m tr x, meta_runs g m tr x ->
  forallb test_event tr = true /\ closed tr = [] /\ served tr = [] /\ started tr = [] /\
  waited tr = [] /\ served_with_error tr = [].
Proof.
  intros g m tr x H.
  destruct H as [e what|e what|tr l e d what Hl|tr l e d what Hl|tr l d e what Hl|tr l d Hl].
  1,2: cbn; auto 10.
  all: apply loop_trace_facts in Hl; destruct Hl as (Hq & _); apply quiet_facts in Hq;
    destruct Hq as (Q1 & Q2 & Q3 & Q4 & Q5 & Q6 & Q7);
    cbn [forallb test_event andb]; rewrite forallb_app, Q1;
    unfold closed, served, started, waited, served_with_error in *; cbn [flat_map app];
    rewrite !flat_map_app, Q2, Q3, Q4, Q5, Q7; cbn; auto 10.
Qed.

Lemma flat_map_nil_in {A B} (f : A -> list B) l : flat_map f l = [] -> forall x, In x l -> f x = [].
Proof.
  induction l as [|a l IH]; cbn; intros H x [].
  - subst. apply app_eq_nil in H. tauto.
  - apply IH; [|assumption]. apply app_eq_nil in H. tauto.
Qed.

(** ** The properties *)

Lemma meta_c20 : forall g m s tr s' pairs e,
  run (meta_manage g m s) tr (s', Ok (pairs, e)) ->
  (List.length pairs <= 20)%nat /\
  Forall (fun p => (List.length (fst p) <= 63)%nat /\ (List.length (snd p) <= 255)%nat) pairs /\
  (e <> None -> pairs = []) /\
  (e = None -> exists msgs last,
     map (heard m) (reads tr) = map inl (msgs ++ last) /\ Forall (fun x => x <> []) msgs /\
     (last = [] \/ last = [[]]) /\ stored_pairs msgs pairs).
Proof.
  intros g m s tr s' pairs e H. apply meta_manage_runs in H.
  destruct H as (x & Hx & H). injection Hx as <-.
  inversion H as [e' what Ht E|e' what Ht E|t l e' d what Hl Ht E|t l e' d what Hl Ht E|
                  t l d e' what Hl Ht E|t l d Hl Ht E]; subst; clear H.
  1-5: split; [cbn; lia|]; split; [constructor|]; split; [reflexivity|discriminate].
  pose proof (pairs_stored l) as Hp. pose proof (stored_pairs_bounds _ _ Hp) as [B1 B2].
  pose proof (loop_trace_facts _ _ _ _ _ _ Hl) as (F1 & F2 & F3 & F4 & F5 & F6 & F7).
  split; [lia|]. split; [exact B2|]. split; [congruence|]. intros _.
  destruct F5 as (xs & ys & E & Hxs & Hne & Hy).
  assert (R : reads (EvWrite (frame_of m TestPrepare []) None :: EvWrite (frame_of m TestStart []) None ::
     t ++ [EvCtxDone false; EvObserve (str "SubmittedMetaValues") [] (f_of_int (len l));
           EvWrite (frame_of m TestFinalize []) None]) = reads t).
  { unfold reads. cbn [flat_map app]. rewrite flat_map_app. cbn. apply app_nil_r. }
  rewrite R, E, map_app, Hxs. destruct ys as [|y ys].
  - exists l, []. rewrite !app_nil_r. auto.
  - destruct Hy as (-> & _ & Hy). exists l, [[]]. cbn [map]. rewrite Hy, map_app. auto 6.
Qed.

Lemma deadline_app a b : deadline_checks (a ++ b) = deadline_checks a ++ deadline_checks b.
Proof. apply flat_map_app. Qed.

Lemma meta_c21 : forall g m s tr s' pairs e,
  run (meta_manage g m s) tr (s', Ok (pairs, e)) -> stays_done (deadline_checks tr) ->
  (List.length (reads tr) <= 20)%nat /\
  (forall a x b, reads tr = a ++ x :: b -> b <> [] -> exists t, heard m x = inl t /\ t <> []) /\
  let prepare := frame_of m TestPrepare [] in
  let start := frame_of m TestStart [] in
  let finalize := frame_of m TestFinalize [] in
  let interrupted := (exists x e', In x (reads tr) /\ heard m x = inr e') \/
                     In true (deadline_checks tr) in
  ((exists e', writes tr = [(prepare, Some e')] /\ reads tr = [] /\ e = Some e') \/
   (exists e', writes tr = [(prepare, None); (start, Some e')] /\ reads tr = [] /\ e = Some e') \/
   (writes tr = [(prepare, None); (start, None)] /\ interrupted /\ e <> None) \/
   (writes tr = [(prepare, None); (start, None); (finalize, e)] /\ ~ interrupted /\
    (List.length (reads tr) = 20%nat \/ exists a x, reads tr = a ++ [x] /\ heard m x = inl []))).
Proof.
  intros g m s tr s' pairs e H Hd. apply meta_manage_runs in H.
  destruct H as (x & Hx & H). injection Hx as <-.
  inversion H as [e' what Ht E|e' what Ht E|t l e' d what Hl Ht E|t l e' d what Hl Ht E|
                  t l d e' what Hl Ht E|t l d Hl Ht E]; subst; clear H.
  1,2: split; [cbn; lia|]; split; [intros [|? a] ? ? E; discriminate E|]; cbn; eauto 10.
  all: pose proof (loop_trace_facts _ _ _ _ _ _ Hl) as (F1 & F2 & F3 & F4 & F5 & F6 & F7);
    pose proof (quiet_facts _ F1) as (_ & _ & _ & _ & _ & W & _);
    match type of Hd with context [?a :: ?b :: ?t ++ ?c] =>
      set (tr := a :: b :: t ++ c) in *;
      assert (R : reads tr = reads t) by (unfold tr, reads; cbn [flat_map app]; rewrite flat_map_app; cbn; apply app_nil_r);
      assert (D : deadline_checks tr = deadline_checks t ++ deadline_checks c)
        by (unfold tr, deadline_checks; cbn [flat_map app]; apply flat_map_app);
      assert (Wr : writes tr = writes [a; b] ++ writes c)
        by (unfold tr, writes in *; cbn [flat_map app]; rewrite flat_map_app, W; reflexivity)
    end; clearbody tr; rewrite R, Wr; cbn [deadline_checks writes flat_map app] in D |- *;
    (split; [lia|]); (split;
     [intros a x b E Hb; destruct F5 as (xs & ys & E5 & Hxs & Hne & Hy);
      assert (Hin : In x xs) by
        (rewrite E5 in E; destruct ys as [|y ys];
         [rewrite app_nil_r in E; rewrite E; apply in_or_app; right; left; reflexivity|];
         destruct Hy as (-> & _);
         destruct (exists_last Hb) as (b' & z & ->);
         change (a ++ x :: b' ++ [z]) with (a ++ (x :: b') ++ [z]) in E; rewrite app_assoc in E;
         apply app_inj_tail in E; destruct E as [-> _]; apply in_or_app; right; left; reflexivity);
      apply (in_map (heard m)) in Hin; rewrite Hxs in Hin; apply in_map_iff in Hin;
      destruct Hin as (u & Hu & Hin); exists u; split; [auto|];
      apply (proj1 (Forall_forall _ _) Hne u Hin) |]); cbn zeta; rewrite D.
  - right. right. left. split; [reflexivity|]. split; [|discriminate].
    right. apply in_or_app. right. left. reflexivity.
  - right. right. left. split; [reflexivity|]. split; [|discriminate].
    left. apply F7. discriminate.
  - assert (d = false) as -> by
    (destruct d; [exfalso; destruct F6 as [F6 _]; specialize (F6 eq_refl);
       rewrite D in Hd; apply in_split in F6; destruct F6 as (a & b & E); rewrite E in Hd;
       apply (Hd a (b ++ [false])); [rewrite <- app_assoc; reflexivity|];
       apply in_or_app; right; left; reflexivity
     | reflexivity]);
    right; right; right; (split; [reflexivity|]); (split;
    [ intros [I|I];
      [ apply F7 in I; congruence
      | apply in_app_or in I; destruct I as [I|[I|[]]];
        [ apply F6 in I; discriminate | discriminate ] ]
    | destruct F5 as (xs & ys & E5 & Hxs & Hne & Hy); destruct ys as [|y ys];
      [ left; rewrite E5, app_nil_r; destruct Hy as [[? _]|(_ & _ & Hy)]; [discriminate|];
        rewrite <- Hy; transitivity (List.length (map (heard m) xs));
        [rewrite map_length; reflexivity | rewrite Hxs, map_length; reflexivity]
      | destruct Hy as (-> & _ & Hy); right; eauto ] ]).
  - assert (d = false) as -> by
    (destruct d; [exfalso; destruct F6 as [F6 _]; specialize (F6 eq_refl);
       rewrite D in Hd; apply in_split in F6; destruct F6 as (a & b & E); rewrite E in Hd;
       apply (Hd a (b ++ [false])); [rewrite <- app_assoc; reflexivity|];
       apply in_or_app; right; left; reflexivity
     | reflexivity]);
    right; right; right; (split; [reflexivity|]); (split;
    [ intros [I|I];
      [ apply F7 in I; congruence
      | apply in_app_or in I; destruct I as [I|[I|[]]];
        [ apply F6 in I; discriminate | discriminate ] ]
    | destruct F5 as (xs & ys & E5 & Hxs & Hne & Hy); destruct ys as [|y ys];
      [ left; rewrite E5, app_nil_r; destruct Hy as [[? _]|(_ & _ & Hy)]; [discriminate|];
        rewrite <- Hy; transitivity (List.length (map (heard m) xs));
        [rewrite map_length; reflexivity | rewrite Hxs, map_length; reflexivity]
      | destruct Hy as (-> & _ & Hy); right; eauto ] ]).
Qed.
