(** Proofs about StartModel. *)
From Coq Require Import String ZArith List Bool Lia Arith.
From Verif Require Import Base BaseFacts MainModel StartModel StartSpec Lts.
Import ListNotations.
Open Scope Z_scope.

Definition https (ts : list task) : list listening :=
  flat_map (fun t => match t with THttp l => [l] | _ => [] end) ts.
Lemma https_app a b : https (a ++ b) = https a ++ https b.
Proof. apply flat_map_app. Qed.
Lemma https_map l : https (map THttp l) = l.
Proof. induction l; cbn; [reflexivity|]. unfold https in IHl. now rewrite IHl. Qed.
Lemma https_plan f : https (plan f) = listenings f.
Proof. unfold plan. rewrite https_app, https_map. reflexivity. Qed.

(** What is true of a server. *)
Definition server_ok (r : running) : Prop :=
  (rn_go r = GFailed -> rn_open r = false) /\
  (rn_go r = GBack -> rn_open r = false /\ rn_closed r = true) /\
  (rn_go r = GEnd -> rn_open r = false /\ rn_closed r = true) /\
  (rn_go r = GNew -> rn_open r = true) /\
  (rn_go r = GServing -> rn_open r = negb (rn_closed r)) /\
  (exists b, rn_addr r = addr_after (rn_for r) b).

Definition main_ok (f : flags) (p : process) : Prop :=
  match p_main p with
  | Starting rest =>
      (exists past, plan f = past ++ rest /\ map rn_for (p_http p) = https past /\
         (In TPlain past -> p_plain p <> None) /\ (p_plain p <> None -> In TPlain past)) /\
      Forall (fun r => rn_closed r = false) (p_http p) /\ p_exit p <> Some 0
  | Waiting => map rn_for (p_http p) = listenings f /\ p_plain p <> None /\
      Forall (fun r => rn_closed r = false) (p_http p) /\ p_exit p <> Some 0
  | Closing n => map rn_for (p_http p) = listenings f /\ p_plain p <> None /\ p_done p = true /\
      (n <= List.length (p_http p))%nat /\ Forall (fun r => rn_closed r = true) (skipn n (p_http p)) /\
      Forall (fun r => rn_closed r = false) (firstn n (p_http p)) /\ p_exit p <> Some 0
  | Returned => map rn_for (p_http p) = listenings f /\ p_plain p <> None /\ p_done p = true /\
      Forall (fun r => rn_closed r = true) (p_http p) /\ p_exit p = Some 0
  end.

Definition start_inv (f : flags) (p : process) : Prop :=
  main_ok f p /\ Forall server_ok (p_http p) /\
  (p_done p = false -> p_plain p <> Some false) /\
  (p_exit p = None \/ p_exit p = Some 0 /\ p_why p = None \/
   p_exit p = Some 1 /\ exists w, p_why p = Some w /\ blame f w /\
     (forall t, w = FTask t -> exists rest, p_main p = Starting (t :: rest)) /\
     (forall l, w = FServe l -> has_failed p l)) /\
  (p_exit p = None -> p_why p = None).

Lemma Forall_mid {A} (P : A -> Prop) a x y b : Forall P (a ++ x :: b) -> P y -> Forall P (a ++ y :: b).
Proof. rewrite !Forall_app. intros [H1 H2] H. inversion H2; subst. split; [assumption|now constructor]. Qed.
Lemma Forall_at {A} (P : A -> Prop) a x b : Forall P (a ++ x :: b) -> P x.
Proof. rewrite Forall_app. intros [_ H]. now inversion H. Qed.
Lemma map_mid {A B} (g : A -> B) a x y b : g x = g y -> map g (a ++ x :: b) = map g (a ++ y :: b).
Proof. intros H. rewrite !map_app. cbn [map]. now rewrite H. Qed.
Lemma length_mid {A} (a : list A) x y b : List.length (a ++ x :: b) = List.length (a ++ y :: b).
Proof. rewrite !app_length. reflexivity. Qed.
Lemma skipn_mid {A} (P : A -> Prop) n a x y b :
  Forall P (skipn n (a ++ x :: b)) -> (P x -> P y) -> Forall P (skipn n (a ++ y :: b)).
Proof.
  intros H I. rewrite skipn_app in *. rewrite Forall_app in *. destruct H as [H1 H2]. split; [exact H1|].
  destruct (n - List.length a)%nat as [|k]; cbn [skipn] in *; [|exact H2].
  inversion H2; subst. constructor; auto.
Qed.

Lemma firstn_mid {A} (P : A -> Prop) n a x y b :
  Forall P (firstn n (a ++ x :: b)) -> (P x -> P y) -> Forall P (firstn n (a ++ y :: b)).
Proof.
  intros H I. rewrite firstn_app in *. rewrite Forall_app in *. destruct H as [H1 H2]. split; [exact H1|].
  destruct (n - List.length a)%nat as [|k]; cbn [firstn] in *; [exact H2|].
  inversion H2; subst. constructor; auto.
Qed.

(** A change of one server that keeps what it is for and does not undo Close. *)
Lemma main_ok_server f m pl h1 h2 x y d e w :
  rn_for x = rn_for y -> rn_closed x = rn_closed y ->
  main_ok f (Process m pl (h1 ++ x :: h2) d e w) -> main_ok f (Process m pl (h1 ++ y :: h2) d e w).
Proof.
  intros E C. unfold main_ok. cbn [p_main p_http p_plain p_done p_exit].
  rewrite (map_mid rn_for h1 x y h2 E), (length_mid h1 x y h2).
  assert (F : forall b, Forall (fun r => rn_closed r = b) (h1 ++ x :: h2) -> Forall (fun r => rn_closed r = b) (h1 ++ y :: h2))
    by (intros b H; eapply Forall_mid; [exact H|]; apply Forall_at in H; congruence).
  destruct m as [rest| |n|].
  - intros (H1 & H2 & H3). auto.
  - intros (H1 & H2 & H3 & H4). auto.
  - intros (H1 & H2 & H3 & H4 & H5 & H6 & H7). repeat split; try assumption.
    + eapply skipn_mid; [exact H5|congruence].
    + eapply firstn_mid; [exact H6|congruence].
  - intros (H1 & H2 & H3 & H4 & H5). auto 6.
Qed.

Lemma start_first f p : start_init f p -> start_inv f p.
Proof.
  intros ->. split.
  - unfold main_ok. cbn [p_main p_http p_plain p_exit]. split.
    + exists []. repeat split; intros []; reflexivity.
    + split; [constructor|discriminate].
  - cbn [p_http p_done p_plain p_exit p_why]. repeat split; try discriminate; auto.
Qed.

Lemma plan_in f past t rest : plan f = past ++ t :: rest -> In t (plan f).
Proof. intros ->. apply in_or_app. right. now left. Qed.
Lemma plan_listening f past l rest : plan f = past ++ THttp l :: rest -> In l (listenings f).
Proof. intros H. rewrite <- https_plan, H, https_app. apply in_or_app. right. now left. Qed.

(** Every server is one of the plan's. *)
Lemma known f p : main_ok f p -> forall r, In r (p_http p) -> In (rn_for r) (listenings f).
Proof.
  intros H r I. apply (in_map rn_for) in I. unfold main_ok in H. destruct (p_main p).
  - destruct H as ((past & E & M & _) & _). rewrite M in I. rewrite <- https_plan, E, https_app. apply in_or_app. now left.
  - destruct H as (M & _). now rewrite M in I.
  - destruct H as (M & _). now rewrite M in I.
  - destruct H as (M & _). now rewrite M in I.
Qed.

Lemma start_kept f p q : start_inv f p -> start_step f p q -> start_inv f q.
Proof.
  intros (M & F & D & X & W) [E|E].
  - destruct E.
    + split; [|split; [exact F|split; [discriminate|split; [now left|exact W]]]].
      unfold main_ok in *. cbn [p_main p_http p_plain p_done p_exit] in *.
      destruct m as [rest| |n|]; tauto.
    + split; [|split; [|split; [exact D|split; [now left|exact W]]]].
      * eapply main_ok_server; [| |exact M]; reflexivity.
      * eapply Forall_mid; [exact F|]. apply Forall_at in F. destruct F as (_ & _ & _ & _ & _ & F6).
        repeat split; try discriminate. exact F6.
  - destruct E.
    + (* a step succeeds *)
      cbn [p_http p_done p_plain p_exit p_why] in *.
      unfold main_ok in M. cbn [p_main p_http p_plain p_exit] in M. destruct M as ((past & E & Mp & P1 & P2) & C & N).
      assert (HH : map rn_for h' = https (past ++ [t]) /\ Forall (fun r => rn_closed r = false) h' /\ Forall server_ok h' /\
        (In TPlain (past ++ [t]) -> pl' <> None) /\ (pl' <> None -> In TPlain (past ++ [t])) /\ (d = false -> pl' <> Some false)).
      { rewrite https_app. destruct H.
        - cbn [https flat_map]. rewrite app_nil_r. repeat split; auto; intros; try discriminate. apply in_or_app. right. now left.
        - cbn [https flat_map]. rewrite map_app, Mp. repeat split; auto.
          + apply Forall_app. split; [exact C|repeat constructor].
          + apply Forall_app. split; [exact F|]. constructor; [|constructor]. repeat split; try discriminate. now exists bound.
          + intros I. apply in_app_or in I. destruct I as [I|[I|[]]]; [auto|discriminate].
          + intros I. apply in_or_app. left. auto.
        - destruct t; try contradiction; cbn [https flat_map]; rewrite app_nil_r; repeat split; auto.
          all: try (intros I; apply in_app_or in I; destruct I as [I|[I|[]]]; [auto|discriminate]).
          all: intros I; apply in_or_app; left; auto. }
      destruct HH as (H1 & H2 & H3 & H4 & H5 & H6).
      split; [|split; [exact H3|split; [exact H6|split; [now left|exact W]]]].
      unfold main_ok. cbn [p_main p_http p_plain p_exit]. split; [|split; [exact H2|discriminate]].
      exists (past ++ [t]). rewrite <- app_assoc. auto.
    + (* an ignored failure *)
      split; [|split; [exact F|split; [exact D|split; [now left|exact W]]]].
      unfold main_ok in *. cbn [p_main p_http p_plain p_exit] in *. destruct M as ((past & E & Mp & P1 & P2) & C & N).
      assert (t = TVerifier) as -> by (destruct t; try discriminate H; reflexivity).
      split; [|split; [exact C|discriminate]]. exists (past ++ [TVerifier]). rewrite <- app_assoc, https_app.
      cbn [https flat_map]. rewrite app_nil_r. repeat split; auto.
      * intros I. apply in_app_or in I. destruct I as [I|[I|[]]]; [auto|discriminate].
      * intros I. apply in_or_app. left. auto.
    + (* a fatal one *)
      unfold main_ok in M. cbn [p_main p_http p_plain p_exit] in M.
      split; [|split; [exact F|split; [exact D|split; [|discriminate]]]].
      * unfold main_ok. cbn [p_main p_http p_plain p_exit]. destruct M as (A & B & _). repeat split; auto. discriminate.
      * right. right. split; [reflexivity|]. exists (FTask t). split; [reflexivity|]. split; [|split].
        -- destruct M as ((past & E & _) & _). split; [eapply plan_in; eassumption|]. intros ->.
           apply orb_true_iff. exact H.
        -- intros t' [= <-]. eexists. reflexivity.
        -- discriminate.
    + (* the plan is done *)
      split; [|split; [exact F|split; [exact D|split; [now left|exact W]]]].
      unfold main_ok in *. cbn [p_main p_http p_plain p_exit] in *. destruct M as ((past & E & Mp & P1 & P2) & C & N).
      rewrite app_nil_r in E. subst past. rewrite https_plan in Mp. repeat split; auto. apply P1.
      unfold plan. right; right; right; right; now left.
    + (* the context is done *)
      split; [|split; [exact F|split; [exact D|split; [now left|exact W]]]].
      unfold main_ok in *. cbn [p_main p_http p_plain p_done p_exit] in *. destruct M as (A & B & C & N).
      repeat split; auto; [rewrite skipn_all; constructor|]. now rewrite firstn_all.
    + (* Close *)
      assert (M' := M). unfold main_ok in M. cbn [p_main p_http p_plain p_done p_exit] in M. destruct M as (A & B & C & L & K & K' & N).
      split; [|split; [|split; [exact D|split; [now left|exact W]]]].
      * unfold main_ok. cbn [p_main p_http p_plain p_done p_exit]. rewrite <- (map_mid rn_for h1 r (close_server r) h2 eq_refl).
        repeat split; auto.
        -- rewrite app_length. lia.
        -- subst n. rewrite skipn_app, skipn_all, Nat.sub_diag. cbn [skipn app]. constructor; [reflexivity|].
           rewrite skipn_app, skipn_all2, Nat.sub_succ_l, Nat.sub_diag in K by lia. exact K.
        -- subst n. rewrite firstn_app, Nat.sub_diag, firstn_all. cbn [firstn]. rewrite app_nil_r.
           rewrite firstn_app in K'. apply Forall_app in K'. destruct K' as [K' _].
           now rewrite firstn_all2 in K' by lia.
      * eapply Forall_mid; [exact F|]. apply Forall_at in F. unfold server_ok, close_server in *.
        cbn [rn_go rn_open rn_closed negb] in *. destruct F as (F1 & F2 & F3 & F4 & F5 & F6).
        destruct (rn_go r); repeat split; intros; try discriminate; try exact F6; auto; first [now apply F2|now apply F3].
    + (* main returns *)
      split; [|split; [exact F|split; [exact D|split; [right; left; split; [reflexivity|auto]|discriminate]]]].
      unfold main_ok in *. cbn [p_main p_http p_plain p_done p_exit skipn] in *. destruct M as (A & B & C & L & K & K' & N). auto.
    + (* the plain port *)
      split; [|split; [exact F|split; [discriminate|split; [now left|exact W]]]].
      unfold main_ok in *. cbn [p_main p_http p_plain p_done p_exit] in *.
      destruct m as [rest| |n|].
      * destruct M as ((past & E & Mp & P1 & P2) & C). split; [|exact C]. exists past. repeat split; auto; try (intros; discriminate).
        intros _. apply P2. discriminate.
      * destruct M as (A & B & C). repeat split; try tauto; discriminate.
      * destruct M as (A & B & C). repeat split; try tauto; discriminate.
      * destruct M as (A & B & C). repeat split; try tauto; discriminate.
    + split; [|split; [|split; [exact D|split; [now left|exact W]]]].
      * eapply main_ok_server; [| |exact M]; reflexivity.
      * eapply Forall_mid; [exact F|]. apply Forall_at in F. destruct F as (_ & _ & _ & F4 & _ & F6). cbn in F4.
        repeat split; try discriminate; [|exact F6]. intros _. cbn. auto.
    + split; [|split; [|split; [exact D|split; [now left|exact W]]]].
      * eapply main_ok_server; [| |exact M]; reflexivity.
      * eapply Forall_mid; [exact F|]. apply Forall_at in F. destruct F as (_ & _ & _ & _ & _ & F6).
        repeat split; try discriminate. exact F6.
    + split; [|split; [|split; [exact D|split; [now left|exact W]]]].
      * eapply main_ok_server; [| |exact M]; reflexivity.
      * eapply Forall_mid; [exact F|]. apply Forall_at in F. destruct F as (_ & _ & _ & _ & _ & F6).
        repeat split; try discriminate. exact F6.
    + split; [|split; [|split; [exact D|split; [now left|exact W]]]].
      * eapply main_ok_server; [| |exact M]; reflexivity.
      * eapply Forall_mid; [exact F|]. apply Forall_at in F. destruct F as (_ & _ & _ & _ & _ & F6).
        repeat split; try discriminate. exact F6.
    + split; [|split; [|split; [exact D|split; [now left|exact W]]]].
      * eapply main_ok_server; [| |exact M]; reflexivity.
      * eapply Forall_mid; [exact F|]. apply Forall_at in F. destruct F as (_ & F2 & _ & _ & _ & F6). cbn in F2.
        destruct (F2 eq_refl). repeat split; try discriminate; auto.
    + split; [|split; [exact F|split; [exact D|split; [|discriminate]]]].
      * unfold main_ok in *. cbn [p_main p_http p_plain p_done p_exit] in *.
        destruct m as [rest| |n|]; repeat split; try tauto; try discriminate. destruct M as (_ & _ & _ & _ & M). discriminate M.
      * right. right. split; [reflexivity|]. exists (FServe l). split; [reflexivity|]. split; [|split].
        -- cbn [blame]. apply (known f _ M (Running l a o c GFailed)). cbn [p_http]. apply in_or_app. right. now left.
        -- discriminate.
        -- intros l' [= <-]. exists (Running l a o c GFailed). cbn [p_http]. split; [apply in_or_app; right; now left|]. auto.
Qed.

Lemma start_holds f p : start_possible f p -> start_inv f p.
Proof. apply invariant; [exact (start_first f)|]. exact (start_kept f). Qed.

(** ** The health server is the last one *)

Lemma listenings_last f : exists front, listenings f = front ++ [health_server f] /\
  (forall l, In l front -> ls_mux l <> healthMux) /\ In (ws_server f) front.
Proof.
  unfold listenings. eexists. split; [rewrite app_assoc; reflexivity|]. split; [|now left].
  intros l H. destruct (negb _ && negb _) in H; [|destruct (f_autocert f && _) in H].
  all: cbn [app In] in H; repeat (destruct H as [<-|H]); try contradiction; discriminate.
Qed.
Lemma tail_health f past rest : plan f = past ++ rest -> rest <> [] -> In (health_server f) (https rest).
Proof.
  intros E N. destruct (listenings_last f) as (front & L & _ & _). unfold plan in E. rewrite L, map_app in E. cbn [map] in E.
  rewrite app_assoc in E. destruct (exists_last N) as (r' & x & ->). rewrite app_assoc in E.
  apply app_inj_tail in E. destruct E as [_ <-]. rewrite https_app. apply in_or_app. right. now left.
Qed.
Lemma health_front f a b : listenings f = a ++ b -> In (health_server f) a -> b = [].
Proof.
  intros E I. destruct (listenings_last f) as (front & L & D & _).
  destruct b as [|x b] using rev_ind; [reflexivity|]. exfalso. rewrite L, app_assoc in E.
  apply app_inj_tail in E. destruct E as [E <-]. rewrite E in D. apply (D (health_server f)); [|reflexivity]. apply in_or_app. now left.
Qed.
Lemma plan_done f past rest : plan f = past ++ rest -> In (health_server f) (https past) -> rest = [].
Proof.
  intros E I. destruct rest as [|t rest]; [reflexivity|]. exfalso.
  pose proof (tail_health f past (t :: rest) E ltac:(discriminate)) as T.
  pose proof (https_plan f) as H. rewrite E, https_app in H.
  rewrite (health_front f _ _ (eq_sym H) I) in T. exact T.
Qed.

Lemma open_or_failed r : server_ok r -> rn_closed r = false -> rn_open r = true \/ rn_go r = GFailed.
Proof.
  intros (F1 & F2 & F3 & F4 & F5 & _) C. destruct (rn_go r) eqn:G; auto.
  - left. rewrite F5, C; reflexivity.
  - destruct (F2 eq_refl). congruence.
  - destruct (F3 eq_refl). congruence.
Qed.

Lemma health_all f p : start_possible f p -> answering p (health_server f) ->
  map rn_for (p_http p) = listenings f /\ p_plain p <> None /\ Forall (fun r => rn_closed r = false) (p_http p) /\
  match p_main p with Starting rest => rest = [] | _ => True end.
Proof.
  intros R (AL & r & I & E & G & O). pose proof (start_holds f p R) as (M & F & D & _ & _).
  unfold alive in AL. unfold main_ok in M.
  assert (NC : rn_closed r = false).
  { rewrite Forall_forall in F. destruct (F r I) as (_ & _ & _ & _ & F5 & _). rewrite (F5 G) in O. now destruct (rn_closed r). }
  destruct (p_main p) as [rest| |n|].
  - destruct M as ((past & P & Mp & P1 & P2) & C & _).
    assert (rest = []) as ->.
    { eapply plan_done; [exact P|]. rewrite <- Mp, <- E. now apply in_map. }
    rewrite app_nil_r in P. subst past. rewrite https_plan in Mp. repeat split; auto. apply P1.
    unfold plan. right; right; right; right; now left.
  - destruct M as (A & B & C & _). auto.
  - destruct M as (A & B & C & L & K & K' & _). split; [exact A|]. split; [exact B|]. split; [|exact Logic.I].
    assert (n = List.length (p_http p)) as ->.
    { destruct (le_lt_eq_dec _ _ L) as [L'|L']; [|exact L']. exfalso.
      rewrite <- (firstn_skipn n (p_http p)) in A, I. rewrite map_app in A.
      destruct (skipn n (p_http p)) as [|x rest] eqn:S.
      { apply (f_equal (@List.length _)) in S. rewrite skipn_length in S. cbn in S. lia. }
      apply in_app_or in I. destruct I as [I|I].
      - apply (in_map rn_for) in I. rewrite E in I. apply (health_front f _ _ (eq_sym A)) in I. discriminate I.
      - rewrite Forall_forall in K. rewrite (K r I) in NC. discriminate NC. }
    now rewrite firstn_all in K'.
  - destruct M as (_ & _ & _ & _ & M). congruence.
Qed.

Lemma in_for f p l : map rn_for (p_http p) = listenings f -> In l (listenings f) -> exists r, In r (p_http p) /\ rn_for r = l.
Proof. intros <- I. apply in_map_iff in I. destruct I as (r & E & I). eauto. Qed.

Lemma health_listens f p : start_possible f p -> answering p (health_server f) ->
  (p_done p = false -> plain_listens p) /\ forall l, In l (listenings f) -> listens p l \/ has_failed p l.
Proof.
  intros R H. destruct (health_all f p R H) as (A & B & C & _). pose proof (start_holds f p R) as (_ & F & D & _ & _).
  destruct H as (AL & _). split.
  - intros N. specialize (D N). split; [exact AL|]. destruct (p_plain p) as [[|]|]; congruence.
  - intros l I. destruct (in_for f p l A I) as (r & J & E). rewrite Forall_forall in F, C.
    destruct (open_or_failed r (F r J) (C r J)); [left|right].
    + split; [exact AL|eauto].
    + exists r. auto.
Qed.

(** Once the health server was started no step of the plan is left. *)
Lemma over_kept f p q : start_inv f p -> start_step f p q -> (forall t r, p_main p <> Starting (t :: r)) ->
  (forall t r, p_main q <> Starting (t :: r)).
Proof.
  intros _ [E|E]; destruct E; cbn [p_main]; intros Z t' r'; try exact (Z t' r'); try discriminate.
  all: intros _; eapply Z; reflexivity.
Qed.
Lemma over_later f p q : start_possible f p -> later (start_step f) p q -> (forall t r, p_main p <> Starting (t :: r)) ->
  forall t r, p_main q <> Starting (t :: r).
Proof.
  intros R L H. assert (G : start_possible f q /\ forall t r, p_main q <> Starting (t :: r)); [|exact (proj2 G)].
  induction L as [|q u L IH S]; [auto|]. destruct IH as [IR IH]. split; [eapply reachable_step; eauto|].
  eapply over_kept; [apply start_holds; exact IR|exact S|exact IH].
Qed.
Lemma started_stays f p q t : start_possible f p -> answering p (health_server f) -> later (start_step f) p q ->
  ~ died q (FTask t).
Proof.
  intros R H L [X W]. destruct (health_all f p R H) as (_ & _ & _ & M).
  pose proof (reachable_later (start_init f) (start_step f) p q R L) as R'.
  destruct (start_holds f q R') as (_ & _ & _ & Y & _). rewrite X in Y.
  destruct Y as [Y|[[Y _]|(_ & w & W' & _ & B & _)]]; try discriminate. rewrite W in W'. injection W' as <-.
  destruct (B t eq_refl) as (rest & E). refine (over_later f p q R L _ t rest E). intros t' r' E'. rewrite E' in M. discriminate M.
Qed.

(** ** Ends *)

Lemma exits f p : start_possible f p -> p_exit p <> None ->
  (p_exit p = Some 0 /\ p_why p = None /\ p_done p = true /\ map rn_for (p_http p) = listenings f /\
     Forall (fun r => rn_closed r = true) (p_http p)) \/
  exists w, died p w /\ blame f w.
Proof.
  intros R N. destruct (start_holds f p R) as (M & _ & _ & [X|[[X W]|(X & w & W & B & _)]] & _); [congruence| |].
  - left. unfold main_ok in M. rewrite X in M. destruct (p_main p); try (exfalso; tauto).
    destruct M as (A & _ & C & D & _). auto.
  - right. exists w. split; [split; assumption|exact B].
Qed.

Definition main_rank (f : flags) (m : main_at) : nat :=
  match m with
  | Starting rest => List.length (listenings f) + 3 + 5 * List.length rest
  | Waiting => List.length (listenings f) + 2
  | Closing n => n + 1
  | Returned => 0
  end.
Definition go_rank (r : running) : nat :=
  match rn_go r with GNew => 3 | GServing => 2 | GFailed | GBack => 1 | GEnd => 0 end.
Definition gos (h : list running) : nat := list_sum (map go_rank h).
Definition start_rank (f : flags) (p : process) : nat :=
  match p_exit p with
  | Some _ => 0
  | None => S (main_rank f (p_main p) + (match p_plain p with Some true => 1 | _ => 0 end) + gos (p_http p))
  end.

Lemma gos_app a b : gos (a ++ b) = (gos a + gos b)%nat.
Proof. unfold gos. now rewrite map_app, list_sum_app. Qed.
Lemma gos_cons r b : gos (r :: b) = (go_rank r + gos b)%nat.
Proof. reflexivity. Qed.

Lemma start_falls f p q : start_inv f p -> start_sys f p q -> (start_rank f q < start_rank f p)%nat.
Proof.
  intros (M & _) E. destruct E; unfold start_rank; cbn [p_exit p_main p_plain p_http main_rank List.length];
    rewrite ?gos_app, ?gos_cons; cbn [go_rank rn_go close_server]; try lia.
  - destruct H; rewrite ?gos_app, ?gos_cons; cbn [go_rank rn_go started]; try lia.
    change (gos []) with 0%nat. destruct pl as [[|]|]; lia.
  - unfold main_ok in M. cbn [p_main p_http] in M. destruct M as (A & _).
    apply (f_equal (@List.length _)) in A. rewrite map_length in A. lia.
  - unfold go_rank, close_server. cbn [rn_go]. lia.
Qed.

Lemma rank_inevitable {S} (step : S -> S -> Prop) (I P : S -> Prop) (rank : S -> nat) :
  (forall s t, I s -> step s t -> I t) -> (forall s t, I s -> step s t -> (rank t < rank s)%nat) ->
  (forall s, I s -> stuck step s -> P s) -> forall s, I s -> inevitable step P s.
Proof.
  intros K D F s. remember (rank s) as n eqn:E. revert s E.
  induction n as [n IH] using lt_wf_ind. intros s E H. constructor; [exact (F s H)|].
  intros t T. apply (IH (rank t)); [|reflexivity|exact (K s t H T)]. subst n. exact (D s t H T).
Qed.

Lemma sys_possible f p q : start_possible f p -> start_sys f p q -> start_possible f q.
Proof. intros R E. eapply reachable_step; [exact R|right; exact E]. Qed.
Lemma sys_done f p q : start_sys f p q -> p_done q = p_done p.
Proof. intros E. destruct E; reflexivity. Qed.

Ltac split_at I := apply in_split in I; destruct I as (h1 & h2 & I).

(** What it means that nothing can go on, in a live process. *)
Lemma quiet f p : start_possible f p -> stuck (start_sys f) p -> p_exit p = None ->
  p_done p = false /\ p_main p = Waiting /\ p_plain p = Some true /\ map rn_for (p_http p) = listenings f /\
  forall r, In r (p_http p) -> rn_go r = GServing /\ rn_open r = true.
Proof.
  intros R Q X. pose proof (start_holds f p R) as (M & F & D & _ & _).
  destruct p as [m pl h d e w]. cbn [p_exit p_done p_main p_plain p_http] in *. subst e.
  assert (m = Waiting /\ d = false) as [-> ->].
  { destruct m as [[|t rest]| |[|n]|].
    - exfalso. eapply Q. apply ss_wait.
    - exfalso. destruct t.
      1-4: eapply Q; apply ss_ok, su_other; exact Logic.I.
      + eapply Q. apply ss_ok, su_plain.
      + eapply Q. apply ss_ok, (su_http _ []).
    - destruct d; [|auto]. exfalso. eapply Q. apply ss_done.
    - exfalso. eapply Q. apply ss_exit.
    - exfalso. unfold main_ok in M. cbn [p_main p_http] in M. destruct M as (_ & _ & _ & L & _).
      assert (L' : (n < List.length h)%nat) by lia. 
      destruct (nth_error h n) as [r|] eqn:E; [|apply nth_error_None in E; lia].
      apply nth_error_split in E. destruct E as (h1 & h2 & -> & E). eapply Q. apply ss_close. exact E.
    - unfold main_ok in M. cbn [p_main p_exit] in M. destruct M as (_ & _ & _ & _ & M). discriminate M. }
  unfold main_ok in M. cbn [p_main p_http p_plain] in M. destruct M as (A & B & C & _).
  repeat split; auto.
  - specialize (D eq_refl). destruct pl as [[|]|]; congruence.
  - rewrite Forall_forall in F, C. destruct (F r H) as (F1 & F2 & F3 & F4 & F5 & _). specialize (C r H).
    destruct r as [l a o c g]. cbn [rn_go rn_open rn_closed] in *. subst c. split_at H. subst h. destruct g.
    + exfalso. eapply Q. apply ss_serve.
    + reflexivity.
    + exfalso. eapply Q. apply ss_dies.
    + destruct (F2 eq_refl). discriminate.
    + destruct (F3 eq_refl). discriminate.
  - rewrite Forall_forall in F, C. destruct (F r H) as (F1 & F2 & F3 & F4 & F5 & _). specialize (C r H).
    destruct r as [l a o c g]. cbn [rn_go rn_open rn_closed] in *. subst c. split_at H. subst h. destruct g.
    + auto.
    + auto.
    + exfalso. eapply Q. apply ss_dies.
    + destruct (F2 eq_refl). discriminate.
    + destruct (F3 eq_refl). discriminate.
Qed.

Lemma comes_up f p : start_possible f p -> p_done p = false ->
  inevitable (start_sys f) (fun q => up f q \/ exists w, died q w /\ blame f w) p.
Proof.
  intros R D. apply (rank_inevitable _ (fun q => start_possible f q /\ p_done q = false) _ (start_rank f)); [| | |auto].
  - intros s t [H1 H2] E. split; [eapply sys_possible; eauto|]. rewrite (sys_done _ _ _ E). exact H2.
  - intros s t [H1 _]. apply start_falls, start_holds, H1.
  - intros s [H1 H2] Q. destruct (p_exit s) eqn:X.
    + destruct (exits f s H1 ltac:(congruence)) as [(_ & _ & H & _)|H]; [congruence|]. auto.
    + left. destruct (quiet f s H1 Q X) as (_ & B & C & A & G). split; [split; assumption|]. split; [exact B|].
      intros l I. destruct (in_for f s l A I) as (r & J & E). split; [exact X|]. exists r.
      destruct (G r J). auto.
Qed.

Lemma goes_down f p : start_possible f p -> p_done p = true ->
  inevitable (start_sys f) (fun q => p_exit q = Some 0 \/ exists w, died q w /\ blame f w) p.
Proof.
  intros R D. apply (rank_inevitable _ (fun q => start_possible f q /\ p_done q = true) _ (start_rank f)); [| | |auto].
  - intros s t [H1 H2] E. split; [eapply sys_possible; eauto|]. rewrite (sys_done _ _ _ E). exact H2.
  - intros s t [H1 _]. apply start_falls, start_holds, H1.
  - intros s [H1 H2] Q. destruct (p_exit s) eqn:X.
    + destruct (exits f s H1 ltac:(congruence)) as [(Y & _)|H]; [|auto]. left. congruence.
    + destruct (quiet f s H1 Q X) as (B & _). congruence.
Qed.

Lemma failed_kept f p q l : has_failed p l -> start_sys f p q -> has_failed q l.
Proof.
  intros (r & I & E & G) S. destruct S; cbn [p_http] in I; unfold has_failed; cbn [p_http].
  all: try (exists r; auto; fail).
  - exists r. split; [|auto]. destruct H; auto. apply in_or_app. now left.
  - apply in_app_or in I. destruct I as [I|[I|I]].
    + exists r. split; [apply in_or_app; now left|auto].
    + subst. exists (close_server r). split; [apply in_or_app; right; now left|auto].
    + exists r. split; [apply in_or_app; right; now right|auto].
  - apply in_app_or in I. destruct I as [I|[I|I]]; [|subst r; cbn in G; discriminate|].
    all: exists r; split; [apply in_or_app; cbn [In]; auto|auto].
  - apply in_app_or in I. destruct I as [I|[I|I]]; [|subst r; cbn in G; discriminate|].
    all: exists r; split; [apply in_or_app; cbn [In]; auto|auto].
  - apply in_app_or in I. destruct I as [I|[I|I]]; [|subst r; cbn in G; discriminate|].
    all: exists r; split; [apply in_or_app; cbn [In]; auto|auto].
  - apply in_app_or in I. destruct I as [I|[I|I]]; [|subst r; cbn in G; discriminate|].
    all: exists r; split; [apply in_or_app; cbn [In]; auto|auto].
  - apply in_app_or in I. destruct I as [I|[I|I]]; [|subst r; cbn in G; discriminate|].
    all: exists r; split; [apply in_or_app; cbn [In]; auto|auto].
Qed.

Lemma failure_ends f p l : start_possible f p -> p_done p = false -> has_failed p l ->
  inevitable (start_sys f) (fun q => exists w, died q w /\ blame f w) p.
Proof.
  intros R D H.
  apply (rank_inevitable _ (fun q => start_possible f q /\ p_done q = false /\ has_failed q l) _ (start_rank f)); [| | |auto].
  - intros s t (H1 & H2 & H3) E. split; [eapply sys_possible; eauto|]. rewrite (sys_done _ _ _ E).
    split; [exact H2|eapply failed_kept; eauto].
  - intros s t [H1 _]. apply start_falls, start_holds, H1.
  - intros s (H1 & H2 & r & I & _ & G) Q. destruct (p_exit s) eqn:X.
    + destruct (exits f s H1 ltac:(congruence)) as [(_ & _ & Y & _)|Y]; [congruence|exact Y].
    + destruct (quiet f s H1 Q X) as (_ & _ & _ & _ & Y). destruct (Y r I). congruence.
Qed.

(** A server that was up closes cleanly. *)
Definition clean (p : process) : Prop :=
  (match p_main p with Starting _ => False | _ => True end) /\ p_exit p <> Some 1 /\
  forall r, In r (p_http p) -> rn_go r = GServing \/ rn_go r = GBack \/ rn_go r = GEnd.
Lemma clean_kept f p q : clean p -> start_sys f p q -> clean q.
Proof.
  intros (A & B & C) E. destruct E; cbn [clean p_main p_exit p_http] in *; try contradiction.
  all: unfold clean; cbn [p_main p_exit p_http] in *; try (repeat split; auto; discriminate).
  all: try (exfalso; destruct (C _ (in_elt _ _ _)) as [Y|[Y|Y]]; discriminate Y).
  all: split; [exact A|]; split; [discriminate|]; intros r' I; try (apply C; exact I).
  all: pose proof (C _ (in_elt _ _ _)) as Y; cbn [rn_go] in Y.
  all: apply in_app_or in I; destruct I as [I|[I|I]]; try (apply C; apply in_or_app; cbn [In]; auto; fail).
  all: subst r'; cbn [rn_go close_server]; auto.
Qed.
Lemma clean_end f p : start_possible f p -> p_done p = true -> p_main p = Waiting ->
  (forall l, In l (listenings f) -> answering p l) -> (forall r, In r (p_http p) -> rn_go r = GServing) ->
  inevitable (start_sys f) (fun q => p_exit q = Some 0) p.
Proof.
  intros R D M A G.
  apply (rank_inevitable _ (fun q => start_possible f q /\ p_done q = true /\ clean q) _ (start_rank f)).
  - intros s t (H1 & H2 & H3) E. split; [eapply sys_possible; eauto|]. rewrite (sys_done _ _ _ E).
    split; [exact H2|eapply clean_kept; eauto].
  - intros s t [H1 _]. apply start_falls, start_holds, H1.
  - intros s (H1 & H2 & H3) Q. destruct (p_exit s) eqn:X.
    + destruct (exits f s H1 ltac:(congruence)) as [(Y & _)|(w & [Y _] & _)]; [congruence|]. destruct H3 as (_ & H3 & _). congruence.
    + destruct (quiet f s H1 Q X) as (B & _). congruence.
  - split; [exact R|]. split; [exact D|]. split; [rewrite M; exact Logic.I|]. split; [|auto].
    destruct (A (ws_server f)) as [AL _]; [now left|]. unfold alive in AL. congruence.
Qed.

(** ** The plain port before the websocket port *)

Lemma window f p : start_possible f p -> plain_listens p -> p_done p = false ->
  listens p (ws_server f) \/ has_failed p (ws_server f) \/
  exists rest, p_main p = Starting rest /\ In (THttp (ws_server f)) rest.
Proof.
  intros R (AL & _) D. pose proof (start_holds f p R) as (M & F & _ & _ & _). unfold main_ok in M.
  assert (G : In (ws_server f) (map rn_for (p_http p)) -> Forall (fun r => rn_closed r = false) (p_http p) ->
    listens p (ws_server f) \/ has_failed p (ws_server f)).
  { intros I C. apply in_map_iff in I. destruct I as (r & E & I). rewrite Forall_forall in F, C.
    destruct (open_or_failed r (F r I) (C r I)); [left|right]; [split; [exact AL|eauto]|exists r; auto]. }
  assert (W : In (ws_server f) (listenings f)) by now left.
  destruct (p_main p) as [rest| |n|].
  - destruct M as ((past & P & Mp & _) & C & _). rewrite <- https_plan, P, https_app in W.
    apply in_app_or in W. destruct W as [W|W].
    + rewrite <- Mp in W. destruct (G W C); auto.
    + right. right. exists rest. split; [reflexivity|]. unfold https in W. apply in_flat_map in W.
      destruct W as (t & I & W). destruct t; try contradiction. destruct W as [->|[]]. exact I.
  - destruct M as (A & _ & C & _). rewrite <- A in W. destruct (G W C); auto.
  - destruct M as (_ & _ & M & _). congruence.
  - destruct M as (_ & _ & M & _). congruence.
Qed.

Lemma forward_addr f p r : start_possible f p -> has_suffix (str ":0") (f_ndt5_ws f) = false ->
  In r (p_http p) -> rn_for r = ws_server f -> rn_addr r = forward_to f.
Proof.
  intros R S I E. pose proof (start_holds f p R) as (_ & F & _). rewrite Forall_forall in F.
  destruct (F r I) as (_ & _ & _ & _ & _ & b & B). rewrite B, E. unfold addr_after, forward_to, ws_server.
  cbn [ls_server http_server sv_addr]. unfold http_server. cbn [sv_addr]. now rewrite S, andb_false_r.
Qed.

(** ** A process that comes up *)

Lemma start_all f b pl d ls : forall h,
  later (start_step f) (Process (Starting (map THttp ls)) pl h d None None)
    (Process (Starting []) pl (h ++ map (fun l => started l b) ls) d None None).
Proof.
  induction ls as [|l ls IH]; intros h; cbn [map]; [rewrite app_nil_r; constructor|].
  eapply later_front; [right; apply ss_ok, (su_http l b)|].
  specialize (IH (h ++ [started l b])). rewrite <- app_assoc in IH. exact IH.
Qed.
Lemma start_plain f : later (start_step f) (Process (Starting (plan f)) None [] false None None)
  (Process (Starting (map THttp (listenings f))) (Some true) [] false None None).
Proof.
  unfold plan. cbn [app].
  do 4 (eapply later_front; [right; apply ss_ok, su_other; exact Logic.I|]).
  eapply later_front; [right; apply ss_ok, su_plain|]. constructor.
Qed.
Definition serving (b : bytes) (l : listening) : running := Running l (addr_after l b) true false GServing.
Lemma serve_all f b m pl d ls : forall h,
  later (start_step f) (Process m pl (h ++ map (fun l => started l b) ls) d None None)
    (Process m pl (h ++ map (serving b) ls) d None None).
Proof.
  induction ls as [|l ls IH]; intros h; cbn [map]; [constructor|].
  eapply later_front; [right; apply ss_serve|]. fold (serving b l).
  specialize (IH (h ++ [serving b l])). rewrite <- !app_assoc in IH. exact IH.
Qed.
Definition up_state (f : flags) (b : bytes) : process :=
  Process Waiting (Some true) (map (serving b) (listenings f)) false None None.
Lemma up_state_up f b : up f (up_state f b).
Proof.
  split; [split; reflexivity|]. split; [reflexivity|]. intros l I. split; [reflexivity|].
  exists (serving b l). split; [now apply in_map|]. repeat split.
Qed.
Definition plain_state (f : flags) : process :=
  Process (Starting (map THttp (listenings f))) (Some true) [] false None None.
Lemma plain_possible f : start_possible f (plain_state f).
Proof. eexists. split; [reflexivity|apply start_plain]. Qed.
Lemma plain_up f b : later (start_step f) (plain_state f) (up_state f b).
Proof.
  eapply later_trans; [apply (start_all f b _ _ _ [])|]. eapply later_front; [right; apply ss_wait|].
  exact (serve_all f b Waiting (Some true) false (listenings f) []).
Qed.
Lemma up_possible f b : start_possible f (up_state f b).
Proof. eapply reachable_later; [apply plain_possible|apply plain_up]. Qed.
