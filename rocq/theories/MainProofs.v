(** Proofs about ndt-server.go. *)
From Coq Require Import String ZArith List Bool Lia Permutation.
From Verif Require Import Base BaseFacts GoJSON Lts MainModel.
Import ListNotations.
Open Scope Z_scope.

(** ** Signals *)

Definition sigreach := reachable (fun i => i = boot) sigstep.

Definition b2n (b : bool) : nat := if b then 1 else 0.

(** What is known at each place of catchSigterm: flag, gauge, context, signals taken, channel. *)
Definition at_place (p : place) : bool * Z * bool * nat * bool :=
  match p with
  | PStart | PNotify | PFirst => (false, 0, false, 0%nat, false)
  | PFlag => (false, 0, false, 1%nat, false)
  | PGauge => (true, 0, false, 1%nat, false)
  | PSecond => (true, 1, false, 1%nat, false)
  | PCancel => (true, 1, false, 2%nat, false)
  | PClose => (true, 1, true, 2%nat, false)
  | PReturned => (true, 1, true, 2%nat, true)
  end.

Definition siginv (s : sigstate) : Prop :=
  (flag s, gauge s, done s, taken s, closed s) = at_place (pl s) /\
  (b2n (pending s) + taken s <= sent s)%nat /\
  (mn s = MClosing \/ mn s = MExited -> done s = true) /\
  (proc s = Killed -> pl s = PStart \/ pl s = PNotify) /\
  (proc s = Panicked -> closed s = true /\ (3 <= sent s)%nat) /\
  (pl s = PStart \/ pl s = PNotify -> pending s = false /\ (proc s = Alive -> sent s = 0%nat)) /\
  (proc s = Alive -> pl s = PFirst -> pending s = false -> sent s = 0%nat).

Ltac sfields := cbn [pending closed pl flag gauge done mn proc sent taken] in *.

Lemma siginv_sigterm s t : siginv s -> sigterm s t -> siginv t.
Proof.
  unfold siginv. intros (A & B & C & D & E & F & G) H; inversion H as [s0 [L1 L2] P|s0 [L1 L2] P1 P2 P3|s0 [L1 L2] P]; subst t; sfields.
  - destruct (F P) as [F1 F2]. specialize (F2 L1).
    split; [exact A|]. split; [lia|]. split; [exact C|]. split; [intros _; assumption|]. split; [discriminate|].
    split; [|discriminate]. intros _. split; [exact F1|discriminate].
  - split; [exact A|]. split; [destruct (pending s); cbn in *; lia|]. split; [exact C|]. split; [intuition congruence|]. split; [intuition congruence|].
    split; [intuition congruence|discriminate].
  - destruct (pl s) eqn:Q; cbn [at_place] in A; try (exfalso; congruence). injection A as A1 A2 A3 A4 A5.
    split; [cbn; congruence|]. split; [lia|]. split; [exact C|]. split; [discriminate|]. split; [|split; [intuition congruence|discriminate]].
    intros _. split; [assumption|]. lia.
Qed.

Lemma siginv_run1 s t : siginv s -> run1 s t -> siginv t.
Proof.
  unfold siginv. intros (A & B & C & D & E & F & G) H.
  inversion H; subst t; sfields; match goal with X : live _ |- _ => destruct X as [L1 L2] end;
    try match goal with X : pl _ = _ |- _ => rewrite X in A; cbn [at_place] in A; injection A as A1 A2 A3 A4 A5 end.
  all: split; [cbn [at_place]; congruence|].
  all: split; [try match goal with X : pending _ = true |- _ => rewrite X in B; cbn [b2n] in * end; lia|].
  all: split; [try exact C; intuition congruence|].
  all: split; [intuition congruence|].
  all: split; [intuition congruence|].
  all: split; intuition congruence.
Qed.

Lemma siginv_step s t : siginv s -> sigstep s t -> siginv t.
Proof. intros I [H|H]; [eapply siginv_sigterm|eapply siginv_run1]; eassumption. Qed.

Lemma sigreach_inv s : sigreach s -> siginv s.
Proof.
  apply invariant.
  - intros i ->. unfold siginv. cbn. intuition (try congruence; try lia).
  - exact siginv_step.
Qed.

Lemma place_facts s : sigreach s -> exists p, pl s = p /\ flag s = fst (fst (fst (fst (at_place p)))) /\ gauge s = snd (fst (fst (fst (at_place p)))) /\
  done s = snd (fst (fst (at_place p))) /\ taken s = snd (fst (at_place p)) /\ closed s = snd (at_place p).
Proof. intros R. destruct (sigreach_inv s R) as (A & _). exists (pl s). rewrite <- A. cbn. auto 10. Qed.

Lemma flag_stays s t : later sigstep s t -> siginv s -> flag s = true -> flag t = true.
Proof.
  intros L I. assert (X : siginv t /\ (flag s = true -> flag t = true)); [|apply X].
  induction L as [|a b L IH E]; [split; [exact I|auto]|]. destruct IH as [I1 I2]. split; [eapply siginv_step; eassumption|].
  intros F. specialize (I2 F). destruct I1 as (A & _).
  destruct E as [E|E]; inversion E; subst b; sfields; try exact I2; try reflexivity.
  match goal with X : pl _ = PStart |- _ => rewrite X in A; cbn in A end. congruence.
Qed.

Definition prank (p : place) : nat :=
  match p with PStart => 8 | PNotify => 7 | PFirst => 6 | PFlag => 5 | PGauge => 4 | PSecond => 3 | PCancel => 2 | PClose => 1 | PReturned => 0 end.
Definition mrank (m : mainplace) : nat := match m with MSetup => 3 | MServing => 2 | MClosing => 1 | MExited => 0 end.

Lemma run1_less s t : run1 s t -> (prank (pl t) + mrank (mn t) < prank (pl s) + mrank (mn s))%nat.
Proof.
  intros H. inversion H; subst t; sfields;
    try (match goal with X : pl _ = _ |- _ => rewrite X end; cbn; lia);
    match goal with X : mn _ = _ |- _ => rewrite X end; cbn; lia.
Qed.

(** Every schedule of the program ends; [P] holds at the end if [I], kept by every step of
    the program, and being at the end imply it. *)
Lemma run1_inevitable (I P : sigstate -> Prop) :
  (forall s t, I s -> run1 s t -> I t) -> (forall s, I s -> stuck run1 s -> P s) ->
  forall s, I s -> inevitable run1 P s.
Proof.
  intros K F. assert (X : forall n s, (prank (pl s) + mrank (mn s) < n)%nat -> I s -> inevitable run1 P s).
  { induction n as [|n IH]; intros s L H; [lia|]. constructor; [apply F, H|].
    intros t E. apply IH; [pose proof (run1_less s t E); lia|eapply K; eassumption]. }
  intros s H. apply (X (S (prank (pl s) + mrank (mn s)))); [lia|exact H].
Qed.

(** Where the program cannot go on by itself. *)
Lemma stuck_where s : siginv s -> proc s = Alive -> stuck run1 s ->
  mn s = MExited \/ (mn s = MServing /\ pending s = false /\ (pl s = PFirst \/ pl s = PSecond)).
Proof.
  intros I A K. destruct (mn s) eqn:M; [| | |left; reflexivity];
    assert (L : live s) by (split; [exact A|congruence]).
  - exfalso. eapply K, m_serve; assumption.
  - right. split; [reflexivity|]. destruct I as (H & _).
    destruct (pl s) eqn:P; cbn [at_place] in H; injection H as H1 H2 H3 H4 H5.
    + exfalso. eapply K, g_start; assumption.
    + exfalso. eapply K, g_notify; assumption.
    + destruct (pending s) eqn:Q; [exfalso; eapply K, g_first_signal; assumption|]. split; [reflexivity|left; reflexivity].
    + exfalso. eapply K, g_flag; assumption.
    + exfalso. eapply K, g_gauge; assumption.
    + destruct (pending s) eqn:Q; [exfalso; eapply K, g_second_signal; assumption|]. split; [reflexivity|right; reflexivity].
    + exfalso. eapply K, g_cancel; assumption.
    + exfalso. eapply K, m_done; assumption.
    + exfalso. eapply K, m_done; assumption.
  - exfalso. eapply K, m_exit; assumption.
Qed.

Lemma run1_alive s t : run1 s t -> proc s = Alive /\ proc t = Alive /\ sent t = sent s.
Proof. intros H. inversion H; subst t; match goal with X : live _ |- _ => destruct X as [L1 L2] end; sfields; auto. Qed.

(** One signal makes a lame duck. *)
Lemma one_signal s : sigreach s -> proc s = Alive -> (1 <= sent s)%nat ->
  inevitable run1 (fun t => flag t = true /\ gauge t = 1) s.
Proof.
  intros R A S1. apply (run1_inevitable (fun t => siginv t /\ proc t = Alive /\ (1 <= sent t)%nat)); [| |split; [apply sigreach_inv, R|split; assumption]].
  - intros a b (I & P & Q) E. split; [eapply siginv_run1; eassumption|]. destruct (run1_alive a b E) as (_ & B & C). split; [exact B|lia].
  - intros a (I & P & Q) K. destruct (stuck_where a I P K) as [M|(M & N & [W|W])]; pose proof I as (H & _ & H3 & _ & _ & _ & G).
    + assert (D : done a = true) by (apply H3; right; exact M). destruct (pl a); cbn in H; injection H as H1 H2 H4 H5 H6; try congruence; split; congruence.
    + exfalso. specialize (G P W N). lia.
    + rewrite W in H. cbn in H. injection H as H1 H2 H4 H5 H6. split; assumption.
Qed.

(** A second one, after the gauge is up, ends the program. *)
Lemma second_signal s t : sigreach s -> gauge s = 1 -> sigterm s t ->
  proc t = Panicked \/ inevitable run1 (fun u => mn u = MExited) t.
Proof.
  intros R G E. assert (Rt : siginv t) by (eapply siginv_sigterm; [apply sigreach_inv, R|exact E]).
  destruct (sigreach_inv s R) as (H & _).
  inversion E as [s0 [L1 L2] P|s0 [L1 L2] P1 P2 P3|s0 [L1 L2] P]; subst t; sfields; [|right|left; reflexivity].
  - destruct P as [P|P]; rewrite P in H; cbn in H; injection H as H1 H2 H4 H5 H6; congruence.
  - set (t := Sig _ _ _ _ _ _ _ _ _ _) in *.
    apply (run1_inevitable (fun a => siginv a /\ proc a = Alive /\ (prank (pl a) <= 3)%nat /\ (pl a = PSecond -> pending a = true))).
    + intros a b (I & P & Q & W) X. split; [eapply siginv_run1; eassumption|]. destruct (run1_alive a b X) as (_ & B & _). split; [exact B|].
      inversion X; subst b; sfields; try (rewrite ?H3 in Q; cbn in Q; lia);
        try match goal with Z : pl _ = _ |- _ => rewrite Z in *; cbn [prank] in * end; split; try lia; try discriminate; try exact W.
    + intros a (I & P & Q & W) K. destruct (stuck_where a I P K) as [M|(M & N & [Z|Z])]; [exact M|rewrite Z in Q; cbn in Q; lia|].
      specialize (W Z). congruence.
    + split; [exact Rt|]. subst t. sfields. split; [exact L1|]. destruct (pl s); cbn in *; injection H as H1 H2 H4 H5 H6; try congruence; split; lia || reflexivity || discriminate.
Qed.

(** ** Labels *)

Lemma assign_app {A} (a r : list A) x y : assign (a ++ x :: r) (List.length a) y = Some (a ++ y :: r).
Proof. induction a as [|z a IH]; cbn; [reflexivity|rewrite IH; reflexivity]. Qed.

Definition is_canary (kv : bytes * bytes) : bool := beqb (fst kv) (str "deployment") && beqb (snd kv) (str "canary").

Lemma is_canary_spec kv : is_canary kv = true <-> kv = (str "deployment", str "canary").
Proof.
  unfold is_canary. destruct kv as [k v]. cbn [fst snd]. rewrite andb_true_iff, !beqb_spec. split; [intros [-> ->]; reflexivity|intros E; injection E as -> ->; auto].
Qed.

Lemma label_loop_spec order : forall pre version,
  label_loop order (pre ++ repeat ([], []) (List.length order)) (List.length pre) version =
  Some (pre ++ order, version ++ concat (map (fun kv => if is_canary kv then str "-canary" else []) order)).
Proof.
  induction order as [|[k v] r IH]; intros pre version; cbn [label_loop repeat List.length map concat].
  - rewrite !app_nil_r. reflexivity.
  - rewrite assign_app. specialize (IH (pre ++ [(k, v)])). rewrite <- !app_assoc in IH. cbn [app] in IH.
    rewrite app_length in IH. cbn [List.length] in IH. rewrite Nat.add_1_r in IH. rewrite IH.
    change (beqb k (str "deployment") && beqb v (str "canary")) with (is_canary (k, v)).
    destruct (is_canary (k, v)); [rewrite <- app_assoc; reflexivity|reflexivity].
Qed.

Lemma canary_once order : NoDup (map fst order) ->
  concat (map (fun kv => if is_canary kv then str "-canary" else []) order) =
  if existsb is_canary order then str "-canary" else [].
Proof.
  induction order as [|kv r IH]; intros N; cbn [map concat existsb]; [reflexivity|].
  inversion N as [|x l N1 N2]; subst. rewrite (IH N2).
  destruct (is_canary kv) eqn:C; cbn [orb app]; [|reflexivity].
  destruct (existsb is_canary r) eqn:X; [|reflexivity]. exfalso. apply existsb_exists in X. destruct X as (kv' & I & C').
  apply is_canary_spec in C, C'. subst. apply N1. cbn. apply (in_map fst) in I. exact I.
Qed.

Lemma labels_spec m order version : NoDup (map fst m) -> Permutation m order ->
  exists version', parse_labels order version = Some (order, version') /\
    (In (str "deployment", str "canary") m -> version' = version ++ str "-canary") /\
    (~ In (str "deployment", str "canary") m -> version' = version).
Proof.
  intros N P. assert (N' : NoDup (map fst order)) by (eapply Permutation_NoDup; [apply Permutation_map, P|exact N]).
  eexists. split; [exact (label_loop_spec order [] version)|]. rewrite (canary_once order N').
  destruct (existsb is_canary order) eqn:X.
  - split; [reflexivity|]. intros H. exfalso. apply H. apply existsb_exists in X. destruct X as (kv & I & C).
    apply is_canary_spec in C. subst kv. eapply Permutation_in; [apply Permutation_sym, P|exact I].
  - split; [|intros _; apply app_nil_r]. intros H. exfalso.
    assert (E : existsb is_canary order = true); [|congruence]. apply existsb_exists.
    exists (str "deployment", str "canary"). split; [eapply Permutation_in; eassumption|]. apply is_canary_spec. reflexivity.
Qed.

(** ** Routing *)

Lemma unescape_slash n : forall a b p, (List.length a <= n)%nat -> path_unescape (a ++ 47 :: b) = Some p ->
  exists a' b', path_unescape a = Some a' /\ path_unescape b = Some b' /\ p = a' ++ 47 :: b'.
Proof.
  induction n as [|n IH]; intros a b p L H.
  - destruct a; [|cbn in L; lia]. cbn [app path_unescape Z.eqb Pos.eqb] in H. destruct (path_unescape b) as [b'|]; cbn in H; [|discriminate].
    injection H as <-. exists [], b'. auto.
  - destruct a as [|c a]; [apply (IH [] b p); [cbn; lia|exact H]|]. cbn [app path_unescape] in H |- *.
    destruct (Z.eqb_spec c 37) as [->|Q].
    + destruct a as [|x [|y a]]; cbn [app] in H |- *.
      * destruct b; [discriminate|]. rewrite andb_false_l in H. discriminate.
      * replace (is_hex x && is_hex 47) with false in H by (rewrite andb_comm; reflexivity). discriminate.
      * destruct (is_hex x && is_hex y); [|discriminate].
        destruct (path_unescape (a ++ 47 :: b)) as [p'|] eqn:E; cbn in H; [|discriminate]. injection H as <-.
        destruct (IH a b p') as (a' & b' & A & B & C); [cbn in L; lia|exact E|].
        exists ((hexval x * 16 + hexval y) :: a'), b'. rewrite A, B, C. auto.
    + destruct (path_unescape (a ++ 47 :: b)) as [p'|] eqn:E; cbn in H; [|discriminate]. injection H as <-.
      destruct (IH a b p') as (a' & b' & A & B & C); [cbn in L; lia|exact E|].
      exists (c :: a'), b'. rewrite A, B, C. auto.
Qed.

Lemma slashed_unslashed s : unslashed (slashed s) = 47 :: s /\ slashed s <> [].
Proof.
  induction s as [|b s [IH N]]; cbn [slashed].
  - split; [reflexivity|discriminate].
  - destruct (Z.eqb_spec b 47) as [->|Q].
    + split; [cbn [unslashed app]; rewrite IH; reflexivity|discriminate].
    + destruct (slashed s) as [|p ps]; [contradiction|]. cbn [unslashed app] in IH |- *. injection IH as IH. split; [rewrite IH; reflexivity|discriminate].
Qed.

Lemma unescape_segments l : forall p, path_unescape (unslashed l) = Some p -> p = unslashed (map segment l).
Proof.
  induction l as [|s r IH]; intros p H; [injection H as <-; reflexivity|].
  cbn [unslashed map path_unescape Z.eqb Pos.eqb] in H |- *.
  destruct (path_unescape (s ++ unslashed r)) as [q|] eqn:E; cbn in H; [|discriminate]. injection H as <-. f_equal.
  destruct r as [|s2 r].
  - cbn [unslashed map] in E |- *. rewrite app_nil_r in E |- *. unfold segment. rewrite E. reflexivity.
  - cbn [unslashed] in E. destruct (unescape_slash (List.length s) s _ _ (Nat.le_refl _) E) as (a & b & A & B & C). subst q. unfold segment at 1. rewrite A. f_equal.
    apply IH. cbn [unslashed path_unescape Z.eqb Pos.eqb]. rewrite B. reflexivity.
Qed.

Lemma seqb_spec a : forall b, seqb a b = true <-> a = b.
Proof.
  induction a as [|x a IH]; intros [|y b]; cbn; try (split; congruence).
  rewrite andb_true_iff, beqb_spec, IH. split; [intros [-> ->]; reflexivity|intros E; injection E as -> ->; auto].
Qed.

Lemma lookup_spec segs pats h : lookup segs pats = Some h -> In (segs, h) pats.
Proof.
  induction pats as [|[p h'] r IH]; cbn; [discriminate|]. destruct (seqb segs p) eqn:E.
  - apply seqb_spec in E. intros X. injection X as ->. left. congruence.
  - intros X. right. apply IH, X.
Qed.

(** A request that the mux gives to a pattern's handler has that pattern as its URL.Path. *)
Lemma route_exact m r h : request_ok r -> route m r = To h ->
  root m = Some h \/ exists segs, In (segs, h) (exact m) /\ rq_path r = unslashed segs.
Proof.
  unfold request_ok, route. intros O H.
  destruct (negb (rq_connect r) && _); [discriminate|].
  destruct (rq_escaped r) as [|b q] eqn:E; [discriminate|].
  assert (B : b = 47) by (destruct b as [|b|]; try discriminate; do 6 (destruct b; try discriminate); reflexivity). subst b.
  destruct (lookup (map segment (slashed q)) (exact m)) as [h'|] eqn:L.
  - injection H as ->. right. exists (map segment (slashed q)). split; [apply lookup_spec, L|].
    apply unescape_segments. rewrite (proj1 (slashed_unslashed q)). exact O.
  - left. destruct (root m); congruence.
Qed.

Lemma listenings_cases f l : In l (listenings f) ->
  l = ws_server f \/ l = ndt7_cleartext f \/ l = health_server f \/
  (f_cert f <> [] /\ f_key f <> [] /\ (l = wss_server f \/ l = ndt7_server f false)) \/
  ((f_cert f = [] \/ f_key f = []) /\ f_autocert f = true /\ f_hostname f <> [] /\ l = ndt7_server f true).
Proof.
  unfold listenings. intros H. apply in_app_or in H. destruct H as [[H|[H|[]]]|H]; [auto|auto|].
  apply in_app_or in H. destruct H as [H|[H|[]]]; [|auto].
  destruct (negb (beqb (f_cert f) []) && negb (beqb (f_key f) [])) eqn:C.
  - apply andb_true_iff in C. destruct C as [C1 C2]. apply negb_true_iff in C1, C2.
    assert (f_cert f <> []) by (intros X; rewrite X in C1; discriminate).
    assert (f_key f <> []) by (intros X; rewrite X in C2; discriminate).
    destruct H as [H|[H|[]]]; right; right; right; left; auto.
  - destruct (f_autocert f && negb (beqb (f_hostname f) [])) eqn:D; [|contradiction]. destruct H as [H|[]].
    apply andb_true_iff in D. destruct D as [D1 D2]. apply negb_true_iff in D2.
    right; right; right; right. split; [|split; [exact D1|split; [intros X; rewrite X in D2; discriminate|auto]]].
    apply andb_false_iff in C. destruct C as [C|C]; apply negb_false_iff in C; apply beqb_spec in C; auto.
Qed.

Lemma member_spec p l : member p l = true <-> In p l.
Proof.
  unfold member. rewrite existsb_exists. split.
  - intros (x & I & E). apply beqb_spec in E. subst. exact I.
  - intros I. exists p. split; [exact I|apply beqb_refl].
Qed.

Lemma http_server_same f a : sv_addr (http_server f a) = a /\ proto_map (http_server f a) = Some [] /\
  sv_read_timeout (http_server f a) = 60 /\ sv_write_timeout (http_server f a) = 60 /\
  next_protos (sv_tls (http_server f a)) = (if f_autocert f then [str "acme-tls/1"] else []) /\
  (min_version (sv_tls (http_server f a)) = VersionTLS13 <-> f_tls_version f = str "1.3") /\
  (min_version (sv_tls (http_server f a)) = VersionTLS12 <-> f_tls_version f = str "1.2") /\
  (f_tls_version f <> str "1.2" -> f_tls_version f <> str "1.3" -> min_version (sv_tls (http_server f a)) = 0).
Proof.
  unfold http_server. destruct (beqb (f_tls_version f) (str "1.3")) eqn:A; [apply beqb_spec in A|].
  - rewrite A. destruct (f_autocert f); cbn; intuition (try reflexivity; try congruence; try discriminate).
  - assert (A' : f_tls_version f <> str "1.3") by (intros X; rewrite X, beqb_refl in A; discriminate).
    destruct (beqb (f_tls_version f) (str "1.2")) eqn:B; [apply beqb_spec in B|].
    + rewrite B. destruct (f_autocert f); cbn; intuition (try reflexivity; try congruence; try discriminate).
    + assert (B' : f_tls_version f <> str "1.2") by (intros X; rewrite X, beqb_refl in B; discriminate).
      destruct (f_autocert f); cbn; intuition (try reflexivity; try congruence; try discriminate).
Qed.
