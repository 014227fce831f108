(** Properties C48 to C51, C62 and C63: the server program. *)
From Coq Require Import String ZArith List Bool Lia Permutation.
From Verif Require Import Base BaseFacts Lts MainModel MainProofs.
Import ListNotations.
Open Scope Z_scope.

(** What the program can be after any timing of SIGTERMs and any schedule. *)
Definition possible (s : sigstate) : Prop := reachable (fun i => i = boot) sigstep s.

(** ** C48 *)

(** The health endpoint says 200 as long as no SIGTERM was sent; once it says 500 it always
    will; and a SIGTERM that does not end the process makes it say so, with the gauge up,
    whatever the schedule. *)
Theorem C48_health : forall s, possible s ->
  (health s = 200 \/ health s = 500) /\
  (sent s = 0%nat -> health s = 200) /\
  (health s = 500 -> forall t, later sigstep s t -> health t = 500) /\
  (proc s = Alive -> (1 <= sent s)%nat -> inevitable run1 (fun t => health t = 500 /\ gauge t = 1) s).
Proof.
  intros s R. pose proof (sigreach_inv s R) as I. unfold health. split; [destruct (flag s); auto|]. split; [|split].
  - intros Z. destruct I as (A & B & _). destruct (pl s); cbn in A; injection A as A1 A2 A3 A4 A5; rewrite A1; try reflexivity; lia.
  - intros F t L. destruct (flag s) eqn:E; [|discriminate]. rewrite (flag_stays s t L I E). reflexivity.
  - intros A S1. pose proof (one_signal s R A S1) as H. clear R I A S1. induction H as [s H1 H2 IH]. constructor.
    + intros K. destruct (H1 K) as [X Y]. rewrite X. split; [reflexivity|exact Y].
    + exact IH.
Qed.
Print Assumptions C48_health.

Definition signalled : sigstate := Sig true false PFirst false 0 false MServing Alive 1 0.
Lemma signalled_possible : possible signalled.
Proof.
  eapply reachable_step; [|left; apply (t_send (Sig false false PFirst false 0 false MServing Alive 0 0)); [split; [reflexivity|discriminate]|discriminate|discriminate|reflexivity]].
  eapply reachable_step; [|right; apply (m_serve (Sig false false PFirst false 0 false MSetup Alive 0 0)); [split; [reflexivity|discriminate]|reflexivity]].
  eapply reachable_step; [|right; apply (g_notify (Sig false false PNotify false 0 false MSetup Alive 0 0)); [split; [reflexivity|discriminate]|reflexivity]].
  eapply reachable_step; [|right; apply (g_start boot); [split; [reflexivity|discriminate]|reflexivity]].
  apply reachable_init. reflexivity.
Qed.
Example C48_health_example : possible signalled /\ proc signalled = Alive /\ (1 <= sent signalled)%nat /\ health signalled = 200.
Proof. split; [exact signalled_possible|repeat split; cbn; lia]. Qed.

(** The gauge is 0 or 1; it is 1 only when the health endpoint says 500, and the converse
    fails only between the two assignments of setLameDuck. *)
Theorem C48_gauge : forall s, possible s ->
  (gauge s = 0 \/ gauge s = 1) /\
  (gauge s = 1 -> health s = 500) /\
  (health s = 500 -> gauge s = 1 \/ pl s = PGauge).
Proof.
  intros s R. destruct (sigreach_inv s R) as (A & _). unfold health.
  destruct (pl s); cbn in A; injection A as A1 A2 A3 A4 A5; rewrite A1, A2; intuition (try discriminate).
Qed.
Print Assumptions C48_gauge.

Definition between : sigstate := Sig false false PGauge true 0 false MServing Alive 1 1.
Lemma between_possible : possible between.
Proof.
  eapply reachable_step; [|right; apply (g_flag (Sig false false PFlag false 0 false MServing Alive 1 1)); [split; [reflexivity|discriminate]|reflexivity]].
  eapply reachable_step; [exact signalled_possible|right; apply (g_first_signal signalled); [split; [reflexivity|discriminate]|reflexivity|reflexivity]].
Qed.

(** They do not agree at every moment. *)
Theorem C48_gauge_always_agrees_refuted : exists s, possible s /\ health s = 500 /\ gauge s = 0.
Proof. exists between. split; [exact between_possible|split; reflexivity]. Qed.
Print Assumptions C48_gauge_always_agrees_refuted.

(** The server does not begin to shut down before two SIGTERMs were sent. *)
Theorem C48_two_needed : forall s, possible s ->
  done s = true \/ mn s = MClosing \/ mn s = MExited -> (2 <= sent s)%nat.
Proof.
  intros s R H. destruct (sigreach_inv s R) as (A & B & C & _).
  assert (D : done s = true) by (destruct H as [H|H]; [exact H|apply C, H]).
  destruct (pl s); cbn in A; injection A as A1 A2 A3 A4 A5; try congruence; lia.
Qed.
Print Assumptions C48_two_needed.

(** If the gauge is up, one more SIGTERM ends the program (or, see C62, crashes it). *)
Theorem C48_two_enough : forall s t, possible s -> gauge s = 1 -> sigterm s t ->
  proc t = Panicked \/ inevitable run1 (fun u => mn u = MExited) t.
Proof. exact second_signal. Qed.
Print Assumptions C48_two_enough.

Definition lame : sigstate := Sig false false PSecond true 1 false MServing Alive 1 1.
Lemma lame_possible : possible lame.
Proof. eapply reachable_step; [exact between_possible|right; apply (g_gauge between); [split; [reflexivity|discriminate]|reflexivity]]. Qed.
Example C48_two_enough_example : exists t, possible lame /\ gauge lame = 1 /\ sigterm lame t /\ proc t = Alive.
Proof.
  eexists. split; [exact lame_possible|]. split; [reflexivity|]. split; [apply t_send; [split; [reflexivity|discriminate]|discriminate|discriminate|reflexivity]|reflexivity].
Qed.

(** Two SIGTERMs are not enough if the second comes before the first was taken. *)
Theorem C48_two_always_enough_refuted : exists s, possible s /\ sent s = 2%nat /\
  proc s = Alive /\ stuck run1 s /\ mn s = MServing /\ done s = false.
Proof.
  exists (Sig false false PSecond true 1 false MServing Alive 2 1). split.
  - eapply reachable_step; [|right; apply (g_gauge (Sig false false PGauge true 0 false MServing Alive 2 1)); [split; [reflexivity|discriminate]|reflexivity]].
    eapply reachable_step; [|right; apply (g_flag (Sig false false PFlag false 0 false MServing Alive 2 1)); [split; [reflexivity|discriminate]|reflexivity]].
    eapply reachable_step; [|right; apply (g_first_signal (Sig true false PFirst false 0 false MServing Alive 2 0)); [split; [reflexivity|discriminate]|reflexivity|reflexivity]].
    eapply reachable_step; [exact signalled_possible|left; apply (t_send signalled); [split; [reflexivity|discriminate]|discriminate|discriminate|reflexivity]].
  - split; [reflexivity|]. split; [reflexivity|]. split; [|split; reflexivity].
    intros t H. inversion H; subst; cbn in *; discriminate.
Qed.
Print Assumptions C48_two_always_enough_refuted.

(** ** C62 *)

(** The process dies otherwise than by its own exit only if a SIGTERM comes before its
    handler is installed or if at least three come. *)
Theorem C62_abnormal : forall s, possible s -> proc s <> Alive ->
  (taken s = 0%nat /\ (pl s = PStart \/ pl s = PNotify)) \/ (3 <= sent s)%nat.
Proof.
  intros s R H. destruct (sigreach_inv s R) as (A & B & C & D & E & _). destruct (proc s) eqn:P; [contradiction| |].
  - left. specialize (D eq_refl). split; [|exact D]. destruct D as [D|D]; rewrite D in A; cbn in A; injection A as A1 A2 A3 A4 A5; assumption.
  - right. apply E. reflexivity.
Qed.
Print Assumptions C62_abnormal.

(** A third SIGTERM while the server shuts down crashes it. *)
Theorem C62_clean_shutdown_refuted : exists s, possible s /\ sent s = 3%nat /\ mn s = MClosing /\ proc s = Panicked.
Proof.
  eexists. split; [|repeat split; shelve].
  eapply reachable_step; [|left; apply (t_panic (Sig false true PReturned true 1 true MClosing Alive 2 2)); [split; [reflexivity|discriminate]|reflexivity]].
  eapply reachable_step; [|right; apply (m_done (Sig false true PReturned true 1 true MServing Alive 2 2)); [split; [reflexivity|discriminate]|reflexivity|reflexivity]].
  eapply reachable_step; [|right; apply (g_close (Sig false false PClose true 1 true MServing Alive 2 2)); [split; [reflexivity|discriminate]|reflexivity]].
  eapply reachable_step; [|right; apply (g_cancel (Sig false false PCancel true 1 false MServing Alive 2 2)); [split; [reflexivity|discriminate]|reflexivity]].
  eapply reachable_step; [|right; apply (g_second_signal (Sig true false PSecond true 1 false MServing Alive 2 1)); [split; [reflexivity|discriminate]|reflexivity|reflexivity]].
  eapply reachable_step; [exact lame_possible|left; apply (t_send lame); [split; [reflexivity|discriminate]|discriminate|discriminate|reflexivity]].
  Unshelve. all: reflexivity.
Qed.
Print Assumptions C62_clean_shutdown_refuted.

(** ** C49 *)

(** Whatever the order in which the map of labels is iterated: no crash, the metadata is the
    set of labels, and the version gets its suffix iff deployment=canary is among them. *)
Theorem C49_labels : forall labels order version,
  NoDup (map fst labels) -> Permutation labels order ->
  exists metadata version', parse_labels order version = Some (metadata, version') /\
    Permutation labels metadata /\
    (In (str "deployment", str "canary") labels -> version' = version ++ str "-canary") /\
    (~ In (str "deployment", str "canary") labels -> version' = version).
Proof.
  intros m o v N P. destruct (labels_spec m o v N P) as (v' & A & B & C). exists o, v'. auto.
Qed.
Print Assumptions C49_labels.

Example C49_labels_example :
  let labels := [(str "deployment", str "canary"); (str "machine-type", str "virtual")] in
  NoDup (map fst labels) /\ parse_labels (rev labels) (str "v0.20") = Some (rev labels, str "v0.20-canary").
Proof. split; [|reflexivity]. constructor; [cbn; intros [H|[]]; discriminate|constructor; [intros []|constructor]]. Qed.

(** ** C50 *)

(** A measurement is never reached around the access controller, however the request's path
    is written: the ndt7 tests on any port need the token controller's consent and the
    download also the tx controller's; the ndt5 test needs both on the TLS port. *)
Theorem C50_guarded : forall f l r token_ok tx_ok h, In l (listenings f) -> request_ok r ->
  serve l token_ok tx_ok r = Answered (To h) ->
  (h = Ndt7Download -> token_ok = true /\ tx_ok = true) /\
  (h = Ndt7Upload -> token_ok = true) /\
  (h = Ndt5 -> ls_cert l <> Cleartext -> token_ok = true /\ tx_ok = true).
Proof.
  intros f l r tk tx h I O S. unfold serve in S. destruct (admits (ls_access l) tk tx (rq_path r)) eqn:A; [|discriminate].
  injection S as S. pose proof (route_exact (ls_mux l) r h O S) as E.
  assert (M : forall m, h <> Files -> ls_mux l = m -> root m = Some Files \/ root m = None -> exists segs, In (segs, h) (exact m) /\ rq_path r = unslashed segs).
  { intros m N1 <- N2. destruct E as [E|E]; [|exact E]. destruct N2; congruence. }
  apply listenings_cases in I.
  assert (K : l = ws_server f \/ l = health_server f \/ l = wss_server f \/ (ls_access l = Some ac7 /\ ls_mux l = ndt7Mux)).
  { destruct I as [-> |[-> |[-> |[(_ & _ & [-> | ->])|(_ & _ & _ & ->)]]]]; auto. }
  clear I E.
  destruct K as [-> |[-> |[-> |[K1 K2]]]].
  - split; [|split]; intros ->; [| |intros X; contradiction X; reflexivity];
      destruct (M ndt5Mux ltac:(discriminate) eq_refl ltac:(left; reflexivity)) as (segs & [X|[]] & _); discriminate.
  - split; [|split]; intros ->; try (intros X; contradiction X; reflexivity);
      destruct (M healthMux ltac:(discriminate) eq_refl ltac:(right; reflexivity)) as (segs & [X|[]] & _); discriminate.
  - split; [|split]; intros ->;
      destruct (M ndt5Mux ltac:(discriminate) eq_refl ltac:(left; reflexivity)) as (segs & [X|[]] & P); try discriminate.
    injection X as <-. intros _. rewrite P in A. cbn in A. destruct tk, tx; auto; discriminate.
  - rewrite K1 in A. split; [|split]; intros ->;
      destruct (M ndt7Mux ltac:(discriminate) K2 ltac:(left; reflexivity)) as (segs & [X|[X|[]]] & P); try discriminate;
      injection X as <-; rewrite P in A; cbn in A; destruct tk, tx; auto; discriminate.
Qed.
Print Assumptions C50_guarded.

Example C50_guarded_example : forall f,
  let r := Req false (str "/ndt/%767/%64ownload") (str "/ndt/v7/download") in
  In (ndt7_cleartext f) (listenings f) /\ request_ok r /\
  serve (ndt7_cleartext f) true true r = Answered (To Ndt7Download) /\
  serve (ndt7_cleartext f) false true r = Refused.
Proof. intros f r. split; [right; left; reflexivity|]. repeat split. Qed.

(** Nothing else is ever refused: static content, health checks, redirections, and all of the
    cleartext websocket port; uploads are not subject to the tx controller. *)
Theorem C50_only_measurements : forall f l r token_ok tx_ok, In l (listenings f) ->
  serve l token_ok tx_ok r = Refused ->
  (ls_access l = Some ac7 /\ (rq_path r = DownloadURLPath \/ rq_path r = UploadURLPath /\ token_ok = false) \/
   l = wss_server f /\ rq_path r = str "/ndt_protocol") /\
  (token_ok = false \/ tx_ok = false).
Proof.
  intros f l r tk tx I S. unfold serve in S. destruct (admits (ls_access l) tk tx (rq_path r)) eqn:A; [discriminate|]. clear S.
  assert (K : ls_access l = None \/ l = wss_server f \/ ls_access l = Some ac7).
  { apply listenings_cases in I. destruct I as [-> |[-> |[-> |[(_ & _ & [-> | ->])|(_ & _ & _ & ->)]]]]; auto. }
  destruct K as [K|[-> |K]].
  - rewrite K in A. discriminate.
  - cbn [wss_server ls_access admits ac5 token_paths tx_paths] in A. destruct (member (rq_path r) ndt5Paths) eqn:M; [|discriminate].
    apply member_spec in M. destruct M as [M|[]]. split; [right; auto|]. destruct tk, tx; auto; discriminate.
  - rewrite K in A. cbn [admits ac7 token_paths tx_paths] in A. apply andb_false_iff in A. destruct A as [A|A]; apply orb_false_iff in A; destruct A as [A1 A2]; apply negb_false_iff, member_spec in A1.
    + split; [left; split; [exact K|]|left; exact A2]. destruct A1 as [A1|[A1|[]]]; auto.
    + split; [left; split; [exact K|]|right; exact A2]. destruct A1 as [A1|[]]; auto.
Qed.
Print Assumptions C50_only_measurements.

Example C50_only_measurements_example : forall f,
  serve (ndt7_cleartext f) false true (Req false UploadURLPath UploadURLPath) = Refused.
Proof. reflexivity. Qed.

(** Whoever is admitted gets the test that the path names. *)
Theorem C50_reached : forall f c token_ok tx_ok,
  let get l tk tx p := serve l tk tx (Req c p p) in
  get (ws_server f) token_ok tx_ok (str "/ndt_protocol") = Answered (To Ndt5) /\
  get (health_server f) token_ok tx_ok (str "/health") = Answered (To Health) /\
  get (wss_server f) true true (str "/ndt_protocol") = Answered (To Ndt5) /\
  forall l, l = ndt7_cleartext f \/ l = ndt7_server f false \/ l = ndt7_server f true ->
    get l true true (str "/ndt/v7/download") = Answered (To Ndt7Download) /\
    get l true tx_ok (str "/ndt/v7/upload") = Answered (To Ndt7Upload).
Proof.
  intros f c tk tx get. unfold get. split; [destruct c; reflexivity|]. split; [destruct c; reflexivity|]. split; [destruct c; reflexivity|].
  intros l [-> |[-> | ->]]; (split; destruct c, tx; reflexivity).
Qed.
Print Assumptions C50_reached.

(** Any other path, if it is clean, gets static content on every port but the health check's,
    with or without a token. *)
Theorem C50_static : forall f l r token_ok tx_ok, In l (listenings f) -> l <> health_server f -> request_ok r ->
  clean_path (rq_escaped r) = rq_escaped r ->
  ~ In (rq_path r) [str "/ndt_protocol"; str "/ndt/v7/download"; str "/ndt/v7/upload"] ->
  serve l token_ok tx_ok r = Answered (To Files).
Proof.
  intros f l r tk tx I N O C P.
  destruct (serve l tk tx r) as [|a] eqn:S.
  { exfalso. apply P. destruct (C50_only_measurements f l r tk tx I S) as [[[_ [X|[X _]]]|[_ X]] _]; rewrite X; cbn; auto. }
  unfold serve in S. destruct (admits _ _ _ _); [|discriminate]. injection S as S. subst a. f_equal.
  assert (M : ls_mux l = ndt5Mux \/ ls_mux l = ndt7Mux).
  { apply listenings_cases in I. destruct I as [-> |[-> |[-> |[(_ & _ & [-> | ->])|(_ & _ & _ & ->)]]]]; auto. contradiction. }
  assert (H : exists h, route (ls_mux l) r = To h).
  { unfold route. rewrite C, beqb_refl, andb_false_r.
    assert (S : exists q, rq_escaped r = 47 :: q).
    { rewrite <- C. unfold clean_path. match goal with |- exists q, (if _ then ?x else _) = _ => assert (X : exists q, x = 47 :: q) end.
      - destruct (unslashed _) as [|z u] eqn:U; [eexists; reflexivity|]. destruct (rev _) as [|g gs]; [discriminate|]. cbn in U. injection U as <- _. eexists; reflexivity.
      - destruct (_ && _); [exact X|]. destruct (unslashed _) as [|z u] eqn:U; [eexists; reflexivity|]. destruct (rev _) as [|g gs]; [discriminate|]. cbn in U. injection U as <- _. eexists; reflexivity. }
    destruct S as [q ->]. destruct (lookup _ _); [eexists; reflexivity|]. destruct M as [-> | ->]; eexists; reflexivity. }
  destruct H as [h H]. rewrite H. f_equal. destruct (route_exact (ls_mux l) r h O H) as [E|(segs & E & Q)].
  - destruct M as [M|M]; rewrite M in E; injection E as <-; reflexivity.
  - exfalso. apply P. rewrite Q. destruct M as [M|M]; rewrite M in E; cbn in E.
    + destruct E as [E|[]]. injection E as <- _. cbn. auto.
    + destruct E as [E|[E|[]]]; injection E as <- _; cbn; auto.
Qed.
Print Assumptions C50_static.

Example C50_static_example : forall f,
  let r := Req false (str "/ndt7.html") (str "/ndt7.html") in
  In (ndt7_cleartext f) (listenings f) /\ ndt7_cleartext f <> health_server f /\ request_ok r /\ clean_path (rq_escaped r) = rq_escaped r /\
  ~ In (rq_path r) [str "/ndt_protocol"; str "/ndt/v7/download"; str "/ndt/v7/upload"].
Proof.
  intros f r. split; [right; left; reflexivity|]. split; [discriminate|]. split; [reflexivity|]. split; [reflexivity|].
  intros [X|[X|[X|[]]]]; discriminate.
Qed.

(** Which services there are: the cleartext ones and the health check always; the ndt5 TLS
    service iff a certificate and a key are named; the ndt7 TLS service iff they are or
    autocert is enabled with a host name. *)
Theorem C50_services : forall f,
  In (ws_server f) (listenings f) /\ In (ndt7_cleartext f) (listenings f) /\ In (health_server f) (listenings f) /\
  ((exists l, In l (listenings f) /\ ls_cert l <> Cleartext /\ ls_mux l = ndt5Mux) <-> f_cert f <> [] /\ f_key f <> []) /\
  ((exists l, In l (listenings f) /\ ls_cert l <> Cleartext /\ ls_mux l = ndt7Mux) <->
     (f_cert f <> [] /\ f_key f <> []) \/ (f_autocert f = true /\ f_hostname f <> [])).
Proof.
  intros f. split; [left; reflexivity|]. split; [right; left; reflexivity|].
  split; [unfold listenings; apply in_or_app; right; apply in_or_app; right; left; reflexivity|].
  assert (S : forall c, serve_tls f c <> Cleartext) by (intros c; unfold serve_tls; destruct (c && _ && _); discriminate).
  split.
  - split.
    + intros (l & I & C & M). apply listenings_cases in I.
      destruct I as [-> |[-> |[-> |[(A & B & _)|(_ & _ & _ & ->)]]]]; try (contradiction C; reflexivity); [auto|discriminate M].
    + intros [A B]. exists (wss_server f). split; [|split; [apply S|reflexivity]].
      unfold listenings. destruct (f_cert f); [congruence|]. destruct (f_key f); [congruence|]. cbn. auto.
  - split.
    + intros (l & I & C & M). apply listenings_cases in I.
      destruct I as [-> |[-> |[-> |[(A & B & _)|(_ & A & B & _)]]]]; try (contradiction C; reflexivity); auto.
    + intros H. unfold listenings. destruct (negb (beqb (f_cert f) []) && negb (beqb (f_key f) [])) eqn:E.
      * exists (ndt7_server f false). split; [cbn; auto|split; [apply S|reflexivity]].
      * destruct H as [[A B]|[A B]].
        { destruct (f_cert f); [congruence|]. destruct (f_key f); [congruence|]. discriminate. }
        exists (ndt7_server f true). split; [|split; [apply S|reflexivity]]. rewrite A. destruct (f_hostname f); [congruence|]. cbn. auto.
Qed.
Print Assumptions C50_services.

(** If tokens are required and cannot be verified nothing is served. *)
Theorem C50_required : forall f verifier_ok servers, start_up f verifier_ok = Some servers ->
  f_required5 f = true \/ f_required7 f = true -> verifier_ok = true.
Proof.
  intros f v ls H R. unfold start_up in H. destruct v; [reflexivity|]. destruct R as [R|R]; rewrite R in H; rewrite ?orb_true_r in H; discriminate.
Qed.
Print Assumptions C50_required.

(** ** C51 *)

(** HTTP/2 is on unless the map is there and lacks "h2". *)
Definition http2 (s : server) : Prop :=
  match proto_map s with None => True | Some protos => In (str "h2") protos end.

(** The numbers of TLS 1.2 and 1.3 in the protocol: 0x0303 and 0x0304. *)
Theorem C51_configuration : forall f l, In l (listenings f) ->
  let conf := sv_tls (ls_server l) in
  (min_version conf = 256 * 3 + 4 <-> f_tls_version f = str "1.3") /\
  (min_version conf = 256 * 3 + 3 <-> f_tls_version f = str "1.2") /\
  (f_tls_version f <> str "1.2" -> f_tls_version f <> str "1.3" -> min_version conf = 0) /\
  ~ http2 (ls_server l) /\
  (In (str "acme-tls/1") (next_protos conf) <-> f_autocert f = true) /\
  sv_read_timeout (ls_server l) = 60 /\ sv_write_timeout (ls_server l) = 60.
Proof.
  intros f l I conf. assert (K : exists a, ls_server l = http_server f a).
  { apply listenings_cases in I. destruct I as [-> |[-> |[-> |[(_ & _ & [-> | ->])|(_ & _ & _ & ->)]]]]; eexists; reflexivity. }
  destruct K as [a K]. unfold conf, http2. rewrite K. destruct (http_server_same f a) as (A & B & C & D & E & F & G & H).
  split; [exact F|]. split; [exact G|]. split; [exact H|]. rewrite B. split; [intros []|]. rewrite E. split; [|auto].
  destruct (f_autocert f); cbn; intuition discriminate.
Qed.
Print Assumptions C51_configuration.

Example C51_configuration_example : exists f l, In l (listenings f) /\ ls_cert l <> Cleartext /\ min_version (sv_tls (ls_server l)) = VersionTLS13.
Proof.
  exists (Flags [] [] [] [] [] [] (str "c.pem") (str "k.pem") (str "1.3") true [] false false). eexists.
  split; [right; right; left; reflexivity|]. split; [discriminate|reflexivity].
Qed.

(** ** C63 *)

(** Every TLS service has a certificate: two named files or the autocert callback; except
    if autocert is enabled and just one of the two files is named. *)
Theorem C63_certificates : forall f l, In l (listenings f) -> ls_cert l <> Cleartext ->
  ls_cert l = Callback \/ ls_cert l = LoadPair (f_cert f) (f_key f) /\ f_cert f <> [] /\ f_key f <> [] \/
  (f_autocert f = true /\ ((f_cert f = [] /\ f_key f <> []) \/ (f_cert f <> [] /\ f_key f = []))).
Proof.
  intros f l I C. apply listenings_cases in I.
  destruct I as [-> |[-> |[-> |[(A & B & [-> | ->])|(A & B & D & ->)]]]]; try (contradiction C; reflexivity).
  - right. left. auto.
  - right. left. auto.
  - cbn [ndt7_server ls_cert]. unfold serve_tls. destruct (f_cert f) eqn:X, (f_key f) eqn:Y; cbn [beqb andb]; [left; reflexivity| | |destruct A; discriminate];
      right; right; (split; [exact B|]); [left|right]; split; congruence.
Qed.
Print Assumptions C63_certificates.

(** In that case the service is started with a pair of files one of which has no name. *)
Theorem C63_half_pair_refuted : exists f l, In l (listenings f) /\ f_autocert f = true /\ f_hostname f <> [] /\
  ls_cert l = LoadPair (f_cert f) (f_key f) /\ f_key f = [].
Proof.
  exists (Flags [] [] [] [] [] [] (str "c.pem") [] [] true (str "ndt.example.org") false false). eexists.
  split; [right; right; left; reflexivity|]. split; [reflexivity|]. split; [discriminate|]. split; reflexivity.
Qed.
Print Assumptions C63_half_pair_refuted.
