(** Every metric event of every run belongs to the tables of MetricsSpec.v. *)
From Coq Require Import String ZArith List Bool Lia.
From Verif Require Import Base BaseFacts WireModel MessagerModel GoFloat GoStrings Web100Model QueryModel
  Effect ControlModel HandleProofs Ndt7Model MetricsSpec.
Import ListNotations.
Open Scope Z_scope.

(** ** Programs whose events all satisfy a predicate *)

Definition only {E P S A} (Q : E -> Prop) (m : M E P S A) : Prop :=
  forall s tr x, run (m s) tr x -> Forall Q tr.

Section Only.
  Context {E P : Type} (Q : E -> Prop).

  Lemma only_ret {S A} (a : A) : only Q (@ret E P S A a).
  Proof. intros s tr x H. apply run_ret in H. destruct H as [-> _]. constructor. Qed.

  Lemma only_panic {S A} (p : P) : only Q (@panic E P S A p).
  Proof. intros s tr x H. apply run_panic in H. destruct H as [-> _]. constructor. Qed.

  Lemma only_get {S} : only Q (@get E P S).
  Proof. intros s tr x H. apply run_get in H. destruct H as [-> _]. constructor. Qed.

  Lemma only_modify {S} (f : S -> S) : only Q (@modify E P S f).
  Proof. intros s tr x H. apply run_modify in H. destruct H as [-> _]. constructor. Qed.

  Lemma only_op {S B} (ev : B -> E) : (forall b, Q (ev b)) -> only Q (@op E P S B ev).
  Proof.
    intros Hq s tr x H. apply run_op in H. destruct H as (b & -> & _). repeat constructor. apply Hq.
  Qed.

  Lemma only_tell {S} (e : E) : Q e -> only Q (@tell E P S e).
  Proof. intros Hq. apply only_op. intros _. exact Hq. Qed.

  Lemma only_bind {S A B} (m : M E P S A) (f : A -> M E P S B) :
    only Q m -> (forall a, only Q (f a)) -> only Q (bind m f).
  Proof.
    intros Hm Hf s tr [s' r] H. apply run_bind in H.
    destruct H as [(t1 & s1 & a & t2 & -> & H1 & H2)|(p & -> & H)].
    - apply Forall_app. split; [exact (Hm _ _ _ H1)|exact (Hf _ _ _ _ H2)].
    - exact (Hm _ _ _ H).
  Qed.

  Lemma only_defer {S A} (c : res P A -> M E P S (res P A)) (m : M E P S A) :
    only Q m -> (forall r, only Q (c r)) -> only Q (defer c m).
  Proof.
    intros Hm Hc s tr [s' r] H. apply run_defer in H.
    destruct H as (t1 & s1 & r1 & t2 & y & -> & H1 & H2 & ->).
    apply Forall_app. split; [exact (Hm _ _ _ H1)|exact (Hc _ _ _ _ H2)].
  Qed.

  Lemma only_finally {S A} (c : M E P S unit) (m : M E P S A) :
    only Q m -> only Q c -> only Q (finally c m).
  Proof.
    intros Hm Hc. unfold finally. apply only_defer; [exact Hm|]. intros r.
    apply only_bind; [exact Hc|]. intros _. apply only_ret.
  Qed.

  Lemma only_call {S T A} (t0 : T) (m : M E P T A) : only Q m -> only Q (@call E P S T A t0 m).
  Proof.
    intros Hm s tr [s' r] H. apply run_call in H. destruct H as (_ & t1 & r1 & H & _).
    exact (Hm _ _ _ H).
  Qed.
End Only.

(** ** Tables *)

Lemma series_row table name columns labels :
  In (name, columns) table -> Forall2 (fun l vs => In l vs) labels columns -> series table name labels.
Proof. intros H1 H2. exists columns. auto. Qed.

(** All the series of a table. *)
Fixpoint combos (columns : list (list bytes)) : list (list bytes) :=
  match columns with
  | [] => [[]]
  | vs :: r => flat_map (fun v => map (cons v) (combos r)) vs
  end.
Definition all_series (table : list row) : list (bytes * list bytes) :=
  flat_map (fun r => map (pair (fst r)) (combos (snd r))) table.

Lemma flat_map_const_length {A B} (f : A -> list B) n l :
  (forall a, List.length (f a) = n) -> List.length (flat_map f l) = (List.length l * n)%nat.
Proof.
  intros H. induction l as [|a l IH]; cbn [flat_map List.length]; [reflexivity|].
  rewrite app_length, H, IH. reflexivity.
Qed.

Lemma combos_length columns :
  Z.of_nat (List.length (combos columns)) =
  fold_right Z.mul 1 (map (fun vs => Z.of_nat (List.length vs)) columns).
Proof.
  induction columns as [|vs r IH]; cbn [combos map fold_right]; [reflexivity|].
  rewrite (flat_map_const_length _ (List.length (combos r))) by (intros v; apply map_length).
  rewrite Nat2Z.inj_mul, IH. reflexivity.
Qed.

Lemma all_series_length table : Z.of_nat (List.length (all_series table)) = table_size table.
Proof.
  induction table as [|[n cs] t IH]; cbn; [reflexivity|].
  rewrite app_length, map_length, Nat2Z.inj_add, combos_length.
  unfold all_series in IH. rewrite IH. reflexivity.
Qed.

Lemma combos_in columns : forall labels,
  Forall2 (fun l vs => In l vs) labels columns -> In labels (combos columns).
Proof.
  induction columns as [|vs r IH]; intros labels H; inversion H; subst; cbn [combos]; [left; reflexivity|].
  apply in_flat_map. eexists. split; [eassumption|]. apply in_map. apply IH. assumption.
Qed.

Lemma series_in table name labels : series table name labels -> In (name, labels) (all_series table).
Proof.
  intros (cs & H1 & H2). unfold all_series. apply in_flat_map. exists (name, cs). split; [exact H1|].
  cbn [fst snd]. apply in_map. apply combos_in. exact H2.
Qed.

Lemma distinct_bound table (l : list (bytes * list bytes)) :
  NoDup l -> (forall n ls, In (n, ls) l -> series table n ls) ->
  Z.of_nat (List.length l) <= table_size table.
Proof.
  intros Hn H. rewrite <- all_series_length. apply Nat2Z.inj_le. apply NoDup_incl_length; [exact Hn|].
  intros [n ls] Hi. apply series_in. apply H. exact Hi.
Qed.

(** A table whose rows have the declared number of columns and printable values. *)
Definition ascii_b (s : bytes) : bool := forallb (fun c => (32 <=? c) && (c <=? 126)) s.
Definition row_ok (declared : list (bytes * nat)) (r : row) : bool :=
  existsb (fun d => beqb (fst d) (fst r) && Nat.eqb (snd d) (List.length (snd r))) declared &&
  forallb (forallb ascii_b) (snd r).

Lemma ascii_b_ok s : ascii_b s = true -> ascii_text s.
Proof.
  unfold ascii_b, ascii_text. intros H. rewrite forallb_forall in H. apply Forall_forall.
  intros c Hc. apply H in Hc. apply andb_prop in Hc. lia.
Qed.

Lemma forall2_length {A B} (R : A -> B -> Prop) l1 l2 :
  Forall2 R l1 l2 -> List.length l1 = List.length l2.
Proof. intros H. induction H; cbn [List.length]; congruence. Qed.

Lemma table_ok declared table name labels :
  forallb (row_ok declared) table = true -> series table name labels ->
  In (name, List.length labels) declared /\ Forall ascii_text labels.
Proof.
  intros Ht (cs & Hin & Hf). rewrite forallb_forall in Ht. apply Ht in Hin.
  unfold row_ok in Hin. cbn [fst snd] in Hin. apply andb_prop in Hin. destruct Hin as [Hd Ha]. split.
  - apply existsb_exists in Hd. destruct Hd as ([n k] & Hi & E). cbn [fst snd] in E.
    apply andb_prop in E. destruct E as [E1 E2]. apply beqb_spec in E1. apply Nat.eqb_eq in E2.
    subst. rewrite (forall2_length _ _ _ Hf). exact Hi.
  - clear -Hf Ha. induction Hf as [|l vs ls cs Hl Hf IH]; [constructor|].
    cbn [forallb] in Ha. apply andb_prop in Ha. destruct Ha as [Ha1 Ha2].
    constructor; [|exact (IH Ha2)]. rewrite forallb_forall in Ha1. apply ascii_b_ok. apply Ha1. exact Hl.
Qed.

(** ** NDT5 *)

(** What a metric event says. *)
Definition metric5 (e : event) : option (bytes * list bytes) :=
  match e with
  | EvGauge n l _ | EvCount n l | EvObserve n l _ => Some (n, l)
  | _ => None
  end.
Definition good5 (e : event) : Prop :=
  match metric5 e with Some (n, l) => series table5 n l | None => True end.

Definition metric7 (e : event7) : option (bytes * list bytes) :=
  match e with
  | ECount n l | EObserve n l _ => Some (n, l)
  | _ => None
  end.
Definition good7 (table : list row) (e : event7) : Prop :=
  match metric7 e with Some (n, l) => series table n l | None => True end.

Lemma label_in g : In (label g) protocols5.
Proof. unfold label. destruct (c_kind g); vm_compute; auto. Qed.

Lemma result_label_in failed rate : In (result_label failed rate) results.
Proof. unfold result_label. destruct failed, (f_is_zero rate); vm_compute; auto. Qed.

(** Labels that range over columns, checked for all their combinations. *)
Definition series_b (table : list row) (name : bytes) (labels : list bytes) : bool :=
  existsb (fun r => beqb name (fst r) && Nat.eqb (List.length labels) (List.length (snd r)) &&
                    forallb (fun p => existsb (beqb (fst p)) (snd p)) (combine labels (snd r))) table.

Lemma series_b_ok table name labels : series_b table name labels = true -> series table name labels.
Proof.
  unfold series_b. intros H. apply existsb_exists in H. destruct H as ([n cs] & Hin & H).
  cbn [fst snd] in H. apply andb_prop in H. destruct H as [H Hf]. apply andb_prop in H.
  destruct H as [Hn Hl]. apply beqb_spec in Hn. subst. apply Nat.eqb_eq in Hl.
  exists cs. split; [exact Hin|]. clear -Hl Hf. revert cs Hl Hf.
  induction labels as [|l ls IH]; intros [|vs cs] Hl Hf; try discriminate Hl; constructor;
    cbn [combine forallb fst snd] in Hf; apply andb_prop in Hf; destruct Hf as [H1 H2].
  - apply existsb_exists in H1. destruct H1 as (x & Hx & E). apply beqb_spec in E. subst. exact Hx.
  - apply IH; [injection Hl; auto|exact H2].
Qed.

Lemma in_b (x : bytes) l : existsb (beqb x) l = true -> In x l.
Proof.
  intros H. apply existsb_exists in H. destruct H as (y & Hy & E). apply beqb_spec in E. subst. exact Hy.
Qed.

Lemma series_all table name columns labels :
  Forall2 (fun l vs => In l vs) labels columns ->
  forallb (series_b table name) (combos columns) = true -> series table name labels.
Proof.
  intros Hf Hb. apply series_b_ok. rewrite forallb_forall in Hb. apply Hb. apply combos_in. exact Hf.
Qed.

Lemma label7_in c : In (conn_label7 c) protocols7.
Proof.
  unfold conn_label7. destruct (has_suffix (str "443") _); [left; reflexivity|].
  destruct (has_suffix (str "80") _); [right; left; reflexivity|right; right; left; reflexivity].
Qed.
Lemma kind_in k : In (kind_name k) directions7.
Proof. destruct k; [left; reflexivity|right; left; reflexivity]. Qed.

Ltac column l :=
  match l with
  | label _ => constr:(protocols5)
  | conn_label7 _ => constr:(protocols7)
  | kind_name Download => constr:([l])
  | kind_name Upload => constr:([l])
  | kind_name _ => constr:(directions7)
  | result_label _ _ => constr:(results)
  | _ => match goal with
         | H : In l ?L |- _ => constr:(L)
         | _ => constr:([l])
         end
  end.
Ltac columns ls :=
  match ls with
  | nil => constr:(@nil (list bytes))
  | cons ?l ?r => let c := column l in let cs := columns r in constr:(cons c cs)
  end.
Ltac col := first [assumption | apply label_in | apply result_label_in | apply label7_in
                  | apply kind_in | apply in_eq].
Ltac ser :=
  match goal with
  | |- series ?t ?n ?ls =>
      let cs := columns ls in
      apply (series_all t n cs ls);
      [repeat (apply Forall2_cons; [col|]); apply Forall2_nil | vm_compute; reflexivity]
  | |- good5 ?e =>
      let x := eval unfold good5, metric5 in (good5 e) in change x; ser
  | |- good7 ?t ?e =>
      let x := eval unfold good7, metric7 in (good7 t e) in change x; ser
  end.

Ltac only_step :=
  match goal with
  | |- only _ (ret _) => apply only_ret
  | |- only _ (panic _) => apply only_panic
  | |- only _ get => apply only_get
  | |- only _ (modify _) => apply only_modify
  | |- only _ (bind _ _) => apply only_bind; [|intros ?]
  | |- only _ (finally _ _) => apply only_finally
  | |- only _ (defer _ _) => apply only_defer; [|intros ?]
  | |- only _ (call _ _) => apply only_call
  | |- only _ (match ?x with _ => _ end) => destruct x
  | |- only _ (let '(_, _) := ?x in _) => destruct x
  end.
Ltac plain_op := first [apply only_op; intros ?; exact I | apply only_tell; exact I].

Section Ndt5.
  Variable g : config.
  Hypothesis Hmon : In (c_is_mon g) flags.

  Lemma only_write {S} f : only good5 (@write S f).
  Proof. plain_op. Qed.
  Lemma only_send {S} m k c : only good5 (@send S m k c).
  Proof. apply only_write. Qed.
  Lemma only_send_s2c {S} m a b c : only good5 (@send_s2c S m a b c).
  Proof. apply only_write. Qed.
  Lemma only_receive {S} m k : only good5 (@receive S m k).
  Proof. unfold receive. apply only_bind; [plain_op|intros ?; apply only_ret]. Qed.
  Lemma only_now {S} : only good5 (@now S).
  Proof. plain_op. Qed.
  Lemma only_poe {S} e p : only good5 (@panic_on_error S g e p).
  Proof. unfold panic_on_error. destruct e; [apply only_panic|apply only_ret]. Qed.
  Lemma only_lines {S} m l : only good5 (@send_lines S m l).
  Proof.
    induction l as [|x l IH]; cbn [send_lines]; [apply only_ret|].
    apply only_bind; [apply only_send|]. intros [e|]; [apply only_ret|exact IH].
  Qed.

  Ltac base :=
    match goal with
    | |- only _ (send _ _ _) => apply only_send
    | |- only _ (send_s2c _ _ _ _) => apply only_send_s2c
    | |- only _ (receive _ _) => apply only_receive
    | |- only _ now => apply only_now
    | |- only _ (panic_on_error _ _ _) => apply only_poe
    | |- only _ (send_lines _ _) => apply only_lines
    | |- only _ (test_error _ _ _) => unfold test_error; apply only_tell; ser
    | |- only _ (op _) => plain_op
    | |- only _ (tell _) => first [apply only_tell; exact I | apply only_tell; ser]
    end.
  Ltac go := repeat (first [only_step | base]).

  Lemma only_drain {S} c : only good5 (@drain S c).
  Proof. unfold drain. go. Qed.
  Lemma only_c2s_report m w d : only good5 (c2s_report g m w d).
  Proof. unfold c2s_report. cbv zeta. go. Qed.
  Lemma only_c2s_transfer m c : only good5 (c2s_transfer g m c).
  Proof.
    unfold c2s_transfer. cbv zeta. repeat (first [only_step | base | apply only_drain | apply only_c2s_report]).
  Qed.
  Lemma only_c2s m : only good5 (c2s_manage g m).
  Proof. unfold c2s_manage. repeat (first [only_step | base | apply only_c2s_transfer]). Qed.

  Lemma only_s2c_finish m w : only good5 (s2c_finish g m w).
  Proof. unfold s2c_finish. go. Qed.
  Lemma only_s2c_report m w d : only good5 (s2c_report g m w d).
  Proof.
    unfold s2c_report. cbv zeta. repeat (first [only_step | base | apply only_s2c_finish]).
  Qed.
  Lemma only_s2c_transfer m c : only good5 (s2c_transfer g m c).
  Proof. unfold s2c_transfer. repeat (first [only_step | base | apply only_s2c_report]). Qed.
  Lemma only_s2c m : only good5 (s2c_manage g m).
  Proof.
    unfold s2c_manage, s2c_body. repeat (first [only_step | base | apply only_s2c_transfer]).
  Qed.

  Lemma only_meta_loop {S} m : forall fuel n l, only good5 (@meta_loop S fuel m n l).
  Proof.
    induction fuel as [|f IH]; intros n l; cbn [meta_loop]; [apply only_ret|].
    repeat (first [only_step | base | apply IH]).
  Qed.
  Lemma only_meta m : only good5 (meta_manage g m).
  Proof.
    unfold meta_manage.
    repeat (first [only_step | base | apply only_meta_loop]).
  Qed.

  Lemma only_count_if {S} b n :
    In n [str "mid"; str "c2s"; str "s2c"; str "sfw"; str "meta"] -> only good5 (@count_if S g b n).
  Proof.
    intros H. unfold count_if. destruct b; [|apply only_ret]. apply only_tell. ser.
  Qed.

  Lemma only_run_c2s m : only good5 (run_c2s g m).
  Proof.
    unfold run_c2s. repeat (first [only_step | base | apply only_c2s]).
  Qed.
  Lemma only_run_s2c m : only good5 (run_s2c g m).
  Proof.
    unfold run_s2c. repeat (first [only_step | base | apply only_s2c]).
  Qed.
  Lemma only_run_meta m : only good5 (run_meta g m).
  Proof. unfold run_meta. repeat (first [only_step | base | apply only_meta]). Qed.

  Lemma only_converse m a b c : only good5 (converse g m a b c).
  Proof.
    unfold converse.
    repeat (first [only_step | base | apply only_run_c2s | apply only_run_s2c | apply only_run_meta]).
  Qed.

  Lemma suite_in (mid c2s s2c sfw meta : bool) :
    In (join (str "-")
          ([str "status"] ++ (if mid then [str "mid"] else []) ++
           (if c2s then [str "c2s"] else []) ++ (if s2c then [str "s2c"] else []) ++
           (if sfw then [str "sfw"] else []) ++ (if meta then [str "meta"] else []))) suites5.
  Proof.
    apply in_b. destruct mid, c2s, s2c, sfw, meta; vm_compute; reflexivity.
  Qed.

  Lemma only_serve_tests m tests : only good5 (serve_tests g m tests).
  Proof.
    unfold serve_tests. cbv zeta.
    destruct (Z.land tests 16 =? 0); [base|].
    do 5 (apply only_bind; [apply only_count_if; cbn [In]; auto 8|intros _]).
    apply only_bind; [|intros _; apply only_converse].
    apply only_tell. pose proof (suite_in (wants tests 1) (wants tests 2) (wants tests 4)
                                   (wants tests 8) (wants tests 32)) as Hs.
    match type of Hs with In ?x _ => set (suite := x) in * end. clearbody suite. ser.
  Qed.

  Lemma only_body : only good5 (control_body g).
  Proof.
    unfold control_body. apply only_bind; [plain_op|]. intros inbuff.
    destruct (login_of (c_kind g) inbuff) as [[tests| |] m].
    - apply only_serve_tests.
    - repeat (first [only_step | base]).
    - apply only_panic.
  Qed.

  Lemma only_inner : only good5 (handle_inner g).
  Proof.
    intros s. change (forall tr x, run (handle_inner g s) tr x -> Forall good5 tr).
    unfold handle_inner. intros tr x. revert s tr x.
    match goal with |- forall s tr x, run (?m s) tr x -> _ => change (only good5 m) end.
    cbv zeta. repeat (first [only_step | base | apply only_body]).
  Qed.

  Lemma only_handle : only good5 (handle_control_channel g).
  Proof.
    unfold handle_control_channel.
    apply only_bind; [apply only_tell; ser|intros _].
    apply only_finally; [|apply only_tell; ser].
    apply only_finally; [|apply only_tell; ser].
    apply only_defer; [apply only_inner|]. intros [a|msg].
    - apply only_bind; [apply only_tell; ser|intros _; apply only_ret].
    - pose proof (err_type_total msg) as Hm. change (okay_words ++ [str "panic"]) with panics5 in Hm.
      apply only_bind; [apply only_tell; ser|intros _].
      apply only_bind; [apply only_tell; ser|intros _; apply only_ret].
  Qed.
End Ndt5.

(** ** ndt7 *)

Lemma only_go_defer {S A} Q (c : Go7 S unit) (m : Go7 S A) :
  only Q m -> only Q c -> only Q (go_defer c m).
Proof.
  intros Hm Hc. unfold go_defer. apply only_defer; [exact Hm|].
  intros [a|[t| |]]; try apply only_ret; (apply only_bind; [exact Hc|intros _; apply only_ret]).
Qed.

Ltac step7 := first [only_step | lazymatch goal with |- only _ (go_defer _ _) => apply only_go_defer end].

Section Ndt7.
  Variable proto : bytes.
  Hypothesis Hproto : In proto protocols7.
  Notation G := (good7 table7).

  Ltac base7 := first [ plain_op | unfold count_send; apply only_tell; ser ].

  Lemma only_closing {S} : only G (@start_closing S).
  Proof. unfold start_closing, now7. repeat (first [step7 | base7]). Qed.
  Lemma only_ticks {S} d : only G (@send_ticks S d).
  Proof. unfold send_ticks, now7. repeat (first [step7 | base7]). Qed.

  Lemma only_download_loop p d : forall fuel msg size total,
    only G (download_loop fuel proto p d msg size total).
  Proof.
    induction fuel as [|n IH]; intros msg size total; cbn [download_loop]; [apply only_panic|].
    cbv zeta.
    repeat (first [apply IH | apply only_closing | apply only_ticks | step7 | base7]).
  Qed.

  Lemma only_download fuel p : only G (download_do fuel proto p).
  Proof.
    unfold download_do, download_sender, await_receiver, now7. cbv zeta.
    repeat (first [apply only_download_loop | step7 | base7]).
  Qed.

  Lemma only_upload_loop d : forall fuel, only G (upload_loop fuel proto d).
  Proof.
    induction fuel as [|n IH]; cbn [upload_loop]; [apply only_panic|].
    unfold take_blocking.
    repeat (first [apply IH | apply only_closing | apply only_ticks | step7 | base7]).
  Qed.

  Lemma only_upload fuel : only G (upload_do fuel proto).
  Proof.
    unfold upload_do, upload_sender, await_receiver, now7. cbv zeta.
    repeat (first [apply only_upload_loop | step7 | base7]).
  Qed.

  Lemma only_pong {S} k payload : only (good7 table7_receiver) (@pong_handler S proto k payload).
  Proof.
    unfold pong_handler, now7, count_recv.
    destruct (json_int64 payload); [repeat (first [step7 | plain_op])|].
    destruct k; repeat (first [step7 | plain_op | apply only_tell; ser]).
  Qed.

  Lemma only_receive_loop decode k : forall fuel pos,
    only (good7 table7_receiver) (receive_loop decode fuel proto k pos).
  Proof.
    induction fuel as [|n IH]; intros pos; cbn [receive_loop]; [apply only_panic|].
    unfold count_recv.
    destruct pos, k;
      repeat (first [apply IH | apply only_pong | step7 | plain_op | apply only_tell; ser]).
  Qed.

  Lemma only_receiver decode fuel k : only (good7 table7_receiver) (receiver decode fuel proto k).
  Proof.
    unfold receiver, now7.
    repeat (first [apply only_receive_loop | step7 | plain_op]).
    unfold count_recv. destruct k; apply only_tell; ser.
  Qed.
End Ndt7.

Lemma only_measure fuel h q k c p uuid meta : In (q_is_mon q) flags ->
  only (good7 table7) (measure (download_do fuel) (upload_do fuel) h q k c p uuid meta).
Proof.
  intros Hmon. unfold measure, write_result, must, now7, count_conn, count_result. cbv zeta.
  pose proof (label7_in c) as Hc. pose proof (kind_in k) as Hk.
  pose proof (only_download _ Hc fuel p). pose proof (only_upload _ Hc fuel).
  repeat (first [assumption | step7 | plain_op
                | apply only_tell; ser]).
Qed.

Lemma only_request fuel h q k v1 v2 : In (q_is_mon q) flags ->
  only (good7 table7) (run_request fuel h q k v1 v2).
Proof.
  intros Hmon. unfold run_request, run_measurement, setup_conn, count_conn.
  repeat (first [apply only_measure; exact Hmon | step7 | plain_op
                | apply only_tell; ser]).
Qed.

(** ** In the words of the properties *)

Lemma good5_in g s tr x n ls : In (c_is_mon g) flags -> run (handle_control_channel g s) tr x ->
  In (EvCount n ls) tr \/ (exists d, In (EvGauge n ls d) tr) \/ (exists v, In (EvObserve n ls v) tr) ->
  series table5 n ls.
Proof.
  intros Hm Hr Hi. pose proof (only_handle g Hm s tr x Hr) as Hf. rewrite Forall_forall in Hf.
  destruct Hi as [Hi|[[d Hi]|[v Hi]]]; exact (Hf _ Hi).
Qed.

Lemma good7_in fuel h q k v1 v2 s tr x n ls : In (q_is_mon q) flags ->
  run (run_request fuel h q k v1 v2 s) tr x ->
  In (ECount n ls) tr \/ (exists v, In (EObserve n ls v) tr) -> series table7 n ls.
Proof.
  intros Hm Hr Hi. pose proof (only_request fuel h q k v1 v2 Hm s tr x Hr) as Hf.
  rewrite Forall_forall in Hf. destruct Hi as [Hi|[v Hi]]; exact (Hf _ Hi).
Qed.

Lemma good7_receiver_in decode fuel c k s tr x n ls :
  run (receiver decode fuel (conn_label7 c) k s) tr x ->
  In (ECount n ls) tr \/ (exists v, In (EObserve n ls v) tr) -> series table7_receiver n ls.
Proof.
  intros Hr Hi. pose proof (only_receiver _ (label7_in c) decode fuel k s tr x Hr) as Hf.
  rewrite Forall_forall in Hf. destruct Hi as [Hi|[v Hi]]; exact (Hf _ Hi).
Qed.

Lemma table5_ok : forallb (row_ok declared5) table5 = true.
Proof. vm_compute. reflexivity. Qed.
Lemma table7_ok : forallb (row_ok declared7) (table7 ++ table7_receiver) = true.
Proof. vm_compute. reflexivity. Qed.

Lemma series_app_l t1 t2 n ls : series t1 n ls -> series (t1 ++ t2) n ls.
Proof. intros (cs & H1 & H2). exists cs. split; [apply in_or_app; auto|exact H2]. Qed.
Lemma series_app_r t1 t2 n ls : series t2 n ls -> series (t1 ++ t2) n ls.
Proof. intros (cs & H1 & H2). exists cs. split; [apply in_or_app; auto|exact H2]. Qed.
