(** More facts about ndt7 requests: connection labels, frames, times, counters and rates
    of whole requests. *)
From Coq Require Import String ZArith List Bool Lia Permutation.
From Coq Require Import ZifyBool.
From Verif Require Import Base BaseFacts GoFloat FloatSpec FloatFacts ControlModel Effect QueryModel QuerySpec QueryProofs Web100Model
  Ndt7Model Ndt7Spec SenderProofs SenderFacts ReceiverProofs RequestProofs RequestFacts.
Import ListNotations.
Open Scope Z_scope.

(** ** Labels *)

Lemma dec_value_snoc s c : dec_value (s ++ [c]) = 10 * dec_value s + (c - 48).
Proof. unfold dec_value. rewrite fold_left_app. cbn [fold_left]. lia. Qed.

Lemma dec_value_nonneg s : Forall (fun b => 48 <= b <= 57) s -> 0 <= dec_value s.
Proof.
  induction s as [|c s IH] using rev_ind; intros F; [cbn; lia|].
  apply Forall_app in F. destruct F as [F1 F2]. inversion F2; subst. rewrite dec_value_snoc. apply IH in F1. lia.
Qed.

Lemma last_digit s : Forall (fun b => 48 <= b <= 57) s -> 0 < dec_value s ->
  exists s', s = s' ++ [48 + dec_value s mod 10] /\ dec_value s' = dec_value s / 10 /\
    Forall (fun b => 48 <= b <= 57) s'.
Proof.
  intros F P. destruct (exists_last (l := s)) as (s' & c & ->); [intros ->; cbn in P; lia|].
  apply Forall_app in F. destruct F as [F1 F2]. inversion F2; subst.
  rewrite dec_value_snoc in *. pose proof (dec_value_nonneg s' F1).
  assert (M : (10 * dec_value s' + (c - 48)) mod 10 = c - 48)
    by (symmetry; apply Z.mod_unique with (dec_value s'); lia).
  assert (D : (10 * dec_value s' + (c - 48)) / 10 = dec_value s')
    by (symmetry; apply Z.div_unique with (c - 48); lia).
  exists s'. rewrite M, D. split; [f_equal; f_equal; lia|]. auto.
Qed.

Lemma snoc_inj {A} (x y : list A) a b : x ++ [a] = y ++ [b] -> x = y /\ a = b.
Proof. apply app_inj_tail. Qed.

Lemma suffix_443 x d : Forall (fun b => 48 <= b <= 57) d ->
  (has_suffix (str "443") (x ++ [58] ++ d) = true <-> dec_value d mod 1000 = 443).
Proof.
  intros F. rewrite has_suffix_spec. split.
  - intros [r E].
    assert (G : exists d', d = d' ++ [52; 52; 51]).
    { change (str "443") with ([52] ++ [52] ++ [51]) in E. rewrite !app_assoc in E.
      destruct d as [|c1 d1] using rev_ind; [rewrite app_nil_r in E; apply snoc_inj in E; destruct E; discriminate|].
      rewrite app_assoc in E. apply snoc_inj in E. destruct E as [E ->].
      clear IHd1. destruct d1 as [|c2 d1] using rev_ind; [rewrite app_nil_r in E; apply snoc_inj in E; destruct E; discriminate|].
      rewrite app_assoc in E. apply snoc_inj in E. destruct E as [E ->].
      clear IHd1. destruct d1 as [|c3 d1] using rev_ind; [rewrite app_nil_r in E; apply snoc_inj in E; destruct E; discriminate|].
      rewrite app_assoc in E. apply snoc_inj in E. destruct E as [E ->].
      exists d1. rewrite <- !app_assoc. reflexivity. }
    destruct G as [d' ->]. apply Forall_app in F. destruct F as [F _]. pose proof (dec_value_nonneg _ F).
    change ([52; 52; 51]) with ([52] ++ [52] ++ [51]). rewrite !app_assoc, !dec_value_snoc.
    symmetry. apply Z.mod_unique with (dec_value d'); lia.
  - intros M. set (v := dec_value d) in *.
    assert (V : 443 <= v) by (pose proof (dec_value_nonneg _ F); fold v in H; lia).
    destruct (last_digit d F ltac:(fold v; lia)) as (d1 & E1 & V1 & F1). fold v in E1, V1.
    destruct (last_digit d1 F1 ltac:(lia)) as (d2 & E2 & V2 & F2).
    destruct (last_digit d2 F2 ltac:(lia)) as (d3 & E3 & V3 & F3).
    exists (x ++ [58] ++ d3). rewrite E1, E2, E3.
    replace (48 + v mod 10) with 51 by lia. replace (48 + dec_value d1 mod 10) with 52 by lia.
    replace (48 + dec_value d2 mod 10) with 52 by lia. rewrite <- !app_assoc. reflexivity.
Qed.

Lemma suffix_80 x d : Forall (fun b => 48 <= b <= 57) d ->
  (has_suffix (str "80") (x ++ [58] ++ d) = true <-> dec_value d mod 100 = 80).
Proof.
  intros F. rewrite has_suffix_spec. split.
  - intros [r E].
    assert (G : exists d', d = d' ++ [56; 48]).
    { change (str "80") with ([56] ++ [48]) in E. rewrite !app_assoc in E.
      destruct d as [|c1 d1] using rev_ind; [rewrite app_nil_r in E; apply snoc_inj in E; destruct E; discriminate|].
      rewrite app_assoc in E. apply snoc_inj in E. destruct E as [E ->].
      clear IHd1. destruct d1 as [|c2 d1] using rev_ind; [rewrite app_nil_r in E; apply snoc_inj in E; destruct E; discriminate|].
      rewrite app_assoc in E. apply snoc_inj in E. destruct E as [E ->].
      exists d1. rewrite <- !app_assoc. reflexivity. }
    destruct G as [d' ->]. apply Forall_app in F. destruct F as [F _]. pose proof (dec_value_nonneg _ F).
    change ([56; 48]) with ([56] ++ [48]). rewrite !app_assoc, !dec_value_snoc.
    symmetry. apply Z.mod_unique with (dec_value d'); lia.
  - intros M. set (v := dec_value d) in *.
    assert (V : 80 <= v) by (pose proof (dec_value_nonneg _ F); fold v in H; lia).
    destruct (last_digit d F ltac:(fold v; lia)) as (d1 & E1 & V1 & F1). fold v in E1, V1.
    destruct (last_digit d1 F1 ltac:(lia)) as (d2 & E2 & V2 & F2).
    exists (x ++ [58] ++ d2). rewrite E1, E2.
    replace (48 + v mod 10) with 48 by lia. replace (48 + dec_value d1 mod 10) with 56 by lia.
    rewrite <- !app_assoc. reflexivity.
Qed.

(** The label of a connection to a TCP port. *)
Lemma label_spec c ip zone port : w_local c = TcpAddr ip zone port -> 0 <= port ->
  conn_label7 c = (if port mod 1000 =? 443 then str "ndt7+wss"
                   else if port mod 100 =? 80 then str "ndt7+ws" else str "ndt7+unknown").
Proof.
  intros W P. unfold conn_label7. rewrite W.
  assert (T : exists x, addr_text (TcpAddr ip zone port) = x ++ [58] ++ dec_nonneg port).
  { unfold addr_text, itoa. replace (port <? 0) with false by lia. eauto. }
  destruct T as [x ->]. destruct (dec_nonneg_spec port P) as (V & F & _).
  pose proof (suffix_443 x _ F) as S1. pose proof (suffix_80 x _ F) as S2. rewrite V in S1, S2.
  destruct (has_suffix (str "443") _), (port mod 1000 =? 443) eqn:E1; try lia; [reflexivity|].
  destruct (has_suffix (str "80") _), (port mod 100 =? 80) eqn:E2; try lia; reflexivity.
Qed.

(** ** The frames of a request are those of its subtest *)

Lemma tallied_frames q k proto failed rate tl : tallied q k proto failed rate tl -> frames tl = [] /\ sender_errors tl = [].
Proof. intros [(_ & ->)|(_ & ->)]; split; reflexivity. Qed.
Lemma saving_frames u k e r sv b : saving u k e r sv b -> frames sv = [] /\ sender_errors sv = [].
Proof. intros H; inversion H; subst; split; reflexivity. Qed.

Lemma opening_frames k c u start id :
  frames (opening k c u start id) = [] /\ sender_errors (opening k c u start id) = [].
Proof. split; reflexivity. Qed.
Lemma sender_errors_app a b : sender_errors (a ++ b) = sender_errors a ++ sender_errors b.
Proof. apply flat_map_app. Qed.

Lemma request_frames fuel h q k l tr r : request_run (real fuel k) h q k l tr r ->
  frames tr = [] \/
  exists limit c p a sub d rs, early_exit_limit l limit /\ limit_of p = limit /\
    In (EUpgrade (Some c)) tr /\
    run (real fuel k c p a) sub (d, rs) /\ frames tr = frames sub /\ sender_errors tr = sender_errors sub.
Proof.
  intros H. destruct H as [v Fv Nv|lim El Sp|lim El Sp|lim c El Sp
      |lim c u start id ms p sub d B Hs|lim c u start id ms p sub d err rate tl end_ res sv B Hs Hr Ht Hp Hv
      |lim c u start id ms p sub d t end_ res sv B Hs Hp Hv|lim c u start id ms p sub d r tl end_ res sv B Hs Hr Hp Hv].
  1-4: left; reflexivity.
  all: right; destruct B as (B1 & B2 & _); exists lim, c, p; do 4 eexists;
    (split; [exact B1|]); (split; [exact B2|]); (split; [left; reflexivity|]); (split; [exact Hs|]);
    pose proof (opening_frames k c u start id) as [O1 O2]; try apply saving_frames in Hv;
    rewrite ?frames_app, ?sender_errors_app, O1, O2; cbn [app].
  - split; reflexivity.
  - apply tallied_frames in Ht. destruct Ht as [T1 T2], Hv as [V1 V2]. rewrite T1, T2, V1, V2.
    split; apply app_nil_r.
  - destruct Hv as [V1 V2]. rewrite V1, V2. split; apply app_nil_r.
  - assert (T : frames tl = [] /\ sender_errors tl = []).
    { destruct Hr as [(t & _ & ->)|(err & rate & _ & _ & Ht)]; [split; reflexivity|]. eapply tallied_frames, Ht. }
    destruct T as [T1 T2], Hv as [V1 V2]. rewrite T1, T2, V1, V2. split; apply app_nil_r.
Qed.

(** What a request sends to its client. *)
Lemma request_dialogue fuel h q k l tr r : request_run (real fuel k) h q k l tr r ->
  frames tr = [] \/
  exists limit o c, early_exit_limit l limit /\ In (EUpgrade (Some c)) tr /\
    dialogue k (match k with Download => limit | Upload => None end) (frames tr) o /\
    sender_errors tr = counts (conn_label7 c) k o.
Proof.
  intros H. apply request_frames in H.
  destruct H as [H|(limit & c & p & a & sub & d & rs & El & Lp & Up & Rn & Ef & Es)]; [auto|].
  right. apply real_facts in Rn. destruct Rn as (_ & _ & _ & _ & _ & _ & _ & o & Dg & _ & Se).
  exists limit, o, c. rewrite Ef, Es. unfold kind_limit in Dg. rewrite Lp in Dg. auto.
Qed.

Lemma bulk_sizes_frames tr tr' : frames tr = frames tr' -> bulk_sizes tr = bulk_sizes tr'.
Proof. unfold bulk_sizes. intros ->. reflexivity. Qed.

Lemma request_sizes fuel h q l tr r : request_run (real fuel Download) h q Download l tr r ->
  ladder 8192 0 (bulk_sizes tr).
Proof.
  intros H. apply request_frames in H.
  destruct H as [H|(limit & c & p & a & sub & d & rs & El & Lp & Up & Rn & Ef & Es)].
  - unfold bulk_sizes. rewrite H. exact I.
  - rewrite (bulk_sizes_frames _ _ Ef). unfold real, subtest, download_do in Rn.
    apply run_bind in Rn. destruct Rn as [(t1 & a1 & e & t2 & -> & H1 & H2)|(pp & -> & H1)].
    + apply download_ladder in H1. unfold await_receiver in H2. exe7 H2.
      rewrite bulk_sizes_app. cbn. rewrite app_nil_r. exact H1.
    + apply download_ladder in H1. exact H1.
Qed.

(** ** Counters and rates of a request *)

Lemma opening_counts k c u start id :
  test_results (opening k c u start id) = [] /\ observed_rates (opening k c u start id) = [].
Proof. split; reflexivity. Qed.
Lemma saving_counts u k e r sv b : saving u k e r sv b -> test_results sv = [] /\ observed_rates sv = [].
Proof. intros H; inversion H; subst; split; reflexivity. Qed.

Lemma counted_app n a b : counted n (a ++ b) = counted n a ++ counted n b.
Proof. apply flat_map_app. Qed.
Lemma observed_app a b : observed_rates (a ++ b) = observed_rates a ++ observed_rates b.
Proof. apply flat_map_app. Qed.

Lemma tallied_counts q k proto failed rate tl : tallied q k proto failed rate tl ->
  test_results tl = [[proto; kind_name k; rate_label failed rate]] /\
  observed_rates tl = (if fltb f_zero rate then [([proto; kind_name k; q_is_mon q], rate)] else []).
Proof. intros [(E & ->)|(E & ->)]; rewrite E; split; reflexivity. Qed.

Lemma request_tally fuel h q k l tr r : request_run (real fuel k) h q k l tr r ->
  (results_written tr = [] \/
   exists res d v c o, results_written tr = [res] /\ data_of k res d /\ is_rate k (a_server d) v /\
     In (EUpgrade (Some c)) tr /\
     (exists limit, dialogue k limit (frames tr) o) /\ o <> Unfinished /\
     test_results tr = [[conn_label7 c; kind_name k; rate_label (match o with Failed _ => true | _ => false end) v]] /\
     observed_rates tr = (if fltb f_zero v then [([conn_label7 c; kind_name k; q_is_mon q], v)] else [])).
Proof.
  intros H. pose proof (request_leaves _ _ _ _ _ _ _ H) as L. pose proof H as H0.
  destruct H as [v Fv Nv|lim El Sp|lim El Sp|lim c El Sp
      |lim c u start id ms p sub d B Hs|lim c u start id ms p sub d err rate tl end_ res sv B Hs Hr Ht Hp Hv
      |lim c u start id ms p sub d t end_ res sv B Hs Hp Hv|lim c u start id ms p sub d r tl end_ res sv B Hs Hr Hp Hv].
  1-4: left; reflexivity.
  - left. destruct L as [(_ & E & _)|(u' & _ & [(E & _)|[(E & _)|(_ & _ & _ & E & _)]])]; congruence.
  - right. apply real_facts in Hs. destruct Hs as (Ev & _ & D1 & D2 & D3 & D4 & D5 & o & Dg & Rt & Se).
    apply subtest_quiet in Ev. destruct Ev as (E1 & E2 & E3 & E4 & _ & _ & _ & E8 & E9).
    pose proof (tallied_counts _ _ _ _ _ _ Ht) as [T1 T2]. pose proof (tallied_quiet _ _ _ _ _ _ Ht) as (T3 & _ & _ & _ & T4 & _).
    pose proof (saving_counts _ _ _ _ _ _ Hv) as [V1 V2]. pose proof (saving_frames _ _ _ _ _ _ Hv) as [V3 _].
    destruct Hp as (_ & _ & _ & Hd).
    exists res, d, rate, c, o.
    split. { inversion Hv; subst. unfold opening, results_written in *. rewrite !flat_map_app, E1, T3. reflexivity. }
    split; [exact Hd|]. split; [exact Hr|]. split; [left; reflexivity|].
    split. { exists (kind_limit k p). unfold opening. rewrite !frames_app, T4, V3. cbn. rewrite app_nil_r. exact Dg. }
    split. { intros ->. discriminate Rt. }
    assert (Er : is_some err = match o with Failed _ => true | _ => false end).
    { destruct o; cbn in Rt; [injection Rt as ->; reflexivity| |discriminate].
      destruct Rt as [e Rt]. injection Rt as ->. reflexivity. }
    rewrite Er in T1. unfold test_results in *. rewrite !counted_app, !observed_app, E8, E9, V1, V2, T1, T2.
    split; cbn; rewrite ?app_nil_r; reflexivity.
  - apply real_facts in Hs. destruct Hs as (_ & [X|[x X]] & _); discriminate.
  - left. destruct L as [(_ & E & _)|(u' & _ & [(E & _)|[(_ & _ & E & _)|(E & _)]])]; congruence.
Qed.

(** ** Times *)

Lemma loop_times dl tr : loop_trace dl tr ->
  (forall p d e, In (ESendPing p d e) tr -> d = dl /\ exists t, In t (clock tr) /\ p = itoa t) /\
  (forall c s d e, In (ESendClose c s d e) tr -> exists t, In t (clock tr) /\ d = t + 10 ^ 9) /\
  (forall x, In x [EMeasurerStart; EMeasurerStop] -> ~ In x tr) /\
  (forall d e, ~ In (EWriteDeadline d e) tr).
Proof.
  intros H. induction H as [|x r L IH|m e r L IH|n e r L IH|n e r L IH|ls r L IH|t e r L IH|t c s e r L IH].
  { split; [intros ? ? ? []|]. split; [intros ? ? ? ? []|]. split; [intros ? ? []|intros ? ? []]. }
  all: destruct IH as (I1 & I2 & I3 & I4).
  1-5: (split; [|split; [|split]]); cbn [In clock flat_map app]; fold (clock r);
    [intros p' d' e' [X|X]; [discriminate|eauto]|intros c' s' d' e' [X|X]; [discriminate|eauto]
    |intros y Hy [X|X]; [subst y; cbn in Hy; intuition discriminate|exact (I3 y Hy X)]
    |intros d' e' [X|X]; [discriminate|exact (I4 _ _ X)]].
  - split; [|split; [|split]]; cbn [In clock flat_map app]; fold (clock r).
    + intros p' d' e' [X|[X|X]]; [discriminate| |].
      * injection X as <- <- <-. split; [reflexivity|]. exists t. cbn. auto.
      * destruct (I1 _ _ _ X) as (-> & t' & T1 & T2). split; [reflexivity|]. exists t'. cbn. auto.
    + intros c' s' d' e' [X|[X|X]]; try discriminate. destruct (I2 _ _ _ _ X) as (t' & T1 & T2). exists t'. cbn. auto.
    + intros y Hy [X|[X|X]]; [subst y; cbn in Hy; intuition discriminate..|exact (I3 y Hy X)].
    + intros d' e' [X|[X|X]]; [discriminate..|exact (I4 _ _ X)].
  - split; [|split; [|split]]; cbn [In clock flat_map app]; fold (clock r).
    + intros p' d' e' [X|[X|X]]; try discriminate. destruct (I1 _ _ _ X) as (-> & t' & T1 & T2).
      split; [reflexivity|]. exists t'. cbn. auto.
    + intros c' s' d' e' [X|[X|X]]; [discriminate| |].
      * injection X as <- <- <- <-. exists t. cbn. auto.
      * destruct (I2 _ _ _ _ X) as (t' & T1 & T2). exists t'. cbn. auto.
    + intros y Hy [X|[X|X]]; [subst y; cbn in Hy; intuition discriminate..|exact (I3 y Hy X)].
    + intros d' e' [X|[X|X]]; [discriminate..|exact (I4 _ _ X)].
Qed.

Lemma shape_timing k limit proto a a' tr r : sender_shape k limit proto a a' tr r -> timing k a a' tr r.
Proof.
  intros [(e & -> & -> & -> & ->)|[(e & t0 & -> & -> & ->)|(t0 & t1 & lt & last & -> & a1 & F & Hl)]].
  - unfold timing. split.
    { eexists [_; _]. split; [reflexivity|]. cbn. intuition discriminate. }
    cbn. split; [intuition discriminate|]. split; [intuition discriminate|]. split; [intuition discriminate|].
    left. eauto 6.
  - unfold timing. split.
    { exists (match k with Download => [EPrepare 8192 None] | Upload => [] end ++
          [ENow t0; EWriteDeadline (t0 + 15000000000) (Some e);
           ECount (str "ndt7_client_sender_errors_total") [proto; kind_name k; str "set-write-deadline"]]).
      split; [destruct k; reflexivity|]. destruct k; cbn; intuition discriminate. }
    split. { intros d e0 H. exists t0, []. split; [destruct k; reflexivity|].
             destruct k; cbn in H; repeat (destruct H as [H|H]; [try discriminate; try (injection H; congruence)|]); contradiction. }
    split. { intros p d e0 H. destruct k; cbn in H; intuition discriminate. }
    split. { intros c s d e0 H. destruct k; cbn in H; intuition discriminate. }
    left. split; [reflexivity|]. split; [reflexivity|]. split; [destruct k; reflexivity|eauto].
  - destruct F as (o & D & R & C & A & L & K). pose proof (loop_times _ _ L) as (L1 & L2 & L3 & L4).
    set (setup := match k with Download => [EPrepare 8192 None] | Upload => [] end).
    assert (Ck : clock (EMeasurerStart :: setup ++ [ENow t0; EWriteDeadline (t0 + 15000000000) None; ENow t1] ++ lt ++ last)
                 = t0 :: t1 :: clock lt ++ clock last).
    { unfold clock, setup. destruct k; cbn; rewrite flat_map_app; reflexivity. }
    assert (In_lt : forall e, In e (EMeasurerStart :: setup ++ [ENow t0; EWriteDeadline (t0 + 15000000000) None; ENow t1] ++ lt ++ last) ->
       e = EMeasurerStart \/ e = EPrepare 8192 None \/ e = ENow t0 \/ e = EWriteDeadline (t0 + 15000000000) None \/ e = ENow t1 \/
       In e lt \/ In e last).
    { intros e He. unfold setup in He. destruct k; cbn in He; rewrite in_app_iff in He; intuition. }
    assert (Last : forall e, In e last -> (exists t, e = ENow t) \/ e = EMeasurerStop).
    { intros e He. destruct Hl as [(_ & -> & _)|(x & t2 & _ & -> & _)]; cbn in He; [contradiction|intuition eauto]. }
    unfold timing. split.
    { exists (setup ++ [ENow t0; EWriteDeadline (t0 + 15000000000) None; ENow t1] ++ lt ++
        match r with Panic _ => [] | Ok _ => firstn 1 last end).
      assert (N : forall x, In x [EMeasurerStart; EMeasurerStop] ->
        ~ In x (setup ++ [ENow t0; EWriteDeadline (t0 + 15000000000) None; ENow t1] ++ lt ++
          match r with Panic _ => [] | Ok _ => firstn 1 last end)).
      { intros x Hx. pose proof (L3 x Hx) as Nx. rewrite !in_app_iff. unfold setup.
        destruct Hl as [(-> & -> & _)|(y & t2 & -> & -> & _)]; cbn in Hx |- *; destruct k; cbn; intuition (subst; discriminate). }
      split; [|split; apply N; cbn; auto].
      destruct Hl as [(-> & -> & _)|(y & t2 & -> & -> & _)]; cbn [firstn]; f_equal; rewrite <- !app_assoc; cbn; rewrite ?app_nil_r; try reflexivity.
      all: rewrite <- !app_assoc; reflexivity. }
    split. { intros d e He. rewrite Ck. exists t0. eexists. split; [reflexivity|].
      apply In_lt in He. repeat (destruct He as [He|He]; [try discriminate; try (injection He; congruence); try (destruct (L4 _ _ He))|]).
      destruct (Last _ He) as [[? X]|X]; discriminate. }
    split. { intros p d e He. rewrite Ck.
      apply In_lt in He. repeat (destruct He as [He|He]; [try discriminate|]).
      - destruct (L1 _ _ _ He) as (-> & t & T1 & T2). split; [unfold setup; destruct k; cbn; auto|].
        exists t. cbn. rewrite in_app_iff. auto.
      - destruct (Last _ He) as [[? X]|X]; discriminate. }
    split. { intros c s d e He. rewrite Ck.
      apply In_lt in He. repeat (destruct He as [He|He]; [try discriminate|]).
      - destruct (L2 _ _ _ _ He) as (t & T1 & T2). exists t. cbn. rewrite in_app_iff. split; [auto|exact T2].
      - destruct (Last _ He) as [[? X]|X]; discriminate. }
    right. exists t0, t1, (clock lt ++ clock last). split; [exact Ck|].
    destruct Hl as [(-> & -> & ->)|(x & t2 & -> & -> & ->)]; rewrite A; cbn; (split; [reflexivity|]); [reflexivity|eauto].
Qed.

(** With a clock that does not go back, the start is not after the end. *)
Lemma timing_order k a a' tr x : timing k a a' tr (Ok x) -> ascending (clock tr) ->
  forall s e, a_start a = None -> a_start a' = Some s -> a_end a' = Some e -> s <= e.
Proof.
  intros (_ & _ & _ & _ & H) As s e N Hs He. destruct H as [(E & _)|(t0 & t1 & ts & Ck & S1 & ts' & t2 & -> & E2)]; [congruence|].
  rewrite Ck in As. inversion As as [|? ? _ As1]; subst. inversion As1 as [|? ? F _]; subst.
  apply Forall_app in F. destruct F as [_ F]. inversion F; subst. congruence.
Qed.

(** ** Remaining pieces of the theorems *)

Lemma sender_shapes fuel k proto p a tr a' r : sender_run fuel k proto p a tr a' r ->
  sender_shape k (kind_limit k p) proto a a' tr r.
Proof. destruct k; [apply download_sender_shape|apply upload_sender_shape]. Qed.

Lemma dialogue_failed_word k limit fs o : dialogue k limit fs o -> o = Failed (str "measurer-closed-early") -> False.
Proof. induction 1; intros E; try discriminate; auto. Qed.

Lemma request_rejected fuel h q k l tr r : request_run (real fuel k) h q k l tr r ->
  (In EBadRequest tr <->
     (exists v, first_value (str "early_exit") l v /\ v <> str "250") \/ q_subprotocol q <> subprotocol) /\
  (In EBadRequest tr -> r = Ok tt /\
     (tr = [EBadRequest] \/
      tr = [EBadRequest; ECount (str "ndt7_client_connections_total") [kind_name k; str "websocket-error"]])).
Proof.
  assert (Lim : forall limit, early_exit_limit l limit ->
    (exists v, first_value (str "early_exit") l v /\ v <> str "250") -> False).
  { intros limit L (v & (r1 & F) & N). destruct L as [(_ & E)|(_ & r2 & E)]; congruence. }
  intros H. destruct H as [v Fv Nv|lim El Sp|lim El Sp|lim c El Sp
      |lim c u start id ms p sub d B Hs|lim c u start id ms p sub d err rate tl end_ res sv B Hs Hr Ht Hp Hv
      |lim c u start id ms p sub d t end_ res sv B Hs Hp Hv|lim c u start id ms p sub d r tl end_ res sv B Hs Hr Hp Hv].
  - split; [|auto]. split; [eauto|]. left; reflexivity.
  - split; [|auto]. split; [auto|]. left; reflexivity.
  - split; [|cbn; intuition discriminate]. split; [cbn; intuition discriminate|].
    intros [X|X]; [destruct (Lim _ El X)|contradiction].
  - split; [|cbn; intuition discriminate]. split; [cbn; intuition discriminate|].
    intros [X|X]; [destruct (Lim _ El X)|contradiction].
  - apply real_facts in Hs. destruct Hs as (Ev & _). apply subtest_quiet in Ev. destruct Ev as (_ & _ & _ & _ & N & _).
    assert (M : ~ In EBadRequest (opening k c u start id ++ sub)) by (rewrite in_app_iff; cbn; intuition discriminate).
    destruct B as (B1 & _ & B3 & _). split; [|contradiction]. split; [contradiction|].
    intros [X|X]; [destruct (Lim _ B1 X)|contradiction].
  - apply real_facts in Hs. destruct Hs as (Ev & _). apply subtest_quiet in Ev. destruct Ev as (_ & _ & _ & _ & N & _).
    assert (T : ~ In EBadRequest tl) by (destruct Ht as [(_ & ->)|(_ & ->)]; cbn; intuition discriminate).
    assert (V : ~ In EBadRequest sv) by (inversion Hv; subst; cbn; intuition discriminate).
    assert (M : ~ In EBadRequest (opening k c u start id ++ sub ++ tl ++ sv ++ [ECancel]))
      by (rewrite !in_app_iff; cbn; intuition discriminate).
    destruct B as (B1 & _ & B3 & _). split; [|contradiction]. split; [contradiction|].
    intros [X|X]; [destruct (Lim _ B1 X)|contradiction].
  - apply real_facts in Hs. destruct Hs as (_ & [X|[x X]] & _); discriminate.
  - apply real_facts in Hs. destruct Hs as (Ev & _). apply subtest_quiet in Ev. destruct Ev as (_ & _ & _ & _ & N & _).
    assert (T : ~ In EBadRequest tl).
    { destruct Hr as [(t & _ & ->)|(err & rate & _ & _ & [(_ & ->)|(_ & ->)])]; cbn; intuition discriminate. }
    assert (V : ~ In EBadRequest sv) by (inversion Hv; subst; cbn; intuition discriminate).
    assert (M : ~ In EBadRequest (opening k c u start id ++ sub ++ tl ++ sv))
      by (rewrite !in_app_iff; cbn; intuition discriminate).
    destruct B as (B1 & _ & B3 & _). split; [|contradiction]. split; [contradiction|].
    intros [X|X]; [destruct (Lim _ B1 X)|contradiction].
Qed.

Lemma last_measurement {A} (ms0 ms1 : list A) m m' : ms0 ++ [m] = ms1 ++ [m'] -> m = m'.
Proof. intros H. apply app_inj_tail in H. tauto. Qed.

Lemma rate_cases k ms v : is_rate k ms v ->
  (ms = [] -> v = f_zero) /\
  (forall ms0 m, ms = ms0 ++ [m] ->
     (m_tcp m = None -> v = f_zero) /\
     (forall t el, m_tcp m = Some (t, el) -> 1 <= el < 2 ^ 63 ->
        let b := match k with Download => ti_bytes_acked t | Upload => ti_bytes_received t end in
        (b = 0 -> v = f_zero) /\
        (1 <= b < 2 ^ 63 ->
           close_to v (8 * b) el /\ fltb f_zero v = true /\ f_is_zero v = false /\ f_finite v = true))).
Proof.
  intros [(ms1 & m1 & t1 & el1 & -> & T1 & ->)|(-> & H)].
  - split; [intros E; destruct ms1; discriminate|]. intros ms0 m E. apply last_measurement in E. subst m1.
    split; [congruence|]. intros t el T Hel b. rewrite T1 in T. injection T as <- <-. fold b. split.
    + intros ->. apply rate_zero. lia.
    + intros Hb. assert (C := rate_positive b el1 ltac:(lia) ltac:(lia)).
      split; [exact C|]. eapply close_positive, C.
  - split; [reflexivity|]. intros ms0 m E. split; [reflexivity|]. intros t el T.
    destruct H as [->|(ms1 & m1 & -> & N)]; [destruct ms0; discriminate|]. apply last_measurement in E. congruence.
Qed.

Lemma rate_zero_time k ms0 m t v : m_tcp m = Some (t, 0) -> is_rate k (ms0 ++ [m]) v ->
  let b := match k with Download => ti_bytes_acked t | Upload => ti_bytes_received t end in
  (b = 0 -> v = SpecFloat.S754_nan /\ rate_label false v = str "okay-with-rate" /\ fltb f_zero v = false) /\
  (1 <= b < 2 ^ 63 -> v = SpecFloat.S754_infinity false /\ fltb f_zero v = true).
Proof.
  intros T [(ms1 & m1 & t1 & el1 & E & T1 & ->)|(-> & H)].
  - apply last_measurement in E. subst m1. rewrite T in T1. injection T1 as <- <-. cbv zeta. split.
    + intros ->. rewrite rate_nan. repeat split.
    + intros Hb. rewrite rate_inf by lia. split; reflexivity.
  - destruct H as [E|(ms1 & m1 & E & N)]; [destruct ms0; discriminate|]. apply last_measurement in E. congruence.
Qed.

Lemma parse_ticks_spec s t d : bytes_ok s ->
  (parse_ticks s t = Some d <-> exists n, int64_text s n /\ d = wrap64 (t - n)) /\
  (parse_ticks s t = None <-> forall n, ~ int64_text s n).
Proof.
  intros OK. unfold parse_ticks. destruct (json_int64 s) as [n|] eqn:J; cbn [option_map]; split; split.
  - intros E. injection E as <-. exists n. split; [apply json_int64_spec; assumption|reflexivity].
  - intros (n' & H & ->). apply json_int64_spec in H; [|exact OK]. congruence.
  - discriminate.
  - intros H. destruct (H n). apply json_int64_spec; assumption.
  - discriminate.
  - intros (n' & H & _). apply json_int64_spec in H; [|exact OK]. congruence.
  - intros _ n H. apply json_int64_spec in H; [|exact OK]. congruence.
  - reflexivity.
Qed.
