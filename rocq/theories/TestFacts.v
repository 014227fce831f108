(** The properties of single tests, as lemmas. *)
From Coq Require Import String ZArith List Bool Lia.
From Coq Require Import ZifyBool ZifyNat.
From Verif Require Import Base BaseFacts WireModel MessagerModel GoFloat GoStrings
  Web100Model Effect ControlModel ControlSpec ControlProofs MetaProofs HandleProofs ControlFacts.
Import ListNotations.
Open Scope Z_scope.

(** ** C17 *)

Lemma c17_outcome g m tr s r : run (c2s_manage g m c2s_empty) tr (s, r) ->
  ((exists p, r = Panic p) <->
   (exists c, In (EvStopMeasuring c None) tr) \/ (exists d, In (EvServe d (None, None)) tr)) /\
  (forall e, r = Ok e -> u_error s = e).
Proof.
  intros H. split.
  - split.
    + intros (p & ->). apply c2s_outcome in H; [|reflexivity]. tauto.
    + intros I. exe H; try (eexists; reflexivity); exfalso;
      destruct I as [(c & I)|(d & I)]; cbn [In] in I;
      repeat (destruct I as [I|I]; [first [discriminate I | congruence]|]); exact I.
  - intros e ->. apply c2s_outcome in H; [exact H|reflexivity].
Qed.

(** When the rate is reported, and which. *)
Lemma c17_rate g m tr s r : run (c2s_manage g m c2s_empty) tr (s, r) ->
  (forall f e, nth_error (writes tr) 2 = Some (f, e) ->
     exists c how w t0 t1,
       In (EvDrain c how) tr /\ In (EvStopMeasuring c (Some w)) tr /\
       u_start s = Some t0 /\ u_end s = Some t1 /\
       (how = DrainTimeout \/
        ti_bytes_received (w_tcp_info w) <> 0 /\ fltb (dur_seconds (t1 - t0)) (f_of_int 9) = false) /\
       let kbps := fdiv (fdiv (fmul (f_of_int 8) (f_of_int (ti_bytes_received (w_tcp_info w))))
                              (f_of_int 1000)) (dur_seconds (t1 - t0)) in
       Say f = say m TestMsg (itoa (f_to_int64 kbps)) /\ u_mean s = fdiv kbps (f_of_int 1000)) /\
  (nth_error (writes tr) 2 = None -> u_mean s = f_zero) /\
  (forall c how w t0 t1, In (EvDrain c how) tr -> In (EvStopMeasuring c (Some w)) tr ->
     u_start s = Some t0 -> u_end s = Some t1 ->
     (how = DrainTimeout \/
      ti_bytes_received (w_tcp_info w) <> 0 /\ fltb (dur_seconds (t1 - t0)) (f_of_int 9) = false) ->
     nth_error (writes tr) 2 <> None).
Proof.
  intros H.
  exe H; unfold writes; cbn [flat_map app nth_error];
  (split; [let f := fresh in let e := fresh in let E := fresh in intros f e E; first [discriminate E | injection E as <- <-] |
   split; [first [discriminate | reflexivity] |
           intros ?xc ?xhow ?xw ?xu ?xv I1 I2 S0 S1 C; first [discriminate | exfalso]]]);
  cbn [In] in *.
  all: try (do 5 eexists; split; [cbn [In]; eauto 12|]; split; [cbn [In]; eauto 12|];
            split; [reflexivity|]; split; [reflexivity|];
            split; [first [left; reflexivity | right; split; [apply Z.eqb_neq; eassumption|eassumption]]|];
            split; reflexivity).
  all: repeat (destruct I1 as [I1|I1]; [try discriminate I1; try congruence|]); try contradiction.
  all: repeat (destruct I2 as [I2|I2]; [try discriminate I2|]); try contradiction.
  all: injection I1; injection I2; intros; subst; cbn in S0, S1; injection S0; injection S1; intros; subst.
  all: destruct C as [C|[C1 C2]]; [discriminate C|];
    first [congruence | match goal with E : (_ =? _) = true |- _ => apply Z.eqb_eq in E; contradiction end].
Qed.

(** ** S2C *)

Lemma writes_lines m lines t : writes (map (line_ok m) lines ++ t) =
  map (fun l => (frame_of m TestMsg l, None)) lines ++ writes t.
Proof. induction lines; cbn; [reflexivity|]. f_equal. exact IHlines. Qed.
Lemma served_lines m lines t : served (map (line_ok m) lines ++ t) = served t.
Proof. apply flat_map_lines. reflexivity. Qed.
Lemma closed_lines m lines t : closed (map (line_ok m) lines ++ t) = closed t.
Proof. apply flat_map_lines. reflexivity. Qed.
Lemma reads_lines m lines t : reads (map (line_ok m) lines ++ t) = reads t.
Proof. apply flat_map_lines. reflexivity. Qed.

(** The connection is closed before the result is sent. *)
Lemma c18_s2c_order g m tr s r : run (s2c_manage g m s2c_empty) tr (s, r) ->
  (List.length (writes tr) <= 2)%nat \/
  exists hd c tl, tr = hd ++ EvTestClose c :: tl /\
    (exists port, writes hd = [(frame_of m TestPrepare (itoa port), None); (frame_of m TestStart [], None)]) /\
    served hd = [c] /\ closed hd = [] /\ served tl = [] /\ closed tl = [].
Proof.
  intros H. s2c_exec H;
  first
  [ left; cbn; lia
  | right;
    match goal with
    | |- exists _ _ _, ?e1 :: ?e2 :: ?e3 :: ?e4 :: ?e5 :: ?e6 :: ?e7 :: ?e8 :: ?e9 :: EvTestClose ?ec :: ?etl = _ /\ _ =>
        exists [e1; e2; e3; e4; e5; e6; e7; e8; e9], ec, etl
    end;
    (split; [reflexivity|]); (split; [eexists; reflexivity|]); (split; [reflexivity|]);
    (split; [reflexivity|]);
    unfold served, closed; cbn [flat_map app];
    rewrite ?flat_map_lines by reflexivity; split; reflexivity ].
Qed.

(** The client's own figure: what it sent, if it is a number. *)
Definition client_text (m : encoding) (x : option bytes) : bytes :=
  match fst (receive_of m x TestMsg) with Some t => t | None => [] end.

Lemma s2c_result g m tr s r : run (s2c_manage g m s2c_empty) tr (s, r) ->
  (exists e, r = Ok e /\ d_error s = e) /\
  match measured tr with
  | [] => (List.length (writes tr) <= 2)%nat /\ d_mean s = f_zero /\ d_tcp_info s = None /\ r <> Ok None
  | [(c, w)] =>
     exists t0 t1 f e,
       d_start s = Some t0 /\ d_end s = Some t1 /\
       d_uuid s = tc_uuid c /\ d_server_ip s = tc_server_ip c /\ d_server_port s = tc_server_port c /\
       d_client_ip s = tc_client_ip c /\ d_client_port s = tc_client_port c /\
       d_tcp_info s = Some (w_tcp_info w) /\ d_count_rtt s = w_count_rtt w /\
       d_min_rtt s = w_min_rtt w * 1000000 /\ d_max_rtt s = w_max_rtt w * 1000000 /\
       d_sum_rtt s = w_sum_rtt w * 1000000 /\
       let acked := ti_bytes_acked (w_tcp_info w) in
       let kbps := fdiv (fdiv (fmul (f_of_int 8) (f_of_int acked)) (dur_seconds (t1 - t0)))
                        (f_of_int 1000) in
       d_mean s = fdiv kbps (f_of_int 1000) /\
       nth_error (writes tr) 2 = Some (f, e) /\ Say f = say_result m (f_to_int64 kbps) 0 acked
  | _ => False
  end.
Proof.
  intros H. split; [eapply s2c_outcome; eauto; reflexivity|].
  s2c_exec H; unfold measured, writes; cbn [flat_map app nth_error];
  rewrite ?flat_map_lines by reflexivity; cbn [flat_map app];
  first [ split; [cbn; lia|]; split; [reflexivity|]; split; [reflexivity|discriminate]
        | do 4 eexists; repeat (split; [reflexivity|]); reflexivity ].
Qed.

Lemma s2c_client g m tr s r : run (s2c_manage g m s2c_empty) tr (s, r) ->
  d_client_mbps s =
    match reads tr with
    | [x] => match receive_of m x TestMsg with
             | (None, Some _) => f_zero
             | (p, _) => match parse_float (match p with Some t => t | None => [] end) with
                         | Some v => fdiv v (f_of_int 1000)
                         | None => f_zero
                         end
             end
    | _ => f_zero
    end.
Proof.
  intros H.
  s2c_exec H; unfold reads; cbn [flat_map app];
  rewrite ?flat_map_lines by reflexivity; cbn [flat_map app]; try reflexivity;
  repeat match goal with H : option_map _ _ = _ |- _ => revert H end;
  match goal with |- context [receive_of m ?x TestMsg] =>
    destruct (receive_of m x TestMsg) as [[?|] [?|]] eqn:?; cbn [fst snd option_map] in *; intros;
    try discriminate end;
  repeat match goal with H : Some _ = Some _ |- _ => injection H as H; subst end;
  repeat match goal with H : parse_float _ = _ |- _ => rewrite H; clear H end; try reflexivity.
Qed.

(** ** The archived record *)

Lemma within_app t a b : within t (a ++ t ++ b).
Proof. exists a, b. reflexivity. Qed.
Lemma within_trans t u tr : within t u -> within u tr -> within t tr.
Proof.
  intros (a & b & ->) (a' & b' & ->). exists (a' ++ a), (b ++ b'). rewrite <- !app_assoc. reflexivity.
Qed.

(** Fields of the record that the conversation never changes. *)
Definition same_frame (r r' : record) : Prop :=
  r_uuid r' = r_uuid r /\ r_protocol r' = r_protocol r /\ r_server_meta r' = r_server_meta r /\
  r_server_ip r' = r_server_ip r /\ r_server_port r' = r_server_port r /\
  r_client_ip r' = r_client_ip r /\ r_client_port r' = r_client_port r /\ r_start r' = r_start r.

Lemma run_meta_manage g m r tr r' x : run (run_meta g m r) tr (r', x) ->
  exists l e, run (meta_manage g m tt) tr (tt, Ok (l, e)) /\ r' = set_meta l r /\
    (x = Ok tt <-> e = None) /\ (e <> None -> l = []).
Proof.
  intros H. unfold run_meta in H.
  apply run_bind in H. destruct H as [(t1 & s1 & [d [l e]] & t2 & -> & H1 & H)|(p & E & H)].
  - apply run_call in H1. destruct H1 as (-> & [] & y & H1 & E).
    pose proof (meta_manage_runs _ _ _ _ _ _ H1) as (z & -> & M1). injection E as -> <-.
    exists l, e. destruct e; exe H; rewrite app_nil_r; (split; [exact H1|]); (split; [reflexivity|]).
    + split; [split; discriminate|]. intros _. inversion M1; reflexivity.
    + split; [split; reflexivity|]. congruence.
  - exfalso. apply run_call in H. destruct H as (-> & d1 & y & H1 & E1).
    apply meta_manage_runs in H1. destruct H1 as (z & -> & H1). discriminate.
Qed.

Lemma converse_record g m c2s s2c meta r tr r' x : m <> Unknown ->
  r_c2s r = None -> r_s2c r = None -> r_client_meta r = [] ->
  run (converse g m c2s s2c meta r) tr (r', x) ->
  same_frame r r' /\ r_message_protocol r' = encoding_string m /\
  c2s_part_of g m c2s tr (negb (okb x)) (r_c2s r') /\
  s2c_part_of g m s2c tr (negb (okb x)) (r_s2c r') /\
  meta_part_of g m meta tr (negb (okb x)) (r_client_meta r').
Proof.
  intros Hm R1 R2 R3 H. apply converse_split in H; [|exact Hm]. cbn zeta in H.
  assert (E0 : same_frame r (set_protocol (encoding_string m) r)) by (repeat split).
  destruct H as [(e & -> & -> & ->)|[(e & -> & -> & ->)|[(e & -> & -> & ->)|H]]].
  1-3: split; [exact E0|]; split; [reflexivity|];
       cbn [set_protocol r_c2s r_s2c r_client_meta okb negb]; rewrite R1, R2, R3;
       cbn; split; [auto|]; split; [auto|]; left; auto.
  destruct H as (tc & rc & xc & t1 & -> & H1 & H).
  set (h := [_; _; _]) in *. clearbody h.
  (* after C2S *)
  assert (A1 : same_frame r rc /\ r_message_protocol rc = encoding_string m /\
               r_s2c rc = None /\ r_client_meta rc = [] /\
               match r_c2s rc with
               | Some d => c2s = true /\ exists t e, within t tc /\ run (c2s_manage g m c2s_empty) t (d, Ok e)
               | None => c2s = false \/ okb xc = false
               end).
  { destruct c2s; cbn [stage] in H1.
    - apply run_c2s_runs in H1. destruct H1 as (t & d & y & tl & H1 & -> & _ & Hy).
      destruct y as [e|p].
      + destruct Hy as (-> & _ & _). split; [repeat split|]. split; [reflexivity|].
        split; [exact R2|]. split; [exact R3|]. cbn. split; [reflexivity|]. exists t, e.
        split; [apply (within_app t [] tl)|exact H1].
      + destruct Hy as (-> & _ & ->). split; [repeat split|]. split; [reflexivity|].
        split; [exact R2|]. split; [exact R3|]. cbn. rewrite R1. cbn. auto.
    - destruct H1 as (-> & -> & ->). split; [repeat split|]. split; [reflexivity|].
      split; [exact R2|]. split; [exact R3|]. cbn. rewrite R1. cbn. auto. }
  clear H1. destruct A1 as (F1 & P1 & S1 & M1 & C1).
  destruct xc as [vc|p].
  2:{ destruct H as (-> & -> & ->). split; [exact F1|]. split; [exact P1|].
      rewrite S1, M1. cbn. split; [|split; [auto|left; auto]]. destruct (r_c2s rc); cbn; [|auto].
      destruct C1 as (-> & t & e & W & C1). split; [reflexivity|]. exists t, e. split; [|exact C1].
      eapply within_trans; [exact W|]. apply within_app. }
  assert (C2 : c2s_part_of g m c2s tc false (r_c2s rc)).
  { destruct (r_c2s rc); cbn in *; [exact C1|]. destruct C1; [auto|discriminate]. }
  clear C1.
  destruct H as (ts & rs & xs & t2 & -> & H2 & H).
  assert (A2 : same_frame r rs /\ r_message_protocol rs = encoding_string m /\
               r_c2s rs = r_c2s rc /\ r_client_meta rs = [] /\
               match r_s2c rs with
               | Some d => s2c = true /\ exists t e, within t ts /\ run (s2c_manage g m s2c_empty) t (d, Ok e)
               | None => s2c = false
               end).
  { destruct s2c; cbn [stage] in H2.
    - apply run_s2c_runs in H2. destruct H2 as (t & d & e & tl & H2 & -> & _ & -> & _).
      split; [exact F1|]. split; [exact P1|]. split; [reflexivity|]. split; [exact M1|].
      cbn. split; [reflexivity|]. exists t, e. split; [apply (within_app t [] tl)|exact H2].
    - destruct H2 as (-> & -> & ->). split; [exact F1|]. split; [exact P1|]. split; [reflexivity|].
      split; [exact M1|]. rewrite S1. reflexivity. }
  clear H2. destruct A2 as (F2 & P2 & CC & M2 & D1).
  assert (CW : forall t2, c2s_part_of g m c2s (h ++ tc ++ ts ++ t2) (negb (okb x)) (r_c2s rc)).
  { intros t2'. destruct (r_c2s rc); cbn in *.
    - destruct C2 as (-> & t & e & W & C2). split; [reflexivity|]. exists t, e. split; [|exact C2].
      eapply within_trans; [exact W|]. apply within_app.
    - destruct C2 as [C2|C2]; [auto|discriminate]. }
  assert (DW : forall t2, s2c_part_of g m s2c (h ++ tc ++ ts ++ t2) (negb (okb x)) (r_s2c rs)).
  { intros t2'. destruct (r_s2c rs); cbn in *; [|auto].
    destruct D1 as (-> & t & e & W & D1). split; [reflexivity|]. exists t, e. split; [|exact D1].
    eapply within_trans; [exact W|]. rewrite app_assoc. apply within_app. }
  destruct xs as [vs|p].
  2:{ destruct H as (-> & -> & ->). split; [exact F2|]. split; [exact P2|].
      rewrite CC. split; [apply CW|]. split; [apply DW|]. left. rewrite M2. auto. }
  destruct H as (tm & xm & t3 & -> & H3 & H).
  destruct meta; cbn [stage] in H3.
  - pose proof (run_meta_manage _ _ _ _ _ _ H3) as (l & e & H4 & -> & Hx & Hl).
    split; [exact F2|]. split; [exact P2|]. split; [cbn; rewrite CC; apply CW|].
    split; [apply DW|].
    destruct e as [e|].
    + left. split; [apply Hl; discriminate|]. right.
      destruct xm as [um|q]; [destruct um; destruct Hx as [Hx _]; specialize (Hx eq_refl); discriminate|].
      destruct H as (_ & ->). reflexivity.
    + right. split; [reflexivity|]. exists tm. split; [|exact H4].
      exists (h ++ tc ++ ts), t3. rewrite <- !app_assoc. reflexivity.
  - destruct H3 as (-> & -> & ->). split; [exact F2|]. split; [exact P2|].
    split; [rewrite CC; apply CW|]. split; [apply DW|]. left. auto.
Qed.

Lemma archived g tr s x : run (handle_control_channel g tt) tr (s, x) ->
  exists r, saved tr = [r] /\
    r_uuid r = c_uuid g /\ r_protocol r = conn_type (c_kind g) /\ r_server_meta r = c_meta g /\
    r_server_ip r = c_server_ip g /\ r_server_port r = c_server_port g /\
    r_client_ip r = c_client_ip g /\ r_client_port r = c_client_port g /\
    (exists a b c t, tr = a ++ EvNow (r_start r) :: b ++ EvNow t :: EvSave r :: c /\ r_end r = Some t /\
                     io a = []) /\
    exists inbuff rest, reads tr = inbuff :: rest /\
    match login_of (c_kind g) inbuff with
    | (LoginOk tests, m) =>
        if wants_status tests then
          let failed := negb (beqb (str "okay") (last (last (counted (str "ControlCount") tr) []) [])) in
          r_message_protocol r = encoding_string m /\
          c2s_part_of g m (wants_c2s tests) tr failed (r_c2s r) /\
          s2c_part_of g m (wants_s2c tests) tr failed (r_s2c r) /\
          meta_part_of g m (wants_meta tests) tr failed (r_client_meta r)
        else r_c2s r = None /\ r_s2c r = None /\ r_client_meta r = []
    | _ => r_c2s r = None /\ r_s2c r = None /\ r_client_meta r = []
    end.
Proof.
  intros H. apply handle_runs in H. destruct H as (_ & _ & t0 & body & r1 & t1 & y & -> & H).
  pose proof (body_part _ _ _ _ _ H) as (ib & rs & Hio & He & _).
  apply test_event_facts in He. destruct He as (Sv & _ & _ & Ct & _).
  pose proof (handle_io g t0 body t1 (set_end t1 r1) y) as (Eio & _ & _ & _ & _ & _ & Er & _).
  cbn zeta in Eio, Er.
  match goal with |- context [saved ?t] => set (tr := t) in * end.
  assert (Hs : saved tr = [set_end t1 r1]).
  { unfold tr, saved in *. rewrite !flat_map_app, Sv. destruct y; reflexivity. }
  assert (Hc : negb (beqb (str "okay") (last (last (counted (str "ControlCount") tr) []) [])) = negb (okb y)).
  { unfold tr. rewrite !counted_app, Ct. destruct y; reflexivity. }
  exists (set_end t1 r1). split; [exact Hs|].
  apply control_body_runs in H. destruct H as (inbuff & t & -> & H).
  assert (Fr : same_frame (fresh g t0) r1 ->
    r_uuid (set_end t1 r1) = c_uuid g /\ r_protocol (set_end t1 r1) = conn_type (c_kind g) /\
    r_server_meta (set_end t1 r1) = c_meta g /\
    r_server_ip (set_end t1 r1) = c_server_ip g /\ r_server_port (set_end t1 r1) = c_server_port g /\
    r_client_ip (set_end t1 r1) = c_client_ip g /\ r_client_port (set_end t1 r1) = c_client_port g /\
    (exists a b c t, tr = a ++ EvNow (r_start (set_end t1 r1)) :: b ++ EvNow t :: EvSave (set_end t1 r1) :: c /\
         r_end (set_end t1 r1) = Some t /\ io a = [])).
  { intros (F1 & F2 & F3 & F4 & F5 & F6 & F7 & F8). do 7 (split; [assumption|]).
    exists [EvGauge (str "ActiveTests") [label g] 1], (EvRead inbuff :: t). eexists _, t1.
    split; [|split; reflexivity]. unfold tr. change (r_start (set_end t1 r1)) with (r_start r1).
    rewrite F8. reflexivity. }
  assert (W : forall u, within u t -> within u tr).
  { intros u Hu. eapply within_trans; [exact Hu|]. unfold tr.
    eexists ([_; _; _]), _. reflexivity. }
  rewrite Er, Hc. clearbody tr.
  destruct (login_of (c_kind g) inbuff) as [[tests| |] m] eqn:L.
  - apply serve_tests_runs in H. destruct (wants_status tests) eqn:WS.
    + destruct H as (t2 & -> & H).
      apply converse_record in H; [|eapply login_ok_enc; eauto|reflexivity|reflexivity|reflexivity].
      destruct H as (F & P & C & D & M). destruct (Fr F) as (G1 & G2 & G3 & G4 & G5 & G6 & G7 & G8).
      do 7 (split; [assumption|]). split; [exact G8|].
      exists inbuff. eexists. split; [reflexivity|]. rewrite L, WS.
      split; [exact P|].
      assert (W2 : forall u, within u t2 -> within u tr).
      { intros u Hu. apply W. eapply within_trans; [exact Hu|]. exists (requested g tests), [].
        rewrite app_nil_r. reflexivity. }
      split; [|split].
      * revert C. unfold c2s_part_of. cbn [set_end r_c2s]. destruct (r_c2s r1); [|auto].
        intros (-> & u & e & Hu & Hr). split; [reflexivity|]. eauto.
      * revert D. unfold s2c_part_of. cbn [set_end r_s2c]. destruct (r_s2c r1); [|auto].
        intros (-> & u & e & Hu & Hr). split; [reflexivity|]. eauto.
      * revert M. unfold meta_part_of. cbn [set_end r_client_meta].
        intros [M|(-> & u & Hu & Hr)]; [auto|]. right. split; [reflexivity|]. eauto.
    + destruct H as (-> & -> & ->).
      destruct (Fr ltac:(repeat split)) as (G1 & G2 & G3 & G4 & G5 & G6 & G7 & G8).
      do 7 (split; [assumption|]). split; [exact G8|].
      exists inbuff. eexists. split; [reflexivity|]. rewrite L, WS. auto.
  - destruct H as (-> & -> & e & ->).
    destruct (Fr ltac:(repeat split)) as (G1 & G2 & G3 & G4 & G5 & G6 & G7 & G8).
    do 7 (split; [assumption|]). split; [exact G8|].
    exists inbuff. eexists. split; [reflexivity|]. rewrite L. auto.
  - destruct H as (-> & -> & ->).
    destruct (Fr ltac:(repeat split)) as (G1 & G2 & G3 & G4 & G5 & G6 & G7 & G8).
    do 7 (split; [assumption|]). split; [exact G8|].
    exists inbuff. eexists. split; [reflexivity|]. rewrite L. auto.
Qed.
