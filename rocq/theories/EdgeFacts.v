(** Proofs for EdgeProps. *)
From Coq Require Import String ZArith List Bool Lia.
From Coq Require Import ZifyBool ZifyNat.
From Verif Require Import Base BaseFacts TimeModel TimeSpec TimeFacts CodecModel Ndt7Model NetxModel IdentityModel IdentitySpec IdentityProofs
  MainModel PathSpec PathProofs ExactModel.
Import ListNotations.
Open Scope Z_scope.

Lemma led :
  let segs := [str "a"; str ".."; str ".."; str "ndt"; []; str "."; str "v7"; str "x"; str ".."; []] in
  pieces segs /\ leads segs [str "ndt"; str "v7"] /\ clean_path (str "/a/../../ndt//./v7/x/../") = str "/ndt/v7/" /\
  ~ clean segs /\ clean [str "ndt"; str "v7"; []].
Proof.
  cbv zeta. assert (D : forall s, List.existsb (Z.eqb 47) s = false -> ~ In 47 s).
  { intros s E I. assert (X : existsb (Z.eqb 47) s = true); [|congruence]. apply existsb_exists. exists 47. split; [exact I|reflexivity]. }
  assert (O : forall s, beqb s [] = false -> beqb s (str ".") = false -> beqb s (str "..") = false -> ordinary s).
  { intros s A B C. repeat split; intros ->; rewrite beqb_refl in *; discriminate. }
  split; [split; [discriminate|repeat constructor; apply D; reflexivity]|]. split; [|split; [reflexivity|split]].
  - apply (leads_stay [str "a"; str ".."; str ".."; str "ndt"; []; str "."; str "v7"; str "x"; str ".."]); [auto|].
    apply (leads_up [str "a"; str ".."; str ".."; str "ndt"; []; str "."; str "v7"; str "x"] _ (str "x")).
    apply (leads_down [str "a"; str ".."; str ".."; str "ndt"; []; str "."; str "v7"] [str "ndt"; str "v7"]); [apply O; reflexivity|].
    apply (leads_down [str "a"; str ".."; str ".."; str "ndt"; []; str "."] [str "ndt"]); [apply O; reflexivity|].
    apply (leads_stay [str "a"; str ".."; str ".."; str "ndt"; []]); [auto|].
    apply (leads_stay [str "a"; str ".."; str ".."; str "ndt"]); [auto|].
    apply (leads_down [str "a"; str ".."; str ".."] []); [apply O; reflexivity|].
    apply (leads_top [str "a"; str ".."]). apply (leads_up [str "a"] [] (str "a")). apply (leads_down [] []); [apply O; reflexivity|constructor].
  - intros C. apply cleaned in C; [revert C; vm_compute; discriminate|]. split; [discriminate|repeat constructor; apply D; reflexivity].
  - right. exists [str "ndt"; str "v7"]. split; [discriminate|]. split; [|right; reflexivity]. repeat constructor; apply O; reflexivity.
Qed.

Lemma hex_safe ip : bytes_ok ip -> ~ In 58 (hex_of ip) /\ ~ In 46 (hex_of ip).
Proof.
  intros B. assert (H : Forall (fun b => 48 <= b <= 57 \/ 97 <= b <= 102) (hex_of ip)).
  { unfold hex_of. induction B as [|b ip B _ IH]; [constructor|]. cbn [flat_map]. unfold byte_ok in B.
    assert (D : forall n, 0 <= n < 16 -> 48 <= hex_digit n <= 57 \/ 97 <= hex_digit n <= 102).
    { intros n N. unfold hex_digit. destruct (Z.ltb_spec n 10); lia. }
    unfold hex_byte. cbn [app]. constructor; [apply D; split; [apply Z.div_pos; lia|apply Z.div_lt_upper_bound; lia]|].
    constructor; [apply D, Z.mod_pos_bound; lia|exact IH]. }
  rewrite Forall_forall in H. split; intros X; apply H in X; lia.
Qed.
Lemma no_address : forall ip, bytes_ok ip -> len ip <> 4 -> len ip <> 16 ->
  read_ip (ip_text ip) = None /\ (ip = [] <-> ip_text ip = str "<nil>").
Proof.
  intros [|b ip] B N4 N16; [split; [reflexivity|split; reflexivity]|].
  assert (E : ip_text (b :: ip) = str "?" ++ hex_of (b :: ip)).
  { unfold ip_text. destruct (_ || _) eqn:X; [|reflexivity]. unfold len in *. lia. }
  rewrite E. destruct (hex_safe _ B) as [C D]. split; [|split; discriminate].
  assert (S58 : ~ In 58 (str "?" ++ hex_of (b :: ip))) by (intros [X|X]; [discriminate|contradiction]).
  assert (S46 : ~ In 46 (str "?" ++ hex_of (b :: ip))) by (intros [X|X]; [discriminate|contradiction]).
  unfold read_ip. destruct (mem 58 _) eqn:M; [apply mem_spec in M; contradiction|]. rewrite (fields_one 46 _ S46). reflexivity.
Qed.

Lemma foreign : forall l r, exists client server id, setup_result (OtherC l r) = Done (client, server, id) /\
  ((forall ip z p, r <> RawTcp ip z p) -> client = (str "::1", 1) /\ id_dst id = str "::1" /\ id_dport id = 1) /\
  ((forall ip z p, l <> RawTcp ip z p) -> server = (str "::1", 1) /\ id_src id = str "::1" /\ id_sport id = 1).
Proof.
  intros l r. unfold setup_result. cbn [local_addr remote_addr].
  destruct r as [rip rz rp|rt|], l as [lip lz lp|lt|]; cbn [to_tcp_addr andthen]; eexists _, _, _; (split; [reflexivity|]);
    split; intros H; try solve [exfalso; eapply H; reflexivity]; vm_compute; repeat split; reflexivity.
Qed.

Lemma unset : forall off w, off mod 60 = 0 -> marshal_time off (time_of None) = Some w ->
  denotes w (- 62135596800 * 10 ^ 9) /\ (off = 0 -> w = str "0001-01-01T00:00:00Z").
Proof.
  intros off w M H. split.
  - change (- 62135596800 * 10 ^ 9) with go_zero. assert (Z0 : time_of None = go_zero) by reflexivity. rewrite Z0 in H.
    apply (marshal_denotes off go_zero w); [apply Z.le_refl|exact M|exact H].
  - intros ->. assert (X : marshal_time 0 (time_of None) = Some (str "0001-01-01T00:00:00Z")) by (vm_compute; reflexivity).
    rewrite X in H. injection H as <-. reflexivity.
Qed.
