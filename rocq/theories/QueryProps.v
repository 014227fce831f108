(** Properties C31, C32 and C33: query strings of ndt7 requests. *)
From Coq Require Import String ZArith List Bool Lia Permutation.
From Verif Require Import Base BaseFacts JsonSpec QueryModel QuerySpec QueryProofs Ndt7Example.
Import ListNotations.
Open Scope Z_scope.

(** ** C31 *)

(** In whatever order the parameters are visited: a request without early_exit is
    accepted without limit; with 250 as its first value it is accepted with a limit of
    250,000,000 bytes; with any other first value it is rejected. *)
Theorem C31_early_exit : forall q l vs, query_pairs q l -> Permutation vs (query q) ->
  (values_of (str "early_exit") l = [] -> validate_early_exit vs = Accept (Params false 0)) /\
  (forall v, first_value (str "early_exit") l v ->
     (v = str "250" -> validate_early_exit vs = Accept (Params true 250000000)) /\
     (v <> str "250" -> validate_early_exit vs = Reject)).
Proof.
  intros q l vs Q P. rewrite (early_exit_spec q l vs Q P). split.
  - intros ->. reflexivity.
  - intros v [rest ->]. split.
    + intros ->. rewrite beqb_refl. reflexivity.
    + intros N. apply beqb_false in N. rewrite N. reflexivity.
Qed.
Print Assumptions C31_early_exit.

(** No other parameter matters. *)
Theorem C31_only_early_exit : forall q l vs q' l' vs',
  query_pairs q l -> Permutation vs (query q) -> query_pairs q' l' -> Permutation vs' (query q') ->
  values_of (str "early_exit") l = values_of (str "early_exit") l' ->
  validate_early_exit vs = validate_early_exit vs'.
Proof.
  intros q l vs q' l' vs' Q P Q' P' E.
  rewrite (early_exit_spec q l vs Q P), (early_exit_spec q' l' vs' Q' P'), E. reflexivity.
Qed.
Print Assumptions C31_only_early_exit.

Example C31_example :
  query_pairs raw0 pairs0 /\ first_value (str "early_exit") pairs0 (str "250") /\
  validate_early_exit (rev (query raw0)) = Accept (Params true 250000000) /\
  validate_early_exit (query (str "a=1&early_exit=251&early_exit=250")) = Reject /\
  validate_early_exit (query (str "a=250&early_exits=3")) = Accept (Params false 0).
Proof. split; [exact pairs0_ok|]. split; [exists []; reflexivity|]. repeat split. Qed.

(** ** C32 *)

(** The client metadata has one entry for each parameter whose name does not start with
    server_, its value is the parameter's first, and there is nothing else. *)
Theorem C32_metadata : forall q l vs, query_pairs q l -> Permutation vs (query q) ->
  exists ms, client_metadata vs = Some ms /\ NoDup (map fst ms) /\
    forall k v, In (k, v) ms <-> has_prefix (str "server_") k = false /\ first_value k l v.
Proof. exact metadata_spec. Qed.
Print Assumptions C32_metadata.

Example C32_example :
  client_metadata (query (str "a=1&server_b=2&a=3&c%5F=%20+x")) =
    Some [(str "a", str "1"); (str "c_", str "  x")].
Proof. reflexivity. Qed.

(** ** C33 *)

(** Every query string has exactly one list of parameters: the pieces that can be
    decoded, the others are dropped; and these are the parameters the server sees. *)
Theorem C33_parameters : forall q, exists l, query_pairs q l /\
  (forall l', query_pairs q l' -> l' = l) /\
  NoDup (map fst (query q)) /\
  (forall k vs, In (k, vs) (query q) <-> vs <> [] /\ vs = values_of k l).
Proof.
  intros q. exists (kept (pieces q)).
  assert (Q : query_pairs q (kept (pieces q))) by (apply query_pairs_spec; reflexivity).
  split; [exact Q|]. split; [intros l' Q'; apply query_pairs_spec; exact Q'|].
  exact (query_holds q _ _ Q (Permutation_refl _)).
Qed.
Print Assumptions C33_parameters.

(** Refuted: there are malformed query strings, of any length, and the server accepts
    them. *)
Theorem C33_malformed_refuted : forall n, exists q, malformed q /\ (n <= List.length q)%nat /\
  forall vs, Permutation vs (query q) -> validate_early_exit vs = Accept (Params false 0).
Proof.
  intros n. set (q := str "%zz" ++ repeat 97 n).
  assert (NA : ~ In 38 q).
  { unfold q. rewrite in_app_iff. intros [H|H]; [cbn in H; intuition discriminate|].
    apply repeat_spec in H. discriminate. }
  assert (NS : forall kv, ~ stands_for q kv).
  { intros [a b] (_ & _ & name & value & N61 & S & D & _). cbn [fst] in D.
    assert (exists r, name = 37 :: 122 :: r) as [r ->].
    { unfold q in S. destruct S as [S|[S _]].
      - destruct name as [|x [|y r]]; cbn in S; try discriminate. injection S as <- <- _. eauto.
      - cbn in S. exists (122 :: repeat 97 n). symmetry. exact S. }
    inversion D; subst; [|congruence]. match goal with H : hex1 122 _ |- _ => inversion H; lia end. }
  assert (SA : split_at_amp q [q]) by (constructor; exact NA).
  exists q. split; [|split].
  - exists [q], q. split; [exact SA|]. split; [left; reflexivity|]. split; [discriminate|exact NS].
  - unfold q. rewrite app_length, repeat_length. lia.
  - intros vs P. assert (Q : query_pairs q []) by (exists [q]; split; [exact SA|]; constructor; [exact NS|constructor]).
    exact (proj1 (C31_early_exit q [] vs Q P) eq_refl).
Qed.
Print Assumptions C33_malformed_refuted.
