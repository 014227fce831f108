(** Runs for the examples of DiskProps: a result stored with no file operation failing. *)
From Coq Require Import ZArith List Bool Lia.
From Verif Require Import Base Effect TimeModel ArchiveModel ArchiveProofs CodecModel CodecSpec CodecProps ExactModel.
Import ListNotations.
Open Scope Z_scope.

Lemma stored_plain d what t u doc : exists ops after,
  run (write_result d what t u false plain_writer doc) ops tt /\ fs_run (fun _ => None) ops after /\ ~ In FExit ops.
Proof.
  set (p := ndt7_name d what t u false).
  exists [FMkdir (ndt7_dir d t) true; FOpen p true true; FWrite p doc (length doc); FClose p].
  eexists. split; [|split].
  - exists true. eexists. split; [reflexivity|]. exists true. eexists. split; [reflexivity|].
    exists (length doc). eexists. split; [reflexivity|]. rewrite PeanoNat.Nat.eqb_refl.
    exists tt. eexists. split; [reflexivity|]. split; reflexivity.
  - econstructor; [constructor|]. econstructor; [apply fs_open_excl; reflexivity|]. econstructor; [apply fs_write; [apply set_same|lia]|].
    econstructor; [constructor|constructor].
  - intros H. repeat destruct H as [H|H]; try discriminate. destruct H.
Qed.

Lemma stored_framed d what t u doc : exists ops after,
  run (write_result d what t u true (fun d => ([[1]; d], [[2]])) doc) ops tt /\ fs_run (fun _ => None) ops after /\ ~ In FExit ops /\
  (forall p d n, In (FWrite p d n) ops -> n = length d).
Proof.
  set (p := ndt7_name d what t u true).
  exists [FMkdir (ndt7_dir d t) true; FOpen p true true; FWrite p [1] 1; FWrite p doc (length doc); FWrite p [2] 1; FClose p].
  eexists. split; [|split; [|split]].
  - exists true. eexists. split; [reflexivity|]. exists true. eexists. split; [reflexivity|].
    exists 1%nat. eexists. split; [reflexivity|].
    exists (length doc). eexists. split; [reflexivity|]. rewrite PeanoNat.Nat.eqb_refl.
    exists 1%nat. eexists. split; [reflexivity|].
    exists tt. eexists. split; [reflexivity|]. split; reflexivity.
  - econstructor; [constructor|]. econstructor; [apply fs_open_excl; reflexivity|].
    do 3 (econstructor; [apply fs_write; [apply set_same|cbn; lia]|]).
    econstructor; [constructor|constructor].
  - intros H. repeat destruct H as [H|H]; try discriminate. destruct H.
  - intros p' d' n H. repeat destruct H as [H|H]; try discriminate; try (injection H as _ <- <-; reflexivity). destruct H.
Qed.

Lemma fails5_at off commit version text r : encode5 (go_codec off commit version) text r = None <->
  finite_record r = false \/ Exists (fun t => marshal_time off t = None) (times5 r).
Proof.
  assert (E : k_time (go_codec off commit version) = marshal_time off) by reflexivity.
  pose proof (C68_ndt5_fails (go_codec off commit version) text r) as F. rewrite E in F. exact F.
Qed.
