(** Properties C29 and C30: accepted connections and their statistics. *)
From Coq Require Import String ZArith List Bool Lia.
From Verif Require Import Base Web100Model Ndt7Model MeasurerModel Lts NetxModel NetxProofs.
Import ListNotations.
Open Scope Z_scope.

(** ** C29 *)

(** The number of elements with a property. *)
Fixpoint count {A} (f : A -> bool) (l : list A) : Z :=
  match l with [] => 0 | x :: l => (if f x then 1 else 0) + count f l end.

(** Accept has returned the connection. *)
Definition accepted (c : net_conn) : bool := match n_phase c with NLive => true | _ => false end.
(** A call of Close on it has returned. *)
Definition closed (c : net_conn) : bool := negb (Nat.eqb (n_closed c) 0).
Definition unclosed (c : net_conn) : bool := accepted c && negb (closed c).
(** No call of Accept or Close on it is in progress. *)
Definition quiet (c : net_conn) : Prop :=
  n_closing c = [] /\ (n_phase c = NLive \/ n_phase c = NFailed).

(** While no call is in progress, the gauge is the number of accepted connections not yet
    closed, and so are the numbers of open sockets and of open duplicates. *)
Theorem C29_gauge : forall s, net_reachable s -> Forall quiet (t_conns s) ->
  t_gauge s = count unclosed (t_conns s) /\
  count n_sock (t_conns s) = count unclosed (t_conns s) /\
  count n_dup (t_conns s) = count unclosed (t_conns s).
Proof.
  intros s R Q. destruct (net_inv s R) as [I ->]. revert Q. induction I as [|c l Hc Hl IH]; intros Q; [auto|].
  inversion Q as [|? ? Qc Ql]; subst. destruct (IH Ql) as (A & B & C). rewrite tally_cons. cbn [count].
  rewrite A, B, C. clear - Hc Qc. destruct Qc as [Cl Ph]. destruct c as [ph k d o cl n].
  cbn in *. subst cl. unfold unclosed, accepted, closed, counts, conn_ok in *. cbn in *. destruct Ph as [-> | ->].
  - destruct Hc as (H1 & H2 & H3). cbn in *. destruct n as [|n]; cbn [Nat.eqb negb andb].
    + destruct d, o, k; try tauto; exfalso; intuition lia.
    + assert (0 < S n)%nat by lia. destruct d, o, k; try tauto; exfalso; intuition congruence.
  - destruct Hc as (-> & -> & -> & _ & ->). auto.
Qed.
Print Assumptions C29_gauge.

(** In every state, whatever is in progress: each unclosed connection that nobody is
    closing counts one; a connection being closed counts one at most; all else counts
    nothing. *)
Definition closing (c : net_conn) : bool := match n_closing c with [] => false | _ => true end.
Theorem C29_bounds : forall s, net_reachable s ->
  0 <= t_gauge s /\
  count (fun c => unclosed c && negb (closing c)) (t_conns s) <= t_gauge s <= count unclosed (t_conns s).
Proof.
  intros s R. destruct (net_inv s R) as [I ->]. split; [unfold tally; lia|].
  induction I as [|c l Hc Hl IH]; [cbn; lia|]. rewrite tally_cons. cbn [count].
  assert (P : (if unclosed c && negb (closing c) then 1 else 0) <= (if counts c then 1 else 0) <= (if unclosed c then 1 else 0)); [|lia].
  clear - Hc. destruct c as [ph k d o cl n]. unfold unclosed, closing, accepted, closed, counts, conn_ok in *. cbn in *.
  destruct ph; cbn; try lia. destruct Hc as (H1 & H2 & H3). destruct n as [|n]; cbn [Nat.eqb negb andb].
  - destruct o, cl; cbn; try lia. exfalso. cbn in H2. intuition lia.
  - assert (0 < S n)%nat by lia. destruct o; cbn; [lia|]. exfalso. intuition congruence.
Qed.
Print Assumptions C29_bounds.

(** A failed Accept leaves no descriptor open, in every state. *)
Theorem C29_no_leak : forall s c, net_reachable s -> In c (t_conns s) -> n_phase c = NFailed ->
  n_sock c = false /\ n_dup c = false.
Proof.
  intros s c R I P. destruct (net_inv s R) as [F _]. rewrite Forall_forall in F. specialize (F c I).
  unfold conn_ok in F. rewrite P in F. tauto.
Qed.
Print Assumptions C29_no_leak.

(** The moment any Close of a connection returns, all its descriptors are closed and it
    counts no more, however many other calls of Close are still in progress. *)
Theorem C29_close : forall s c, net_reachable s -> In c (t_conns s) -> closed c = true ->
  n_sock c = false /\ n_dup c = false /\ n_dec c = true.
Proof.
  intros s c R I P. destruct (net_inv s R) as [F _]. rewrite Forall_forall in F. specialize (F c I).
  unfold conn_ok, closed in *. destruct (n_closed c) as [|n]; [discriminate|]. assert (0 < S n)%nat by lia.
  destruct (n_phase c); intuition discriminate.
Qed.
Print Assumptions C29_close.

(** Three accepts, the second failing; the first connection is closed by two concurrent
    calls: the gauge is 1. *)
Example C29_example : exists s, net_reachable s /\ Forall quiet (t_conns s) /\ t_gauge s = 1 /\
  length (t_conns s) = 3%nat /\ count closed (t_conns s) = 1.
Proof.
  eexists. split; [|split; [|split]]. 
  - eexists. split; [reflexivity|].
    eapply later_front; [apply net_accept|]. eapply later_front; [apply net_accept|]. eapply later_front; [apply net_accept|].
    eapply later_front; [eapply (net_inside [] _ _ [_; _]); eapply n_dup_ok|].
    eapply later_front; [eapply (net_inside [_] _ _ [_]); eapply n_dup_fails|].
    eapply later_front; [eapply (net_inside [_; _] _ _ []); eapply n_dup_ok|].
    eapply later_front; [eapply (net_inside [] _ _ [_; _]); eapply n_inc|].
    eapply later_front; [eapply (net_inside [_; _] _ _ []); eapply n_inc|].
    eapply later_front; [eapply (net_inside [] _ _ [_; _]); eapply n_close|].
    eapply later_front; [eapply (net_inside [] _ _ [_; _]); eapply n_close|].
    eapply later_front; [eapply (net_inside [] _ _ [_; _]); eapply (n_file _ _ _ [] [_])|].
    eapply later_front; [eapply (net_inside [] _ _ [_; _]); eapply (n_file _ _ _ [_] [])|].
    eapply later_front; [eapply (net_inside [] _ _ [_; _]); eapply (n_once _ _ _ [_] [])|].
    eapply later_front; [eapply (net_inside [] _ _ [_; _]); eapply (n_once _ _ _ [] [_])|].
    eapply later_front; [eapply (net_inside [] _ _ [_; _]); eapply (n_sock_close _ _ _ [] [_])|].
    eapply later_front; [eapply (net_inside [] _ _ [_; _]); eapply (n_sock_close _ _ _ [] [])|].
    constructor.
  - cbn. unfold quiet. repeat apply Forall_cons; try apply Forall_nil; cbn; auto.
  - reflexivity.
  - split; reflexivity.
Qed.

(** ** C30 *)

(** ReadInfo fails iff TCP_INFO could not be read, with that error; then both parts are
    zero.  Otherwise the TCP part is what was read, and the BBR part what was read or, if
    that failed, zero. *)
Theorem C30_read_info : forall bbr tcp b t e, conn_read_info bbr tcp = (b, t, e) ->
  e = snd tcp /\
  (e <> None -> b = BBRInfo 0 0 0 0 /\ t = TcpInfo 0 0 0 0 0 []) /\
  (e = None -> t = fst tcp /\ (snd bbr = None -> b = fst bbr) /\ (snd bbr <> None -> b = BBRInfo 0 0 0 0)).
Proof.
  intros [b0 eb] [t0 et] b t e E. unfold conn_read_info in E. cbn in *.
  destruct et as [x|]; injection E as <- <- <-.
  - split; [reflexivity|]. split; [auto|]. intros [=].
  - split; [reflexivity|]. split; [congruence|]. intros _. split; [reflexivity|].
    destruct eb; split; intros; try reflexivity; congruence.
Qed.
Print Assumptions C30_read_info.

(** The value of bytes in little-endian order. *)
Fixpoint little (b : bytes) : Z := match b with [] => 0 | x :: b => x + 256 * little b end.

(** For every answer of the kernel: the bandwidth is the 64-bit number in the first eight
    bytes, if that is less than 2^63, and rejected otherwise. *)
Theorem C30_bbr : forall buf, bytes_ok buf -> length buf = 20%nat ->
  get_bbr false 0 20 buf =
    if little (firstn 8 buf) <? 2 ^ 63 then
      (BBRInfo (little (firstn 8 buf)) (little (firstn 4 (skipn 8 buf)))
               (little (firstn 4 (skipn 12 buf))) (little (firstn 4 (skipn 16 buf))), None)
    else (BBRInfo 0 0 0 0, Some (Errno 75)).
Proof. exact get_bbr_spec. Qed.
Print Assumptions C30_bbr.

(** No outcome of the system call makes the reported bandwidth negative or too large for
    an int64; any failure is an error, all fields being zero then. *)
Theorem C30_bbr_failure : forall raw errno size buf i e, get_bbr raw errno size buf = (i, e) ->
  (raw = true \/ errno <> 0 \/ size <> 20 -> e <> None) /\ (e <> None -> i = BBRInfo 0 0 0 0) /\
  (raw = false -> (e = Some NoSupport <-> errno = 38)) /\
  (bytes_ok buf -> length buf = 20%nat -> 0 <= b_bw i < 2 ^ 63).
Proof.
  intros raw errno size buf i e E. split; [|split; [|split]].
  - unfold get_bbr in E. destruct raw; [inversion E; discriminate|]. destruct (Z.eqb_spec errno 0); cbn [negb] in E.
    + destruct (Z.eqb_spec size 20); cbn [negb] in E; [intros [|[]]; congruence|]. inversion E. discriminate.
    + destruct (_ =? _); inversion E; discriminate.
  - intros N. pose proof (get_bbr_error raw errno size buf) as F. rewrite E in F. exact (F N).
  - intros ->. unfold get_bbr, errno_nosys in E. destruct (Z.eqb_spec errno 0); cbn [negb] in E.
    + split; [|lia]. destruct (negb _); [inversion E; discriminate|]. destruct (_ <? _); inversion E; discriminate.
    + destruct (Z.eqb_spec errno 38); inversion E; split; auto; try discriminate; congruence.
  - intros B L. destruct e as [e|].
    + pose proof (get_bbr_error raw errno size buf) as F. rewrite E in F. cbn in F. rewrite F by discriminate. cbn. lia.
    + pose proof (get_bbr_spec buf B L) as S. destruct raw; [discriminate|].
      unfold get_bbr in E. destruct (Z.eqb_spec errno 0) as [->|]; cbn [negb] in E; [|destruct (_ =? _); discriminate].
      destruct (Z.eqb_spec size 20) as [->|]; cbn [negb] in E; [|discriminate].
      change (get_bbr false 0 20 buf = (i, None)) in E. rewrite E in S.
      destruct (Z.ltb_spec (le_value (firstn 8 buf)) (2 ^ 63)); [|discriminate]. apply (f_equal fst) in S. cbn [fst] in S. rewrite S. cbn [b_bw].
      split; [apply le_value_firstn, B|assumption].
Qed.
Print Assumptions C30_bbr_failure.

(** Any failure to read TCP_INFO is an error, all fields being zero then. *)
Theorem C30_tcp : forall raw errno info i e, get_tcp raw errno info = (i, e) ->
  (e = None <-> raw = false /\ errno = 0) /\
  (e = None -> i = info) /\ (e <> None -> i = TcpInfo 0 0 0 0 0 []).
Proof.
  intros raw errno info i e E. unfold get_tcp in E. destruct raw.
  - inversion E. repeat split; intros; try discriminate; intuition discriminate.
  - destruct (Z.eqb_spec errno 0); inversion E; repeat split; intros; try congruence; try discriminate; intuition congruence.
Qed.
Print Assumptions C30_tcp.

(** The [read_info] of the ndt7 measurer (C57) is ReadInfo. *)
Theorem C30_measurer : forall bbr tcp,
  MeasurerModel.read_info (match snd bbr with None => Some (fst bbr) | Some _ => None end)
                          (match snd tcp with None => Some (fst tcp) | Some _ => None end) =
  match conn_read_info bbr tcp with (b, t, None) => Some (b, t) | _ => None end.
Proof. intros [b [|]] [t [|]]; reflexivity. Qed.
Print Assumptions C30_measurer.

(** GetUUID returns unless the process ends, which needs that both the cookie and the
    fallback fail; the id is the cookie's, or the 36 characters of the fallback, which
    differ for different fallbacks. *)
Theorem C30_uuid : forall f u,
  (get_uuid f u = None <-> f = None /\ u = None) /\
  (forall id, f = Some id -> get_uuid f u = Some id) /\
  (forall b id, f = None -> u = Some b -> length b = 16%nat -> get_uuid f u = Some id -> length id = 36%nat) /\
  (forall b b' id, length b = 16%nat -> length b' = 16%nat -> bytes_ok b -> bytes_ok b' ->
     get_uuid None (Some b) = Some id -> get_uuid None (Some b') = Some id -> b = b').
Proof.
  intros f u. split; [|split; [|split]].
  - destruct f, u; cbn; intuition discriminate.
  - intros id ->. reflexivity.
  - intros b id -> -> L E. injection E as <-. apply uuid_string_length, L.
  - intros b b' id L L' B B' E E'. injection E as <-. injection E' as E'. symmetry. eapply uuid_string_inj; eassumption.
Qed.
Print Assumptions C30_uuid.

Example C30_bbr_example :
  get_bbr false 0 20 [1;0;0;0; 2;0;0;0; 100;0;0;0; 3;0;0;0; 4;0;0;0] = (BBRInfo (2 * 2 ^ 32 + 1) 100 3 4, None) /\
  get_bbr false 0 20 [1;0;0;0; 0;0;0;128; 100;0;0;0; 3;0;0;0; 4;0;0;0] = (BBRInfo 0 0 0 0, Some (Errno 75)).
Proof. split; reflexivity. Qed.
