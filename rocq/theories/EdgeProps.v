(** Paths that are not clean (C50), addresses that are none (C73, C74) and times that were
    never set (C83). *)
From Coq Require Import String ZArith List Bool Lia.
From Verif Require Import Base BaseFacts TimeModel TimeSpec TimeFacts CodecModel Ndt7Model NetxModel IdentityModel IdentitySpec IdentityProofs
  MainModel PathSpec PathProofs ExactModel EdgeFacts.
Import ListNotations.
Open Scope Z_scope.

(** A request that is not a CONNECT is redirected exactly if its path is not clean. *)
Theorem C50_redirected : forall m r, rq_connect r = false ->
  (route m r = Redirected <-> forall segs, pieces segs -> rq_escaped r = path_of segs -> ~ clean segs).
Proof. exact redirected. Qed.
Print Assumptions C50_redirected.

(** Clean are the paths that the cleaning of C50_static leaves as they are, and it makes of
    every path the one of the place to which it leads. *)
Theorem C50_clean : forall segs, pieces segs -> (clean_path (path_of segs) = path_of segs <-> clean segs).
Proof. exact cleaned. Qed.
Print Assumptions C50_clean.
Theorem C50_directory : forall segs place, pieces segs -> leads segs place ->
  clean_path (path_of segs) =
    match place with [] => str "/" | _ => path_of place ++ match last segs [] with [] => str "/" | _ => [] end end.
Proof. exact directory. Qed.
Print Assumptions C50_directory.
Example C50_directory_example :
  let segs := [str "a"; str ".."; str ".."; str "ndt"; []; str "."; str "v7"; str "x"; str ".."; []] in
  pieces segs /\ leads segs [str "ndt"; str "v7"] /\ clean_path (str "/a/../../ndt//./v7/x/../") = str "/ndt/v7/" /\
  ~ clean segs /\ clean [str "ndt"; str "v7"; []].
Proof. exact led. Qed.

(** An address of neither four nor sixteen bytes is recorded as a text that nobody reads as
    an address. *)
Theorem C74_other : forall ip, bytes_ok ip -> len ip <> 4 -> len ip <> 16 ->
  read_ip (ip_text ip) = None /\ (ip = [] <-> ip_text ip = str "<nil>").
Proof. exact no_address. Qed.
Print Assumptions C74_other.
Example C74_other_example : ip_text [10; 0; 0; 255; 1] = str "?0a0000ff01".
Proof. reflexivity. Qed.

(** ndt7 on a connection that is not one of netx: an end whose address is not one of TCP is
    recorded as port 1 of ::1. *)
Theorem C73_foreign : forall l r, exists client server id, setup_result (OtherC l r) = Done (client, server, id) /\
  ((forall ip z p, r <> RawTcp ip z p) -> client = (str "::1", 1) /\ id_dst id = str "::1" /\ id_dport id = 1) /\
  ((forall ip z p, l <> RawTcp ip z p) -> server = (str "::1", 1) /\ id_src id = str "::1" /\ id_sport id = 1).
Proof. exact foreign. Qed.
Print Assumptions C73_foreign.

(** A time that was never set is written as the first instant of the year 1. *)
Theorem C83_unset : forall off w, off mod 60 = 0 -> marshal_time off (time_of None) = Some w ->
  denotes w (- 62135596800 * 10 ^ 9) /\ (off = 0 -> w = str "0001-01-01T00:00:00Z").
Proof. exact unset. Qed.
Print Assumptions C83_unset.
Example C83_unset_example : marshal_time 3600 (time_of None) = Some (str "0001-01-01T01:00:00+01:00").
Proof. vm_compute. reflexivity. Qed.
