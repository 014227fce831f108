(** Concrete ndt7 runs, used by the examples beside the theorems. *)
From Coq Require Import String ZArith List Bool Lia.
From Coq Require Import Floats.SpecFloat.
From Verif Require Import Base BaseFacts GoFloat Web100Model Effect ControlModel QueryModel QuerySpec QueryProofs
  Ndt7Model Ndt7Spec ControlExample.
Import ListNotations.
Open Scope Z_scope.

Definition raw0 : bytes := str "early_exit=250&client_name=n&server_x=1&%zz".
Definition pairs0 : list (bytes * bytes) :=
  [(str "early_exit", str "250"); (str "client_name", str "n"); (str "server_x", str "1")].
Definition h0 : handler := Handler [(str "machine", str "mlab1")].
Definition q0 : request7 := Request7 raw0 (str "net.measurementlab.ndt.v7") (str "false").
Definition ws0 : wsconn := WsConn (TcpAddr (str "10.0.0.1") [] 443) (TcpAddr (str "10.0.0.2") [] 5000).
Definition m_early : measurement :=
  Measurement None None None (Some (TcpInfo 10000 1460 9 250000000 0 [], 2000000)).
Definition m_late : measurement :=
  Measurement None None None (Some (TcpInfo 10000 1460 9 249999999 5000000 [], 1000000)).
Definition a_empty : archival := Archival (str "u") None None [] [] [] [].

#[local] Opaque fdiv fmul fltb f_of_int.

Lemma ti_acked_early : ti_bytes_acked (TcpInfo 10000 1460 9 250000000 0 []) = 250000000.
Proof. reflexivity. Qed.

(** A download: a message of 8192 bytes, a measurement below the limit, one at it. *)
Example run_download : exists tr a',
  run (download_sender 4 (str "ndt7+wss") (Params true 250000000) a_empty) tr (a', Ok None) /\
  frames tr = [(FBulk 8192, true); (FMeasurement m_late, true); (FPing (str "30"), true);
               (FMeasurement m_early, true); (FPing (str "40"), true); (closing, true)] /\
  a_server a' = [m_late; m_early] /\ a_start a' = Some 20 /\ a_end a' = Some 60 /\
  clock tr = [10; 20; 30; 40; 50; 60] /\
  sender_errors tr = [[str "ndt7+wss"; str "download"; str "measurer-closed-early"]].
Proof.
  do 2 eexists. split.
  - silent. answer (@None error). answer 10. answer (@None error). answer 20.
    answer NotReady. answer (@None error).
    answer (Got m_late). answer (@None error). answer 30. answer (@None error).
    answer (Got m_early). answer (@None error). answer 40. answer (@None error).
    answer 50. answer (@None error). silent. answer 60. silent. reduce. split; reflexivity.
  - repeat split.
Qed.

(** An upload that ends because the client does not read. *)
Example run_upload_fails : exists tr a' e,
  run (upload_sender 4 (str "ndt7+ws") a_empty) tr (a', Ok (Some e)) /\
  frames tr = [(FMeasurement m_late, true); (FPing (str "30"), true); (FMeasurement m_early, false)] /\
  a_server a' = [m_late].
Proof.
  do 3 eexists. split.
  - silent. answer 10. answer (@None error). answer 20.
    answer (Some m_late). answer (@None error). answer 30. answer (@None error).
    answer (Some m_early). answer (Some (str "i/o timeout")). silent. answer 60. silent. reduce. split; reflexivity.
  - repeat split.
Qed.

Lemma pairs0_ok : query_pairs raw0 pairs0.
Proof.
  destruct (query_pairs_spec raw0 pairs0) as [_ H]. apply H. vm_compute. reflexivity.
Qed.

Lemma rate0 : down_rate [m_early] = S754_finite false 8796093022208000 (-43).
Proof. vm_compute. reflexivity. Qed.

#[local] Opaque down_rate.

Definition res0 : result7 :=
  Result7 (str "10.0.0.2") 5000 (str "10.0.0.1") 443 5 70
    (Some (Archival (str "u") (Some 20) (Some 60) [m_early] [m_late]
             [(str "client_name", str "n"); (str "early_exit", str "250")] [(str "machine", str "mlab1")])) None.

(** A request for a download with early exit. *)
Example run_request_download : exists tr,
  run (run_request 4 h0 q0 Download (query raw0) (rev (query raw0)) tt) tr (tt, Ok tt) /\
  results_written tr = [res0] /\ files_created tr = [(str "u", Download)] /\
  flow_events tr = [(true, str "u"); (false, str "u")] /\
  frames tr = [(FBulk 8192, true); (FMeasurement m_early, true); (FPing (str "40"), true); (closing, true)] /\
  test_results tr = [[str "ndt7+wss"; str "download"; str "okay-with-rate"]] /\
  observed_rates tr = [([str "ndt7+wss"; str "download"; str "false"], S754_finite false 8796093022208000 (-43))].
Proof.
  eexists. split.
  - answer (Some ws0). answer (Some (str "u")). silent. answer 5. silent.
    answer (@None error). answer 10. answer (@None error). answer 20.
    answer NotReady. answer (@None error).
    answer (Got m_early). answer (@None error). answer 40. answer (@None error).
    answer 50. answer (@None error). silent. answer 60. silent. answer [m_late].
    silent. repeat match goal with |- context [down_rate ?x] =>
      lazymatch x with [m_early] => fail | _ => change (down_rate x) with (down_rate [m_early]) end end.
    rewrite rate0. change (fltb f_zero (S754_finite false 8796093022208000 (-43))) with true.
    silent. answer 70. answer (@None error). answer (@None error). answer (@None error). silent.
    reduce. split; reflexivity.
  - repeat split.
Qed.

(** A receiver: text, binary, pong, text, and a text it cannot decode. *)
Example run_receiver : exists tr,
  run (receiver (fun d => match d with [] => None | _ => Some m_late end) 12 (str "ndt7+ws") Upload tt) tr (tt, Ok tt) /\
  inputs tr = [IText (str "{}"); IBinary; IPong (str "7"); IText (str "{}"); IText []] /\
  stored tr = [m_late; m_late].
Proof.
  eexists. split.
  - silent. answer 3. answer (@None error). answer false. answer InText. answer (BodyText (str "{}")). silent.
    answer false. answer InBinary. answer false. answer (InPong (str "7")). answer 4.
    answer InText. answer (BodyText (str "{}")). silent. answer false. answer InText. answer (BodyText []). silent.
    reduce. split; reflexivity.
  - repeat split.
Qed.
