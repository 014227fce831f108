(** C82: how the command line and the environment make the settings of the server. *)
From Coq Require Import String ZArith List Bool Lia.
From Verif Require Import Base BaseFacts MainModel FlagModel FlagSpec FlagProofs.
Import ListNotations.
Open Scope Z_scope.

(** A server that runs was started with a command line that can be read, and each flag has
    the value made from its default by the texts on the command line, in order, or, without
    any, by the variable of the environment. *)
Theorem C82_running : forall V flags is_bool (set : bytes -> V -> bytes -> option V) env args st st',
  Forall proper_name flags -> NoDup flags -> configure V flags is_bool set env args st = Runs st' ->
  exists l ignored, says flags is_bool args l ignored /\
    forall name, In name flags -> exists vs, sources env name l vs /\ becomes (set name) (st name) vs (st' name).
Proof. intros V flags is_bool set env args st st' P N H. exact (configure_runs V flags is_bool set P env N args st st' H). Qed.
Print Assumptions C82_running.

(** And any such command line and environment does start it. *)
Theorem C82_runs : forall V flags is_bool (set : bytes -> V -> bytes -> option V) env args st l ignored,
  Forall proper_name flags -> NoDup flags -> says flags is_bool args l ignored ->
  (forall name, In name flags -> exists vs w, sources env name l vs /\ becomes (set name) (st name) vs w) ->
  exists st', configure V flags is_bool set env args st = Runs st' /\
    forall name vs w, In name flags -> sources env name l vs -> becomes (set name) (st name) vs w -> st' name = w.
Proof.
  intros V flags is_bool set env args st l ignored P N S H.
  destruct (runs_configure V flags is_bool set P env N args st l ignored S H) as (st' & C). exists st'. split; [exact C|].
  intros name vs w I So B. destruct (configure_runs_at V flags is_bool set P env N args st st' l ignored S C name I) as (vs' & So' & B').
  rewrite (sources_fun env _ _ _ _ So' So) in B'. exact (becomes_fun _ _ _ _ _ B' B).
Qed.
Print Assumptions C82_runs.

(** A command line says one thing. *)
Theorem C82_unambiguous : forall flags is_bool args l l' ignored ignored', Forall proper_name flags ->
  says flags is_bool args l ignored -> says flags is_bool args l' ignored' -> l = l' /\ ignored = ignored'.
Proof. intros flags is_bool args l l' ig ig' P S S'. exact (says_fun flags is_bool P args l l' ig ig' S S'). Qed.
Print Assumptions C82_unambiguous.

(** The process ends with status 0 exactly when help is asked for, after options that can be
    set, and with status 1 exactly when the command line is in order but a variable of the
    environment, of a flag that is not on the command line, cannot be set. *)
Theorem C82_help : forall V flags is_bool (set : bytes -> V -> bytes -> option V) env args st, Forall proper_name flags -> NoDup flags ->
  configure V flags is_bool set env args st = Exits 0 <->
  exists front l w more, args = front ++ w :: more /\ options flags is_bool front l /\
    (forall name, In name flags -> exists v, becomes (set name) (st name) (values_for name l) v) /\ help_word flags w.
Proof. intros V flags is_bool set env args st P N. exact (status_help V flags is_bool set P env args st). Qed.
Print Assumptions C82_help.
Theorem C82_environment : forall V flags is_bool (set : bytes -> V -> bytes -> option V) env args st, Forall proper_name flags -> NoDup flags ->
  configure V flags is_bool set env args st = Exits 1 <->
  exists l ignored, says flags is_bool args l ignored /\
    (forall name, In name flags -> exists v, becomes (set name) (st name) (values_for name l) v) /\
    exists name n' v, In name flags /\ values_for name l = [] /\ Forall2 capital name n' /\ env n' = Some v /\ set name (st name) v = None.
Proof. intros V flags is_bool set env args st P N. exact (status_env V flags is_bool set P env N args st). Qed.
Print Assumptions C82_environment.
(** Otherwise it ends with status 2 or runs. *)
Theorem C82_status : forall V flags is_bool (set : bytes -> V -> bytes -> option V) env args st c, Forall proper_name flags -> NoDup flags ->
  configure V flags is_bool set env args st = Exits c -> c = 0 \/ c = 1 \/ c = 2.
Proof. intros V flags is_bool set env args st c P N. exact (status_other V flags is_bool set P env N args st c). Qed.
Print Assumptions C82_status.

(** Nothing that follows the first ignored word matters. *)
Theorem C82_ignored : forall V flags is_bool (set : bytes -> V -> bytes -> option V) env args st l w more, Forall proper_name flags ->
  says flags is_bool args l (w :: more) ->
  exists front, args = front ++ w :: more /\
    forall more', configure V flags is_bool set env (front ++ w :: more') st = configure V flags is_bool set env args st.
Proof. intros V flags is_bool set env args st l w more P S. exact (ignored_words V flags is_bool set P env args st l w more S). Qed.
Print Assumptions C82_ignored.

(** The flags of ndt-server meet the conditions, and each has a variable of its own. *)
Theorem C82_own : Forall proper_name own_flags /\ NoDup own_flags /\
  forall a b n, In a own_flags -> In b own_flags -> Forall2 capital a n -> Forall2 capital b n -> a = b.
Proof.
  split; [exact own_proper|]. split; [exact own_distinct|]. intros a b n Ia Ib Fa Fb.
  apply shell_capital in Fa, Fb. apply (NoDup_map_inv_eq shell_name own_flags own_variables a b Ia Ib). congruence.
Qed.
Print Assumptions C82_own.

(** What a switch accepts; a flag that holds text accepts any. *)
Theorem C82_switch : forall ok name old s, In name own_flags -> own_bool name = true ->
  own_set ok name old s =
    (if existsb (beqb s) [str "1"; str "t"; str "T"; str "true"; str "True"; str "TRUE"] then Some (Truth true)
     else if existsb (beqb s) [str "0"; str "f"; str "F"; str "false"; str "False"; str "FALSE"] then Some (Truth false) else None).
Proof. intros ok name old s _ B. exact (switch_values ok name old s B). Qed.
Print Assumptions C82_switch.
Theorem C82_text : forall ok name old s d, In name own_flags -> default name = Text d -> own_set ok name old s = Some (Text s).
Proof. intros ok name old s d _ D. unfold own_set. rewrite D. reflexivity. Qed.
Print Assumptions C82_text.

(** What main reads: each setting comes from the flag of its name.  The last text counts; a
    switch is on if that is one of the words for true. *)
Theorem C82_settings : forall ok contents env args st l ignored,
  configure fvalue own_flags own_bool (own_set ok) env args default = Runs st -> says own_flags own_bool args l ignored ->
  let f := settings_of contents st in
  (forall name value d vs, sources env name l vs ->
     In (name, value, d)
       [(str "ndt7_addr", f_ndt7 f, str ":443"); (str "ndt7_addr_cleartext", f_ndt7_cleartext f, str ":80");
        (str "ndt5_addr", f_ndt5 f, str ":3001"); (str "ndt5_ws_addr", f_ndt5_ws f, str "127.0.0.1:3002");
        (str "ndt5_wss_addr", f_ndt5_wss f, str ":3010"); (str "health_addr", f_health f, str "127.0.0.1:8000");
        (str "cert", f_cert f, []); (str "key", f_key f, []); (str "tls.version", f_tls_version f, [])] ->
     value = last vs d) /\
  (forall name value vs, sources env name l vs ->
     In (name, value)
       [(str "autocert.enabled", f_autocert f); (str "ndt5.token.required", f_required5 f); (str "ndt7.token.required", f_required7 f)] ->
     value = true <-> vs <> [] /\ In (last vs []) [str "1"; str "t"; str "T"; str "TRUE"; str "true"; str "True"]) /\
  (forall vs, sources env (str "autocert.hostname") l vs -> f_hostname f = if (List.length vs =? 0)%nat then [] else contents (last vs [])) /\
  (forall name vs, In name [str "label"; str "token.verify-key"; str "token.machine"] -> sources env name l vs -> st name = Given vs).
Proof. exact settings_right. Qed.
Print Assumptions C82_settings.

(** Without arguments and variables the server listens at four addresses, all in the clear,
    two of them on the loopback only. *)
Theorem C82_default : forall ok contents, configure fvalue own_flags own_bool (own_set ok) (fun _ => None) [] default = Runs default /\
  let f := settings_of contents default in
  map (fun l => (sv_addr (ls_server l), ls_cert l)) (listenings f) =
    [(str "127.0.0.1:3002", Cleartext); (str ":80", Cleartext); (str "127.0.0.1:8000", Cleartext)] /\
  f_ndt5 f = str ":3001" /\ f_required5 f = false /\ f_required7 f = false /\ default (str "compress-results") = Truth true.
Proof. intros ok contents. vm_compute. repeat split. Qed.
Print Assumptions C82_default.

(** Options, a repeated option, and variables together. *)
Definition env82 (n : bytes) : option bytes :=
  if beqb n (str "NDT7_ADDR") then Some (str ":4443")
  else if beqb n (str "NDT7_TOKEN_REQUIRED") then Some (str "1") else None.
Example C82_example : exists st, configure fvalue own_flags own_bool (own_set (fun _ _ _ => true)) env82
    [str "-ndt7_addr=:1443"; str "--cert"; str "a.pem"; str "-key=b.pem"; str "-compress-results=false"; str "-label=a=b"; str "-label"; str "c=d"] default = Runs st /\
  st (str "ndt7_addr") = Text (str ":1443") /\ st (str "cert") = Text (str "a.pem") /\ st (str "key") = Text (str "b.pem") /\
  st (str "compress-results") = Truth false /\ st (str "label") = Given [str "a=b"; str "c=d"] /\
  st (str "ndt7.token.required") = Truth true /\ st (str "ndt5.token.required") = Truth false /\
  map (fun l => (sv_addr (ls_server l), ls_cert l)) (listenings (settings_of (fun s => s) st)) =
    [(str "127.0.0.1:3002", Cleartext); (str ":80", Cleartext); (str ":3010", LoadPair (str "a.pem") (str "b.pem"));
     (str ":1443", LoadPair (str "a.pem") (str "b.pem")); (str "127.0.0.1:8000", Cleartext)].
Proof. eexists. split; [vm_compute; reflexivity|]. vm_compute. repeat split. Qed.
Example C82_status_example :
  configure fvalue own_flags own_bool (own_set (fun _ _ _ => true)) env82 [str "-cert"; str "x"; str "--help"; str "-nothing"] default = Exits 0 /\
  configure fvalue own_flags own_bool (own_set (fun _ _ _ => true)) (fun n => if beqb n (str "AUTOCERT_ENABLED") then Some (str "yes") else None) [] default = Exits 1 /\
  configure fvalue own_flags own_bool (own_set (fun _ _ _ => true)) env82 [str "-cert"] default = Exits 2.
Proof. vm_compute. repeat split. Qed.

(** Finding: "every option on the command line is either obeyed or reported" is false.  A
    switch does not take the next word as its value: the word "false" after
    -compress-results ends the options, so that the results are compressed, tokens are not
    required, and the process starts as if all were well. *)
Theorem C82_obeyed_or_reported_refuted : forall ok env, (forall n, env n = None) ->
  exists st, configure fvalue own_flags own_bool (own_set ok) env
      [str "-compress-results"; str "false"; str "-ndt7.token.required"; str "-datadir=/data"] default = Runs st /\
    st (str "compress-results") = Truth true /\ st (str "ndt7.token.required") = Truth false /\
    st (str "datadir") = Text (str "/var/spool/ndt").
Proof.
  intros ok env H.
  destruct (C82_runs fvalue own_flags own_bool (own_set ok) env
    [str "-compress-results"; str "false"; str "-ndt7.token.required"; str "-datadir=/data"] default
    [(str "compress-results", str "true")] [str "false"; str "-ndt7.token.required"; str "-datadir=/data"] own_proper own_distinct) as (st & C & R).
  - apply (say_switch own_flags own_bool (str "-") (str "compress-results")); [left; reflexivity|apply memq; vm_compute; reflexivity|reflexivity|].
    constructor. right. intros r E. discriminate.
  - intros name I. destruct (sources_exist env name [(str "compress-results", str "true")]) as (vs & So). exists vs.
    destruct So as [[A ->]|(A & n' & F & ->)].
    + exists (Truth true). split; [left; auto|]. apply values_in in A. destruct A as [<-|[]]. econstructor; [reflexivity|constructor].
    + exists (default name). split; [right; split; [exact A|exists n'; auto]|]. rewrite H. constructor.
  - exists st. split; [exact C|]. assert (G : forall n, In n own_flags -> values_for n [(str "compress-results", str "true")] = [] -> st n = default n).
    { intros n I E. apply (R n [] (default n) I); [|constructor]. right. split; [exact E|]. exists (shell_name n).
      split; [apply shell_capital; reflexivity|]. rewrite H. reflexivity. }
    split; [|split].
    + apply (R (str "compress-results") [str "true"] (Truth true)); [apply memq; vm_compute; reflexivity| |].
      * left. split; [discriminate|reflexivity].
      * econstructor; [reflexivity|constructor].
    + rewrite G; [reflexivity|apply memq; vm_compute; reflexivity|reflexivity].
    + rewrite G; [reflexivity|apply memq; vm_compute; reflexivity|reflexivity].
Qed.
Print Assumptions C82_obeyed_or_reported_refuted.
