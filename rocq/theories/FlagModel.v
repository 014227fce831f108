(** Model of the configuration of the process: the first two lines of main, flag.Parse
    (standard library) and flagx.ArgsFromEnv (m-lab/go), ndt-server.go:192-193, and the flags
    it declares, ndt-server.go:38-60 and 72-79.  What a flag makes of its text (flag.Value.Set)
    is a parameter: strings take any text, booleans what strconv.ParseBool takes, and -label,
    -token.verify-key, -token.machine and -autocert.hostname are types of m-lab/go that may
    read files. *)
From Coq Require Import String ZArith List Bool.
From Verif Require Import Base MainModel.
Import ListNotations.
Open Scope Z_scope.

(** What becomes of the process at this point: it ends with a status, or it goes on. *)
Inductive configured (S : Type) := Exits (status : Z) | Runs (settings : S).
Arguments Exits {S}. Arguments Runs {S}.

(** The text before and after the first equals sign. *)
Fixpoint cut_equals (s : bytes) : bytes * option bytes :=
  match s with
  | [] => ([], None)
  | b :: r => if b =? 61 then ([], Some r) else let '(n, v) := cut_equals r in (b :: n, v)
  end.

Section Flags.
  Variable V : Type.
  (** The flags (FlagSet.formal), those with a method IsBoolFlag that says so, and Set: the
      flag, its value before, the text, and its value after or an error. *)
  Variable flags : list bytes.
  Variable is_bool : bytes -> bool.
  Variable set : bytes -> V -> bytes -> option V.

  Definition store := bytes -> V.
  Definition update (st : store) (name : bytes) (v : V) : store := fun n => if beqb n name then v else st n.
  Definition defined (name : bytes) : bool := existsb (beqb name) flags.

  (** FlagSet.Parse and parseOne, with ExitOnError.  [actual]: the flags that were set. *)
  Fixpoint parse (args : list bytes) (st : store) (actual : list bytes) : configured (store * list bytes) :=
    match args with
    | (a :: b :: w) :: rest =>
        if negb (a =? 45) then Runs (st, actual)
        else if (b =? 45) && beqb w [] then Runs (st, actual)
        else
          let text := if b =? 45 then w else b :: w in
          match text with
          | [] => Exits 2
          | c :: _ =>
              if (c =? 45) || (c =? 61) then Exits 2
              else
                let '(name, value) := cut_equals text in
                let give v more :=
                  match set name (st name) v with
                  | Some x => parse more (update st name x) (name :: actual)
                  | None => Exits 2
                  end in
                if defined name then
                  match value with
                  | Some v => give v rest
                  | None =>
                      if is_bool name then give (str "true") rest
                      else match rest with
                           | [] => Exits 2
                           | v :: rest' =>
                               match set name (st name) v with
                               | Some x => parse rest' (update st name x) (name :: actual)
                               | None => Exits 2
                               end
                           end
                  end
                else if beqb name (str "help") || beqb name (str "h") then Exits 0
                else Exits 2
          end
    | _ => Runs (st, actual)
    end.

  (** flagx.MakeShellVariableName: upper case, everything but letters, digits and the
      underscore replaced by an underscore. *)
  Definition shell_char (b : Z) : Z :=
    if (97 <=? b) && (b <=? 122) then b - 32
    else if ((65 <=? b) && (b <=? 90)) || ((48 <=? b) && (b <=? 57)) then b
    else 95.
  Definition shell_name (name : bytes) : bytes := map shell_char name.

  (** flagx.ArgsFromEnv: the flags that were not set on the command line and that have a
      variable in the environment. *)
  Variable env : bytes -> option bytes.
  Fixpoint from_env (names : list bytes) (st : store) (actual : list bytes) : option store :=
    match names with
    | [] => Some st
    | n :: r =>
        match env (shell_name n) with
        | Some v =>
            if existsb (beqb n) actual then from_env r st actual
            else match set n (st n) v with
                 | Some x => from_env r (update st n x) actual
                 | None => None
                 end
        | None => from_env r st actual
        end
    end.

  (** main, ndt-server.go:192-193; rtx.Must ends the process with status 1. *)
  Definition configure (args : list bytes) (st : store) : configured store :=
    match parse args st [] with
    | Exits c => Exits c
    | Runs (st', actual) =>
        match from_env flags st' actual with
        | Some st'' => Runs st''
        | None => Exits 1
        end
    end.
End Flags.
Arguments update {V}.

(** ** The flags of ndt-server.go *)

(** strconv.ParseBool. *)
Definition parse_bool (s : bytes) : option bool :=
  if existsb (beqb s) [str "1"; str "t"; str "T"; str "TRUE"; str "true"; str "True"] then Some true
  else if existsb (beqb s) [str "0"; str "f"; str "F"; str "FALSE"; str "false"; str "False"] then Some false
  else None.

(** A value: text, a truth value, or the texts a flag of another type was given. *)
Inductive fvalue := Text (s : bytes) | Truth (b : bool) | Given (l : list bytes).

(** Names and defaults, :38-60 and :72-79.  Imported packages declare more. *)
Definition declared : list (bytes * fvalue) :=
  [(str "ndt7_addr", Text (str ":443")); (str "ndt7_addr_cleartext", Text (str ":80"));
   (str "ndt5_addr", Text (str ":3001")); (str "ndt5_ws_addr", Text (str "127.0.0.1:3002"));
   (str "ndt5_wss_addr", Text (str ":3010")); (str "health_addr", Text (str "127.0.0.1:8000"));
   (str "cert", Text []); (str "key", Text []); (str "tls.version", Text []);
   (str "autocert.enabled", Truth false); (str "autocert.dir", Text (str "autocert"));
   (str "datadir", Text (str "/var/spool/ndt")); (str "htmldir", Text (str "html"));
   (str "compress-results", Truth true); (str "token.verify-key", Given []);
   (str "ndt5.token.required", Truth false); (str "ndt7.token.required", Truth false);
   (str "token.machine", Given []); (str "label", Given []); (str "autocert.hostname", Given [])].

(** The value of a flag; [Given []] for a name that is not declared. *)
Definition default (name : bytes) : fvalue :=
  match find (fun d => beqb (fst d) name) declared with Some d => snd d | None => Given [] end.
Definition own_flags : list bytes := map fst declared.
Definition own_bool (name : bytes) : bool := match default name with Truth _ => true | _ => false end.

(** Set of the three kinds; [ok] says whether a flag of another type accepts the text. *)
Definition own_set (ok : bytes -> list bytes -> bytes -> bool) (name : bytes) (old : fvalue) (s : bytes) : option fvalue :=
  match default name with
  | Text _ => Some (Text s)
  | Truth _ => option_map Truth (parse_bool s)
  | Given _ =>
      let before := match old with Given l => l | _ => [] end in
      if ok name before s then Some (Given (before ++ [s])) else None
  end.

(** What the rest of main reads of the settings, :198-317: [contents] is the host name that
    flagx.StringFile makes of the text it was given last. *)
Definition text_of (v : fvalue) : bytes := match v with Text s => s | _ => [] end.
Definition truth_of (v : fvalue) : bool := match v with Truth b => b | _ => false end.
Definition last_of (contents : bytes -> bytes) (v : fvalue) : bytes :=
  match v with Given (s :: r) => contents (last r s) | _ => [] end.
Definition settings_of (contents : bytes -> bytes) (st : bytes -> fvalue) : flags :=
  Flags (text_of (st (str "ndt7_addr"))) (text_of (st (str "ndt7_addr_cleartext"))) (text_of (st (str "ndt5_addr")))
    (text_of (st (str "ndt5_ws_addr"))) (text_of (st (str "ndt5_wss_addr"))) (text_of (st (str "health_addr")))
    (text_of (st (str "cert"))) (text_of (st (str "key"))) (text_of (st (str "tls.version")))
    (truth_of (st (str "autocert.enabled"))) (last_of contents (st (str "autocert.hostname")))
    (truth_of (st (str "ndt5.token.required"))) (truth_of (st (str "ndt7.token.required"))).
