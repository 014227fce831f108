(** What a command line and an environment say, independently of the parser. *)
From Coq Require Import String ZArith List Bool.
From Verif Require Import Base FlagModel.
Import ListNotations.
Open Scope Z_scope.

(** One dash or two. *)
Definition dash (d : bytes) : Prop := d = str "-" \/ d = str "--".
(** A word that is not an option: it does not begin with a dash, or it is only a dash. *)
Definition plain_word (w : bytes) : Prop := w = str "-" \/ forall r, w <> 45 :: r.

Section Words.
  Variable flags : list bytes.
  Variable is_bool : bytes -> bool.
  (** The settings in a command line, in order, and the words that are ignored. *)
  Inductive says : list bytes -> list (bytes * bytes) -> list bytes -> Prop :=
  | say_end : says [] [] []
  | say_word w rest : plain_word w -> says (w :: rest) [] (w :: rest)
  | say_dashes rest : says (str "--" :: rest) [] rest
  | say_equals d name v rest l ignored : dash d -> In name flags -> says rest l ignored ->
      says ((d ++ name ++ str "=" ++ v) :: rest) ((name, v) :: l) ignored
  | say_switch d name rest l ignored : dash d -> In name flags -> is_bool name = true -> says rest l ignored ->
      says ((d ++ name) :: rest) ((name, str "true") :: l) ignored
  | say_next d name v rest l ignored : dash d -> In name flags -> is_bool name = false -> says rest l ignored ->
      says ((d ++ name) :: v :: rest) ((name, v) :: l) ignored.

  (** Words that are all options, and what they say. *)
  Inductive options : list bytes -> list (bytes * bytes) -> Prop :=
  | opt_end : options [] []
  | opt_equals d name v rest l : dash d -> In name flags -> options rest l ->
      options ((d ++ name ++ str "=" ++ v) :: rest) ((name, v) :: l)
  | opt_switch d name rest l : dash d -> In name flags -> is_bool name = true -> options rest l ->
      options ((d ++ name) :: rest) ((name, str "true") :: l)
  | opt_next d name v rest l : dash d -> In name flags -> is_bool name = false -> options rest l ->
      options ((d ++ name) :: v :: rest) ((name, v) :: l).
  (** A request for help. *)
  Definition help_word (w : bytes) : Prop :=
    exists d name, dash d /\ (name = str "help" \/ name = str "h") /\ ~ In name flags /\
      (w = d ++ name \/ exists v, w = d ++ name ++ str "=" ++ v).
End Words.

(** Names that can be told from the rest of a word. *)
Definition proper_name (n : bytes) : Prop := n <> [] /\ (forall r, n <> 45 :: r) /\ ~ In 61 n.

(** The values given to a flag, in order. *)
Definition values_for (name : bytes) (l : list (bytes * bytes)) : list bytes :=
  flat_map (fun nv => if beqb (fst nv) name then [snd nv] else []) l.

(** The texts that make the value of a flag: those of the command line, or else that of the
    environment, where its name is in capitals with underscores. *)
Definition capital (b c : Z) : Prop :=
  (97 <= b <= 122 /\ c = b - 32) \/ ((65 <= b <= 90 \/ 48 <= b <= 57) /\ c = b) \/
  (~ (97 <= b <= 122) /\ ~ (65 <= b <= 90) /\ ~ (48 <= b <= 57) /\ c = 95).
Definition sources (env : bytes -> option bytes) (name : bytes) (l : list (bytes * bytes)) (vs : list bytes) : Prop :=
  (values_for name l <> [] /\ vs = values_for name l) \/
  (values_for name l = [] /\ exists n', Forall2 capital name n' /\
     vs = match env n' with Some v => [v] | None => [] end).

(** Giving a flag some texts one after the other. *)
Inductive becomes {V} (set : V -> bytes -> option V) : V -> list bytes -> V -> Prop :=
| bec_nil v : becomes set v [] v
| bec_cons v s x r w : set v s = Some x -> becomes set x r w -> becomes set v (s :: r) w.
