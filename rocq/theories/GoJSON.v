(** Model of the parts of Go's unicode/utf8 and encoding/json that the NDT5 code
    uses (Go 1.22 or later: \b and \f are written in short form).  These are
    library functions, not code of /repo; the citations say where /repo calls
    them.  No proofs here. *)
From Coq Require Import String Ascii ZArith List Bool.
From Verif Require Import Base.
From Verif Require Export JsonSpec.
Import ListNotations.
Open Scope Z_scope.

(** ** UTF-8 *)

(** utf8.RuneError, U+FFFD. *)
Definition rune_error : Z := 65533.

Definition in_range (lo hi b : Z) : bool := (lo <=? b) && (b <=? hi).

(** utf8.DecodeRune: rune and width; (U+FFFD, 1) for an invalid sequence. *)
Definition decode_rune (s : bytes) : Z * Z :=
  match s with
  | [] => (rune_error, 0)
  | b0 :: r =>
      if b0 <? 128 then (b0, 1)
      else if b0 <? 194 then (rune_error, 1)
      else if b0 <? 224 then
        match r with
        | b1 :: _ => if in_range 128 191 b1 then ((b0 - 192) * 64 + (b1 - 128), 2) else (rune_error, 1)
        | _ => (rune_error, 1)
        end
      else if b0 <? 240 then
        match r with
        | b1 :: b2 :: _ =>
            if in_range (if b0 =? 224 then 160 else 128) (if b0 =? 237 then 159 else 191) b1
               && in_range 128 191 b2
            then ((b0 - 224) * 4096 + (b1 - 128) * 64 + (b2 - 128), 3) else (rune_error, 1)
        | _ => (rune_error, 1)
        end
      else if b0 <? 245 then
        match r with
        | b1 :: b2 :: b3 :: _ =>
            if in_range (if b0 =? 240 then 144 else 128) (if b0 =? 244 then 143 else 191) b1
               && in_range 128 191 b2 && in_range 128 191 b3
            then ((b0 - 240) * 262144 + (b1 - 128) * 4096 + (b2 - 128) * 64 + (b3 - 128), 4)
            else (rune_error, 1)
        | _ => (rune_error, 1)
        end
      else (rune_error, 1)
  end.

(** utf8.AppendRune: surrogates and out-of-range values become U+FFFD. *)
Definition encode_rune (r : Z) : bytes :=
  if (0 <=? r) && (r <? 128) then [r]
  else if (128 <=? r) && (r <? 2048) then [192 + r / 64; 128 + r mod 64]
  else if (r <? 0) || (1114111 <? r) || in_range 55296 57343 r then [239; 191; 189]
  else if r <? 65536 then [224 + r / 4096; 128 + (r / 64) mod 64; 128 + r mod 64]
  else [240 + r / 262144; 128 + (r / 4096) mod 64; 128 + (r / 64) mod 64; 128 + r mod 64].

(** ** Encoding strings: json.Marshal of a string with HTML escaping on. *)

Definition hexl (d : Z) : Z := if d <? 10 then 48 + d else 87 + d.

(** htmlSafeSet of encoding/json for ASCII bytes. *)
Definition html_safe (b : Z) : bool :=
  in_range 32 127 b && negb (mem b [34; 38; 60; 62; 92]).

(** Escape of one ASCII byte. *)
Definition json_escape_ascii (b : Z) : bytes :=
  if html_safe b then [b]
  else if (b =? 34) || (b =? 92) then [92; b]
  else if b =? 8 then [92; 98]
  else if b =? 12 then [92; 102]
  else if b =? 10 then [92; 110]
  else if b =? 13 then [92; 114]
  else if b =? 9 then [92; 116]
  else [92; 117; 48; 48; hexl (b / 16); hexl (b mod 16)].

(** appendString of encoding/json (escapeHTML = true), without the quotes. *)
Fixpoint json_escape (fuel : nat) (s : bytes) : bytes :=
  match fuel with
  | O => []
  | S f =>
      match s with
      | [] => []
      | b :: r =>
          if b <? 128 then json_escape_ascii b ++ json_escape f r
          else
            let '(c, n) := decode_rune s in
            if (c =? rune_error) && (n =? 1) then [92; 117; 102; 102; 102; 100] ++ json_escape f r
            else if (c =? 8232) || (c =? 8233) then
              str "\u202" ++ hexl (c mod 16) :: json_escape f (drop n s)
            else take n s ++ json_escape f (drop n s)
      end
  end.

Definition json_string (s : bytes) : bytes := 34 :: json_escape (List.length s) s ++ [34].

(** ** Decoding *)

(** The type [json] of JSON values is the one of JsonSpec.v. *)

Definition is_ws (b : Z) : bool := mem b [32; 9; 10; 13].

Fixpoint skip_ws (s : bytes) : bytes :=
  match s with
  | b :: r => if is_ws b then skip_ws r else s
  | [] => []
  end.

Definition is_hex (b : Z) : bool := in_range 48 57 b || in_range 65 70 b || in_range 97 102 b.
Definition hexval (b : Z) : Z :=
  if in_range 48 57 b then b - 48 else if in_range 65 70 b then b - 55 else b - 87.

(** The scanner's view of a string literal after the opening quote: the raw inner
    bytes and what follows the closing quote.  Control characters and malformed
    escapes are syntax errors. *)
Fixpoint scan_string (s : bytes) : option (bytes * bytes) :=
  match s with
  | [] => None
  | c :: r0 =>
      if c =? 34 then Some ([], r0)
      else if c =? 92 then
        match r0 with
        | [] => None
        | b :: r =>
            if b =? 117 then
              match r with
              | a :: b1 :: c1 :: d :: r' =>
                  if is_hex a && is_hex b1 && is_hex c1 && is_hex d
                  then match scan_string r' with
                       | Some (i, t) => Some (92 :: 117 :: a :: b1 :: c1 :: d :: i, t)
                       | None => None
                       end
                  else None
              | _ => None
              end
            else if mem b [34; 92; 47; 98; 102; 110; 114; 116] then
              match scan_string r with
              | Some (i, t) => Some (92 :: b :: i, t)
              | None => None
              end
            else None
        end
      else if c <? 32 then None
      else match scan_string r0 with
           | Some (i, t) => Some (c :: i, t)
           | None => None
           end
  end.

(** getu4: the value of a leading \uXXXX, or -1. *)
Definition getu4 (s : bytes) : Z :=
  match s with
  | x :: y :: a :: b :: c :: d :: _ =>
      if (x =? 92) && (y =? 117) && is_hex a && is_hex b && is_hex c && is_hex d
      then hexval a * 4096 + hexval b * 256 + hexval c * 16 + hexval d else -1
  | _ => -1
  end.

Definition is_surrogate (r : Z) : bool := in_range 55296 57343 r.

(** utf16.DecodeRune. *)
Definition utf16_decode (r1 r2 : Z) : Z :=
  if in_range 55296 56319 r1 && in_range 56320 57343 r2
  then (r1 - 55296) * 1024 + (r2 - 56320) + 65536 else rune_error.

(** The byte a two-character escape stands for. *)
Definition unescape (b : Z) : Z :=
  if b =? 98 then 8 else if b =? 102 then 12 else if b =? 110 then 10
  else if b =? 114 then 13 else if b =? 116 then 9 else b.

(** unquoteBytes of encoding/json on the inner bytes of a scanned string. *)
Fixpoint unquote (fuel : nat) (s : bytes) : bytes :=
  match fuel with
  | O => []
  | S f =>
      match s with
      | [] => []
      | c :: r =>
          if c =? 92 then
            match r with
            | [] => []
            | b :: r' =>
                if b =? 117 then
                  let rr := getu4 s in
                  let rest := drop 6 s in
                  if is_surrogate rr then
                    let dec := utf16_decode rr (getu4 rest) in
                    if negb (dec =? rune_error)
                    then encode_rune dec ++ unquote f (drop 6 rest)
                    else encode_rune rune_error ++ unquote f rest
                  else encode_rune rr ++ unquote f rest
                else unescape b :: unquote f r'
            end
          else if c <? 128 then c :: unquote f r
          else
            let '(rr, n) := decode_rune s in
            encode_rune rr ++ unquote f (drop n s)
      end
  end.

(** A string literal after the opening quote. *)
Definition pstring (s : bytes) : option (bytes * bytes) :=
  match scan_string s with
  | Some (i, t) => Some (unquote (List.length i) i, t)
  | None => None
  end.

(** Longest prefix of digits and the rest. *)
Fixpoint span_digits (s : bytes) : bytes * bytes :=
  match s with
  | b :: r => if is_digit b then let '(d, t) := span_digits r in (b :: d, t) else ([], s)
  | [] => ([], [])
  end.

(** A number literal: -? (0 | [1-9][0-9]* ) (. [0-9]+)? ([eE] [+-]? [0-9]+)? *)
Definition pnumber (s : bytes) : option bytes :=
  let s1 := match s with b :: r => if b =? 45 then r else s | [] => s end in
  let int := match s1 with
             | b :: r => if b =? 48 then Some r
                         else if in_range 49 57 b then Some (snd (span_digits r)) else None
             | [] => None
             end in
  match int with
  | None => None
  | Some s2 =>
      let frac := match s2 with
                  | b :: r => if b =? 46 then
                      match span_digits r with ([], _) => None | (_, t) => Some t end
                      else Some s2
                  | [] => Some []
                  end in
      match frac with
      | None => None
      | Some s3 =>
          match s3 with
          | b :: r =>
              if (b =? 101) || (b =? 69) then
                let r' := match r with
                          | c :: t => if (c =? 43) || (c =? 45) then t else r
                          | [] => r
                          end in
                match span_digits r' with ([], _) => None | (_, t) => Some t end
              else Some s3
          | [] => Some []
          end
      end
  end.

(** maxNestingDepth of encoding/json. *)
Definition max_depth : Z := 10000.

(** A JSON value (no leading white space), by recursive descent. *)
Fixpoint pvalue (fuel : nat) (depth : Z) (s : bytes) {struct fuel} : option (json * bytes) :=
  match fuel with
  | O => None
  | S f =>
      match s with
      | [] => None
      | c :: r =>
          if c =? 123 then
            if max_depth <=? depth then None
            else match skip_ws r with
                 | [] => None
                 | d :: r' =>
                     if d =? 125 then Some (JObj [], r')
                     else match pmembers f (depth + 1) (d :: r') with
                          | Some (m, t) => Some (JObj m, t)
                          | None => None
                          end
                 end
          else if c =? 91 then
            if max_depth <=? depth then None
            else match skip_ws r with
                 | [] => None
                 | d :: r' =>
                     if d =? 93 then Some (JArr [], r')
                     else match pelements f (depth + 1) (d :: r') with
                          | Some (m, t) => Some (JArr m, t)
                          | None => None
                          end
                 end
          else if c =? 34 then
            match pstring r with Some (x, t) => Some (JStr x, t) | None => None end
          else if has_prefix (str "true") s then Some (JBool true, drop 4 s)
          else if has_prefix (str "false") s then Some (JBool false, drop 5 s)
          else if has_prefix (str "null") s then Some (JNull, drop 4 s)
          else match pnumber s with Some t => Some (JNum (firstn (List.length s - List.length t) s), t) | None => None end
      end
  end
with pmembers (fuel : nat) (depth : Z) (s : bytes) {struct fuel} : option (list (bytes * json) * bytes) :=
  match fuel with
  | O => None
  | S f =>
      match s with
      | [] => None
      | q :: r =>
          if q =? 34 then
            match pstring r with
            | None => None
            | Some (k, r1) =>
                match skip_ws r1 with
                | [] => None
                | c :: r2 =>
                    if c =? 58 then
                      match pvalue f depth (skip_ws r2) with
                      | None => None
                      | Some (v, r3) =>
                          match skip_ws r3 with
                          | [] => None
                          | e :: r4 =>
                              if e =? 125 then Some ([(k, v)], r4)
                              else if e =? 44 then
                                match pmembers f depth (skip_ws r4) with
                                | Some (m, t) => Some ((k, v) :: m, t)
                                | None => None
                                end
                              else None
                          end
                      end
                    else None
                end
            end
          else None
      end
  end
with pelements (fuel : nat) (depth : Z) (s : bytes) {struct fuel} : option (list json * bytes) :=
  match fuel with
  | O => None
  | S f =>
      match pvalue f depth s with
      | None => None
      | Some (v, r3) =>
          match skip_ws r3 with
          | [] => None
          | e :: r4 =>
              if e =? 93 then Some ([v], r4)
              else if e =? 44 then
                match pelements f depth (skip_ws r4) with
                | Some (m, t) => Some (v :: m, t)
                | None => None
                end
              else None
          end
      end
  end.

(** A complete JSON text: checkValid of encoding/json plus the parsed value.  Every
    recursive call either consumes a byte or goes from an element list to its first
    element, so the fuel never runs out on a valid text. *)
Definition json_parse (s : bytes) : option json :=
  match pvalue (2 + 2 * List.length s) 0 (skip_ws s) with
  | Some (v, r) => match skip_ws r with [] => Some v | _ => None end
  | None => None
  end.

(** ** Decoding into a struct with two string fields "msg" and "tests"
    (protocol.JSONMessage). *)

(** Case folding of field names (foldName of encoding/json).  Only the result's
    equality with an ASCII name matters: besides a-z the two runes U+017F and
    U+212A fold to ASCII letters. *)
Fixpoint fold_name (fuel : nat) (s : bytes) : bytes :=
  match fuel with
  | O => []
  | S f =>
      match s with
      | [] => []
      | b :: r =>
          if b <? 128 then (if in_range 97 122 b then b - 32 else b) :: fold_name f r
          else
            let '(c, n) := decode_rune s in
            (if c =? 383 then [83] else if c =? 8490 then [75] else encode_rune c)
            ++ fold_name f (drop n s)
      end
  end.

(** Does an object key select the field called [name]?  (Both field names of
    JSONMessage are lower case and differ when folded, so trying the exact name
    first, as encoding/json does, makes no difference.) *)
Definition key_matches (name key : bytes) : bool :=
  beqb (fold_name (List.length key) key) (fold_name (List.length name) name).

(** Storing a JSON value into a string field: new value and whether a type error
    was recorded. null leaves the field alone. *)
Definition store_string (old : bytes) (v : json) : bytes * bool :=
  match v with
  | JStr s => (s, false)
  | JNull => (old, false)
  | _ => (old, true)
  end.

(** Decode the members of an object: later ones win, unknown keys are ignored, a
    type error is remembered while decoding goes on. *)
Fixpoint store_members (l : list (bytes * json)) (msg tests : bytes) (bad : bool)
  : bytes * bytes * bool :=
  match l with
  | [] => (msg, tests, bad)
  | (k, v) :: r =>
      if key_matches (str "msg") k then
        let '(m, e) := store_string msg v in store_members r m tests (bad || e)
      else if key_matches (str "tests") k then
        let '(t, e) := store_string tests v in store_members r msg t (bad || e)
      else store_members r msg tests bad
  end.

(** Outcome of json.Unmarshal into a (pointer to a) JSONMessage. *)
Inductive unmarshal_result :=
| UErr                                  (* syntax or type error *)
| UNull                                 (* the literal null: a pointer becomes nil, a struct is untouched *)
| UMsg (msg tests : bytes).

Definition unmarshal (s : bytes) : unmarshal_result :=
  match json_parse s with
  | None => UErr
  | Some JNull => UNull
  | Some (JObj l) =>
      let '(m, t, bad) := store_members l [] [] false in
      if bad : bool then UErr else UMsg m t
  | Some _ => UErr
  end.
