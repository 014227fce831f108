(** How the text of an internet address is read: dotted decimals, or hexadecimal words of
    which one run of zeros may be written "::" (RFC 4291, 2.2). *)
From Coq Require Import String ZArith List Bool.
From Verif Require Import Base.
Import ListNotations.
Open Scope Z_scope.

(** The parts of a text between separators; at least one. *)
Fixpoint fields (sep : Z) (s : bytes) : list bytes :=
  match s with
  | [] => [[]]
  | b :: r =>
      if b =? sep then [] :: fields sep r
      else match fields sep r with f :: l => (b :: f) :: l | [] => [[b]] end
  end.

Fixpoint all {A} (l : list (option A)) : option (list A) :=
  match l with
  | [] => Some []
  | Some a :: r => match all r with Some l => Some (a :: l) | None => None end
  | None :: _ => None
  end.

(** A decimal byte. *)
Definition read_decimal (s : bytes) : option Z :=
  if forallb is_digit s && (1 <=? len s) && (dec_value s <=? 255) then Some (dec_value s) else None.

(** A word of up to four hexadecimal digits. *)
Definition hex_value (b : Z) : option Z :=
  if (48 <=? b) && (b <=? 57) then Some (b - 48)
  else if (97 <=? b) && (b <=? 102) then Some (b - 87)
  else if (65 <=? b) && (b <=? 70) then Some (b - 55)
  else None.
Definition read_word (s : bytes) : option Z :=
  if (1 <=? len s) && (len s <=? 4)
  then option_map (fun l => fold_left (fun v d => 16 * v + d) l 0) (all (map hex_value s))
  else None.

(** The words of a text without "::", none for the empty one. *)
Definition read_words (s : bytes) : option (list Z) :=
  match s with [] => Some [] | _ => all (map read_word (fields 58 s)) end.

(** The text before and after the first "::". *)
Fixpoint at_double (s : bytes) : option (bytes * bytes) :=
  match s with
  | [] => None
  | b :: r =>
      match r with
      | c :: r' => if (b =? 58) && (c =? 58) then Some ([], r')
                   else option_map (fun p => (b :: fst p, snd p)) (at_double r)
      | [] => None
      end
  end.

(** The eight words of an IPv6 address. *)
Definition read6 (s : bytes) : option (list Z) :=
  match at_double s with
  | Some (a, b) =>
      match read_words a, read_words b with
      | Some x, Some y =>
          if len x + len y <=? 7
          then Some (x ++ repeat 0 (8 - List.length x - List.length y) ++ y) else None
      | _, _ => None
      end
  | None =>
      match read_words s with
      | Some x => if len x =? 8 then Some x else None
      | None => None
      end
  end.

Definition word_bytes (w : Z) : bytes := [w / 256; w mod 256].

(** The bytes of an address: four or sixteen. *)
Definition read_ip (s : bytes) : option bytes :=
  if mem 58 s then option_map (flat_map word_bytes) (read6 s)
  else match all (map read_decimal (fields 46 s)) with
       | Some l => if len l =? 4 then Some l else None
       | None => None
       end.

(** The address a host has: an IPv4 address may also come in its IPv6 form,
    ::ffff:0:0/96. *)
Definition ip_ok (ip : bytes) : Prop := (len ip = 4 \/ len ip = 16) /\ bytes_ok ip.
Definition mapped_prefix : bytes := [0; 0; 0; 0; 0; 0; 0; 0; 0; 0; 255; 255].
Definition canonical (ip : bytes) : bytes :=
  if (len ip =? 16) && has_prefix mapped_prefix ip then skipn 12 ip else ip.

(** ** Canonical text (RFC 5952) *)

(** A word without leading zeros, in lower case. *)
Definition group (t : bytes) (w : Z) : Prop :=
  read_word t = Some w /\ (t = [48] \/ hd 48 t <> 48) /\
  Forall (fun c => 48 <= c <= 57 \/ 97 <= c <= 102) t.
(** Words with colons between them. *)
Definition groups (s : bytes) (ws : list Z) : Prop :=
  exists l, Forall2 group l ws /\ s = match l with [] => [] | t :: r => t ++ flat_map (fun t => 58 :: t) r end.
(** [n] zeros, at least two, stand in [ws] between [a] and [b]. *)
Definition zeros_between (ws a : list Z) (n : nat) (b : list Z) : Prop :=
  ws = a ++ repeat 0 n ++ b /\ (2 <= n)%nat.
