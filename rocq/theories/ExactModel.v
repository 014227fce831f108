(** Model of how numbers and times are written in JSON documents and read from them:
    encoding/json with strconv.AppendFloat (shortest form) and Time.UnmarshalJSON, for the
    documents of data/result.go, ndt7/model and ndt5 that json.Marshal prints in
    ndt5/ndt5.go:38-75 and ndt7/results/file.go:90-101 and the messages that
    ndt7/receiver/receiver.go:83 reads.  Time.MarshalJSON is TimeModel. *)
From Coq Require Import String ZArith List Bool.
From Coq Require Import Floats.SpecFloat.
From Verif Require Import Base GoFloat TimeModel CodecModel.
Import ListNotations.
Open Scope Z_scope.

(** ** Numbers *)

(** fmtF with the digits [ds], the point after the first [dp] of them. *)
Definition format_f (ds : bytes) (dp : Z) : bytes :=
  (if 0 <? dp then take dp ds ++ repeat 48 (Z.to_nat (dp - len ds)) else str "0") ++
  (if dp <? len ds then str "." ++ repeat 48 (Z.to_nat (- dp)) ++ drop dp ds else []).

(** fmtE, and floatEncoder's removal of the zero in e-07. *)
Definition format_e (ds : bytes) (dp : Z) : bytes :=
  take 1 ds ++ (if 1 <? len ds then str "." ++ drop 1 ds else []) ++ str "e" ++
  (let e := dp - 1 in
   if e <? 0 then str "-" ++ dec_nonneg (- e)
   else str "+" ++ (if e <? 10 then str "0" else []) ++ dec_nonneg e).

(** c * 10^q, with [e] in the form with an exponent.  Zeros at the end of c are dropped. *)
Definition decimal_text (e neg : bool) (c q : Z) : bytes :=
  let s := dec_nonneg c in
  let ds := trim_zeros s in
  let dp := len s + q in
  (if neg then str "-" else []) ++ (if e then format_e ds dp else format_f ds dp).

(** The position of the point in front of which the digits of num/den begin: num/den is at
    least 10^(point - 1) and less than 10^point.  400 is more than enough for float64. *)
Fixpoint leading_zeros (fuel : nat) (num den : Z) : Z :=
  match fuel with
  | O => 0
  | S f => if 10 * num <? den then 1 + leading_zeros f (10 * num) den else 0
  end.
Definition point (num den : Z) : Z :=
  if den <=? num then len (dec_nonneg (num / den)) else - leading_zeros (Z.to_nat 400) num den.

(** The two numbers of n digits next to num/den, the nearer one first, with their exponent. *)
Definition neighbours (num den n : Z) : list Z * Z :=
  let q := point num den - n in
  let a := if 0 <=? q then num else num * 10 ^ (- q) in
  let b := if 0 <=? q then den * 10 ^ q else den in
  let lo := a / b in
  (if 2 * (a mod b) <=? b then [lo; lo + 1] else [lo + 1; lo], q).

Definition f_same (x y : f64) : bool :=
  match x, y with
  | S754_zero s, S754_zero s' | S754_infinity s, S754_infinity s' => Bool.eqb s s'
  | S754_nan, S754_nan => true
  | S754_finite s m e, S754_finite s' m' e' => Bool.eqb s s' && Pos.eqb m m' && (e =? e')
  | _, _ => false
  end.
Definition reads (x : f64) (t : bytes) : bool :=
  match parse_float t with Some y => f_same x y | None => false end.

(** The documentation of AppendFloat with precision -1: the smallest number of digits such
    that ParseFloat returns the number exactly.  The algorithm of the library is not
    modelled.  The search goes on far beyond the 17 digits that are enough. *)
Fixpoint shortest (fuel : nat) (x : f64) (e neg : bool) (num den n : Z) : bytes :=
  let '(cs, q) := neighbours num den n in
  match find (reads x) (map (fun c => decimal_text e neg c q) (filter (fun c => 0 <? c) cs)) with
  | Some t => t
  | None =>
      match fuel with
      | O => decimal_text e neg (Z.max 1 (hd 1 cs)) q
      | S f => shortest f x e neg num den (n + 1)
      end
  end.

(** floatEncoder: the form with an exponent below 1e-6 and from 1e21. *)
Definition has_exponent (x : f64) : bool :=
  fltb x (round_scaled false 1 (-6) 10) || negb (fltb x (round_scaled false 1 21 10)).
Definition json_float (x : f64) : bytes :=
  match x with
  | S754_zero s => (if s then str "-" else []) ++ str "0"
  | S754_finite s m e =>
      let num := if 0 <=? e then Zpos m * 2 ^ e else Zpos m in
      let den := if 0 <=? e then 1 else 2 ^ (- e) in
      shortest (Z.to_nat 2200) x (has_exponent (S754_finite false m e)) s num den 1
  | _ => []
  end.

(** ** Times *)

(** A number of [w] digits in [lo, hi], and what follows it. *)
Definition two_or_more (w : nat) (lo hi : Z) (s : bytes) : option (Z * bytes) :=
  let d := firstn w s in
  if (List.length d =? w)%nat && forallb is_digit d && (lo <=? dec_value d) && (dec_value d <=? hi)
  then Some (dec_value d, skipn w s) else None.
Definition expect (b : Z) (s : bytes) : option bytes :=
  match s with c :: r => if c =? b then Some r else None | [] => None end.

(** daysIn. *)
Definition days_in (month year : Z) : Z :=
  if (month =? 2) && is_leap year then 29 else nth (Z.to_nat month) days_before 0 - nth (Z.to_nat (month - 1)) days_before 0.
(** Date: the days since 1970. *)
Definition day_number (year month day : Z) : Z :=
  let y := year - 1 in
  365 * y + y / 4 - y / 100 + y / 400 - 719162 +
  nth (Z.to_nat (month - 1)) days_before 0 + (if is_leap year && (3 <=? month) then 1 else 0) + (day - 1).

(** The digits after the point as nanoseconds; those after the ninth are dropped. *)
Definition nanoseconds (f : bytes) : Z :=
  let d := firstn 9 f in dec_value d * 10 ^ (9 - len d).
Fixpoint digit_span (s : bytes) : bytes * bytes :=
  match s with
  | b :: r => if is_digit b then let '(d, t) := digit_span r in (b :: d, t) else ([], s)
  | [] => ([], [])
  end.
Definition read_fraction (s : bytes) : option (Z * bytes) :=
  match s with
  | c :: r =>
      if (c =? 46) || (c =? 44) then
        match digit_span r with ([], _) => None | (d, t) => Some (nanoseconds d, t) end
      else Some (0, s)
  | [] => Some (0, [])
  end.
(** The hour has one digit or two (getnum). *)
Definition read_hour (s : bytes) : option (Z * bytes) :=
  match two_or_more 2 0 23 s with Some x => Some x | None =>
    match s with a :: b :: _ => if is_digit b then None else two_or_more 1 0 9 s | _ => None end
  end.
(** The zone in minutes, at the end of the text; Parse admits 24 hours and 60 minutes. *)
Definition read_zone (s : bytes) : option Z :=
  match s with
  | c :: r =>
      if c =? 90 then match r with [] => Some 0 | _ => None end
      else if (c =? 43) || (c =? 45) then
        match two_or_more 2 0 24 r with
        | Some (h, r) =>
            match expect 58 r with
            | Some r =>
                match two_or_more 2 0 60 r with
                | Some (m, []) => Some (if c =? 45 then - (h * 60 + m) else h * 60 + m)
                | _ => None
                end
            | None => None
            end
        | None => None
        end
      else None
  | [] => None
  end.

Definition bind_opt {A B} (o : option A) (f : A -> option B) : option B := match o with Some x => f x | None => None end.
(** parseStrictRFC3339, between the quotes: parseRFC3339 or else Parse, whose liberties it
    lets pass (a short hour, a comma, the zones above).  The instant in nanoseconds since
    1970, and the zone in minutes, which the program keeps with the time. *)
Definition read_time_zone (s : bytes) : option (Z * Z) :=
  bind_opt (two_or_more 4 0 9999 s) (fun '(y, s) => bind_opt (expect 45 s) (fun s =>
  bind_opt (two_or_more 2 1 12 s) (fun '(mo, s) => bind_opt (expect 45 s) (fun s =>
  bind_opt (two_or_more 2 1 (days_in mo y) s) (fun '(d, s) => bind_opt (expect 84 s) (fun s =>
  bind_opt (read_hour s) (fun '(h, s) => bind_opt (expect 58 s) (fun s =>
  bind_opt (two_or_more 2 0 59 s) (fun '(mi, s) => bind_opt (expect 58 s) (fun s =>
  bind_opt (two_or_more 2 0 59 s) (fun '(se, s) =>
  bind_opt (read_fraction s) (fun '(n, s) =>
  bind_opt (read_zone s) (fun z =>
  Some ((((day_number y mo d * 24 + h) * 60 + mi - z) * 60 + se) * 10 ^ 9 + n, z)))))))))))))).
Definition read_time (s : bytes) : option Z := option_map fst (read_time_zone s).

(** ** The fields of tcp.LinuxTCPInfo (m-lab/tcp-info), as remembered. *)
Definition u8 : Z * Z := (0, 2 ^ 8 - 1).
Definition u32 : Z * Z := (0, 2 ^ 32 - 1).
Definition i32 : Z * Z := (- 2 ^ 31, 2 ^ 31 - 1).
Definition i64 : Z * Z := (- 2 ^ 63, 2 ^ 63 - 1).
Definition linux_tcp_info : list (bytes * (Z * Z)) :=
  map (fun n => (str n, u8)) ["State"; "CAState"; "Retransmits"; "Probes"; "Backoff"; "Options"; "WScale"; "AppLimited"]%string ++
  map (fun n => (str n, u32)) ["RTO"; "ATO"; "SndMSS"; "RcvMSS"; "Unacked"; "Sacked"; "Lost"; "Retrans"; "Fackets";
    "LastDataSent"; "LastAckSent"; "LastDataRecv"; "LastAckRecv"; "PMTU"; "RcvSsThresh"; "RTT"; "RTTVar"; "SndSsThresh";
    "SndCwnd"; "AdvMSS"; "Reordering"; "RcvRTT"; "RcvSpace"; "TotalRetrans"]%string ++
  map (fun n => (str n, i64)) ["PacingRate"; "MaxPacingRate"; "BytesAcked"; "BytesReceived"]%string ++
  map (fun n => (str n, i32)) ["SegsOut"; "SegsIn"]%string ++
  map (fun n => (str n, u32)) ["NotsentBytes"; "MinRTT"; "DataSegsIn"; "DataSegsOut"]%string ++
  map (fun n => (str n, i64)) ["DeliveryRate"; "BusyTime"; "RWndLimited"; "SndBufLimited"]%string ++
  map (fun n => (str n, u32)) ["Delivered"; "DeliveredCE"]%string ++
  map (fun n => (str n, i64)) ["BytesSent"; "BytesRetrans"]%string ++
  map (fun n => (str n, u32)) ["DSackDups"; "ReordSeen"; "RcvOooPack"; "SndWnd"]%string.

(** The codec of a process in a zone [off] seconds east of UTC.  A time that a client sent
    is written in the zone of the client's text in the program, in that of the process here. *)
Definition go_codec (off : Z) (commit version : bytes) : codec :=
  Codec json_float (marshal_time off) read_time linux_tcp_info commit version.
