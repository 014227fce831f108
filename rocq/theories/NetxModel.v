(** Model of netx/net.go (Accept, Close, ReadInfo, GetUUID), bbr/bbr_linux.go and
    tcpinfox/tcpinfox_linux.go. *)
From Coq Require Import String ZArith List Bool.
From Verif Require Import Base Web100Model Ndt7Model Lts.
Import ListNotations.
Open Scope Z_scope.

(** ** Accept and Close, netx/net.go:90-117 *)

(** Where Accept is with a connection: AcceptTCP has returned it; DupFile as well; Accept
    has returned it; DupFile has failed and Accept has returned an error. *)
Inductive net_phase := NAccepted | NDuped | NLive | NFailed.

(** A Close in progress: before fp.Close, before once.Do, before Conn.Close. *)
Inductive net_close := CFile | COnce | CSock.

(** [n_sock], [n_dup]: the socket and the duplicated file are open.  [n_dec]: the
    sync.Once has run.  [n_closing]: the calls of Close in progress.  [n_closed]: how
    many have returned. *)
Record net_conn := NConn {
  n_phase : net_phase; n_sock : bool; n_dup : bool; n_dec : bool;
  n_closing : list net_close; n_closed : nat
}.

(** One step of Accept or of a Close of the connection, with what it adds to the gauge. *)
Inductive net_conn_step : net_conn -> net_conn -> Z -> Prop :=
| n_dup_ok s d o cl k : net_conn_step (NConn NAccepted s d o cl k) (NConn NDuped s true o cl k) 0
| n_dup_fails s d o cl k : net_conn_step (NConn NAccepted s d o cl k) (NConn NFailed false d o cl k) 0
| n_inc s d o cl k : net_conn_step (NConn NDuped s d o cl k) (NConn NLive s d o cl k) 1
| n_close s d o cl k : net_conn_step (NConn NLive s d o cl k) (NConn NLive s d o (cl ++ [CFile]) k) 0
| n_file s d o cl cl' k :
    net_conn_step (NConn NLive s d o (cl ++ CFile :: cl') k) (NConn NLive s false o (cl ++ COnce :: cl') k) 0
| n_once s d o cl cl' k :
    net_conn_step (NConn NLive s d o (cl ++ COnce :: cl') k) (NConn NLive s d true (cl ++ CSock :: cl') k)
                  (if o then 0 else -1)
| n_sock_close s d o cl cl' k :
    net_conn_step (NConn NLive s d o (cl ++ CSock :: cl') k) (NConn NLive false d o (cl ++ cl') (S k)) 0.

(** All connections of the process and the gauge netx_current_open_conns. *)
Record net_state := Net { t_conns : list net_conn; t_gauge : Z }.

Definition net_init (s : net_state) : Prop := s = Net [] 0.

Inductive net_step : net_state -> net_state -> Prop :=
(* AcceptTCP returns a connection *)
| net_accept l g : net_step (Net l g) (Net (l ++ [NConn NAccepted true false false [] 0]) g)
(* AcceptTCP returns an error *)
| net_refuse l g : net_step (Net l g) (Net l g)
| net_inside l c c' l' d g : net_conn_step c c' d -> net_step (Net (l ++ c :: l') g) (Net (l ++ c' :: l') (g + d)).

Definition net_reachable : net_state -> Prop := reachable net_init net_step.

(** ** BBR information, bbr/bbr_linux.go:36-86 *)

Inductive sys_error := NoSupport | Errno (n : Z) | RawConn.

Definition errno_nosys : Z := 38.
Definition errno_inval : Z := 22.
Definition errno_overflow : Z := 75.

(** A 32-bit field of a C struct on a little-endian machine. *)
Definition le32 (b : bytes) (at_ : nat) : Z :=
  match skipn at_ b with
  | b0 :: b1 :: b2 :: b3 :: _ => b0 + 2 ^ 8 * b1 + 2 ^ 16 * b2 + 2 ^ 24 * b3
  | _ => 0
  end.

(** getMaxBandwidthAndMinRTT: [raw]: SyscallConn or Control failed; [errno], [size] and
    [buf]: what getsockopt leaves.  struct tcp_bbr_info is bbr_bw_lo, bbr_bw_hi,
    bbr_min_rtt, bbr_pacing_gain, bbr_cwnd_gain. *)
Definition bbr_zero : bbr_info := BBRInfo 0 0 0 0.
Definition get_bbr (raw : bool) (errno size : Z) (buf : bytes) : bbr_info * option sys_error :=
  if raw then (bbr_zero, Some RawConn)
  else if negb (errno =? 0) then
    if errno =? errno_nosys then (bbr_zero, Some NoSupport) else (bbr_zero, Some (Errno errno))
  else if negb (size =? 20) then (bbr_zero, Some (Errno errno_inval))
  else
    let maxbw := Z.lor (Z.shiftl (le32 buf 4) 32) (le32 buf 0) in
    if 2 ^ 63 - 1 <? maxbw then (bbr_zero, Some (Errno errno_overflow))
    else (BBRInfo maxbw (le32 buf 8) (le32 buf 12) (le32 buf 16), None).

(** getTCPInfo, tcpinfox_linux.go:11-36: what the struct holds and the error.  The kernel
    writes nothing if getsockopt fails. *)
Definition tcp_zero : tcp_info := TcpInfo 0 0 0 0 0 [].
Definition get_tcp (raw : bool) (errno : Z) (info : tcp_info) : tcp_info * option sys_error :=
  if raw then (tcp_zero, Some RawConn)
  else if negb (errno =? 0) then (tcp_zero, Some (Errno errno))
  else (info, None).

(** Conn.ReadInfo, net.go:128-138. *)
Definition conn_read_info (bbr : bbr_info * option sys_error) (tcp : tcp_info * option sys_error)
  : bbr_info * tcp_info * option sys_error :=
  let b := match snd bbr with Some _ => bbr_zero | None => fst bbr end in
  match snd tcp with
  | Some e => (bbr_zero, tcp_zero, Some e)
  | None => (b, fst tcp, None)
  end.

(** ** GetUUID, net.go:141-153 *)

(** uuid.UUID.String of google/uuid: 8-4-4-4-12 lower-case hexadecimal digits. *)
Definition hex_digit (n : Z) : Z := if n <? 10 then 48 + n else 87 + n.
Definition hex_byte (b : Z) : bytes := [hex_digit (b / 16); hex_digit (b mod 16)].
Definition hex_of (l : bytes) : bytes := flat_map hex_byte l.
Definition uuid_string (u : bytes) : bytes :=
  hex_of (firstn 4 u) ++ str "-" ++ hex_of (firstn 2 (skipn 4 u)) ++ str "-" ++
  hex_of (firstn 2 (skipn 6 u)) ++ str "-" ++ hex_of (firstn 2 (skipn 8 u)) ++ str "-" ++
  hex_of (firstn 6 (skipn 10 u)).

(** [from_file]: uuid.FromFile; [fallback]: guuid.NewUUID, 16 bytes.  [None]: rtx.Must
    ends the process; otherwise the id, with a nil error. *)
Definition get_uuid (from_file : option bytes) (fallback : option bytes) : option bytes :=
  match from_file with
  | Some id => Some id
  | None => match fallback with Some u => Some (uuid_string u) | None => None end
  end.
