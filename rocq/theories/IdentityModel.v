(** Model of how connections get their identity: netx/net.go (Accept, LocalAddr, RemoteAddr,
    ToTCPAddr, ToConnInfo), the UUID, ServerIPAndPort, ClientIPAndPort and String methods of
    ndt5/protocol/protocol.go, getData and setupResult of ndt7/handler/handler.go,
    getSocketAndPossiblyEnableBBR of ndt7/measurer/measurer.go, and the text of net.IP. *)
From Coq Require Import String ZArith List Bool.
From Verif Require Import Base GoStrings Web100Model ControlModel Ndt7Model NetxModel.
Import ListNotations.
Open Scope Z_scope.

(** ** net.IP.String (net and net/netip of the standard library) *)

(** netip's appendHex: no leading zeros. *)
Definition hex16 (x : Z) : bytes :=
  (if 4096 <=? x then [hex_digit (x / 4096)] else []) ++
  (if 256 <=? x then [hex_digit (x / 256 mod 16)] else []) ++
  (if 16 <=? x then [hex_digit (x / 16 mod 16)] else []) ++
  [hex_digit (x mod 16)].

(** The 16-bit words of an address. *)
Fixpoint words (ip : bytes) : list Z :=
  match ip with a :: b :: r => a * 256 + b :: words r | _ => [] end.

(** netip's appendTo6, first loop: the longest run of at least two zero words; the first of
    several.  (255, 255): none. *)
Fixpoint zero_words (ws : list Z) : nat :=
  match ws with w :: r => if w =? 0 then S (zero_words r) else O | [] => O end.
Fixpoint longest (i : nat) (ws : list Z) (best : nat * nat) : nat * nat :=
  match ws with
  | [] => best
  | _ :: r =>
      let l := zero_words ws in
      longest (S i) r
        (if ((2 <=? l) && (snd best - fst best <? l))%nat then (i, i + l)%nat else best)
  end.
(** The second loop; [fuel] is its number of iterations left. *)
Fixpoint emit (fuel : nat) (start end_ i : nat) (ws : list Z) : bytes :=
  match fuel with
  | O => []
  | S f =>
      if (8 <=? i)%nat then []
      else if (i =? start)%nat then
        str "::" ++
        (if (8 <=? end_)%nat then [] else hex16 (nth end_ ws 0) ++ emit f start end_ (S end_) ws)
      else
        (if (0 <? i)%nat then str ":" else []) ++ hex16 (nth i ws 0) ++ emit f start end_ (S i) ws
  end.
Definition ip6_text (ip : bytes) : bytes :=
  let '(start, end_) := longest 0 (words ip) (255, 255)%nat in emit 8 start end_ 0 (words ip).

(** netip's appendTo4. *)
Definition ip4_text (ip : bytes) : bytes := join (str ".") (map itoa ip).

(** IP.To4: an address of four bytes, or one of sixteen that begins with ten zeros and two
    bytes 255. *)
Definition mapped : bytes := repeat 0 10 ++ [255; 255].
Definition to4 (ip : bytes) : option bytes :=
  if (List.length ip =? 4)%nat then Some ip
  else if (List.length ip =? 16)%nat && beqb (firstn 12 ip) mapped then Some (skipn 12 ip)
  else None.

(** IP.String. *)
Definition ip_text (ip : bytes) : bytes :=
  match ip with
  | [] => str "<nil>"
  | _ =>
      if negb ((List.length ip =? 4)%nat || (List.length ip =? 16)%nat) then str "?" ++ hex_of ip
      else match to4 ip with Some p => ip4_text p | None => ip6_text ip end
  end.

(** ** Connections and addresses *)

(** A net.Addr of the net package: a *net.TCPAddr, another type with its text, or nil (the
    address of a socket for which getsockname failed). *)
Inductive raw_addr := RawTcp (ip zone : bytes) (port : Z) | RawOther (text : bytes) | RawNil.

(** A *net.TCPConn: its socket and the two addresses. *)
Record tcp_conn := TcpConn { k_socket : Z; k_local : raw_addr; k_remote : raw_addr }.

(** netx.Conn, net.go:51-56; [x_file] is the socket behind fp. *)
Record netx_conn := NetxConn { x_tcp : tcp_conn; x_file : Z }.

(** A net.Conn: *netx.Conn, *tls.Conn around another, or of another type. *)
Inductive net_conn := NetxC (c : netx_conn) | TlsC (c : net_conn) | OtherC (local remote : raw_addr).

(** A net.Addr: *netx.Addr (net.go:75-78) or one of the net package. *)
Inductive naddr := NetxAddr (a : raw_addr) (parent : netx_conn) | RawAddr (a : raw_addr).

(** Listener.Accept, net.go:90-110, without the gauge (NetxModel): [dup] says whether DupFile
    succeeds (fdinfo.go:34-50: a duplicate of the same socket). *)
Definition accept (tc : option tcp_conn) (dup : bool) : option netx_conn :=
  match tc with
  | Some t => if dup then Some (NetxConn t (k_socket t)) else None
  | None => None
  end.

(** Conn.LocalAddr and Conn.RemoteAddr, net.go:157-171; those of tls.Conn are those of the
    connection inside. *)
Fixpoint local_addr (c : net_conn) : naddr :=
  match c with
  | NetxC x => NetxAddr (k_local (x_tcp x)) x
  | TlsC i => local_addr i
  | OtherC l _ => RawAddr l
  end.
Fixpoint remote_addr (c : net_conn) : naddr :=
  match c with
  | NetxC x => NetxAddr (k_remote (x_tcp x)) x
  | TlsC i => remote_addr i
  | OtherC _ r => RawAddr r
  end.

(** What a call does: return, panic, or end the process. *)
Inductive outcome (A : Type) := Done (a : A) | Crash | Exit.
Arguments Done {A}. Arguments Crash {A}. Arguments Exit {A}.
Definition andthen {A B} (o : outcome A) (f : A -> outcome B) : outcome B :=
  match o with Done a => f a | Crash => Crash | Exit => Exit end.

(** ToTCPAddr, net.go:176-186: IP, zone and port; [None] is nil.  The type assertion of
    line 179 panics. *)
Definition to_tcp_addr (a : naddr) : outcome (option (bytes * bytes * Z)) :=
  match a with
  | NetxAddr (RawTcp ip zone port) _ => Done (Some (ip, zone, port))
  | NetxAddr _ _ => Crash
  | RawAddr (RawTcp ip zone port) => Done (Some (ip, zone, port))
  | RawAddr _ => Done None
  end.

(** ToConnInfo, net.go:191-201; [None] is nil. *)
Definition to_conn_info (c : net_conn) : outcome (option netx_conn) :=
  match c with
  | NetxC x => Done (Some x)
  | TlsC i =>
      match local_addr i with
      | NetxAddr _ parent => Done (Some parent)
      | RawAddr _ => Crash
      end
  | OtherC _ _ => Done None
  end.

(** ** The kernel *)

(** uuid.FromFile of a socket, guuid.NewUUID, and setsockopt(TCP_CONGESTION, "bbr") of a
    socket ([Some]: the text of the error). *)
Record kernel := Kernel {
  ke_uuid : Z -> option bytes;
  ke_fallback : option bytes;
  ke_bbr : Z -> option bytes
}.

(** Conn.GetUUID, net.go:141-153 ([get_uuid]). *)
Definition conn_uuid (k : kernel) (x : netx_conn) : outcome bytes :=
  match get_uuid (ke_uuid k (x_file x)) (ke_fallback k) with Some u => Done u | None => Exit end.

(** ** NDT5 connections, ndt5/protocol/protocol.go *)

Definition bad_uuid : bytes := str "ERROR_DISCOVERING_UUID".

(** UUID of a websocket connection (202-211; a nil ConnInfo is dereferenced) and of a plain
    one (292-305). *)
Definition uuid5 (plain : bool) (k : kernel) (c : net_conn) : outcome bytes :=
  andthen (to_conn_info c) (fun ci =>
    match ci with
    | Some x => conn_uuid k x
    | None => if plain then Done bad_uuid else Crash
    end).

(** ServerIPAndPort and ClientIPAndPort, 213-221 and 307-315: a nil address is
    dereferenced. *)
Definition ip_and_port (a : naddr) : outcome (bytes * Z) :=
  andthen (to_tcp_addr a) (fun t =>
    match t with Some (ip, _, port) => Done (ip_text ip, port) | None => Crash end).

(** LocalAddr().String() and RemoteAddr().String(), for the log: 239-241, 317-319. *)
Definition addr_prints (a : naddr) : bool :=
  match a with NetxAddr RawNil _ | RawAddr RawNil => false | _ => true end.

Definition server_addr (c : net_conn) := ip_and_port (local_addr c).
Definition client_addr (c : net_conn) := ip_and_port (remote_addr c).

(** handleControlChannel, ndt5.go:118-142, up to the record: the identity of the control
    connection, in the order in which it is asked for. *)
Definition control_config (kind : server_kind) (k : kernel) (c : net_conn) (meta : list (bytes * bytes))
    (is_mon : bytes) (err_text : err -> bytes) (time_text : option Z -> bytes) (dur_text : Z -> bytes)
  : outcome config :=
  if negb (addr_prints (local_addr c) && addr_prints (remote_addr c)) then Crash
  else
    andthen (server_addr c) (fun s =>
    andthen (client_addr c) (fun r =>
    andthen (uuid5 (match kind with KPlain => true | _ => false end) k c) (fun u =>
    Done (Config kind meta u (fst s) (snd s) (fst r) (snd r) is_mon err_text time_text dur_text)))).

(** The identity of a test connection, c2s.go:85-87 and s2c.go:84-86. *)
Definition test_conn (kind : server_kind) (k : kernel) (id : Z) (c : net_conn) : outcome tconn :=
  andthen (uuid5 (match kind with KPlain => true | _ => false end) k c) (fun u =>
  andthen (server_addr c) (fun s =>
  andthen (client_addr c) (fun r =>
  Done (TConn id u (fst s) (snd s) (fst r) (snd r))))).

(** ** ndt7 *)

(** getData, handler.go:214-225: a nil ConnInfo is dereferenced; the error is always nil. *)
Definition get_data (k : kernel) (c : net_conn) : outcome bytes :=
  andthen (to_conn_info c) (fun ci =>
    match ci with Some x => conn_uuid k x | None => Crash end).

(** setupResult, handler.go:175-202: client address, server address and the identity for the
    event socket. *)
Definition or_loopback (t : option (bytes * bytes * Z)) : bytes * Z :=
  match t with
  | Some (ip, _, port) => (ip_text ip, port)
  | None => (ip_text (repeat 0 15 ++ [1]), 1)
  end.
Definition setup_result (c : net_conn) : outcome (bytes * Z * (bytes * Z) * sock_id) :=
  andthen (to_tcp_addr (remote_addr c)) (fun r =>
  andthen (to_tcp_addr (local_addr c)) (fun l =>
  let r := or_loopback r in
  let l := or_loopback l in
  Done (r, l, SockID (fst l) (fst r) (snd l mod 2 ^ 16) (snd r mod 2 ^ 16) (-1)))).

(** getSocketAndPossiblyEnableBBR, measurer.go:45-59: the connection whose statistics are
    read, the socket whose congestion control is set, and the labels with which BBREnabled is
    counted. *)
Definition enable_bbr (k : kernel) (c : net_conn) : outcome (netx_conn * Z * list bytes) :=
  andthen (to_conn_info c) (fun ci =>
    match ci with
    | None => Crash
    | Some x =>
        match ke_bbr k (x_file x) with
        | None => Done (x, x_file x, [str "true"; []])
        | Some e => andthen (conn_uuid k x) (fun _ => Done (x, x_file x, [str "false"; e]))
        end
    end).

(** ** Which connections there are *)

(** The listeners of the program (all made with netx.NewListener: plain.go:138,
    listener.go:54, 90, singleserving/server.go:127, 220). *)
Inductive service := SPlain5 | SWs5 | SWss5 | SClear7 | STls7 | STestPlain | STestWs | STestWss.

(** http.Server.ServeTLS wraps what Accept returns in a tls.Conn; a websocket's underlying
    connection is the one that was hijacked. *)
Definition encrypted (s : service) : bool :=
  match s with SWss5 | STls7 | STestWss => true | _ => false end.
Definition app_conn (s : service) (x : netx_conn) : net_conn :=
  if encrypted s then TlsC (NetxC x) else NetxC x.

(** Forwarding, plain.go:74-123: a client whose first bytes are "GET" is copied to a new
    connection to the websocket server of the same process; [dial] is the socket that
    dials, and what the websocket server accepts is the other end of it. *)
Definition accepted_from (dial : tcp_conn) (socket : Z) : tcp_conn :=
  TcpConn socket (k_remote dial) (k_local dial).
