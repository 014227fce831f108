(** Properties C73 and C74: the identity of connections, as recorded, is that of the socket
    that carries the test; addresses are recorded unambiguously. *)
From Coq Require Import String ZArith List Bool Lia.
From Verif Require Import Base BaseFacts GoStrings Web100Model Effect ControlModel ControlSpec ControlProofs MetaProofs
  HandleProofs ControlFacts TestFacts ControlExample Ndt7Model NetxModel IdentityModel IdentitySpec IdentityProofs.
Import ListNotations.
Open Scope Z_scope.

(** ** C73 *)

(** A connection accepted by any NDT5 listener, plain or websocket, encrypted or not: the
    control channel starts exactly if both addresses of the socket are TCP addresses and a
    UUID is found, and then runs with exactly these. *)
Theorem C73_control : forall s kind k tc x meta mon et tt dt, accept (Some tc) true = Some x ->
  control_config kind k (app_conn s x) meta mon et tt dt =
  match k_local tc, k_remote tc with
  | RawTcp lip _ lp, RawTcp rip _ rp =>
      match get_uuid (ke_uuid k (k_socket tc)) (ke_fallback k) with
      | Some u => Done (Config kind meta u (ip_text lip) lp (ip_text rip) rp mon et tt dt)
      | None => Exit
      end
  | _, _ => Crash
  end.
Proof. intros s kind k tc x meta mon et tt dt [= <-]. exact (control_exact s _ kind k meta mon et tt dt). Qed.
Print Assumptions C73_control.

(** So the one archived record of a connection names its socket: the UUID is the one the
    kernel gives the socket, and the recorded addresses are those of its two ends. *)
Theorem C73_archived : forall s kind k tc x meta mon et tt' dt g tr st y lip lz lp rip rz rp u,
  accept (Some tc) true = Some x ->
  control_config kind k (app_conn s x) meta mon et tt' dt = Done g ->
  run (handle_control_channel g tt) tr (st, y) ->
  k_local tc = RawTcp lip lz lp -> k_remote tc = RawTcp rip rz rp ->
  ip_ok lip -> ip_ok rip -> ke_uuid k (k_socket tc) = Some u ->
  exists r, saved tr = [r] /\ r_uuid r = u /\
    read_ip (r_server_ip r) = Some (canonical lip) /\ r_server_port r = lp /\
    read_ip (r_client_ip r) = Some (canonical rip) /\ r_client_port r = rp.
Proof.
  intros s kind k tc x meta mon et tt' dt g tr st y lip lz lp rip rz rp u A C H L R OL OR U.
  rewrite (C73_control _ _ _ _ _ _ _ _ _ _ A), L, R, U in C. injection C as <-.
  destruct (archived _ _ _ _ H) as (r & S & E1 & _ & _ & E2 & E3 & E4 & E5 & _).
  exists r. cbn [c_uuid c_server_ip c_server_port c_client_ip c_client_port] in *.
  rewrite E1, E2, E3, E4, E5. repeat split; try assumption; now apply read_text.
Qed.
Print Assumptions C73_archived.

(** The same for the connections of the measurement servers. *)
Theorem C73_tests : forall s kind k id tc x, accept (Some tc) true = Some x ->
  test_conn kind k id (app_conn s x) =
  match get_uuid (ke_uuid k (k_socket tc)) (ke_fallback k) with
  | None => Exit
  | Some u =>
      match k_local tc, k_remote tc with
      | RawTcp lip _ lp, RawTcp rip _ rp => Done (TConn id u (ip_text lip) lp (ip_text rip) rp)
      | _, _ => Crash
      end
  end.
Proof. intros s kind k id tc x [= <-]. exact (test_exact s _ kind k id). Qed.
Print Assumptions C73_tests.

(** ndt7: the UUID, the addresses of the result and those sent to the event socket. *)
Theorem C73_ndt7 : forall s k tc x lip lz lp rip rz rp u, accept (Some tc) true = Some x ->
  k_local tc = RawTcp lip lz lp -> k_remote tc = RawTcp rip rz rp -> ke_uuid k (k_socket tc) = Some u ->
  let c := app_conn s x in
  let w := WsConn (TcpAddr (ip_text lip) lz lp) (TcpAddr (ip_text rip) rz rp) in
  get_data k c = Done u /\
  exists r l id, setup_result c = Done (r, l, id) /\ id = sock_id_of w /\
    r = (ip_text rip, rp) /\ l = (ip_text lip, lp) /\
    forall kind start end_ data, let res := result_of w kind start end_ data in
      (n_client_ip res, n_client_port res) = r /\ (n_server_ip res, n_server_port res) = l.
Proof.
  intros s k tc x lip lz lp rip rz rp u [= <-] L R U c w. split.
  - unfold get_data, c. rewrite app_info. unfold conn_uuid, get_uuid. cbn [andthen x_file]. now rewrite U.
  - unfold c. rewrite setup_exact. cbn [x_tcp]. rewrite L, R. eexists _, _, _. split; [reflexivity|].
    repeat split.
Qed.
Print Assumptions C73_ndt7.

(** The statistics are read from, and BBR is enabled on, the socket of the client; that BBR
    cannot be enabled is counted, with the reason, and nothing else. *)
Theorem C73_socket : forall s k tc x, accept (Some tc) true = Some x ->
  to_conn_info (app_conn s x) = Done (Some x) /\ x_file x = k_socket tc /\
  enable_bbr k (app_conn s x) =
    match ke_bbr k (k_socket tc), get_uuid (ke_uuid k (k_socket tc)) (ke_fallback k) with
    | None, _ => Done (x, k_socket tc, [str "true"; []])
    | Some e, Some _ => Done (x, k_socket tc, [str "false"; e])
    | Some _, None => Exit
    end.
Proof.
  intros s k tc x [= <-]. rewrite app_info. split; [reflexivity|]. split; [reflexivity|].
  unfold enable_bbr. rewrite app_info. cbn [andthen x_file]. destruct (ke_bbr k (k_socket tc)); [|reflexivity].
  unfold conn_uuid. cbn [x_file]. destruct (get_uuid _ _); reflexivity.
Qed.
Print Assumptions C73_socket.

(** Without a descriptor there is no connection. *)
Theorem C73_accept : forall tc dup, (exists x, accept tc dup = Some x) <-> dup = true /\ exists t, tc = Some t.
Proof.
  intros [t|] [|]; cbn [accept]; split; intros H.
  all: try (destruct H as [? H]; discriminate H). all: try (destruct H as [D [t' T]]; discriminate).
  - split; [reflexivity|eauto].
  - eauto.
Qed.
Print Assumptions C73_accept.

Definition tc0 : tcp_conn :=
  TcpConn 7 (RawTcp [10; 0; 0; 1] [] 3001) (RawTcp (repeat 0 10 ++ [255; 255; 192; 0; 2; 33]) [] 4000).
Definition k0 : kernel := Kernel (fun s => if s =? 7 then Some (str "host_1_7") else None) None (fun _ => Some (str "no such file")).

Example C73_example : exists x, accept (Some tc0) true = Some x /\
  control_config KWss k0 (app_conn SWss5 x) [] (str "false") (fun _ => []) (fun _ => []) (fun _ => []) =
    Done (Config KWss [] (str "host_1_7") (str "10.0.0.1") 3001 (str "192.0.2.33") 4000 (str "false")
            (fun _ => []) (fun _ => []) (fun _ => [])) /\
  enable_bbr k0 (app_conn STls7 x) = Done (x, 7, [str "false"; str "no such file"]).
Proof. eexists. split; [reflexivity|]. split; reflexivity. Qed.

(** A websocket client that comes to the plain port is recorded with the address of the
    socket that the server itself opens to its websocket port ... *)
Theorem C73_forwarded : forall k dial socket x meta mon et tt dt g lip lz lp rip rz rp,
  accept (Some (accepted_from dial socket)) true = Some x ->
  control_config KWs k (app_conn SWs5 x) meta mon et tt dt = Done g ->
  k_local dial = RawTcp lip lz lp -> k_remote dial = RawTcp rip rz rp ->
  c_client_ip g = ip_text lip /\ c_client_port g = lp /\ c_server_ip g = ip_text rip /\ c_server_port g = rp.
Proof.
  intros k dial socket x meta mon et tt dt g lip lz lp rip rz rp A C L R.
  rewrite (C73_control _ _ _ _ _ _ _ _ _ _ A) in C. cbn [accepted_from k_local k_remote k_socket] in C.
  rewrite L, R in C. destruct (get_uuid _ _); [|discriminate C]. injection C as <-. repeat split.
Qed.
Print Assumptions C73_forwarded.

(** ... and not with its own: it is false that the recorded client address is that of the
    client. *)
Theorem C73_forwarded_refuted :
  ~ (forall k client dial socket x meta mon et tt dt g cip cz cp,
       k_remote client = RawTcp cip cz cp ->
       accept (Some (accepted_from dial socket)) true = Some x ->
       control_config KWs k (app_conn SWs5 x) meta mon et tt dt = Done g ->
       c_client_ip g = ip_text cip).
Proof.
  intros H.
  specialize (H k0 tc0 (TcpConn 6 (RawTcp [127; 0; 0; 1] [] 50000) (RawTcp [127; 0; 0; 1] [] 3002)) 7
    _ [] (str "false") (fun _ => []) (fun _ => []) (fun _ => []) _ _ [] 4000 eq_refl eq_refl eq_refl).
  discriminate H.
Qed.
Print Assumptions C73_forwarded_refuted.

(** The comment at ToTCPAddr, that it returns nil if there is no TCP address: it panics when
    the address is that of a netx connection; and the one at ToConnInfo, that it panics for
    unsupported connections: it returns nil. *)
Theorem C73_nil_address_refuted : exists tc x,
  accept (Some tc) true = Some x /\ to_tcp_addr (local_addr (NetxC x)) = Crash /\ setup_result (NetxC x) = Crash.
Proof. exists (TcpConn 1 RawNil (RawTcp [127; 0; 0; 1] [] 1)). eexists. repeat split. Qed.
Print Assumptions C73_nil_address_refuted.

Theorem C73_unsupported_refuted : forall l r, to_conn_info (OtherC l r) = Done None.
Proof. reflexivity. Qed.
Print Assumptions C73_unsupported_refuted.

(** ** C74 *)

(** The recorded text of an address, read as an internet address, is the address. *)
Theorem C74_read : forall ip, ip_ok ip -> read_ip (ip_text ip) = Some (canonical ip).
Proof. exact read_text. Qed.
Print Assumptions C74_read.

(** Two addresses have the same text exactly if they are the same address. *)
Theorem C74_identifies : forall a b, ip_ok a -> ip_ok b -> (ip_text a = ip_text b <-> canonical a = canonical b).
Proof. exact text_identifies. Qed.
Print Assumptions C74_identifies.

(** IPv6 addresses have their canonical text: words in lower case without leading zeros, the
    longest run of at least two zero words left out, the first one of several. *)
Theorem C74_canonical : forall ws, List.length ws = 8%nat -> Forall (fun w => 0 <= w < 65536) ws ->
  firstn 6 ws <> [0; 0; 0; 0; 0; 65535] ->
  let text := ip_text (flat_map word_bytes ws) in
  (groups text ws /\ forall a n b, ~ zeros_between ws a n b) \/
  exists a n b x y, zeros_between ws a n b /\ groups x a /\ groups y b /\ text = x ++ str "::" ++ y /\
    forall a' n' b', zeros_between ws a' n' b' -> (n' < n \/ n' = n /\ List.length a <= List.length a')%nat.
Proof. exact canonical_text. Qed.
Print Assumptions C74_canonical.

(** The zone of a link-local address is not recorded: two clients on different links may
    have the same recorded address and port. *)
Theorem C74_zone_refuted : exists a b, remote_addr a <> remote_addr b /\
  client_addr a = client_addr b /\ exists ip z z' p x y, remote_addr a = NetxAddr (RawTcp ip z p) x /\
    remote_addr b = NetxAddr (RawTcp ip z' p) y /\ z <> z'.
Proof.
  set (at_ z := NetxC (NetxConn (TcpConn 1 RawNil (RawTcp ([254; 128] ++ repeat 0 13 ++ [1]) (str z) 4000)) 1)).
  exists (at_ "eth0"%string), (at_ "eth1"%string). split; [discriminate|]. split; [reflexivity|].
  eexists _, (str "eth0"), (str "eth1"), _, _, _. split; [reflexivity|]. split; [reflexivity|discriminate].
Qed.
Print Assumptions C74_zone_refuted.

Example C74_example :
  ip_text [192; 0; 2; 33] = str "192.0.2.33" /\
  ip_text ([32; 1; 13; 184] ++ repeat 0 6 ++ [0; 1; 0; 0; 0; 0]) = str "2001:db8::1:0:0" /\
  ip_text (repeat 0 16) = str "::" /\ ip_ok (repeat 0 16).
Proof. repeat split. - now right. - repeat constructor; lia. Qed.
