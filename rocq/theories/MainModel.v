(** Model of ndt-server.go: signals and lame duck, deployment labels, TLS configuration and
    the wiring of listeners, access control and handlers. *)
From Coq Require Import String ZArith List Bool.
From Verif Require Import Base GoJSON GoStrings QueryModel.
Import ListNotations.
Open Scope Z_scope.

(** ** Signals: catchSigterm (ndt-server.go:81-108), setLameDuck (176-179), handleHealth
    (183-189) and the end of main (340) *)

(** Where catchSigterm is. *)
Inductive place :=
| PStart       (* setLameDuck(0), :83 *)
| PNotify      (* signal.Notify, :86-88 *)
| PFirst       (* the first select, :91-96 *)
| PFlag        (* isLameDuck = true, :177 *)
| PGauge       (* lameDuck.Set(1), :178 *)
| PSecond      (* the second select, :101-107 *)
| PCancel      (* cancel(), :104 *)
| PClose       (* the deferred close(c), :87 *)
| PReturned.

(** Where main is; setting up does not depend on signals and is one step. *)
Inductive mainplace := MSetup | MServing | MClosing | MExited.

(** [Killed]: by the default action of SIGTERM.  [Panicked]: by the runtime, which sends to
    the closed channel c. *)
Inductive process := Alive | Killed | Panicked.

Record sigstate := Sig {
  pending : bool;        (* c holds a signal; its capacity is one, :86 *)
  closed : bool;         (* c is closed *)
  pl : place;
  flag : bool;           (* isLameDuck *)
  gauge : Z;             (* lameDuck *)
  done : bool;           (* the context of the program is cancelled *)
  mn : mainplace;
  proc : process;
  sent : nat;            (* ghost: SIGTERMs sent *)
  taken : nat            (* ghost: SIGTERMs received from c *)
}.

Definition boot : sigstate := Sig false false PStart false 0 false MSetup Alive 0 0.

(** Steps happen only in a live process. *)
Definition live (s : sigstate) : Prop := proc s = Alive /\ mn s <> MExited.

(** A SIGTERM.  Before signal.Notify it ends the process.  After that the runtime sends to c
    without blocking: a signal that finds c full is dropped, and sending to a closed channel
    panics (nothing calls signal.Stop). *)
Inductive sigterm : sigstate -> sigstate -> Prop :=
| t_default s : live s -> pl s = PStart \/ pl s = PNotify ->
    sigterm s (Sig (pending s) (closed s) (pl s) (flag s) (gauge s) (done s) (mn s) Killed (S (sent s)) (taken s))
| t_send s : live s -> pl s <> PStart -> pl s <> PNotify -> closed s = false ->
    sigterm s (Sig true (closed s) (pl s) (flag s) (gauge s) (done s) (mn s) (proc s) (S (sent s)) (taken s))
| t_panic s : live s -> closed s = true ->
    sigterm s (Sig (pending s) (closed s) (pl s) (flag s) (gauge s) (done s) (mn s) Panicked (S (sent s)) (taken s)).

(** The program. *)
Inductive run1 : sigstate -> sigstate -> Prop :=
| g_start s : live s -> pl s = PStart ->
    run1 s (Sig (pending s) (closed s) PNotify false 0 (done s) (mn s) (proc s) (sent s) (taken s))
| g_notify s : live s -> pl s = PNotify ->
    run1 s (Sig (pending s) (closed s) PFirst (flag s) (gauge s) (done s) (mn s) (proc s) (sent s) (taken s))
| g_first_signal s : live s -> pl s = PFirst -> pending s = true ->
    run1 s (Sig false (closed s) PFlag (flag s) (gauge s) (done s) (mn s) (proc s) (sent s) (S (taken s)))
| g_first_done s : live s -> pl s = PFirst -> done s = true ->
    run1 s (Sig (pending s) (closed s) PFlag (flag s) (gauge s) (done s) (mn s) (proc s) (sent s) (taken s))
| g_flag s : live s -> pl s = PFlag ->
    run1 s (Sig (pending s) (closed s) PGauge true (gauge s) (done s) (mn s) (proc s) (sent s) (taken s))
| g_gauge s : live s -> pl s = PGauge ->
    run1 s (Sig (pending s) (closed s) PSecond (flag s) 1 (done s) (mn s) (proc s) (sent s) (taken s))
| g_second_signal s : live s -> pl s = PSecond -> pending s = true ->
    run1 s (Sig false (closed s) PCancel (flag s) (gauge s) (done s) (mn s) (proc s) (sent s) (S (taken s)))
| g_second_done s : live s -> pl s = PSecond -> done s = true ->
    run1 s (Sig (pending s) (closed s) PClose (flag s) (gauge s) (done s) (mn s) (proc s) (sent s) (taken s))
| g_cancel s : live s -> pl s = PCancel ->
    run1 s (Sig (pending s) (closed s) PClose (flag s) (gauge s) true (mn s) (proc s) (sent s) (taken s))
| g_close s : live s -> pl s = PClose ->
    run1 s (Sig (pending s) true PReturned (flag s) (gauge s) (done s) (mn s) (proc s) (sent s) (taken s))
| m_serve s : live s -> mn s = MSetup ->
    run1 s (Sig (pending s) (closed s) (pl s) (flag s) (gauge s) (done s) MServing (proc s) (sent s) (taken s))
| m_done s : live s -> mn s = MServing -> done s = true ->
    run1 s (Sig (pending s) (closed s) (pl s) (flag s) (gauge s) (done s) MClosing (proc s) (sent s) (taken s))
| m_exit s : live s -> mn s = MClosing ->
    run1 s (Sig (pending s) (closed s) (pl s) (flag s) (gauge s) (done s) MExited (proc s) (sent s) (taken s)).

Definition sigstep (s t : sigstate) : Prop := sigterm s t \/ run1 s t.

(** handleHealth, :183-189. *)
Definition health (s : sigstate) : Z := if flag s then 500 else 200.

(** ** Labels: parseDeploymentLabels, :154-173 *)

(** A Go slice assignment l[i] = x; [None] is the run-time panic. *)
Fixpoint assign {A} (l : list A) (i : nat) (x : A) : option (list A) :=
  match l, i with
  | [], _ => None
  | _ :: r, O => Some (x :: r)
  | y :: r, S i => option_map (cons y) (assign r i x)
  end.

(** The loop, :159-170; the labels come in the order of this iteration of the map. *)
Fixpoint label_loop (order : list (bytes * bytes)) (arr : list (bytes * bytes)) (index : nat) (version : bytes)
  : option (list (bytes * bytes) * bytes) :=
  match order with
  | [] => Some (arr, version)
  | (k, v) :: r =>
      match assign arr index (k, v) with
      | None => None
      | Some arr' =>
          label_loop r arr' (S index)
            (if beqb k (str "deployment") && beqb v (str "canary") then version ++ str "-canary" else version)
      end
  end.

(** The metadata and the new value of version.Version. *)
Definition parse_labels (order : list (bytes * bytes)) (version : bytes) : option (list (bytes * bytes) * bytes) :=
  label_loop order (repeat ([], []) (List.length order)) 0 version.

(** ** httpServer, :115-149 *)

(** The part of tls.Config that is set here; a [min_version] of 0 is the library's default. *)
Record tlsconf := TlsConf { min_version : Z; next_protos : list bytes }.
Definition VersionTLS12 : Z := 771.
Definition VersionTLS13 : Z := 772.

(** The part of http.Server that is set here.  [proto_map] is TLSNextProto: a map that is
    present and has no entry for "h2" switches HTTP/2 off. *)
Record server := Server {
  sv_addr : bytes;
  sv_tls : tlsconf;
  sv_read_timeout : Z;   (* seconds *)
  sv_write_timeout : Z;
  proto_map : option (list bytes)
}.

(** The command line, :38-62. *)
Record flags := Flags {
  f_ndt7 : bytes; f_ndt7_cleartext : bytes; f_ndt5 : bytes; f_ndt5_ws : bytes; f_ndt5_wss : bytes; f_health : bytes;
  f_cert : bytes; f_key : bytes; f_tls_version : bytes; f_autocert : bool; f_hostname : bytes;
  f_required5 : bool; f_required7 : bool
}.

Definition http_server (f : flags) (addr : bytes) : server :=
  let conf :=
    if beqb (f_tls_version f) (str "1.3") then TlsConf VersionTLS13 []
    else if beqb (f_tls_version f) (str "1.2") then TlsConf VersionTLS12 []
    else TlsConf 0 [] in
  let conf := if f_autocert f then TlsConf (min_version conf) (next_protos conf ++ [str "acme-tls/1"]) else conf in
  Server addr conf 60 60 (Some []).

(** ** Routing: net/http's ServeMux (standard library, Go 1.22 and later) *)

(** url.PathUnescape and the unescaping of request paths: like QueryUnescape, but + is
    not special. *)
Fixpoint path_unescape (s : bytes) : option bytes :=
  match s with
  | [] => Some []
  | b :: r =>
      if b =? 37 then
        match r with
        | x :: y :: r' =>
            if is_hex x && is_hex y
            then option_map (cons (hexval x * 16 + hexval y)) (path_unescape r')
            else None
        | _ => None
        end
      else option_map (cons b) (path_unescape r)
  end.

(** The pieces between slashes. *)
Fixpoint slashed (s : bytes) : list bytes :=
  match s with
  | [] => [[]]
  | b :: r =>
      if b =? 47 then [] :: slashed r
      else match slashed r with
           | p :: ps => (b :: p) :: ps
           | [] => [[b]]
           end
  end.

(** path.Clean of a rooted path, on its pieces; the result is in reverse. *)
Fixpoint clean_segments (segs : list bytes) (acc : list bytes) : list bytes :=
  match segs with
  | [] => acc
  | s :: r =>
      if beqb s [] || beqb s (str ".") then clean_segments r acc
      else if beqb s (str "..") then clean_segments r (tl acc)
      else clean_segments r (s :: acc)
  end.

Fixpoint unslashed (segs : list bytes) : bytes :=
  match segs with [] => [] | s :: r => 47 :: s ++ unslashed r end.

(** cleanPath in net/http: a leading slash, path.Clean, and the final slash kept. *)
Definition clean_path (p : bytes) : bytes :=
  let p := match p with 47 :: _ => p | _ => 47 :: p end in
  let np := match unslashed (rev (clean_segments (slashed p) [])) with [] => [47] | np => np end in
  if has_suffix [47] p && negb (beqb np [47]) then np ++ [47] else np.

(** What a request path leads to. *)
Inductive handler := Files | Ndt5 | Ndt7Download | Ndt7Upload | Health.

(** A mux: the handler of "/", and those of patterns without a final slash. *)
Record mux := Mux { root : option handler; exact : list (list bytes * handler) }.

(** A segment of the request path as the mux compares it: unescaped if that works. *)
Definition segment (s : bytes) : bytes := match path_unescape s with Some s' => s' | None => s end.

Fixpoint seqb (a b : list bytes) : bool :=
  match a, b with
  | [], [] => true
  | x :: a', y :: b' => beqb x y && seqb a' b'
  | _, _ => false
  end.

Fixpoint lookup (segs : list bytes) (pats : list (list bytes * handler)) : option handler :=
  match pats with
  | [] => None
  | (p, h) :: r => if seqb segs p then Some h else lookup segs r
  end.

(** A request: whether its method is CONNECT, URL.EscapedPath() and URL.Path.  net/http gives
    a handler no request whose path cannot be unescaped, see [request_ok]. *)
Record request := Req { rq_connect : bool; rq_escaped : bytes; rq_path : bytes }.
Definition request_ok (r : request) : Prop := path_unescape (rq_escaped r) = Some (rq_path r).

(** The answer of the mux: a handler, a redirection to the clean path, or neither (404, or
    400 for a path without a leading slash). *)
Inductive routed := To (h : handler) | Redirected | Nowhere.

Definition route (m : mux) (r : request) : routed :=
  if negb (rq_connect r) && negb (beqb (clean_path (rq_escaped r)) (rq_escaped r)) then Redirected
  else match rq_escaped r with
       | 47 :: p =>
           match lookup (map segment (slashed p)) (exact m) with
           | Some h => To h
           | None => match root m with Some h => To h | None => Nowhere end
           end
       | _ => Nowhere
       end.

(** ** Access control: controller.Setup of github.com/m-lab/access

    The library is not part of the repository; what is modelled is that the chain it returns
    lets a request pass if URL.Path is not among the paths given to Setup, and otherwise asks
    the token controller and then the tx controller. *)
Record access := Access { tx_paths : list bytes; token_paths : list bytes }.

Definition member (p : bytes) (l : list bytes) : bool := existsb (beqb p) l.

(** Whether the chain passes the request on; [token_ok] and [tx_ok] are the verdicts of the
    two controllers on this request. *)
Definition admits (a : option access) (token_ok tx_ok : bool) (path : bytes) : bool :=
  match a with
  | None => true
  | Some a => (negb (member path (token_paths a)) || token_ok) && (negb (member path (tx_paths a)) || tx_ok)
  end.

(** ** main, :191-341 *)

Definition DownloadURLPath : bytes := str "/ndt/v7/download".   (* ndt7/spec/spec.go:7 *)
Definition UploadURLPath : bytes := str "/ndt/v7/upload".       (* ndt7/spec/spec.go:10 *)

Definition ndt5Paths := [str "/ndt_protocol"].                                        (* :225-227 *)
Definition ac5 := Access ndt5Paths ndt5Paths.                                         (* :238 *)
Definition ac7 := Access [DownloadURLPath] [DownloadURLPath; UploadURLPath].          (* :229-236, :239 *)

Definition ndt5Mux := Mux (Some Files) [([str "ndt_protocol"], Ndt5)].                (* :250-252, :286-288 *)
Definition ndt7Mux := Mux (Some Files)
  [([str "ndt"; str "v7"; str "download"], Ndt7Download); ([str "ndt"; str "v7"; str "upload"], Ndt7Upload)]. (* :264-276 *)
Definition healthMux := Mux None [([str "health"], Health)].                          (* :330-331 *)

(** How ServeTLS finds its certificate: it loads the named pair if either name is given or
    there is no callback. *)
Inductive certificate := Cleartext | LoadPair (cert key : bytes) | Callback.

Record listening := Listening { ls_server : server; ls_cert : certificate; ls_access : option access; ls_mux : mux }.

Definition serve_tls (f : flags) (callback : bool) : certificate :=
  if callback && beqb (f_cert f) [] && beqb (f_key f) [] then Callback else LoadPair (f_cert f) (f_key f).

(** The HTTP servers that main starts, :250-337, in that order. *)
Definition ws_server (f : flags) := Listening (http_server f (f_ndt5_ws f)) Cleartext None ndt5Mux.
Definition ndt7_cleartext (f : flags) := Listening (http_server f (f_ndt7_cleartext f)) Cleartext (Some ac7) ndt7Mux.
Definition wss_server (f : flags) := Listening (http_server f (f_ndt5_wss f)) (serve_tls f false) (Some ac5) ndt5Mux.
Definition ndt7_server (f : flags) (callback : bool) :=
  Listening (http_server f (f_ndt7 f)) (serve_tls f callback) (Some ac7) ndt7Mux.
Definition health_server (f : flags) := Listening (http_server f (f_health f)) Cleartext None healthMux.

Definition listenings (f : flags) : list listening :=
  [ws_server f; ndt7_cleartext f] ++
  (if negb (beqb (f_cert f) []) && negb (beqb (f_key f) []) then [wss_server f; ndt7_server f false]
   else if f_autocert f && negb (beqb (f_hostname f) []) then [ndt7_server f true] else []) ++
  [health_server f].

(** Start-up, :210-213: without a verifier the program ends if tokens are required. *)
Definition start_up (f : flags) (verifier_ok : bool) : option (list listening) :=
  if (f_required5 f || f_required7 f) && negb verifier_ok then None else Some (listenings f).

(** What happens to a request. *)
Inductive outcome := Refused | Answered (r : routed).

Definition serve (l : listening) (token_ok tx_ok : bool) (r : request) : outcome :=
  if admits (ls_access l) token_ok tx_ok (rq_path r) then Answered (route (ls_mux l) r) else Refused.
