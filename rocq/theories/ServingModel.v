(** Model of the single-use test servers of NDT5: ndt5/singleserving/server.go.  Reads and
    writes of shared fields are single steps, in the order of the program text; Go's
    memory model promises less where there is no synchronisation. *)
From Coq Require Import List Bool Arith.
From Verif Require Import Lts.
Import ListNotations.

(** ** WS and WSS, server.go:20-89 and 144-160 *)

(** Errors: http.ErrServerClosed; any other error of Serve or ServeTLS; an error of
    Upgrade; and the two errors ServeOnce makes. *)
Inductive werr := ServerClosed | ServeFailed (n : nat) | UpgradeFailed (n : nat) | DidNotClose | NoConnection.

Definition is_server_closed (e : werr) : bool := match e with ServerClosed => true | _ => false end.

(** Where ServeOnce (lines 49-81) is: waiting for the context, line 63; before line 68;
    before the test of line 69, with [err]; before the test of line 76; before the
    return of line 81; in the deferred Close, with what it will return; returned. *)
Inductive once_at :=
| MWait | MWoken | MFirst (err : option werr) | MSecond | MFinal
| MLeaving (r : option nat * option werr) | MDone (r : option nat * option werr).

(** The goroutine of lines 55-58: serving; before derivedCancel; ended. *)
Inductive serve_at := SServe | SReturned | SEnded.

(** A ServeHTTP in progress, lines 32-43: before the upgrade; connection [c] upgraded,
    before line 39; before line 42. *)
Inductive flight := FStart | FUpgraded (c : nat) | FStored.

(** The sync.Once of Close, lines 83-89: not begun; before listener.Close; before
    srv.Close; done. *)
Inductive close_at := Fresh | Counted | Unlistened | Over.

(** [v_conn], [v_err]: the fields newConn and newConnErr.  [v_conns]: the connections
    upgraded on this server; none of them is ever closed by the server.  [v_closers]:
    how many [go s.Close()] there were.  [v_stops], [v_accepts]: what Close and
    ServeOnce have added to the counters of line 85 and line 80.  [v_requests]: how many
    requests there were.  [v_broke]: Serve returned although the listener was open. *)
Record ws_state := WS {
  v_main : once_at; v_serve : serve_at; v_flight : list flight; v_close : close_at;
  v_parent : bool; v_cancel : bool; v_close_err : option werr;
  v_conn : option nat; v_err : option werr; v_conns : list nat;
  v_closers : nat; v_stops : nat; v_accepts : nat; v_requests : nat; v_broke : bool
}.

(** ServeOnce has just been called on a new server and started the goroutine. *)
Definition ws_init (s : ws_state) : Prop :=
  s = WS MWait SServe [] Fresh false false None None None [] 0 0 0 0 false.

Inductive ws_step : ws_state -> ws_state -> Prop :=
(* a request for /ndt_protocol reaches ServeHTTP: not after srv.Close, which closes the
   connections that are not upgraded *)
| w_request m v f cl p ca ce c e cs k st ac rq br : cl <> Over ->
    ws_step (WS m v f cl p ca ce c e cs k st ac rq br)
            (WS m v (f ++ [FStart]) cl p ca ce c e cs k st ac (S rq) br)
(* lines 34-38: the upgrade fails *)
| w_refuse m v f f' n cl p ca ce c e cs k st ac rq br :
    ws_step (WS m v (f ++ FStart :: f') cl p ca ce c e cs k st ac rq br)
            (WS m v (f ++ f') cl p ca ce c (Some (UpgradeFailed n)) cs k st ac rq br)
(* line 34: the upgrade succeeds *)
| w_upgrade m v f f' cl p ca ce c e cs k st ac rq br :
    ws_step (WS m v (f ++ FStart :: f') cl p ca ce c e cs k st ac rq br)
            (WS m v (f ++ FUpgraded (length cs) :: f') cl p ca ce c e (cs ++ [length cs]) k st ac rq br)
(* line 39 *)
| w_store m v f f' n cl p ca ce c e cs k st ac rq br :
    ws_step (WS m v (f ++ FUpgraded n :: f') cl p ca ce c e cs k st ac rq br)
            (WS m v (f ++ FStored :: f') cl p ca ce (Some n) e cs k st ac rq br)
(* line 42 *)
| w_spawn m v f f' cl p ca ce c e cs k st ac rq br :
    ws_step (WS m v (f ++ FStored :: f') cl p ca ce c e cs k st ac rq br)
            (WS m v (f ++ f') cl p ca ce c e cs (S k) st ac rq br)
(* Close, line 85, by one of these goroutines *)
| w_begin m v f p ca ce c e cs k st ac rq br :
    ws_step (WS m v f Fresh p ca ce c e cs (S k) st ac rq br)
            (WS m v f Counted p ca ce c e cs (S k) (S st) ac rq br)
(* Close, line 85, by ServeOnce *)
| w_begin_main r v f p ca ce c e cs k st ac rq br :
    ws_step (WS (MLeaving r) v f Fresh p ca ce c e cs k st ac rq br)
            (WS (MLeaving r) v f Counted p ca ce c e cs k (S st) ac rq br)
(* line 86 *)
| w_unlisten m v f p ca ce c e cs k st ac rq br :
    ws_step (WS m v f Counted p ca ce c e cs k st ac rq br)
            (WS m v f Unlistened p ca ce c e cs k st ac rq br)
(* line 87 *)
| w_over m v f p ca ce c e cs k st ac rq br :
    ws_step (WS m v f Unlistened p ca ce c e cs k st ac rq br)
            (WS m v f Over p ca ce c e cs k st ac rq br)
(* line 56: Serve returns after srv.Close *)
| w_closed m f p ca ce c e cs k st ac rq br :
    ws_step (WS m SServe f Over p ca ce c e cs k st ac rq br)
            (WS m SReturned f Over p ca (Some ServerClosed) c e cs k st ac rq br)
(* line 56: Serve returns some other error *)
| w_broken m f n cl p ca ce c e cs k st ac rq br :
    ws_step (WS m SServe f cl p ca ce c e cs k st ac rq br)
            (WS m SReturned f cl p ca (Some (ServeFailed n)) c e cs k st ac rq
               (match cl with Fresh | Counted => true | _ => br end))
(* line 57 *)
| w_cancel m f cl p ca ce c e cs k st ac rq br :
    ws_step (WS m SReturned f cl p ca ce c e cs k st ac rq br)
            (WS m SEnded f cl p true ce c e cs k st ac rq br)
(* the context of the caller is done *)
| w_parent m v f cl ca ce c e cs k st ac rq br :
    ws_step (WS m v f cl false ca ce c e cs k st ac rq br)
            (WS m v f cl true ca ce c e cs k st ac rq br)
(* line 63 *)
| w_wake v f cl p ca ce c e cs k st ac rq br : p || ca = true ->
    ws_step (WS MWait v f cl p ca ce c e cs k st ac rq br)
            (WS MWoken v f cl p ca ce c e cs k st ac rq br)
(* line 68 *)
| w_copy v f cl p ca ce c e cs k st ac rq br :
    ws_step (WS MWoken v f cl p ca ce c e cs k st ac rq br)
            (WS (MFirst ce) v f cl p ca ce c e cs k st ac rq br)
(* lines 69-72 *)
| w_first x v f cl p ca ce c e cs k st ac rq br :
    ws_step (WS (MFirst x) v f cl p ca ce c e cs k st ac rq br)
            (WS (match c, x with
                 | None, Some y => if is_server_closed y then MSecond else MLeaving (None, Some DidNotClose)
                 | _, _ => MSecond
                 end) v f cl p ca ce c e cs k st ac rq br)
(* lines 76-78 *)
| w_second v f cl p ca ce c e cs k st ac rq br :
    ws_step (WS MSecond v f cl p ca ce c e cs k st ac rq br)
            (WS (match c, e with None, None => MLeaving (None, Some NoConnection) | _, _ => MFinal end)
                v f cl p ca ce c e cs k st ac rq br)
(* lines 80-81: WithLabelValues without Inc leaves the counter as it is *)
| w_final v f cl p ca ce c e cs k st ac rq br :
    ws_step (WS MFinal v f cl p ca ce c e cs k st ac rq br)
            (WS (MLeaving (c, e)) v f cl p ca ce c e cs k st ac rq br)
(* the deferred Close returns, whoever has run it *)
| w_done r v f p ca ce c e cs k st ac rq br :
    ws_step (WS (MLeaving r) v f Over p ca ce c e cs k st ac rq br)
            (WS (MDone r) v f Over p ca ce c e cs k st ac rq br).

Definition ws_reachable : ws_state -> Prop := reachable ws_init ws_step.

(** ** Plain, server.go:162-200 *)

Inductive perr := AcceptFailed (n : nat) | NilConn.

(** Where ServeOnce (lines 178-200) is: line 189; before the test of line 191; before
    that of line 194; in the deferred Close; returned. *)
Inductive ponce_at :=
| PWait | PWoken | PSecond
| PLeaving (r : option nat * option perr) | PDone (r : option nat * option perr).

(** The goroutine of lines 185-188: in Accept; before derivedCancel; ended. *)
Inductive accept_at := AAccept | AReturned | AEnded.

(** [q_expired]: the derived context is done by its timeout of one minute or by the
    context of the caller.  [q_conns]: accepted connections, in order. *)
Record plain_state := PS {
  q_main : ponce_at; q_accept : accept_at; q_listening : bool;
  q_expired : bool; q_cancel : bool; q_conn : option nat; q_err : option perr;
  q_conns : list nat; q_stops : nat; q_accepts : nat
}.

Definition plain_init (s : plain_state) : Prop :=
  s = PS PWait AAccept true false false None None [] 0 0.

Inductive plain_step : plain_state -> plain_state -> Prop :=
(* line 186 *)
| p_accept m x ca c e cs st ac :
    plain_step (PS m AAccept true x ca c e cs st ac)
               (PS m AReturned true x ca (Some (length cs)) None (cs ++ [length cs]) st ac)
| p_refuse m n l x ca c e cs st ac :
    plain_step (PS m AAccept l x ca c e cs st ac)
               (PS m AReturned l x ca None (Some (AcceptFailed n)) cs st ac)
(* line 187 *)
| p_cancel m l x ca c e cs st ac :
    plain_step (PS m AReturned l x ca c e cs st ac) (PS m AEnded l x true c e cs st ac)
(* expiry *)
| p_expire m a l ca c e cs st ac :
    plain_step (PS m a l false ca c e cs st ac) (PS m a l true ca c e cs st ac)
(* line 189 *)
| p_wake a l x ca c e cs st ac : x || ca = true ->
    plain_step (PS PWait a l x ca c e cs st ac) (PS PWoken a l x ca c e cs st ac)
(* lines 191-193 *)
| p_first a l x ca c e cs st ac :
    plain_step (PS PWoken a l x ca c e cs st ac)
               (PS (match e with Some y => PLeaving (None, Some y) | None => PSecond end) a l x ca c e cs st ac)
(* lines 194-199: WithLabelValues without Inc leaves the counter as it is *)
| p_second a l x ca c e cs st ac :
    plain_step (PS PSecond a l x ca c e cs st ac)
               (PS (PLeaving (match c with Some n => (Some n, None) | None => (None, Some NilConn) end)) a l x ca c e cs st ac)
(* Close, lines 169-172 *)
| p_done r a l x ca c e cs st ac :
    plain_step (PS (PLeaving r) a l x ca c e cs st ac) (PS (PDone r) a false x ca c e cs (S st) ac).

Definition plain_reachable : plain_state -> Prop := reachable plain_init plain_step.
