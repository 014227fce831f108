(** Model of the accept loop of the plain NDT5 port: ListenAndServe of
    ndt5/plain/plain.go:133-171. *)
From Coq Require Import ZArith List Bool.
From Verif Require Import Lts.
Import ListNotations.

(** The goroutine of lines 148-169: at the test of the loop; in tx.Accept; ended. *)
Inductive loop_at := LCheck | LAccept | LEnd.

(** The goroutine of a connection, lines 155-167: in sniffThenHandle, which is SniffModel.v;
    it returned; it panicked and recovered. *)
Inductive handler_at := HRun | HBack | HRecovered.

(** [a_ctx]: ctx is done.  [a_open]: the listening socket is open.  [a_queue]: connections
    that clients have made and nobody has accepted.  [a_closer]: the goroutine of lines
    142-145 still waits.  [a_handlers]: the connections accepted, oldest first, by their
    number, with their goroutines.  Not in the program: [a_made], how many connections were
    made; [a_failed], the connections that tx.Accept took and refused; [a_late], how many
    connections were accepted after ctx was done. *)
Record accepting := Accepting {
  a_ctx : bool; a_open : bool; a_queue : list nat; a_closer : bool; a_loop : loop_at;
  a_handlers : list (nat * handler_at); a_made : nat; a_failed : list nat; a_late : nat
}.

Definition accept_init (s : accepting) : Prop := s = Accepting false true [] true LCheck [] 0 [] 0.

(** Clients connect; the context ends; tx.Accept fails, with or without having taken a
    connection; goroutines of connections return or panic. *)
Inductive accept_env : accepting -> accepting -> Prop :=
| ae_connect c q k l h m f n :
    accept_env (Accepting c true q k l h m f n) (Accepting c true (q ++ [m]) k l h (S m) f n)
| ae_done o q k l h m f n :
    accept_env (Accepting false o q k l h m f n) (Accepting true o q k l h m f n)
| ae_refused x c q k h m f n :
    accept_env (Accepting c true (x :: q) k LAccept h m f n) (Accepting c true q k LCheck h m (f ++ [x]) n)
| ae_error c o q k h m f n :
    accept_env (Accepting c o q k LAccept h m f n) (Accepting c o q k LCheck h m f n)
| ae_handler x y c o q k l h1 h2 m f n : y <> HRun ->
    accept_env (Accepting c o q k l (h1 ++ (x, HRun) :: h2) m f n) (Accepting c o q k l (h1 ++ (x, y) :: h2) m f n).

(** The two goroutines of ListenAndServe. *)
Inductive accept_sys : accepting -> accepting -> Prop :=
(* lines 142-145; connections that wait in the queue are reset *)
| as_close o q l h m f n :
    accept_sys (Accepting true o q true l h m f n) (Accepting true false [] false l h m f n)
(* line 149 *)
| as_go o q k h m f n :
    accept_sys (Accepting false o q k LCheck h m f n) (Accepting false o q k LAccept h m f n)
| as_end o q k h m f n :
    accept_sys (Accepting true o q k LCheck h m f n) (Accepting true o q k LEnd h m f n)
(* lines 150, 155: a connection *)
| as_accept x c q k h m f n :
    accept_sys (Accepting c true (x :: q) k LAccept h m f n)
               (Accepting c true q k LCheck (h ++ [(x, HRun)]) m f (if c then S n else n))
(* lines 150-154: the socket is closed *)
| as_closed c q k h m f n :
    accept_sys (Accepting c false q k LAccept h m f n) (Accepting c false q k LCheck h m f n).

Definition accept_step (s t : accepting) : Prop := accept_env s t \/ accept_sys s t.
