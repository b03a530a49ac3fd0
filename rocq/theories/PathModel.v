(** * Model of the addresses of the server transports (tran_tcp.go, tran_unix.go)

    The server side of SockModel together with what its address leads to: the
    socket file of the Unix transport, the port of the TCP transport.  Every
    transition is one of SockModel (the steps that do not touch listening sockets
    unchanged) or one that only concerns the file.
    - net.Listen("unix", name) fails if the file exists (bind).  Close of a Unix
      listener removes the file, whatever socket it belongs to by now, and only
      the first Close of a listener does (package net, unixsock_posix.go).
    - net.Listen("tcp", address) fails if a listening socket of the process is
      bound to the address.
    - If net.Listen fails, the program ends (log.Fatal).
    Simplifications: the address is an ordinary file name or a port that nobody
    else uses; os.Remove succeeds; removing the file and closing the socket in
    Close is one step. *)
From Verif Require Export GoBase SockModel.
From stdpp Require Export functions.

Record pst := Pst {
  p_sock : sst;
  p_file : option nat;        (* the socket the file leads to; None: no file *)
  p_ready : nat -> bool;      (* accept goroutine has removed an old file, tran_unix.go:167 *)
  p_left : nat -> bool;       (* accept goroutine has removed its file at its end, tran_unix.go:174 *)
  p_fatal : bool }.           (* log.Fatal, tran_unix.go:171, tran_tcp.go:164 *)
Definition new_path : pst := Pst new_sock None (fun _ => false) (fun _ => false) false.

Inductive plab :=
| PSockStep (l : slab)        (* as in SockModel *)
| PClear | PListen | PFatal | PUnlisten | PLeave.

Section path.
Context (uds : bool).

(** net.Listen succeeds in goroutine [i]. *)
Definition can_listen (s : sst) (f : option nat) : Prop :=
  if uds then f = None else forall l, k_socks s !! l <> Some true.

Inductive pstep : pst -> plab -> pst -> Prop :=
| pk_sock s l s' f r d : kstep uds true 0 s l s' -> k_socks s' = k_socks s ->
    pstep (Pst s f r d false) (PSockStep l) (Pst s' f r d false)
(** tran_unix.go:167 *)
| pk_clear s f r d i : uds = true -> k_crash s = None -> k_gos s !! i = Some GListen -> r i = false ->
    pstep (Pst s f r d false) PClear (Pst s None (<[i := true]> r) d false)
(** tran_unix.go:169-172, tran_tcp.go:162-165 *)
| pk_listen s f r d i : k_crash s = None -> k_gos s !! i = Some GListen -> (uds = true -> r i = true) -> can_listen s f ->
    pstep (Pst s f r d false) PListen
      (Pst (go i (GStore (length (k_socks s))) (set_socks (k_socks s ++ [true]) s))
           (if uds then Some (length (k_socks s)) else f) r d false)
| pk_fatal s f r d i : k_crash s = None -> k_gos s !! i = Some GListen -> (uds = true -> r i = true) -> ~ can_listen s f ->
    pstep (Pst s f r d false) PFatal (Pst s f r d true)
(** tran_unix.go:291-292, tran_tcp.go:283-284, on a listener that is still open *)
| pk_unlisten s f r d w l : k_crash s = None -> k_lock s = Some (PSock, w) -> k_listener s = Some l -> k_socks s !! l = Some true ->
    pstep (Pst s f r d false) PUnlisten
      (Pst (set_lock (Some (PNil, w)) (set_socks (<[l := false]> (k_socks s)) s)) (if uds then None else f) r d false)
(** tran_unix.go:174, when accept returns *)
| pk_leave s f r d i : uds = true -> k_crash s = None -> k_gos s !! i = Some GDone -> d i = false ->
    pstep (Pst s f r d false) PLeave (Pst s None r (<[i := true]> d) false).
End path.
