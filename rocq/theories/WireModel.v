(** * Model of sending on a socket connection (proc_lowerdeck.go, tran_tcp.go, tran_unix.go)

    Any number of goroutines call LowerDeck.OnUpperData on one connection, each
    making one call after the other (an endpoint's goroutine, the heartbeat, a
    processor that answers); the connection may be closed by others at any time
    (the receiving goroutine, Stop, the user).  The system's net.Conn is assumed
    to write the bytes of one Write together, to return an error if it does not
    write all of them, to accept nothing once it has been closed, and to accept
    nothing after an error (no deadlines are set).  Memory accesses are
    sequentially consistent. *)
From Verif Require Export GoBase.
From stdpp Require Export functions.

(** Where a call of OnUpperData is. *)
Inductive xpc :=
| XIdle
| XChecking (m : list byte)   (* in WriteTo (ubuf.go:349-354), before the test of closed (tran_tcp.go:57) *)
| XWriting (m : list byte)    (* before conn.Write, 62 *)
| XFailed                     (* Write has returned an error; before c.Close (proc_lowerdeck.go:24, 119) *)
| XMarked                     (* closed set (tran_tcp.go:82), before conn.Close *)
| XShut.                      (* before the event (proc_lowerdeck.go:27) *)
Record xst := Xst {
  x_closed : bool;            (* c.closed *)
  x_down : bool;              (* conn closed *)
  x_error : bool;             (* conn has returned an error *)
  x_at : nat -> xpc;          (* the goroutines *)
  x_wire : list byte;         (* what conn has accepted *)
  x_events : list nat }.      (* published ConnectionClosed events, by goroutine *)
Definition new_wire : xst := Xst false false false (fun _ => XIdle) [] [].

Inductive xlab :=
| XCall (g : nat) (m : list byte)
| XDrop (g : nat) (m : list byte) | XGo (g : nat)
| XWrite (g : nat) (m : list byte) | XFail (g : nat) (m : list byte) (k : nat)
| XMark (g : nat) | XShutdown (g : nat) | XPublish (g : nat)
| XClose | XCloseConn.        (* others call Close *)

Inductive xstep : xst -> xlab -> xst -> Prop :=
(** proc_lowerdeck.go:98-114; nothing to write: ubuf.go:350-352 *)
| xk_call_empty s g : x_at s g = XIdle -> xstep s (XCall g []) s
| xk_call cl dn er at_ w ev g m : at_ g = XIdle -> m <> [] ->
    xstep (Xst cl dn er at_ w ev) (XCall g m) (Xst cl dn er (<[g := XChecking m]> at_) w ev)
(** tran_tcp.go:56-60: [return 0, nil], so WriteTo returns no error and OnUpperData returns *)
| xk_drop dn er at_ w ev g m : at_ g = XChecking m ->
    xstep (Xst true dn er at_ w ev) (XDrop g m) (Xst true dn er (<[g := XIdle]> at_) w ev)
| xk_go dn er at_ w ev g m : at_ g = XChecking m ->
    xstep (Xst false dn er at_ w ev) (XGo g) (Xst false dn er (<[g := XWriting m]> at_) w ev)
(** tran_tcp.go:62 *)
| xk_write cl at_ w ev g m : at_ g = XWriting m ->
    xstep (Xst cl false false at_ w ev) (XWrite g m) (Xst cl false false (<[g := XIdle]> at_) (w ++ m) ev)
| xk_fail cl dn er at_ w ev g m k : at_ g = XWriting m -> k < length m -> (dn || er = true -> k = 0) ->
    xstep (Xst cl dn er at_ w ev) (XFail g m k) (Xst cl dn true (<[g := XFailed]> at_) (w ++ take k m) ev)
(** proc_lowerdeck.go:117-120, 22-32, tran_tcp.go:81-84 *)
| xk_mark cl dn er at_ w ev g : at_ g = XFailed ->
    xstep (Xst cl dn er at_ w ev) (XMark g) (Xst true dn er (<[g := XMarked]> at_) w ev)
| xk_shut cl dn er at_ w ev g : at_ g = XMarked ->
    xstep (Xst cl dn er at_ w ev) (XShutdown g) (Xst cl true er (<[g := XShut]> at_) w ev)
| xk_publish cl dn er at_ w ev g : at_ g = XShut ->
    xstep (Xst cl dn er at_ w ev) (XPublish g) (Xst cl dn er (<[g := XIdle]> at_) w (ev ++ [g]))
(** tran_tcp.go:81-84 *)
| xk_close cl dn er at_ w ev : xstep (Xst cl dn er at_ w ev) XClose (Xst true dn er at_ w ev)
| xk_close_conn dn er at_ w ev : xstep (Xst true dn er at_ w ev) XCloseConn (Xst true true er at_ w ev).
