(** * Model of the socket transports (tran_tcp.go, tran_unix.go)

    One transport, its accept or connect goroutines, any number of callers of
    NextConnection, and callers of Run and Stop, as interleaving transitions.
    The two files differ in one respect that matters here: the Unix transport
    does not save a nil connection ([uds]).  Simplifications: connections and
    listening sockets are numbers; net.Listen succeeds (otherwise the program
    ends, tran_tcp.go:163-165: PathModel); closing the connections under the lock is one
    step; a channel's receivers take from its buffer; ForServer, SetAddress and
    SetOption are not called any more after the first Run.  Memory accesses are
    sequentially consistent. *)
From Verif Require Export GoBase.

Inductive crash :=
| CrSend         (* send on closed channel *)
| CrListener     (* method of a nil listener *)
| CrNilConn      (* Close of a nil connection *)
| CrClose.       (* close of a nil or closed channel *)
(** Where the holder of the lock in Stop is (tran_tcp.go:283-292). *)
Inductive stoppc := PSock | PNil | PClose | PDrop.
(** The accept and connect goroutines (tran_tcp.go:161-207). *)
Inductive gpc :=
| GListen                   (* net.Listen, 162 *)
| GStore (l : nat)          (* t.listener = listener, 167 *)
| GAccept                   (* evaluate t.listener, 172 *)
| GWait (l : nat)           (* in Accept of it *)
| GHave (c : nat)           (* evaluate t.next, 177 or 193 *)
| GSend (ch c : nat)        (* send to it *)
| GDial (n : nat)           (* n attempts made, 189-202 *)
| GStop                     (* t.Stop(), 182 or 206 *)
| GDone.
(** A call of NextConnection (tran_tcp.go:246-250). *)
Inductive upc := URecv (ch : nat) | UGot (r : option nat) | UDone (r : option nat).

Record sst := Sst {
  k_running : bool;
  k_conns : list (option nat);          (* t.connections, None is nil *)
  k_chans : list (list nat * bool);     (* every channel made: buffer, closed *)
  k_next : option nat;                  (* t.next *)
  k_socks : list bool;                  (* every listening socket: open *)
  k_listener : option nat;              (* t.listener *)
  k_lock : option (stoppc * option nat);  (* Stop holds the lock: where, and for which goroutine *)
  k_gos : list gpc;
  k_users : list upc;
  k_made : nat;                         (* connections made *)
  k_closed : list nat;                  (* connections closed *)
  k_handed : list nat;                  (* ghost: connections NextConnection returned *)
  k_crash : option crash }.
Definition new_sock : sst := Sst false [] [] None [] None None [] [] 0 [] [] None.

Definition set_running (b : bool) (s : sst) := Sst b (k_conns s) (k_chans s) (k_next s) (k_socks s) (k_listener s) (k_lock s) (k_gos s) (k_users s) (k_made s) (k_closed s) (k_handed s) (k_crash s).
Definition set_conns (x : list (option nat)) (s : sst) := Sst (k_running s) x (k_chans s) (k_next s) (k_socks s) (k_listener s) (k_lock s) (k_gos s) (k_users s) (k_made s) (k_closed s) (k_handed s) (k_crash s).
Definition set_chans (x : list (list nat * bool)) (s : sst) := Sst (k_running s) (k_conns s) x (k_next s) (k_socks s) (k_listener s) (k_lock s) (k_gos s) (k_users s) (k_made s) (k_closed s) (k_handed s) (k_crash s).
Definition set_next (x : option nat) (s : sst) := Sst (k_running s) (k_conns s) (k_chans s) x (k_socks s) (k_listener s) (k_lock s) (k_gos s) (k_users s) (k_made s) (k_closed s) (k_handed s) (k_crash s).
Definition set_socks (x : list bool) (s : sst) := Sst (k_running s) (k_conns s) (k_chans s) (k_next s) x (k_listener s) (k_lock s) (k_gos s) (k_users s) (k_made s) (k_closed s) (k_handed s) (k_crash s).
Definition set_listener (x : option nat) (s : sst) := Sst (k_running s) (k_conns s) (k_chans s) (k_next s) (k_socks s) x (k_lock s) (k_gos s) (k_users s) (k_made s) (k_closed s) (k_handed s) (k_crash s).
Definition set_lock (x : option (stoppc * option nat)) (s : sst) := Sst (k_running s) (k_conns s) (k_chans s) (k_next s) (k_socks s) (k_listener s) x (k_gos s) (k_users s) (k_made s) (k_closed s) (k_handed s) (k_crash s).
Definition set_gos (x : list gpc) (s : sst) := Sst (k_running s) (k_conns s) (k_chans s) (k_next s) (k_socks s) (k_listener s) (k_lock s) x (k_users s) (k_made s) (k_closed s) (k_handed s) (k_crash s).
Definition set_users (x : list upc) (s : sst) := Sst (k_running s) (k_conns s) (k_chans s) (k_next s) (k_socks s) (k_listener s) (k_lock s) (k_gos s) x (k_made s) (k_closed s) (k_handed s) (k_crash s).
Definition set_made (x : nat) (s : sst) := Sst (k_running s) (k_conns s) (k_chans s) (k_next s) (k_socks s) (k_listener s) (k_lock s) (k_gos s) (k_users s) x (k_closed s) (k_handed s) (k_crash s).
Definition set_closed (x : list nat) (s : sst) := Sst (k_running s) (k_conns s) (k_chans s) (k_next s) (k_socks s) (k_listener s) (k_lock s) (k_gos s) (k_users s) (k_made s) x (k_handed s) (k_crash s).
Definition set_handed (x : list nat) (s : sst) := Sst (k_running s) (k_conns s) (k_chans s) (k_next s) (k_socks s) (k_listener s) (k_lock s) (k_gos s) (k_users s) (k_made s) (k_closed s) x (k_crash s).
Definition set_crash (x : option crash) (s : sst) := Sst (k_running s) (k_conns s) (k_chans s) (k_next s) (k_socks s) (k_listener s) (k_lock s) (k_gos s) (k_users s) (k_made s) (k_closed s) (k_handed s) x.
Definition go (i : nat) (g : gpc) (s : sst) : sst := set_gos (<[i := g]> (k_gos s)) s.
Definition user (j : nat) (u : upc) (s : sst) : sst := set_users (<[j := u]> (k_users s)) s.

(** [saveConnection]: tran_tcp.go:141-151, tran_unix.go:142-156 *)
Definition save (uds : bool) (conns : list (option nat)) (r : option nat) : list (option nat) :=
  if decide (r = None /\ uds = true) then conns
  else if decide (r ∈ conns) then conns
  else conns ++ [r].
(** The goroutine that called Stop has finished (accept and connect end with it). *)
Definition finish (w : option nat) (gos : list gpc) : list gpc :=
  match w with Some i => <[i := GDone]> gos | None => gos end.

Inductive slab :=
| SRun | SStop | SInner                (* calls of Run and Stop; a step inside Stop *)
| SGo                                  (* internal steps of the goroutines *)
| SIncoming | SAcceptErr               (* Accept returns *)
| SDial (ok : bool)
| SCall | SReceive | SReturn           (* NextConnection *)
| SClosed (c : nat).                   (* somebody closes a connection *)

Section transport.
Context (uds server : bool) (maxretry : Z).

Inductive kstep : sst -> slab -> sst -> Prop :=
(** Run, tran_tcp.go:253-272 *)
| sk_run s :
    k_crash s = None -> k_lock s = None -> k_running s = false ->
    kstep s SRun
      (set_running true (set_conns [] (set_next (Some (length (k_chans s))) (set_chans (k_chans s ++ [([], false)])
         (set_gos (k_gos s ++ [if server then GListen else GDial 0]) s)))))
| sk_run_again s :
    k_crash s = None -> k_lock s = None -> k_running s = true -> kstep s SRun s
(** Stop, tran_tcp.go:275-295, called by a user *)
| sk_stop s :
    k_crash s = None -> k_lock s = None -> k_running s = true -> kstep s SStop (set_lock (Some (PSock, None)) s)
| sk_stop_idle s :
    k_crash s = None -> k_lock s = None -> k_running s = false -> kstep s SStop s
(** ... or by a goroutine *)
| sk_go_stop s i :
    k_crash s = None -> k_gos s !! i = Some GStop -> k_lock s = None -> k_running s = true ->
    kstep s SGo (set_lock (Some (PSock, Some i)) s)
| sk_go_stop_idle s i :
    k_crash s = None -> k_gos s !! i = Some GStop -> k_lock s = None -> k_running s = false ->
    kstep s SGo (go i GDone s)
(** its parts: 283-284 *)
| sk_sock_none s w :
    k_crash s = None -> k_lock s = Some (PSock, w) -> k_listener s = None ->
    kstep s SInner (set_lock (Some (PClose, w)) s)
| sk_sock s w l :
    k_crash s = None -> k_lock s = Some (PSock, w) -> k_listener s = Some l ->
    kstep s SInner (set_lock (Some (PNil, w)) (set_socks (<[l := false]> (k_socks s)) s))
(** 285 *)
| sk_nil s w :
    k_crash s = None -> k_lock s = Some (PNil, w) ->
    kstep s SInner (set_lock (Some (PClose, w)) (set_listener None s))
(** 288 *)
| sk_close s w ch q :
    k_crash s = None -> k_lock s = Some (PClose, w) -> k_next s = Some ch -> k_chans s !! ch = Some (q, false) ->
    kstep s SInner (set_lock (Some (PDrop, w)) (set_chans (<[ch := (q, true)]> (k_chans s)) s))
| sk_close_crash s w :
    k_crash s = None -> k_lock s = Some (PClose, w) ->
    (forall ch q, k_next s = Some ch -> k_chans s !! ch <> Some (q, false)) ->
    kstep s SInner (set_crash (Some CrClose) s)
(** 290-292, dropConnections is 154-158 *)
| sk_drop s w :
    k_crash s = None -> k_lock s = Some (PDrop, w) -> None ∉ k_conns s ->
    kstep s SInner (set_lock None (set_running false (set_closed (k_closed s ++ omap id (k_conns s))
                     (set_gos (finish w (k_gos s)) s))))
| sk_drop_crash s w :
    k_crash s = None -> k_lock s = Some (PDrop, w) -> None ∈ k_conns s ->
    kstep s SInner (set_crash (Some CrNilConn) s)
(** accept *)
| sk_listen s i :
    k_crash s = None -> k_gos s !! i = Some GListen ->
    kstep s SGo (go i (GStore (length (k_socks s))) (set_socks (k_socks s ++ [true]) s))
| sk_store s i l :
    k_crash s = None -> k_gos s !! i = Some (GStore l) -> kstep s SGo (go i GAccept (set_listener (Some l) s))
| sk_eval s i l :
    k_crash s = None -> k_gos s !! i = Some GAccept -> k_listener s = Some l -> kstep s SGo (go i (GWait l) s)
| sk_eval_crash s i :
    k_crash s = None -> k_gos s !! i = Some GAccept -> k_listener s = None -> kstep s SGo (set_crash (Some CrListener) s)
| sk_incoming s i l :
    k_crash s = None -> k_gos s !! i = Some (GWait l) -> k_socks s !! l = Some true ->
    kstep s SIncoming (go i (GHave (k_made s)) (set_made (S (k_made s)) s))
| sk_accept_err s i l :
    k_crash s = None -> k_gos s !! i = Some (GWait l) -> kstep s SAcceptErr (go i GStop s)
| sk_have s i c ch :
    k_crash s = None -> k_gos s !! i = Some (GHave c) -> k_next s = Some ch -> kstep s SGo (go i (GSend ch c) s)
| sk_send s i ch c q :
    k_crash s = None -> k_gos s !! i = Some (GSend ch c) -> k_chans s !! ch = Some (q, false) -> length q < 16 ->
    kstep s SGo (go i (if server then GAccept else GDone) (set_chans (<[ch := (q ++ [c], false)]> (k_chans s)) s))
| sk_send_crash s i ch c q :
    k_crash s = None -> k_gos s !! i = Some (GSend ch c) -> k_chans s !! ch = Some (q, true) ->
    kstep s SGo (set_crash (Some CrSend) s)
(** connect *)
| sk_dial_ok s i n :
    k_crash s = None -> k_gos s !! i = Some (GDial n) -> (Z.of_nat n < maxretry)%Z ->
    kstep s (SDial true) (go i (GHave (k_made s)) (set_made (S (k_made s)) s))
| sk_dial_fail s i n :
    k_crash s = None -> k_gos s !! i = Some (GDial n) -> (Z.of_nat n < maxretry)%Z ->
    kstep s (SDial false) (go i (GDial (S n)) s)
| sk_dial_end s i n :
    k_crash s = None -> k_gos s !! i = Some (GDial n) -> (maxretry <= Z.of_nat n)%Z -> kstep s SGo (go i GStop s)
(** NextConnection *)
| sk_call s ch :
    k_crash s = None -> k_next s = Some ch -> kstep s SCall (set_users (k_users s ++ [URecv ch]) s)
| sk_receive s j ch c q b :
    k_crash s = None -> k_users s !! j = Some (URecv ch) -> k_chans s !! ch = Some (c :: q, b) ->
    kstep s SReceive (user j (UGot (Some c)) (set_chans (<[ch := (q, b)]> (k_chans s)) s))
| sk_receive_nil s j ch :
    k_crash s = None -> k_users s !! j = Some (URecv ch) -> k_chans s !! ch = Some ([], true) ->
    kstep s SReceive (user j (UGot None) s)
| sk_return s j r :
    k_crash s = None -> k_users s !! j = Some (UGot r) -> k_lock s = None ->
    kstep s SReturn (user j (UDone r) (set_conns (save uds (k_conns s) r) (set_handed (k_handed s ++ option_list r) s)))
(** Close, tran_tcp.go:81-84, by whoever has the connection *)
| sk_closed s c :
    k_crash s = None -> c ∈ k_handed s -> kstep s (SClosed c) (set_closed (k_closed s ++ [c]) s).
End transport.
