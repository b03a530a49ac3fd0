(** * Model of an endpoint's receiving side (endp_default.go:81-121)

    Any number of goroutines call SetDataListener and any number run
    autoReceive; every step of one goroutine between two accesses to shared
    memory is one transition, and transitions interleave arbitrarily.  Simplifications:
    accesses are sequentially consistent (the code has data races, so Go
    promises less); the listener's own code is not modelled, only that it is
    called and returns; rxChannel is never closed (nothing in /repo closes it);
    its capacity (512) does not matter here, arrivals are possible at any time. *)
From Verif Require Export GoBase.

(** Where a goroutine is in autoReceive (endp_default.go:82-93). *)
Inductive rpc :=
| RStart                  (* spawned, line 83: will test dataListener *)
| RMark                   (* line 84: will set inAutoReceive *)
| RRange                  (* line 85: waits for a message *)
| RGot (m : nat)          (* line 86: will test dataListener *)
| RClear                  (* line 87: will clear inAutoReceive and return *)
| RCall (m : nat)         (* line 90: will read dataListener and call it *)
| RIn (l m : nat)         (* the listener runs *)
| RExit.

Record est := Est {
  e_listener : option nat;       (* dataListener, nil is None *)
  e_auto : bool;                 (* inAutoReceive *)
  e_queue : list nat;            (* rxChannel *)
  e_threads : list rpc;          (* goroutines running autoReceive *)
  e_setters : nat;               (* SetDataListener calls that have set the listener and will test inAutoReceive *)
  e_panic : bool;                (* a goroutine called a nil function *)
  (* ghost *)
  e_sets : list (option nat);    (* listeners set *)
  e_arrived : list nat;          (* messages put into rxChannel *)
  e_calls : list (nat * nat) }.  (* calls of listeners: listener, message *)

(** endp_default.go:96-106 NewEndPoint *)
Definition new_end : est := Est None false [] [] 0 false [] [] [].

Inductive elab := LSet (l : option nat) | LCheck | LArrive (m : nat) | LThread.

Definition goto (s : est) (i : nat) (pc : rpc) : est :=
  Est (e_listener s) (e_auto s) (e_queue s) (<[i := pc]> (e_threads s)) (e_setters s) (e_panic s)
      (e_sets s) (e_arrived s) (e_calls s).
Definition set_auto (s : est) (b : bool) : est :=
  Est (e_listener s) b (e_queue s) (e_threads s) (e_setters s) (e_panic s) (e_sets s) (e_arrived s) (e_calls s).
Definition set_queue (s : est) (q : list nat) : est :=
  Est (e_listener s) (e_auto s) q (e_threads s) (e_setters s) (e_panic s) (e_sets s) (e_arrived s) (e_calls s).
Definition add_call (s : est) (c : nat * nat) : est :=
  Est (e_listener s) (e_auto s) (e_queue s) (e_threads s) (e_setters s) (e_panic s) (e_sets s) (e_arrived s)
      (e_calls s ++ [c]).
Definition set_panic (s : est) : est :=
  Est (e_listener s) (e_auto s) (e_queue s) (e_threads s) (e_setters s) true (e_sets s) (e_arrived s) (e_calls s).

Inductive estep : est -> elab -> est -> Prop :=
(** endp_default.go:116 *)
| st_set s l :
    estep s (LSet l) (Est l (e_auto s) (e_queue s) (e_threads s) (S (e_setters s)) (e_panic s)
                          (e_sets s ++ [l]) (e_arrived s) (e_calls s))
(** endp_default.go:117-119 *)
| st_check s n :
    e_setters s = S n ->
    estep s LCheck (Est (e_listener s) (e_auto s) (e_queue s)
                        (e_threads s ++ if e_auto s then [] else [RStart]) n (e_panic s)
                        (e_sets s) (e_arrived s) (e_calls s))
(** proc_upperdeck.go:116 *)
| st_arrive s m :
    estep s (LArrive m) (Est (e_listener s) (e_auto s) (e_queue s ++ [m]) (e_threads s) (e_setters s) (e_panic s)
                             (e_sets s) (e_arrived s ++ [m]) (e_calls s))
| st_start s i :
    e_threads s !! i = Some RStart ->
    estep s LThread (goto s i (if e_listener s then RMark else RExit))
| st_mark s i :
    e_threads s !! i = Some RMark ->
    estep s LThread (goto (set_auto s true) i RRange)
| st_receive s i m q :
    e_threads s !! i = Some RRange -> e_queue s = m :: q ->
    estep s LThread (goto (set_queue s q) i (RGot m))
| st_got s i m :
    e_threads s !! i = Some (RGot m) ->
    estep s LThread (goto s i (if e_listener s then RCall m else RClear))
| st_clear s i :
    e_threads s !! i = Some RClear ->
    estep s LThread (goto (set_auto s false) i RExit)
| st_call s i m l :
    e_threads s !! i = Some (RCall m) -> e_listener s = Some l ->
    estep s LThread (goto (add_call s (l, m)) i (RIn l m))
| st_call_nil s i m :
    e_threads s !! i = Some (RCall m) -> e_listener s = None ->
    estep s LThread (set_panic s)
| st_return s i l m :
    e_threads s !! i = Some (RIn l m) ->
    estep s LThread (goto s i RRange).
