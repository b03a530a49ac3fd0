(** * Model of the upper deck (proc_upperdeck.go)

    Three views of it: the registration of endpoints one call after the other;
    the deck's methods and its per-endpoint goroutines as interleaving
    transitions; and the hand-over of received messages into the endpoints'
    channels.  Endpoints are numbers, [σ] gives the session of each (SetSession
    after registration is not modelled).  Simplifications: an access to the map
    by a goroutine that does not hold the lock is one atomic read (Go may stop
    the program instead, see RaceModel); what the layers below do with a message
    is StackModel's concern, here [d_sent] records that it was passed to them. *)
From Verif Require Export GoBase.

Section sigma.
Context (σ : nat -> Z).

(** ** Registration, one call after the other *)
(** proc_upperdeck.go:18-28 *)
Definition exists_endpoint (served : list nat) (e : nat) : bool :=
  existsb (fun x => (x =? e) || (σ x =? σ e)%Z) served.
(** proc_upperdeck.go:31-39 *)
Definition accept (served : list nat) (e : nat) : list nat :=
  if exists_endpoint served e then served else served ++ [e].
(** proc_upperdeck.go:71-81 *)
Definition unserve (served : list nat) (e : nat) : list nat := List.filter (fun x => negb (x =? e)) served.

(** The stack's list (ustack_default.go:195-233) and the deck's map.  Before
    Run there is no deck. *)
Record reg := Reg { r_list : list nat; r_deck : option (list nat) }.
Inductive rop := RAdd (e : nat) | RDel (e : nat) | RRun.
Definition rstep (r : reg) (o : rop) : reg :=
  match o with
  | RAdd e =>
      if decide (e ∈ r_list r) then r
      else Reg (r_list r ++ [e]) ((fun d => accept d e) <$> r_deck r)
  | RDel e =>
      if decide (e ∈ r_list r)
      then Reg (List.filter (fun x => negb (x =? e)) (r_list r)) ((fun d => unserve d e) <$> r_deck r)
      else r
  | RRun => Reg (r_list r) (Some (foldl accept [] (r_list r)))   (* a new deck, proc_upperdeck.go:137-143 *)
  end.
Definition registered_after (ops : list rop) : reg := foldl rstep (Reg [] None) ops.
(** proc_upperdeck.go:83-93: any endpoint of the session may be returned (map
    order); [served_for] lists all candidates. *)
Definition served_for (r : reg) (k : Z) : list nat := List.filter (fun x => (σ x =? k)%Z) (default [] (r_deck r)).

(** ** Methods and goroutines, interleaved *)
Record schan := Schan { sc_owner : nat; sc_buf : list bool; sc_closed : bool }.   (* make(chan bool, 1) *)
(** Where an endpoint's goroutine is (proc_upperdeck.go:47-66). *)
Inductive lpc :=
| LTop                          (* will evaluate the select's channels *)
| LReady (ch : option nat)      (* evaluated: this stop channel, nil if None *)
| LParked (ch : option nat)     (* nothing was ready, waits *)
| LSending (m : nat)            (* has taken m, will pass it down *)
| LStopped.
Record dst := Dst {
  d_map : list (nat * nat);         (* ud.endpoints: endpoint, its channel *)
  d_chans : list schan;
  d_pending : list nat;             (* acceptEndpoint calls that found no endpoint and released the lock *)
  d_loops : list (nat * lpc);       (* goroutines, with their endpoint *)
  d_tx : nat -> list nat;           (* txChannel of each endpoint *)
  d_sent : list (nat * nat) }.      (* ghost: endpoint, message passed down *)
Definition new_deck : dst := Dst [] [] [] [] (fun _ => []) [].

Definition look (m : list (nat * nat)) (e : nat) : option nat :=
  snd <$> List.find (fun p => fst p =? e) m.
Definition unmap (m : list (nat * nat)) (e : nat) : list (nat * nat) :=
  List.filter (fun p => negb (fst p =? e)) m.
Definition set_tx (f : nat -> list nat) (e : nat) (q : list nat) : nat -> list nat :=
  fun x => if decide (x = e) then q else f x.
(** [close(c)] wakes every goroutine parked on [c]. *)
Definition wake (c : nat) (p : nat * lpc) : nat * lpc :=
  match snd p with
  | LParked (Some c') => if c' =? c then (fst p, LTop) else p
  | _ => p
  end.

Inductive dlab := DCheck (e : nat) | DInsert (e : nat) | DDelete (e : nat) | DPut (e m : nat) | DLoop (e : nat).

Inductive dstep : dst -> dlab -> dst -> Prop :=
(** acceptEndpoint, first locked part: proc_upperdeck.go:32-34 *)
| dk_check s e :
    dstep s (DCheck e)
      (Dst (d_map s) (d_chans s)
           (if exists_endpoint ((d_map s).*1) e then d_pending s else d_pending s ++ [e])
           (d_loops s) (d_tx s) (d_sent s))
(** second locked part: proc_upperdeck.go:36-66 *)
| dk_insert s e p1 p2 :
    d_pending s = p1 ++ e :: p2 ->
    dstep s (DInsert e)
      (Dst ((e, length (d_chans s)) :: unmap (d_map s) e) (d_chans s ++ [Schan e [] false]) (p1 ++ p2)
           (d_loops s ++ [(e, LTop)]) (d_tx s) (d_sent s))
(** deleteEndpoint, proc_upperdeck.go:71-81; no entry *)
| dk_delete_none s e :
    look (d_map s) e = None -> dstep s (DDelete e) s
(** a goroutine is parked on the channel and gets the value *)
| dk_delete_parked s e c i e' ch :
    look (d_map s) e = Some c -> d_loops s !! i = Some (e', LParked (Some c)) -> d_chans s !! c = Some ch ->
    dstep s (DDelete e)
      (Dst (unmap (d_map s) e) (<[c := Schan (sc_owner ch) (sc_buf ch) true]> (d_chans s)) (d_pending s)
           (wake c <$> <[i := (e', LStopped)]> (d_loops s)) (d_tx s) (d_sent s))
(** nobody is parked on it: the value is buffered (the call blocks if it is full) *)
| dk_delete_buffer s e c ch :
    look (d_map s) e = Some c -> (forall i e', d_loops s !! i <> Some (e', LParked (Some c))) ->
    d_chans s !! c = Some ch -> sc_buf ch = [] ->
    dstep s (DDelete e)
      (Dst (unmap (d_map s) e) (<[c := Schan (sc_owner ch) [true] true]> (d_chans s)) (d_pending s)
           (d_loops s) (d_tx s) (d_sent s))
(** a user puts a message into the endpoint's txChannel (capacity 512) *)
| dk_put_parked s e m i ch :
    d_loops s !! i = Some (e, LParked ch) -> d_tx s e = [] ->
    dstep s (DPut e m)
      (Dst (d_map s) (d_chans s) (d_pending s) (<[i := (e, LSending m)]> (d_loops s)) (d_tx s) (d_sent s))
| dk_put_buffer s e m :
    (forall i ch, d_loops s !! i <> Some (e, LParked ch)) -> length (d_tx s e) < 512 ->
    dstep s (DPut e m)
      (Dst (d_map s) (d_chans s) (d_pending s) (d_loops s) (set_tx (d_tx s) e (d_tx s e ++ [m])) (d_sent s))
(** the goroutine: evaluate ud.endpoints[ep] (line 50, without the lock) *)
| dk_read s i e :
    d_loops s !! i = Some (e, LTop) ->
    dstep s (DLoop e)
      (Dst (d_map s) (d_chans s) (d_pending s) (<[i := (e, LReady (look (d_map s) e))]> (d_loops s)) (d_tx s) (d_sent s))
(** receive true from it: return *)
| dk_stop s i e c ch b :
    d_loops s !! i = Some (e, LReady (Some c)) -> d_chans s !! c = Some ch -> sc_buf ch = true :: b ->
    dstep s (DLoop e)
      (Dst (d_map s) (<[c := Schan (sc_owner ch) b (sc_closed ch)]> (d_chans s)) (d_pending s)
           (<[i := (e, LStopped)]> (d_loops s)) (d_tx s) (d_sent s))
(** it is closed and empty: receives false, next round *)
| dk_closed s i e c ch :
    d_loops s !! i = Some (e, LReady (Some c)) -> d_chans s !! c = Some ch -> sc_buf ch = [] -> sc_closed ch = true ->
    dstep s (DLoop e)
      (Dst (d_map s) (d_chans s) (d_pending s) (<[i := (e, LTop)]> (d_loops s)) (d_tx s) (d_sent s))
(** receive from txChannel *)
| dk_take s i e ch m q :
    d_loops s !! i = Some (e, LReady ch) -> d_tx s e = m :: q ->
    dstep s (DLoop e)
      (Dst (d_map s) (d_chans s) (d_pending s) (<[i := (e, LSending m)]> (d_loops s)) (set_tx (d_tx s) e q) (d_sent s))
(** nothing ready: wait *)
| dk_park s i e ch :
    d_loops s !! i = Some (e, LReady ch) -> d_tx s e = [] ->
    (forall c sc, ch = Some c -> d_chans s !! c = Some sc -> sc_buf sc = [] /\ sc_closed sc = false) ->
    dstep s (DLoop e)
      (Dst (d_map s) (d_chans s) (d_pending s) (<[i := (e, LParked ch)]> (d_loops s)) (d_tx s) (d_sent s))
(** lines 54-63: lower.OnUpperData *)
| dk_send s i e m :
    d_loops s !! i = Some (e, LSending m) ->
    dstep s (DLoop e)
      (Dst (d_map s) (d_chans s) (d_pending s) (<[i := (e, LTop)]> (d_loops s)) (d_tx s) (d_sent s ++ [(e, m)])).

(** ** Handing received messages over (proc_upperdeck.go:83-93, 105-120) *)
(** Each endpoint's rxChannel: buffer, goroutines blocked in sending to it, and
    as ghosts what was handed over to it and what was received from it.  A
    message is a pair of the goroutine that delivers it (a connection's receive
    loop) and its content; [h_found] are the goroutines that have found the
    endpoint of their message and have not yet sent to its channel. *)
Record hst := Hst {
  h_served : list nat;
  h_found : list (nat * (nat * nat));      (* endpoint, message *)
  h_buf : nat -> list (nat * nat);
  h_blocked : nat -> list (nat * nat);
  h_handed : nat -> list (nat * nat);
  h_got : nat -> list (nat * nat) }.
Definition upd (f : nat -> list (nat * nat)) (e : nat) (q : list (nat * nat)) : nat -> list (nat * nat) :=
  fun x => if decide (x = e) then q else f x.
(** A goroutine with a message in hand does not deliver another one. *)
Definition free (s : hst) (c : nat) : Prop :=
  (forall e m, (e, (c, m)) ∉ h_found s) /\ (forall e m, (c, m) ∉ h_blocked s e).
Inductive hlab :=
| HServe (served : list nat)          (* registrations and deletions *)
| HReceive (c : nat) (k : Z) (m : nat)
| HSend (c : nat)
| HGet (e : nat).
(** [chan EndPointData] of capacity [cap]. *)
Inductive hstep (cap : nat) : hst -> hlab -> hst -> Prop :=
| hs_serve s served :
    hstep cap s (HServe served) (Hst served (h_found s) (h_buf s) (h_blocked s) (h_handed s) (h_got s))
(** no endpoint of that session: dropped *)
| hs_none s c k m :
    free s c -> (forall e, e ∈ h_served s -> σ e <> k) ->
    hstep cap s (HReceive c k m) s
| hs_find s e c k m :
    free s c -> e ∈ h_served s -> σ e = k ->
    hstep cap s (HReceive c k m)
      (Hst (h_served s) (h_found s ++ [(e, (c, m))]) (h_buf s) (h_blocked s) (h_handed s) (h_got s))
| hs_hand s f1 e c m f2 :
    h_found s = f1 ++ (e, (c, m)) :: f2 ->
    length (h_buf s e) < cap ->
    hstep cap s (HSend c)
      (Hst (h_served s) (f1 ++ f2) (upd (h_buf s) e (h_buf s e ++ [(c, m)])) (h_blocked s)
           (upd (h_handed s) e (h_handed s e ++ [(c, m)])) (h_got s))
| hs_block s f1 e c m f2 :
    h_found s = f1 ++ (e, (c, m)) :: f2 ->
    cap <= length (h_buf s e) ->
    hstep cap s (HSend c)
      (Hst (h_served s) (f1 ++ f2) (h_buf s) (upd (h_blocked s) e (h_blocked s e ++ [(c, m)]))
           (upd (h_handed s) e (h_handed s e ++ [(c, m)])) (h_got s))
(** the endpoint's user receives; the first blocked sender's value moves up *)
| hs_get s e x q :
    h_buf s e = x :: q ->
    hstep cap s (HGet e)
      (Hst (h_served s) (h_found s) (upd (h_buf s) e (q ++ take 1 (h_blocked s e)))
           (upd (h_blocked s) e (drop 1 (h_blocked s e))) (h_handed s)
           (upd (h_got s) e (h_got s e ++ [x])))
(** unbuffered channel: directly from the first blocked sender *)
| hs_get_direct s e x q :
    h_buf s e = [] -> h_blocked s e = x :: q ->
    hstep cap s (HGet e)
      (Hst (h_served s) (h_found s) (h_buf s) (upd (h_blocked s) e q) (h_handed s)
           (upd (h_got s) e (h_got s e ++ [x]))).
Definition new_hand : hst := Hst [] [] (fun _ => []) (fun _ => []) (fun _ => []) (fun _ => []).
End sigma.
