(** * Model of the reference transports (tran_reference.go)

    Any number of transports on any addresses, their connections, the channels
    they share, and any number of goroutines calling Run, Stop, NextConnection,
    SetReference, GetReference and Close, as interleaving transitions.
    A transport's address, side and MaxQueueSize are fixed ([addr], [server],
    [size]): SetAddress, ForServer and SetOption come before the first Run.
    References are numbers; a nil reference is refused before anything else
    happens (tran_reference.go:126-128) and is not a transition.  The part of Stop
    behind its test of isRunning is one transition.  Memory accesses are
    sequentially consistent. *)
From Verif Require Export GoBase.

Definition fset {A B} `{EqDecision A} (f : A -> B) (a : A) (b : B) : A -> B := fun x => if decide (x = a) then b else f x.

(** [referenceChannel], 36-40: [rc_buf true] is serverRxClientTx (what servers
    read), [rc_buf false] is serverTxClientRx. *)
Record rchan := Rchan { rc_cap : nat; rc_refs : Z; rc_closed : bool; rc_buf : bool -> list nat }.
(** A call of Run (234-261): not in it; holding the transport's lock before 244;
    holding the global mutex before 256. *)
Inductive runpc := RIdle | RWait | RPushing (ch : nat).
Record rst := Rst {
  r_next : nat -> list nat;              (* sm.next, of capacity 1 *)
  r_conn : nat -> option nat;            (* sm.connection *)
  r_running : nat -> bool;               (* sm.isRunning *)
  r_pc : nat -> runpc;                   (* who holds sm's lock *)
  r_mutex : option nat;                  (* the global mutex: held by the Run of this transport *)
  r_map : nat -> option nat;             (* chans: address to channel *)
  r_chans : list rchan;                  (* every channel made *)
  r_conns : list (nat * nat * bool);     (* every connection: transport, channel, closed *)
  r_pend : nat -> option (nat * nat);    (* goroutine inside SetReference: connection, reference *)
  r_wait : nat -> option nat;            (* goroutine inside GetReference: connection *)
  r_crash : bool }.
Definition new_ref : rst :=
  Rst (fun _ => []) (fun _ => None) (fun _ => false) (fun _ => RIdle) None (fun _ => None) [] [] (fun _ => None) (fun _ => None) false.

Inductive rlab :=
| RRun (t : nat) | RGlobal (t : nat) | RPush (t : nat)    (* Run: called, mutex taken, connection put *)
| RNext (t : nat) | RStop (t : nat) | RClose (t c : nat)
| RSet (k t c p : nat) | RSetErr (k t c p : nat) | RSent (k t c p : nat)   (* SetReference: called, refused, done *)
| RGet (j t c : nat) | RGetErr (j t c : nat) | RGot (j t c p : nat) | RGotNil (j t c : nat)
| RHand (k t c p j t' c' : nat).                          (* a send meets a waiting receive *)

Definition set_buf (x : rchan) (b : bool) (q : list nat) : rchan := Rchan (rc_cap x) (rc_refs x) (rc_closed x) (fset (rc_buf x) b q).
Definition set_refs (x : rchan) (n : Z) : rchan := Rchan (rc_cap x) n (rc_closed x) (rc_buf x).

Section transports.
Context (addr : nat -> nat) (server : nat -> bool) (size : nat -> Z).

Inductive rstep : rst -> rlab -> rst -> Prop :=
(** Run, 234-242 *)
| rk_run nx cn rn pc mx mp chs cs pe wa t :
    pc t = RIdle -> rn t = false ->
    rstep (Rst nx cn rn pc mx mp chs cs pe wa false) (RRun t) (Rst nx cn rn (fset pc t RWait) mx mp chs cs pe wa false)
| rk_run_again nx cn rn pc mx mp chs cs pe wa t :
    pc t = RIdle -> rn t = true ->
    rstep (Rst nx cn rn pc mx mp chs cs pe wa false) (RRun t) (Rst nx cn rn pc mx mp chs cs pe wa false)
(** 244-254 *)
| rk_global_new nx cn rn pc mp chs cs pe wa t :
    pc t = RWait -> mp (addr t) = None -> (0 <= size t)%Z ->
    rstep (Rst nx cn rn pc None mp chs cs pe wa false) (RGlobal t)
      (Rst nx cn rn (fset pc t (RPushing (length chs))) (Some t) (fset mp (addr t) (Some (length chs)))
           (chs ++ [Rchan (Z.to_nat (size t)) 1 false (fun _ => [])]) cs pe wa false)
| rk_global_negative nx cn rn pc mp chs cs pe wa t :
    pc t = RWait -> mp (addr t) = None -> (size t < 0)%Z ->     (* makechan: size out of range *)
    rstep (Rst nx cn rn pc None mp chs cs pe wa false) (RGlobal t) (Rst nx cn rn pc (Some t) mp chs cs pe wa true)
| rk_global_old nx cn rn pc mp chs cs pe wa t ch x :
    pc t = RWait -> mp (addr t) = Some ch -> chs !! ch = Some x ->
    rstep (Rst nx cn rn pc None mp chs cs pe wa false) (RGlobal t)
      (Rst nx cn rn (fset pc t (RPushing ch)) (Some t) mp (<[ch := set_refs x (rc_refs x + 1)]> chs) cs pe wa false)
(** 256-258 *)
| rk_push nx cn rn pc mx mp chs cs pe wa t ch :
    pc t = RPushing ch -> length (nx t) < 1 ->
    rstep (Rst nx cn rn pc mx mp chs cs pe wa false) (RPush t)
      (Rst (fset nx t (nx t ++ [length cs])) cn rn (fset pc t RIdle) None mp chs (cs ++ [(t, ch, false)]) pe wa false)
(** NextConnection, 221-225 *)
| rk_next nx cn rn pc mx mp chs cs pe wa t c q :
    nx t = c :: q ->
    rstep (Rst nx cn rn pc mx mp chs cs pe wa false) (RNext t)
      (Rst (fset nx t q) (fset cn t (Some c)) rn pc mx mp chs cs pe wa false)
(** Stop, 264-270 *)
| rk_stop nx cn rn pc mx mp chs cs pe wa t :
    pc t = RIdle -> rn t = false ->
    rstep (Rst nx cn rn pc mx mp chs cs pe wa false) (RStop t) (Rst nx cn rn pc mx mp chs cs pe wa false)
(** 272-286 *)
| rk_stop_nil nx cn rn pc mx mp chs cs pe wa t :
    pc t = RIdle -> rn t = true -> cn t = None ->
    rstep (Rst nx cn rn pc mx mp chs cs pe wa false) (RStop t) (Rst nx cn rn pc mx mp chs cs pe wa true)
| rk_stop_unknown nx cn rn pc mp chs cs pe wa t c t' ch b :
    pc t = RIdle -> rn t = true -> cn t = Some c -> cs !! c = Some (t', ch, b) -> mp (addr t) = None ->
    rstep (Rst nx cn rn pc None mp chs cs pe wa false) (RStop t)
      (Rst nx cn rn pc None mp chs (<[c := (t', ch, true)]> cs) pe wa false)
| rk_stop_release nx cn rn pc mp chs cs pe wa t c t' ch b ch' x :
    pc t = RIdle -> rn t = true -> cn t = Some c -> cs !! c = Some (t', ch, b) -> mp (addr t) = Some ch' -> chs !! ch' = Some x ->
    rstep (Rst nx cn rn pc None mp chs cs pe wa false) (RStop t)
      (if decide (rc_refs x = 1%Z)
       then Rst nx cn rn pc None (fset mp (addr t) None) (<[ch' := Rchan (rc_cap x) 0 true (rc_buf x)]> chs)
                (<[c := (t', ch, true)]> cs) pe wa (rc_closed x)
       else Rst nx cn rn pc None mp (<[ch' := set_refs x (rc_refs x - 1)]> chs) (<[c := (t', ch, true)]> cs) pe wa false)
(** Close of a connection, 140-142 *)
| rk_close nx cn rn pc mx mp chs cs pe wa t c ch b :
    cs !! c = Some (t, ch, b) ->
    rstep (Rst nx cn rn pc mx mp chs cs pe wa false) (RClose t c)
      (Rst nx cn rn pc mx mp chs (<[c := (t, ch, true)]> cs) pe wa false)
(** SetReference, 120-137 *)
| rk_set nx cn rn pc mx mp chs cs pe wa k t c ch p :
    pe k = None -> wa k = None -> cs !! c = Some (t, ch, false) ->
    rstep (Rst nx cn rn pc mx mp chs cs pe wa false) (RSet k t c p)
      (Rst nx cn rn pc mx mp chs cs (fset pe k (Some (c, p))) wa false)
| rk_set_err nx cn rn pc mx mp chs cs pe wa k t c ch p :
    pe k = None -> wa k = None -> cs !! c = Some (t, ch, true) ->
    rstep (Rst nx cn rn pc mx mp chs cs pe wa false) (RSetErr k t c p) (Rst nx cn rn pc mx mp chs cs pe wa false)
| rk_sent nx cn rn pc mx mp chs cs pe wa k t c ch b p x :
    pe k = Some (c, p) -> cs !! c = Some (t, ch, b) -> chs !! ch = Some x -> rc_closed x = false ->
    length (rc_buf x (negb (server t))) < rc_cap x ->
    rstep (Rst nx cn rn pc mx mp chs cs pe wa false) (RSent k t c p)
      (Rst nx cn rn pc mx mp (<[ch := set_buf x (negb (server t)) (rc_buf x (negb (server t)) ++ [p])]> chs) cs (fset pe k None) wa false)
| rk_sent_crash nx cn rn pc mx mp chs cs pe wa k t c ch b p x :
    pe k = Some (c, p) -> cs !! c = Some (t, ch, b) -> chs !! ch = Some x -> rc_closed x = true ->
    rstep (Rst nx cn rn pc mx mp chs cs pe wa false) (RSent k t c p) (Rst nx cn rn pc mx mp chs cs pe wa true)
(** GetReference, 102-117 *)
| rk_get nx cn rn pc mx mp chs cs pe wa j t c ch :
    pe j = None -> wa j = None -> cs !! c = Some (t, ch, false) ->
    rstep (Rst nx cn rn pc mx mp chs cs pe wa false) (RGet j t c) (Rst nx cn rn pc mx mp chs cs pe (fset wa j (Some c)) false)
| rk_get_err nx cn rn pc mx mp chs cs pe wa j t c ch :
    pe j = None -> wa j = None -> cs !! c = Some (t, ch, true) ->
    rstep (Rst nx cn rn pc mx mp chs cs pe wa false) (RGetErr j t c) (Rst nx cn rn pc mx mp chs cs pe wa false)
| rk_got nx cn rn pc mx mp chs cs pe wa j t c ch b p q x :
    wa j = Some c -> cs !! c = Some (t, ch, b) -> chs !! ch = Some x -> rc_buf x (server t) = p :: q ->
    rstep (Rst nx cn rn pc mx mp chs cs pe wa false) (RGot j t c p)
      (Rst nx cn rn pc mx mp (<[ch := set_buf x (server t) q]> chs) cs pe (fset wa j None) false)
| rk_got_nil nx cn rn pc mx mp chs cs pe wa j t c ch b x :
    wa j = Some c -> cs !! c = Some (t, ch, b) -> chs !! ch = Some x -> rc_buf x (server t) = [] -> rc_closed x = true ->
    rstep (Rst nx cn rn pc mx mp chs cs pe wa false) (RGotNil j t c) (Rst nx cn rn pc mx mp chs cs pe (fset wa j None) false)
(** A channel hands a reference over directly when its buffer is empty. *)
| rk_hand nx cn rn pc mx mp chs cs pe wa k t c b p j t' c' b' ch x :
    pe k = Some (c, p) -> cs !! c = Some (t, ch, b) -> wa j = Some c' -> cs !! c' = Some (t', ch, b') ->
    server t' = negb (server t) -> chs !! ch = Some x -> rc_closed x = false -> rc_buf x (server t') = [] ->
    rstep (Rst nx cn rn pc mx mp chs cs pe wa false) (RHand k t c p j t' c')
      (Rst nx cn rn pc mx mp chs cs (fset pe k None) (fset wa j None) false).
End transports.
