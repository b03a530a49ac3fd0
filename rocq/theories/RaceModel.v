(** * Model of unsynchronised accesses (proc_stat_counter.go, proc_upperdeck.go)

    Memory accesses are sequentially consistent; for racing accesses Go promises
    less. *)
From Verif Require Export GoBase.
From stdpp Require Export functions.

(** ** A counter of StatCounter

    [sc.txCounter++] (proc_stat_counter.go:54) by the sending goroutines, or
    [sc.rxCounter++] (132) by the receiving ones: a load, then a store of the
    uint64 one larger.  [q_reg g] is what goroutine [g] has loaded. *)
Record qst := Qst { q_ctr : Z; q_reg : nat -> option Z }.
Definition new_ctr : qst := Qst 0 (fun _ => None).
Inductive qlab := QLoad (g : nat) | QStore (g : nat).
Inductive qstep : qst -> qlab -> qst -> Prop :=
| qk_load n r g : r g = None -> qstep (Qst n r) (QLoad g) (Qst n (<[g := Some n]> r))
| qk_store n r g v : r g = Some v -> qstep (Qst n r) (QStore g) (Qst ((v + 1) mod 2^64) (<[g := None]> r)).

(** ** The map of the upper deck

    Accesses to [ud.endpoints]: callers of existsEndpoint (17-27),
    acceptEndpoint (35-40), deleteEndpoint (69-80) and findEndPoint (82-92) read
    and write it between Lock and Unlock; the goroutine of every accepted
    endpoint reads it on every turn of its loop (50) without the lock.  An
    access has a beginning and an end.  The Go runtime stops the program when it
    notices that a write overlaps another access ("concurrent map read and map
    write"). *)
Inductive acc := AOut | AReading | AWriting.
Record mst := Mst {
  m_lock : option nat;       (* which caller holds ud.Mutex *)
  m_acc : nat -> acc;        (* what each caller does with the map *)
  m_gor : list bool }.       (* endpoint goroutines: inside their read *)
Definition new_map : mst := Mst None (fun _ => AOut) [].
Inductive mlab :=
| MLock (k : nat) | MUnlock (k : nat)
| MRead (k : nat) | MWrite (k : nat) | MEnd (k : nat)
| MSpawn (k : nat)                     (* 46 *)
| MPeek (g : nat) | MPeekEnd (g : nat).  (* 50 *)
Inductive mstep : mst -> mlab -> mst -> Prop :=
| mk_lock a gs k : mstep (Mst None a gs) (MLock k) (Mst (Some k) a gs)
| mk_unlock a gs k : a k = AOut -> mstep (Mst (Some k) a gs) (MUnlock k) (Mst None a gs)
| mk_read a gs k : a k = AOut -> mstep (Mst (Some k) a gs) (MRead k) (Mst (Some k) (<[k := AReading]> a) gs)
| mk_write a gs k : a k = AOut -> mstep (Mst (Some k) a gs) (MWrite k) (Mst (Some k) (<[k := AWriting]> a) gs)
| mk_end a gs k : a k <> AOut -> mstep (Mst (Some k) a gs) (MEnd k) (Mst (Some k) (<[k := AOut]> a) gs)
| mk_spawn a gs k : a k = AOut -> mstep (Mst (Some k) a gs) (MSpawn k) (Mst (Some k) a (gs ++ [false]))
| mk_peek o a gs g : gs !! g = Some false -> mstep (Mst o a gs) (MPeek g) (Mst o a (<[g := true]> gs))
| mk_peek_end o a gs g : gs !! g = Some true -> mstep (Mst o a gs) (MPeekEnd g) (Mst o a (<[g := false]> gs)).
