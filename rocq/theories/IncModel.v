(** * Model of the counters when several goroutines pass messages
    (proc_stat_counter.go, proc_filter.go, proc_forwarder.go)

    Every endpoint has a goroutine that sends, every connection one that
    receives; all of them call the same processor.  The counters are plain
    fields: [counter++] loads the field and stores it increased by one, and
    nothing keeps other goroutines from doing the same in between.  Loads and
    stores of one field are indivisible and sequentially consistent (Go's memory
    model promises no more for unsynchronised accesses).  One counter is
    modelled; the transmission and the reception counters are independent. *)
From Verif Require Export GoBase.
From stdpp Require Export functions.

(** Where a goroutine's call of OnUpperData (OnLowerData) is. *)
Inductive ipc :=
| IIdle
| ILoaded (v : Z)            (* the counter has been loaded, proc_stat_counter.go:55 (137; proc_filter.go:45, 57) *)
| ICounted.                  (* stored; before the message is passed on, 61 (140) *)
Record ist := Ist {
  i_val : Z;                 (* txCounter, a uint64 *)
  i_at : nat -> ipc }.
Definition new_count : ist := Ist 0 (fun _ => IIdle).

Inductive ilab :=
| ILoad (g : nat) | IStore (g : nat) | IPass (g : nat)
| IShow (v : Z).             (* the counter is read for a statistics response, 86 *)

Inductive istep : ist -> ilab -> ist -> Prop :=
(** proc_stat_counter.go:54-55 *)
| ik_load v a g : a g = IIdle -> istep (Ist v a) (ILoad g) (Ist v (<[g := ILoaded v]> a))
| ik_store v a g x : a g = ILoaded x -> istep (Ist v a) (IStore g) (Ist ((x + 1) mod 2^64) (<[g := ICounted]> a))
(** proc_stat_counter.go:59-61 *)
| ik_pass v a g : a g = ICounted -> istep (Ist v a) (IPass g) (Ist v (<[g := IIdle]> a))
(** proc_stat_counter.go:86 *)
| ik_show v a : istep (Ist v a) (IShow v) (Ist v a).
