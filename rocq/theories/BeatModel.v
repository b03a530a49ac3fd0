(** * Model of the heartbeat supervision (proc_heartbeat.go)

    The map [monitors] with its mutex, the checking goroutine, the heartbeat
    goroutine of each connection, and the handling of received heartbeats, as
    interleaving transitions with a clock in nanoseconds.
    - A transition on [monitors] by updateMonitor (41-46) or deleteMonitor
      (49-57) is atomic and waits for the mutex: it needs [b_chk = CIdle].
    - check (60-87) holds the mutex from [BCheck] to [BDone].  Each comparison,
      Close and publication is a transition of its own, any time may pass and
      anything else may happen in between.  Go leaves the order of the range over
      the map open: [BCheck todo] takes any order.
    - int(time.Since(t).Seconds()) (69) is the whole seconds of the nanoseconds
      since [t].  (Seconds adds whole seconds and fraction as float64; the sum is
      rounded up to the next whole second only beyond 2^23 s, about 97 days.)
      The clock is Go's monotonic clock.
    - The receiving goroutine of a connection handles one message at a time
      (proc_lowerdeck.go:60-86) and starts after the new-connection event
      (52-56).  Only heartbeats matter here; a message is read only from an open
      connection.
    - [timeout], [shut] are timeoutInSecond and closeOnLost, set by Run.  Several
      Runs mean several checking goroutines: the mutex makes them take turns.
    - Sending heartbeats has no effect on supervision; a failing send closes the
      connection: [BClose].
    - Listeners of the lost event are any transitions between [BLate] and
      [BLost]; they do not enter check, updateMonitor or deleteMonitor on the
      checking goroutine (that would block for ever). *)
From Verif Require Export GoBase.
From stdpp Require Export functions.

(** Where check is: not running; about to visit the rest [todo]; [c] found late
    and deleted (75); [c] closed if [shut] (77-79). *)
Inductive chk := CIdle | CAt (todo : list nat) | CLate (c : nat) (todo : list nat) | CShut (c : nat) (todo : list nat).
(** The heartbeat goroutine of a connection (146-168): not started; running; has
    seen the connection closed (148); ended after deleteMonitor (150). *)
Inductive gphase := GNone | GRun | GLeaving | GEnded.
Record bst := Bst {
  b_now : Z;
  b_mon : nat -> option Z;      (* monitors *)
  b_chk : chk;
  b_closed : nat -> bool;       (* connection.Closed() *)
  b_fly : nat -> bool;          (* a heartbeat is read and not yet registered: between proc_lowerdeck.go:75 and 42 *)
  b_gs : nat -> gphase }.
Definition new_beat : bst := Bst 0 (fun _ => None) CIdle (fun _ => false) (fun _ => false) (fun _ => GNone).

Inductive blab :=
| BTick (d : Z)                      (* [d] nanoseconds pass *)
| BOpen (c : nat)                    (* OnEvent with the new connection [c], 139-145 *)
| BArrive (c : nat) | BBeat (c : nat)  (* a heartbeat on [c] is read; updateMonitor, 129 *)
| BClose (c : nat)                   (* connection.Close() by anybody but check *)
| BSee (c : nat) | BGone (c : nat)   (* heartbeat goroutine: sees Closed, 148; deleteMonitor and return, 150 *)
| BCheck (todo : list nat) | BKeep (c : nat) | BLate (c : nat) | BShut (c : nat) | BLost (c : nat) | BDone.

Definition second : Z := 1000000000.

Inductive bstep (timeout : Z) (shut : bool) : bst -> blab -> bst -> Prop :=
| bk_tick now m k cl fl gs d : (0 <= d)%Z ->
    bstep timeout shut (Bst now m k cl fl gs) (BTick d) (Bst (now + d) m k cl fl gs)
(** OnEvent, 139-146 *)
| bk_open now m cl fl gs c : gs c = GNone ->
    bstep timeout shut (Bst now m CIdle cl fl gs) (BOpen c) (Bst now (<[c := Some now]> m) CIdle cl fl (<[c := GRun]> gs))
(** proc_lowerdeck.go:75-84, then OnLowerData, 112-126 *)
| bk_arrive now m k cl fl gs c : gs c <> GNone -> cl c = false -> fl c = false ->
    bstep timeout shut (Bst now m k cl fl gs) (BArrive c) (Bst now m k cl (<[c := true]> fl) gs)
(** 128-133 *)
| bk_beat now m cl fl gs c : fl c = true ->
    bstep timeout shut (Bst now m CIdle cl fl gs) (BBeat c) (Bst now (<[c := Some now]> m) CIdle cl (<[c := false]> fl) gs)
| bk_close now m k cl fl gs c :
    bstep timeout shut (Bst now m k cl fl gs) (BClose c) (Bst now m k (<[c := true]> cl) fl gs)
(** 146-152 *)
| bk_see now m k cl fl gs c : gs c = GRun -> cl c = true ->
    bstep timeout shut (Bst now m k cl fl gs) (BSee c) (Bst now m k cl fl (<[c := GLeaving]> gs))
| bk_gone now m cl fl gs c : gs c = GLeaving ->
    bstep timeout shut (Bst now m CIdle cl fl gs) (BGone c) (Bst now (<[c := None]> m) CIdle cl fl (<[c := GEnded]> gs))
(** check, 60-67 *)
| bk_check now m cl fl gs todo : NoDup todo -> (forall c, c ∈ todo <-> m c <> None) ->
    bstep timeout shut (Bst now m CIdle cl fl gs) (BCheck todo) (Bst now m (CAt todo) cl fl gs)
(** 68-71 *)
| bk_keep now m cl fl gs c todo t : m c = Some t -> ((now - t) / second < timeout)%Z ->
    bstep timeout shut (Bst now m (CAt (c :: todo)) cl fl gs) (BKeep c) (Bst now m (CAt todo) cl fl gs)
(** 68-75 *)
| bk_late now m cl fl gs c todo t : m c = Some t -> (timeout <= (now - t) / second)%Z ->
    bstep timeout shut (Bst now m (CAt (c :: todo)) cl fl gs) (BLate c) (Bst now (<[c := None]> m) (CLate c todo) cl fl gs)
(** 77-79 *)
| bk_shut now m cl fl gs c todo : shut = true ->
    bstep timeout shut (Bst now m (CLate c todo) cl fl gs) (BShut c) (Bst now m (CShut c todo) (<[c := true]> cl) fl gs)
(** 81-85 *)
| bk_lost now m cl fl gs c todo :
    shut = true ->
    bstep timeout shut (Bst now m (CShut c todo) cl fl gs) (BLost c) (Bst now m (CAt todo) cl fl gs)
| bk_lost_open now m cl fl gs c todo :
    shut = false ->
    bstep timeout shut (Bst now m (CLate c todo) cl fl gs) (BLost c) (Bst now m (CAt todo) cl fl gs)
(** 86-87 *)
| bk_done now m cl fl gs :
    bstep timeout shut (Bst now m (CAt []) cl fl gs) BDone (Bst now m CIdle cl fl gs).
