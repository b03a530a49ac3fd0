(** * Model of goroutines that send until their connection is closed

    examples/dynamic_endpoint/main.go:36-48 and 80-97: for every new connection
    the event listener starts a goroutine that, in a loop, returns if the
    connection is closed, sleeps, and puts a message into the transmit channel of
    the endpoint.  In examples/dynamic_transport/main.go:50-63 the loop is the
    same without the test.  One transition system: these goroutines, the transmit
    channel (endp_default.go:100), the goroutine of the endpoint
    (proc_upperdeck.go:47-66), connections that get closed, and a DeleteEndPoint
    (proc_upperdeck.go:71-81), in any order.

    Simplifications: one endpoint; the sleep ends at some time; the call through
    the processors is two steps, begin and end, and ends (Stack, Net); a message
    is named by the goroutine that sent it. *)
From Verif Require Export GoBase.
From stdpp Require Export functions.

(** Not started; before the test; asleep; at the put; has returned. *)
Inductive phase := PNone | PTest | PSleep | PSend | PDone.
(** The endpoint's goroutine: in its select, with ([true]) or without ([false]: a
    nil channel, the entry is gone from the map) its stop channel; in the call for
    a message; has returned. *)
Inductive server := GWait (h : bool) | GBusy (x : nat) | GGone.

Record pst := Pst {
  p_at : list phase;               (* the user's goroutines *)
  p_closed : nat -> bool;          (* connection.Closed() *)
  p_tx : list nat;                 (* txChannel *)
  p_g : server;
  p_del : bool;                    (* the endpoint is out of the map *)
  p_sent : list nat }.             (* ghost: what was handed to the processors *)

Inductive plab :=
| PStart (j : nat) | POpen (j : nat) | PReturn (j : nat) | PWake (j : nat) | PPut (j : nat)
| PTake | PBack | PClose (c : nat) | PDelete | PStop.

(** The goroutines, their connections, which of them test, and the capacity. *)
Record poll := Poll { pnum : nat; pconn : nat -> nat; ptests : nat -> bool; pcap : nat }.
Definition new_poll (P : poll) : pst := Pst (replicate (pnum P) PNone) (fun _ => false) [] (GWait true) false [].

Inductive pstep (P : poll) : pst -> plab -> pst -> Prop :=
(** dynamic_endpoint 36, 80: [go func()] *)
| pk_start at_ cl tx g d sn j : at_ !! j = Some PNone ->
    pstep P (Pst at_ cl tx g d sn) (PStart j) (Pst (<[j := PTest]> at_) cl tx g d sn)
(** 38-40, 88-90: [connection.Closed()] says no, or is not asked *)
| pk_open at_ cl tx g d sn j : at_ !! j = Some PTest -> (ptests P j = true -> cl (pconn P j) = false) ->
    pstep P (Pst at_ cl tx g d sn) (POpen j) (Pst (<[j := PSleep]> at_) cl tx g d sn)
| pk_return at_ cl tx g d sn j : at_ !! j = Some PTest -> ptests P j = true -> cl (pconn P j) = true ->
    pstep P (Pst at_ cl tx g d sn) (PReturn j) (Pst (<[j := PDone]> at_) cl tx g d sn)
(** 41, 91: [time.Sleep] returns *)
| pk_wake at_ cl tx g d sn j : at_ !! j = Some PSleep ->
    pstep P (Pst at_ cl tx g d sn) (PWake j) (Pst (<[j := PSend]> at_) cl tx g d sn)
(** 44-46, 93-95: [endpoint.GetTxChannel() <- epd], blocks while the channel is full *)
| pk_put at_ cl tx g d sn j : at_ !! j = Some PSend -> length tx < pcap P ->
    pstep P (Pst at_ cl tx g d sn) (PPut j) (Pst (<[j := PTest]> at_) cl (tx ++ [j]) g d sn)
(** proc_upperdeck.go:54 *)
| pk_take at_ cl x tx h d sn :
    pstep P (Pst at_ cl (x :: tx) (GWait h) d sn) PTake (Pst at_ cl tx (GBusy x) d sn)
(** 60-64 return; 49-50: the next select looks up the stop channel in the map *)
| pk_back at_ cl tx x d sn :
    pstep P (Pst at_ cl tx (GBusy x) d sn) PBack (Pst at_ cl tx (GWait (negb d)) d (sn ++ [x]))
(** the connection is closed, by anybody *)
| pk_close at_ cl tx g d sn c :
    pstep P (Pst at_ cl tx g d sn) (PClose c) (Pst at_ (<[c := true]> cl) tx g d sn)
(** proc_upperdeck.go:75-80 *)
| pk_delete at_ cl tx g sn :
    pstep P (Pst at_ cl tx g false sn) PDelete (Pst at_ cl tx g true sn)
(** proc_upperdeck.go:50-53: the stop channel held since before the deletion *)
| pk_stop at_ cl tx sn :
    pstep P (Pst at_ cl tx (GWait true) true sn) PStop (Pst at_ cl tx GGone true sn).
