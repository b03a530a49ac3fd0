(** * Model of a transport in a running stack: proc_lowerdeck.go over tran_tcp.go or tran_unix.go

    The transport is that of SockModel; on it work the goroutines that
    acceptTransport (proc_lowerdeck.go:35-88) starts: one that calls
    NextConnection in a loop, and one per connection that reads.  What a read
    returns is left open, but a read of a closed connection yields no data
    (tran_tcp.go:39-52).  Publishing an event and handing data up are one
    transition each and recorded in a log.  Sending (98-120) is the subject of
    ConnModel and left out here; that it may close a connection is the
    transition [SClosed] of the transport. *)
From Verif Require Export GoBase SockModel.
From Verif Require Import ConnModel.

(** The goroutine of 40-87. *)
Inductive dpc :=
| DNext                (* about to call NextConnection, 43 *)
| DWait (j : nat)      (* in it: call number [j] *)
| DHave (c : nat)      (* it has returned connection [c], before 52 *)
| DEnd.                (* it has returned nil, 46 *)
Record lst := Lst {
  l_tp : sst;
  l_deck : list dpc;
  l_rd : list (nat * phase);     (* the reading goroutines, 60-86: connection, where *)
  l_log : list cev }.
Definition new_life : lst := Lst new_sock [] [] [].

Inductive llab :=
| LAccept | LDelete                    (* acceptTransport; deleteTransport *)
| LTran (l : slab)                     (* a step of the transport's own *)
| LCall (d : nat) | LGot (d : nat) | LAnnounce (d c : nat)
| LRead (i c : nat) | LDeliver (i c : nat)
| LEnd (i c : nat) | LEndClose (i c : nat) | LEndPublish (i c : nat).
(** Transitions of the transport that nobody but itself (or an owner of one of its connections) makes. *)
Definition of_its_own (l : slab) : bool := match l with SRun | SStop | SCall => false | _ => true end.

Section life.
Context (uds server : bool) (maxretry : Z).

Inductive lstep : lst -> llab -> lst -> Prop :=
(** acceptTransport, 35-40: Run, and a goroutine *)
| lk_accept tp tp' ds rs lg :
    kstep uds server maxretry tp SRun tp' -> lstep (Lst tp ds rs lg) LAccept (Lst tp' (ds ++ [DNext]) rs lg)
(** deleteTransport, 91-93: Stop begins *)
| lk_delete tp tp' ds rs lg :
    kstep uds server maxretry tp SStop tp' -> lstep (Lst tp ds rs lg) LDelete (Lst tp' ds rs lg)
| lk_tran tp l tp' ds rs lg :
    of_its_own l = true -> kstep uds server maxretry tp l tp' -> lstep (Lst tp ds rs lg) (LTran l) (Lst tp' ds rs lg)
(** 43 *)
| lk_call tp tp' ds rs lg d :
    ds !! d = Some DNext -> kstep uds server maxretry tp SCall tp' ->
    lstep (Lst tp ds rs lg) (LCall d) (Lst tp' (<[d := DWait (length (k_users tp))]> ds) rs lg)
(** 45-47 *)
| lk_got tp ds rs lg d j r :
    k_crash tp = None -> ds !! d = Some (DWait j) -> k_users tp !! j = Some (UDone r) ->
    lstep (Lst tp ds rs lg) (LGot d) (Lst tp (<[d := match r with Some c => DHave c | None => DEnd end]> ds) rs lg)
(** 52-59 *)
| lk_announce tp ds rs lg d c :
    k_crash tp = None -> ds !! d = Some (DHave c) ->
    lstep (Lst tp ds rs lg) (LAnnounce d c) (Lst tp (<[d := DNext]> ds) (rs ++ [(c, PReading)]) (lg ++ [EvNew c]))
(** 60-86 *)
| lk_read tp ds rs lg i c :
    k_crash tp = None -> rs !! i = Some (c, PReading) -> c ∉ k_closed tp ->
    lstep (Lst tp ds rs lg) (LRead i c) (Lst tp ds (<[i := (c, PGot)]> rs) lg)
| lk_deliver tp ds rs lg i c :
    k_crash tp = None -> rs !! i = Some (c, PGot) ->
    lstep (Lst tp ds rs lg) (LDeliver i c) (Lst tp ds (<[i := (c, PReading)]> rs) (lg ++ [EvData c]))
| lk_end tp ds rs lg i c :
    k_crash tp = None -> rs !! i = Some (c, PReading) ->
    lstep (Lst tp ds rs lg) (LEnd i c) (Lst tp ds (<[i := (c, PEnding)]> rs) lg)
(** closeConnection, 22-32 *)
| lk_end_close tp ds rs lg i c :
    k_crash tp = None -> rs !! i = Some (c, PEnding) ->
    lstep (Lst tp ds rs lg) (LEndClose i c) (Lst (set_closed (k_closed tp ++ [c]) tp) ds (<[i := (c, PClosing)]> rs) lg)
| lk_end_publish tp ds rs lg i c :
    k_crash tp = None -> rs !! i = Some (c, PClosing) ->
    lstep (Lst tp ds rs lg) (LEndPublish i c) (Lst tp ds (<[i := (c, PEnded)]> rs) (lg ++ [EvClosed c])).
End life.
