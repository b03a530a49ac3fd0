(** * Model of the lower deck's connections (proc_lowerdeck.go)

    The goroutine that waits for connections, the receiving goroutine of each
    connection, and any number of goroutines that send through OnUpperData, as
    interleaving transitions.  What reads and writes return is left open: a read
    yields data or ends (no data, nil or an error), a write succeeds or fails.
    Connections are numbered in the order NextConnection returns them (it
    returns none twice: Props_Sock.C51_handed_once).  Publishing an event is one
    transition; the layers above are the events [EvData].  A goroutine sends on
    a connection only after it has been announced: that is how one gets hold of
    it.  Memory accesses are sequentially consistent. *)
From Verif Require Export GoBase.

Inductive phase :=
| PTaken        (* NextConnection has returned it, 43 *)
| PReading      (* announced (52-56), in GetReference (62) or ReadFrom (75) *)
| PGot          (* data read, before OnLowerData (68, 81) *)
| PEnding       (* the read has ended, before Close (24) *)
| PClosing      (* closed, before the event (27) *)
| PEnded.
Inductive wpc := WWriting | WFailed | WClosing | WDone.
Inductive cev := EvNew (c : nat) | EvData (c : nat) | EvClosed (c : nat).
Record tst := Tst {
  t_conns : list (phase * bool);    (* phase, closed *)
  t_writers : list (nat * wpc);     (* calls of OnUpperData: connection, where *)
  t_log : list cev }.               (* published events and data handed up *)
Definition new_conns : tst := Tst [] [] [].

Inductive tlab :=
| TNext | TNew (c : nat)
| TRead (c : nat) | TDeliver (c : nat)
| TEnd (c : nat) | TEndClose (c : nat) | TEndPublish (c : nat)
| TWrite (c : nat) | TWriteOk (w c : nat) | TWriteErr (w c : nat) | TErrClose (w c : nat) | TErrPublish (w c : nat)
| TClose (c : nat).                 (* Close by anybody else *)

Inductive tstep : tst -> tlab -> tst -> Prop :=
(** acceptTransport, 43-47 *)
| tk_next cs ws lg : tstep (Tst cs ws lg) TNext (Tst (cs ++ [(PTaken, false)]) ws lg)
(** 52-59 *)
| tk_new cs ws lg c b : cs !! c = Some (PTaken, b) ->
    tstep (Tst cs ws lg) (TNew c) (Tst (<[c := (PReading, b)]> cs) ws (lg ++ [EvNew c]))
(** the receiving goroutine, 60-86 *)
| tk_read cs ws lg c b : cs !! c = Some (PReading, b) ->
    tstep (Tst cs ws lg) (TRead c) (Tst (<[c := (PGot, b)]> cs) ws lg)
| tk_deliver cs ws lg c b : cs !! c = Some (PGot, b) ->
    tstep (Tst cs ws lg) (TDeliver c) (Tst (<[c := (PReading, b)]> cs) ws (lg ++ [EvData c]))
| tk_end cs ws lg c b : cs !! c = Some (PReading, b) ->
    tstep (Tst cs ws lg) (TEnd c) (Tst (<[c := (PEnding, b)]> cs) ws lg)
(** closeConnection, 22-32, called by it *)
| tk_end_close cs ws lg c b : cs !! c = Some (PEnding, b) ->
    tstep (Tst cs ws lg) (TEndClose c) (Tst (<[c := (PClosing, true)]> cs) ws lg)
| tk_end_publish cs ws lg c b : cs !! c = Some (PClosing, b) ->
    tstep (Tst cs ws lg) (TEndPublish c) (Tst (<[c := (PEnded, b)]> cs) ws (lg ++ [EvClosed c]))
(** OnUpperData, 98-120 *)
| tk_write cs ws lg c : EvNew c ∈ lg ->
    tstep (Tst cs ws lg) (TWrite c) (Tst cs (ws ++ [(c, WWriting)]) lg)
| tk_write_ok cs ws lg w c : ws !! w = Some (c, WWriting) ->
    tstep (Tst cs ws lg) (TWriteOk w c) (Tst cs (<[w := (c, WDone)]> ws) lg)
| tk_write_err cs ws lg w c : ws !! w = Some (c, WWriting) ->
    tstep (Tst cs ws lg) (TWriteErr w c) (Tst cs (<[w := (c, WFailed)]> ws) lg)
| tk_err_close cs ws lg w c p b : ws !! w = Some (c, WFailed) -> cs !! c = Some (p, b) ->
    tstep (Tst cs ws lg) (TErrClose w c) (Tst (<[c := (p, true)]> cs) (<[w := (c, WClosing)]> ws) lg)
| tk_err_publish cs ws lg w c : ws !! w = Some (c, WClosing) ->
    tstep (Tst cs ws lg) (TErrPublish w c) (Tst cs (<[w := (c, WDone)]> ws) (lg ++ [EvClosed c]))
| tk_close cs ws lg c p b : cs !! c = Some (p, b) ->
    tstep (Tst cs ws lg) (TClose c) (Tst (<[c := (p, true)]> cs) ws lg).
