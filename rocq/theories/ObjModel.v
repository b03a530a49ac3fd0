(** * Model of stacks joined by reference transports

    Any number of stacks, each with one running reference transport on the same
    address, some as servers and some as clients: all of them share the two
    channels of the address (RefModel).  What happens between the transmit
    channels of the endpoints and their data listeners, as one transition
    system: the goroutines of the upper decks, the two channels, the goroutines
    of the lower decks that receive, the receive channels of the endpoints and
    the goroutines that call the listeners.  The calls through the processors are
    those of StackModel.

    Simplifications: the processors of a stack are passed in one step, and the
    objects they hand to SetReference are then put into the channel one after the
    other (what a processor does behind the call of the next one is done before);
    what one object makes the receiving processors deliver is computed in one step
    and put into the channels one after the other; the connections stay open
    (Ref), the endpoints exist from the start (Deck, Again), their listeners are
    set and return (End), and everything is sent on the stack's connection.  An
    endpoint is named by its stack and its session ([nat] for those that send). *)
From Verif Require Export GoBase UBufModel FrameModel StackModel NetModel.
From Verif Require Import StackSpec.

Record ost := Ost {
  o_tx : nat * nat -> list mail;          (* txChannel of each endpoint *)
  o_hand : nat * nat -> option mail;      (* what the endpoint's goroutine took *)
  o_set : nat * nat -> list msg;          (* ... and is inside SetReference with *)
  o_st : nat -> st;                       (* the processors of each stack *)
  o_chan : bool -> list msg;              (* true: serverRxClientTx, false: serverTxClientRx *)
  o_up : nat -> list (Z * msg);           (* what the receiving goroutine still has to deliver *)
  o_rx : nat * Z -> list msg;             (* rxChannel of each endpoint *)
  o_seen : list (nat * (Z * msg)) }.      (* what the listeners have been called with *)

(** The stacks, their connections and sides, the sessions of the endpoints and
    the capacities. *)
Record objs := Objs {
  ob_env : nat -> env; ob_conn : nat -> conn; ob_server : nat -> bool; ob_sess : nat * nat -> Z;
  ob_txcap : nat; ob_cap : nat; ob_rxcap : nat }.
(** The objects handed to connection [c] among what a call shows. *)
Definition handed (c : conn) (outs : list out) : list msg :=
  omap (fun o => match o with ORef c' m => if decide (c' = c) then Some m else None | _ => None end) outs.

Inductive olab :=
| OPut (e : nat * nat) (x : mail)
| OTake (e : nat * nat)
| OPass (e : nat * nat)
| OSend (e : nat * nat)
| OGet (j : nat)
| OHand (e : nat * nat) (j : nat)
| OGive (j : nat)
| OListen (j : nat) (z : Z).

Definition new_objs (ss : nat -> st) : ost :=
  Ost (fun _ => []) (fun _ => None) (fun _ => []) ss (fun _ => []) (fun _ => []) (fun _ => []) [].
Inductive ostep (N : objs) : ost -> olab -> ost -> Prop :=
(** [ep.GetTxChannel() <- epd]: blocks while the channel is full *)
| ok_put tx hd se ss ch up rx sn e x : length (tx e) < ob_txcap N ->
    ostep N (Ost tx hd se ss ch up rx sn) (OPut e x) (Ost (<[e := tx e ++ [x]]> tx) hd se ss ch up rx sn)
(** proc_upperdeck.go:54: the goroutine is back from the last call *)
| ok_take tx hd se ss ch up rx sn e x q : hd e = None -> se e = [] -> tx e = x :: q ->
    ostep N (Ost tx hd se ss ch up rx sn) (OTake e) (Ost (<[e := q]> tx) (<[e := Some x]> hd) se ss ch up rx sn)
(** proc_upperdeck.go:55-64, the processors, proc_lowerdeck.go:98-107 *)
| ok_pass tx hd se ss ch up rx sn e x outs s' : hd e = Some x ->
    finishes (fun f => send f (ob_env N (fst e)) (ob_sess N e) (ml_dest x) (Some (ob_conn N (fst e))) (Some (ml_msg x)) (ss (fst e)))
      (ss (fst e)) outs s' ->
    ostep N (Ost tx hd se ss ch up rx sn) (OPass e)
      (Ost tx (<[e := None]> hd) (<[e := handed (ob_conn N (fst e)) outs]> se) (<[fst e := s']> ss) ch up rx sn)
(** tran_reference.go:130-134: blocks while the channel is full *)
| ok_send tx hd se ss ch up rx sn e m q : se e = m :: q -> length (ch (negb (ob_server N (fst e)))) < ob_cap N ->
    ostep N (Ost tx hd se ss ch up rx sn) (OSend e)
      (Ost tx hd (<[e := q]> se) ss (<[negb (ob_server N (fst e)) := ch (negb (ob_server N (fst e))) ++ [m]]> ch) up rx sn)
(** tran_reference.go:110-114, proc_lowerdeck.go:61-71 *)
| ok_get tx hd se ss ch up rx sn j m q outs s' : up j = [] -> ch (ob_server N j) = m :: q ->
    finishes (fun f => receive_ref f (ob_env N j) (ob_conn N j) m (ss j)) (ss j) outs s' ->
    ostep N (Ost tx hd se ss ch up rx sn) (OGet j)
      (Ost tx hd se (<[j := s']> ss) (<[ob_server N j := q]> ch) (<[j := delivered outs]> up) rx sn)
(** The same when a send meets a waiting receive: the channel is empty. *)
| ok_hand tx hd se ss ch up rx sn e m q j outs s' : se e = m :: q -> up j = [] ->
    ob_server N j = negb (ob_server N (fst e)) -> ch (ob_server N j) = [] ->
    finishes (fun f => receive_ref f (ob_env N j) (ob_conn N j) m (ss j)) (ss j) outs s' ->
    ostep N (Ost tx hd se ss ch up rx sn) (OHand e j)
      (Ost tx hd (<[e := q]> se) (<[j := s']> ss) ch (<[j := delivered outs]> up) rx sn)
(** proc_upperdeck.go:115-117: blocks while the channel is full *)
| ok_give tx hd se ss ch up rx sn j z m q : up j = (z, m) :: q -> length (rx (j, z)) < ob_rxcap N ->
    ostep N (Ost tx hd se ss ch up rx sn) (OGive j) (Ost tx hd se ss ch (<[j := q]> up) (<[(j, z) := rx (j, z) ++ [m]]> rx) sn)
(** endp_default.go:85-91 *)
| ok_listen tx hd se ss ch up rx sn j z m q : rx (j, z) = m :: q ->
    ostep N (Ost tx hd se ss ch up rx sn) (OListen j z) (Ost tx hd se ss ch up (<[(j, z) := q]> rx) (sn ++ [(j, (z, m))])).
