(** * Model of two stacks joined by a byte connection

    The endpoints of stack [A] send on its connection [cA]; the other end is
    connection [cB] of stack [B].  What happens between the transmit channels of
    [A]'s endpoints and the data listeners of [B]'s endpoints, as one transition
    system: the goroutines of [A]'s upper deck, the bytes under way, the
    goroutine of [B]'s lower deck that receives from [cB], the receive channels
    of [B]'s endpoints and the goroutines that call the listeners.  The calls
    through the processors are those of StackModel.

    Simplifications: a message passes through [A]'s processors in one step (the
    processors that carry messages keep no state but counters, and net.Conn
    serialises Write calls: WireModel), and what one chunk makes [B]'s
    processors deliver is computed in one step and put into the channels one
    after the other; the endpoints exist from the start (Deck, Again); their
    listeners are set and return (End); the connection stays open (Conn, Wire,
    Sock).  An endpoint of [B] is named by its session. *)
From Verif Require Export GoBase UBufModel FrameModel StackModel.
From Verif Require Import StackSpec.
From stdpp Require Export functions.

(** endp_default.go:8-13: destination session, if set, and data. *)
Record mail := Mail { ml_dest : option Z; ml_msg : msg }.

Record nst := Nst {
  n_tx : nat -> list mail;           (* txChannel of each endpoint of A *)
  n_hand : nat -> option mail;       (* what the endpoint's goroutine is sending *)
  n_a : st;                          (* A's processors *)
  n_wire : list byte;                (* written to cA, not yet read from cB *)
  n_b : st;                          (* B's processors *)
  n_up : list (Z * msg);             (* what the receiving goroutine still has to deliver *)
  n_rx : Z -> list msg;              (* rxChannel of each endpoint of B *)
  n_seen : list (Z * msg);           (* what the listeners have been called with *)
  n_writes : list (list byte);       (* ghost: the Write calls on cA so far *)
  n_got : nat }.                     (* ghost: how many bytes have been read *)

(** Bytes written to [c], and messages delivered, among what a call shows. *)
Definition written (c : conn) (outs : list out) : list (list byte) :=
  omap (fun o => match o with OWire c' l => if decide (c' = c) then Some l else None | _ => None end) outs.
Definition delivered (outs : list out) : list (Z * msg) :=
  omap (fun o => match o with ODeliver z _ m => Some (z, m) | _ => None end) outs.

Inductive nlab :=
| NPut (e : nat) (x : mail)
| NTake (e : nat)
| NPass (e : nat)
| NRead (n : nat)
| NDeliver
| NListen (z : Z).

(** The stacks, the two ends of the connection, the sessions of [A]'s endpoints
    and the capacities of the channels. *)
Record net := Net {
  na : env; nb : env; nca : conn; ncb : conn; nsess : nat -> Z; ntxcap : nat; nrxcap : nat }.
Definition new_net (a b : st) : nst := Nst (fun _ => []) (fun _ => None) a [] b [] (fun _ => []) [] [] 0.
Inductive nstep (N : net) : nst -> nlab -> nst -> Prop :=
(** [ep.GetTxChannel() <- epd]: blocks while the channel is full *)
| nk_put tx hd a w b up rx sn ws g e x : length (tx e) < ntxcap N ->
    nstep N (Nst tx hd a w b up rx sn ws g) (NPut e x) (Nst (<[e := tx e ++ [x]]> tx) hd a w b up rx sn ws g)
(** proc_upperdeck.go:54 *)
| nk_take tx hd a w b up rx sn ws g e x q : hd e = None -> tx e = x :: q ->
    nstep N (Nst tx hd a w b up rx sn ws g) (NTake e) (Nst (<[e := q]> tx) (<[e := Some x]> hd) a w b up rx sn ws g)
(** proc_upperdeck.go:55-64, the processors, proc_lowerdeck.go:98-120 *)
| nk_pass tx hd a w b up rx sn ws g e x outs a' : hd e = Some x ->
    finishes (fun f => send f (na N) (nsess N e) (ml_dest x) (Some (nca N)) (Some (ml_msg x)) a) a outs a' ->
    nstep N (Nst tx hd a w b up rx sn ws g) (NPass e)
      (Nst tx (<[e := None]> hd) a' (w ++ concat (written (nca N) outs)) b up rx sn (ws ++ written (nca N) outs) g)
(** proc_lowerdeck.go:73-84: Read returns any number of the bytes that are there, at most the MTU *)
| nk_read tx hd a w b rx sn ws g n outs b' : 0 < n -> n <= length w -> (Z.of_nat n <= e_mtu (nb N))%Z ->
    finishes (fun f => receive f (nb N) (ncb N) (take n w) b) b outs b' ->
    nstep N (Nst tx hd a w b [] rx sn ws g) (NRead n) (Nst tx hd a (drop n w) b' (delivered outs) rx sn ws (g + n))
(** proc_upperdeck.go:115-117: blocks while the channel is full *)
| nk_deliver tx hd a w b z m up rx sn ws g : length (rx z) < nrxcap N ->
    nstep N (Nst tx hd a w b ((z, m) :: up) rx sn ws g) NDeliver (Nst tx hd a w b up (<[z := rx z ++ [m]]> rx) sn ws g)
(** endp_default.go:85-91 *)
| nk_listen tx hd a w b up rx sn ws g z m q : rx z = m :: q ->
    nstep N (Nst tx hd a w b up rx sn ws g) (NListen z) (Nst tx hd a w b up (<[z := q]> rx) (sn ++ [(z, m)]) ws g).
