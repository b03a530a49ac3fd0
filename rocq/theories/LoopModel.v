(** * Model of the endpoints of a stack with a Loopback

    Below the codec of the stack stands proc_loopback.go, which hands what comes
    from above back up, in the same call.  So the goroutine that sends for an
    endpoint (proc_upperdeck.go:47-66) itself puts the message into the receive
    channel of the endpoint the message is for (proc_upperdeck.go:115-117).  One
    transition system: the transmit channels, these goroutines, the receive
    channels and the goroutines that call the data listeners, which may send
    messages in turn.  The call through the processors is that of StackModel.

    Simplifications: that call is one step up to the put into the channel (the
    processors that carry messages keep no state but counters); the endpoints exist from the start (Deck, Again)
    and have listeners (End), which return when what they send has been put into
    the channels.  The listener of an endpoint is named by its session. *)
From Verif Require Export GoBase UBufModel FrameModel StackModel.
From Verif Require Import StackSpec.
From stdpp Require Export functions.

(** endp_default.go:8-13: connection and destination session, if set, and data. *)
Record parcel := Parcel { pc_conn : option conn; pc_dest : option Z; pc_msg : msg }.
(** The goroutine of an endpoint: in its select; has taken a message; is back in
    the upper deck and has these to put into receive channels. *)
Inductive hand := HIdle | HTook (x : parcel) | HUp (x : parcel) (ds : list (Z * msg)).

Record lst := Lst {
  o_tx : nat -> list parcel;           (* txChannel of each endpoint *)
  o_hand : nat -> hand;
  o_st : st;                           (* the processors *)
  o_rx : Z -> list msg;                (* rxChannel of each endpoint *)
  o_todo : Z -> list (nat * parcel);   (* what the running listener still has to send, and from where *)
  o_seen : list (Z * msg);             (* what the listeners have been called with *)
  o_low : list out }.                  (* ghost: everything else that was done, such as Write calls *)

Definition is_delivery (o : out) : option (Z * msg) := match o with ODeliver z _ m => Some (z, m) | _ => None end.
Definition no_delivery (o : out) : option out := match o with ODeliver _ _ _ => None | _ => Some o end.

Inductive llab :=
| LPut (e : nat) (x : parcel)          (* by the user, outside of listeners *)
| LTake (e : nat)
| LPass (e : nat)
| LDeliver (e : nat)
| LBack (e : nat)
| LListen (z : Z)
| LSend (z : Z) (e : nat) (x : parcel).

(** The stack, the sessions of its endpoints, the capacities of the channels,
    and what the listener of a session sends when it is called with a message. *)
Record lop := Lop { lenv : env; lsess : nat -> Z; ltxcap : nat; lrxcap : nat; lreply : Z -> msg -> list (nat * parcel) }.
Definition new_loop (s : st) : lst := Lst (fun _ => []) (fun _ => HIdle) s (fun _ => []) (fun _ => []) [] [].
Inductive lstep (L : lop) : lst -> llab -> lst -> Prop :=
(** [ep.GetTxChannel() <- epd]: blocks while the channel is full *)
| lk_put tx hd s rx td sn lo e x : length (tx e) < ltxcap L ->
    lstep L (Lst tx hd s rx td sn lo) (LPut e x) (Lst (<[e := tx e ++ [x]]> tx) hd s rx td sn lo)
(** proc_upperdeck.go:54 *)
| lk_take tx hd s rx td sn lo e x q : hd e = HIdle -> tx e = x :: q ->
    lstep L (Lst tx hd s rx td sn lo) (LTake e) (Lst (<[e := q]> tx) (<[e := HTook x]> hd) s rx td sn lo)
(** proc_upperdeck.go:55-64, the codec, proc_loopback.go:23-26, the codec, proc_upperdeck.go:105-114 *)
| lk_pass tx hd s rx td sn lo e x outs s' : hd e = HTook x ->
    finishes (fun f => send f (lenv L) (lsess L e) (pc_dest x) (pc_conn x) (Some (pc_msg x)) s) s outs s' ->
    lstep L (Lst tx hd s rx td sn lo) (LPass e)
      (Lst tx (<[e := HUp x (omap is_delivery outs)]> hd) s' rx td sn (lo ++ omap no_delivery outs))
(** proc_upperdeck.go:115-117: blocks while the channel is full *)
| lk_deliver tx hd s rx td sn lo e x z m ds : hd e = HUp x ((z, m) :: ds) -> length (rx z) < lrxcap L ->
    lstep L (Lst tx hd s rx td sn lo) (LDeliver e) (Lst tx (<[e := HUp x ds]> hd) s (<[z := rx z ++ [m]]> rx) td sn lo)
(** proc_upperdeck.go:48: the next round of the loop *)
| lk_back tx hd s rx td sn lo e x : hd e = HUp x [] ->
    lstep L (Lst tx hd s rx td sn lo) (LBack e) (Lst tx (<[e := HIdle]> hd) s rx td sn lo)
(** endp_default.go:85-91: the listener is called; the one before has returned *)
| lk_listen tx hd s rx td sn lo z m q : td z = [] -> rx z = m :: q ->
    lstep L (Lst tx hd s rx td sn lo) (LListen z)
      (Lst tx hd s (<[z := q]> rx) (<[z := lreply L z m]> td) (sn ++ [(z, m)]) lo)
(** The listener sends: blocks while the channel is full *)
| lk_send tx hd s rx td sn lo z e x q : td z = (e, x) :: q -> length (tx e) < ltxcap L ->
    lstep L (Lst tx hd s rx td sn lo) (LSend z e x) (Lst (<[e := tx e ++ [x]]> tx) hd s rx (<[z := q]> td) sn lo).
