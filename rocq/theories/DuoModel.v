(** * Model of two stacks that talk in both directions

    As NetModel, but both stacks send and receive over the connection that
    joins them, and their Heartbeat and StatCounter processors send messages of
    their own: the heartbeat goroutines (proc_heartbeat.go:146-168), the
    goroutines that ask for statistics (proc_stat_counter.go:156-167), and the
    answers that the receiving goroutine itself writes
    (proc_stat_counter.go:79-93).  Everything happens in any order.

    Simplifications: those of NetModel; when the goroutines of the processors
    wake up is left open (any order, any number of times); Write never blocks. *)
From Verif Require Export GoBase UBufModel FrameModel StackModel NetModel.
From Verif Require Import StackSpec.

(** The two sides, each by its environment and its end of the connection; the
    sessions of their endpoints and the capacities of the channels. *)
Record duo := Duo {
  du_env : bool -> env; du_conn : bool -> conn; du_sess : bool -> nat -> Z; du_txcap : nat; du_rxcap : nat }.

Record dst := Dst {
  d_tx : bool * nat -> list mail;        (* txChannel of each endpoint *)
  d_hand : bool * nat -> option mail;    (* what the endpoint's goroutine is sending *)
  d_st : bool -> st;                     (* the processors of each side *)
  d_wire : bool -> list byte;            (* written by this side, not yet read by the other *)
  d_up : bool -> list (Z * msg);         (* what the receiving goroutine still has to deliver *)
  d_rx : bool * Z -> list msg;           (* rxChannel of each endpoint *)
  d_seen : list (bool * (Z * msg));      (* what the listeners have been called with *)
  d_writes : bool -> list (list byte);   (* ghost: the Write calls of each side so far *)
  d_got : bool -> nat }.                 (* ghost: how many bytes of this side have been read *)
Definition new_duo (ss : bool -> st) : dst :=
  Dst (fun _ => []) (fun _ => None) ss (fun _ => []) (fun _ => []) (fun _ => []) [] (fun _ => []) (fun _ => 0).

Inductive dlab :=
| DPut (e : bool * nat) (x : mail)
| DTake (e : bool * nat)
| DPass (e : bool * nat)
| DSelf (b : bool) (i : nat) (tag : byte)   (* processor [i] of side [b] sends a message of its own *)
| DRead (b : bool) (n : nat)                (* side [b] reads *)
| DDeliver (b : bool)
| DListen (b : bool) (z : Z).

(** The tags of the messages processors send by themselves
    (proc_heartbeat.go:158, proc_stat_counter.go:70). *)
Definition self_tag (k : kind) : option byte :=
  match k with KHeartbeat => Some 131%Z | KStat => Some 16%Z | _ => None end.

Inductive dstep (D : duo) : dst -> dlab -> dst -> Prop :=
(** [ep.GetTxChannel() <- epd]: blocks while the channel is full *)
| dk_put tx hd ss w up rx sn ws g e x : length (tx e) < du_txcap D ->
    dstep D (Dst tx hd ss w up rx sn ws g) (DPut e x) (Dst (<[e := tx e ++ [x]]> tx) hd ss w up rx sn ws g)
(** proc_upperdeck.go:54 *)
| dk_take tx hd ss w up rx sn ws g e x q : hd e = None -> tx e = x :: q ->
    dstep D (Dst tx hd ss w up rx sn ws g) (DTake e) (Dst (<[e := q]> tx) (<[e := Some x]> hd) ss w up rx sn ws g)
(** proc_upperdeck.go:55-64, the processors, proc_lowerdeck.go:98-120 *)
| dk_pass tx hd ss w up rx sn ws g b e x outs s' : hd (b, e) = Some x ->
    finishes (fun f => send f (du_env D b) (du_sess D b e) (ml_dest x) (Some (du_conn D b)) (Some (ml_msg x)) (ss b)) (ss b) outs s' ->
    dstep D (Dst tx hd ss w up rx sn ws g) (DPass (b, e))
      (Dst tx (<[(b, e) := None]> hd) (<[b := s']> ss) (<[b := w b ++ concat (written (du_conn D b) outs)]> w) up rx sn
           (<[b := ws b ++ written (du_conn D b) outs]> ws) g)
(** proc_heartbeat.go:154-163, proc_stat_counter.go:65-76, the processors below, proc_lowerdeck.go:98-120 *)
| dk_self tx hd ss w up rx sn ws g b i p tag outs s' :
    e_procs (du_env D b) !! i = Some p -> l_lower (e_links (du_env D b)) (PProc i) <> None ->
    self_tag (p_kind p) = Some tag ->
    finishes (fun f => self_message f (du_env D b) i tag (du_conn D b) (ss b)) (ss b) outs s' ->
    dstep D (Dst tx hd ss w up rx sn ws g) (DSelf b i tag)
      (Dst tx hd (<[b := s']> ss) (<[b := w b ++ concat (written (du_conn D b) outs)]> w) up rx sn
           (<[b := ws b ++ written (du_conn D b) outs]> ws) g)
(** proc_lowerdeck.go:73-84: Read returns any number of the bytes that are
    there, at most the MTU; answers are written while the bytes are handled. *)
| dk_read tx hd ss w up rx sn ws g b n outs s' : up b = [] ->
    0 < n -> n <= length (w (negb b)) -> (Z.of_nat n <= e_mtu (du_env D b))%Z ->
    finishes (fun f => receive f (du_env D b) (du_conn D b) (take n (w (negb b))) (ss b)) (ss b) outs s' ->
    dstep D (Dst tx hd ss w up rx sn ws g) (DRead b n)
      (Dst tx hd (<[b := s']> ss)
           (<[b := w b ++ concat (written (du_conn D b) outs)]> (<[negb b := drop n (w (negb b))]> w))
           (<[b := delivered outs]> up) rx sn
           (<[b := ws b ++ written (du_conn D b) outs]> ws) (<[negb b := g (negb b) + n]> g))
(** proc_upperdeck.go:115-117: blocks while the channel is full *)
| dk_deliver tx hd ss w up rx sn ws g b z m q : up b = (z, m) :: q -> length (rx (b, z)) < du_rxcap D ->
    dstep D (Dst tx hd ss w up rx sn ws g) (DDeliver b)
      (Dst tx hd ss w (<[b := q]> up) (<[(b, z) := rx (b, z) ++ [m]]> rx) sn ws g)
(** endp_default.go:85-91 *)
| dk_listen tx hd ss w up rx sn ws g b z m q : rx (b, z) = m :: q ->
    dstep D (Dst tx hd ss w up rx sn ws g) (DListen b z)
      (Dst tx hd ss w up (<[(b, z) := q]> rx) (sn ++ [(b, (z, m))]) ws g).
