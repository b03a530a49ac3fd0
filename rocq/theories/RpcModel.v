(** * Model of clients that ask a server (examples/microservices/main.go)

    Any number of clients, each a stack with one endpoint and one connection to
    the server, and a server stack with one endpoint whose data listener
    answers on the connection a request came from.  A client writes a request
    and then reads the answer, again and again (main.go:132-142, 162-168); the
    listener (main.go:27-50, 66-79) answers or not, and may keep a state (the
    map of services): its answer is a function of all it was called with.

    Simplifications: as in NetModel, a message passes through the processors of
    a stack in one step, and what one chunk delivers is computed in one step and
    put into the channel afterwards; the endpoints exist from the start, the
    connections stay open, and an AppSession has got its connection
    (main.go:107-114, 128-130).  What is delivered to another session than that
    of the endpoint is not followed. *)
From Verif Require Export GoBase UBufModel FrameModel StackModel NetModel.
From Verif Require Import StackSpec.
From stdpp Require Export functions.

(** An EndPointData: connection and what else it holds. *)
Definition epd (A : Type) : Type := option conn * A.

(** One client with its connection to the server. *)
Record cl := Cl {
  c_conn : option conn;              (* main.go:96: session.c *)
  c_wait : bool;                     (* between Write and Read *)
  c_tx : list (epd mail);            (* txChannel of its endpoint *)
  c_hand : option (epd mail);        (* what the upper deck's goroutine is sending *)
  c_st : st;                         (* its processors *)
  c_out : list byte;                 (* written by the client, not yet read by the server *)
  c_up : list (epd msg);             (* what the server's goroutine for this connection still has to deliver *)
  c_in : list byte;                  (* written by the server, not yet read by the client *)
  c_dn : list (epd msg);             (* what the client's receiving goroutine still has to deliver *)
  c_rx : list (epd msg);             (* rxChannel of its endpoint *)
  c_got : list msg }.                (* what Read returned so far *)

Record srv := Srv {
  v_st : st;                         (* the server's processors *)
  v_rx : list (epd msg);             (* rxChannel of its endpoint *)
  v_reply : option (epd mail);       (* the listener is sending to the txChannel *)
  v_tx : list (epd mail);            (* txChannel *)
  v_hand : option (epd mail);        (* what the upper deck's goroutine is sending *)
  v_log : list (epd msg) }.          (* what the listener was called with *)

Record rst := Rst { r_cl : nat -> cl; r_sv : srv }.

Record rpc := Rpc {
  rs : env; rss : Z;                 (* the server's stack, its endpoint's session *)
  rc : nat -> env; rcs : nat -> Z;   (* the clients' *)
  rcc : nat -> conn;                 (* the client's end of each connection *)
  rsc : nat -> conn;                 (* the server's end *)
  rn : nat;                          (* how many clients *)
  rtxcap : nat; rrxcap : nat;        (* capacities of the channels *)
  rans : list (epd msg) -> epd msg -> option mail }.  (* the listener: earlier calls, this call *)

(** What a call delivers to the endpoint of session [z]. *)
Definition mine (z : Z) (outs : list out) : list (epd msg) :=
  omap (fun o => match o with ODeliver y c m => if decide (y = z) then Some (c, m) else None | _ => None end) outs.

Inductive rlab :=
| RWrite (i : nat) (m : mail)
| RTake (i : nat)
| RPass (i : nat)
| RRead (i n : nat)
| RDeliver (i : nat)
| RCall
| RReply
| RSrvTake
| RSrvPass
| RBack (i n : nat)
| RArrive (i : nat)
| RGet (i : nat).

Definition new_cl (c : conn) (a : st) : cl := Cl (Some c) false [] None a [] [] [] [] [] [].
Definition new_rpc (R : rpc) (a : nat -> st) (b : st) : rst :=
  Rst (fun i => new_cl (rcc R i) (a i)) (Srv b [] None [] None []).
(** The bytes a call of the server's processors writes to the connection of each client. *)
Definition spread (R : rpc) (outs : list out) (x : nat -> cl) : nat -> cl :=
  fun i => let c := x i in
    if rn R <=? i then c else
    Cl (c_conn c) (c_wait c) (c_tx c) (c_hand c) (c_st c) (c_out c) (c_up c) (c_in c ++ concat (written (rsc R i) outs))
      (c_dn c) (c_rx c) (c_got c).

Inductive rstep (R : rpc) : rst -> rlab -> rst -> Prop :=
(** main.go:138-142; blocks while the channel is full *)
| rk_write x v i m k tx hd a o u n d rx g : i < rn R -> x i = Cl k false tx hd a o u n d rx g -> length tx < rtxcap R ->
    rstep R (Rst x v) (RWrite i m) (Rst (<[i := Cl k true (tx ++ [(k, m)]) hd a o u n d rx g]> x) v)
(** proc_upperdeck.go:54 *)
| rk_take x v i k w e tx a o u n d rx g : x i = Cl k w (e :: tx) None a o u n d rx g ->
    rstep R (Rst x v) (RTake i) (Rst (<[i := Cl k w tx (Some e) a o u n d rx g]> x) v)
(** proc_upperdeck.go:55-64, the processors, proc_lowerdeck.go:98-120 *)
| rk_pass x v i k w tx c m a o u n d rx g outs a' : x i = Cl k w tx (Some (c, m)) a o u n d rx g ->
    finishes (fun f => send f (rc R i) (rcs R i) (ml_dest m) c (Some (ml_msg m)) a) a outs a' ->
    rstep R (Rst x v) (RPass i) (Rst (<[i := Cl k w tx None a' (o ++ concat (written (rcc R i) outs)) u n d rx g]> x) v)
(** proc_lowerdeck.go:73-84: the server reads any number of the bytes that are there *)
| rk_read x v i k w tx hd a o n d rx g b srx rp tx' hd' lg r outs b' : x i = Cl k w tx hd a o [] n d rx g ->
    v = Srv b srx rp tx' hd' lg -> 0 < r -> r <= length o -> (Z.of_nat r <= e_mtu (rs R))%Z ->
    finishes (fun f => receive f (rs R) (rsc R i) (take r o) b) b outs b' ->
    rstep R (Rst x v) (RRead i r)
      (Rst (<[i := Cl k w tx hd a (drop r o) (mine (rss R) outs) n d rx g]> x) (Srv b' srx rp tx' hd' lg))
(** proc_upperdeck.go:115-117: blocks while the channel is full *)
| rk_deliver x v i k w tx hd a o e u n d rx g b srx rp tx' hd' lg : x i = Cl k w tx hd a o (e :: u) n d rx g ->
    v = Srv b srx rp tx' hd' lg -> length srx < rrxcap R ->
    rstep R (Rst x v) (RDeliver i) (Rst (<[i := Cl k w tx hd a o u n d rx g]> x) (Srv b (srx ++ [e]) rp tx' hd' lg))
(** endp_default.go:85-91: the listener is called *)
| rk_call x b c m srx tx' hd' lg :
    rstep R (Rst x (Srv b ((c, m) :: srx) None tx' hd' lg)) RCall
      (Rst x (Srv b srx ((fun y => (c, y)) <$> rans R lg (c, m)) tx' hd' (lg ++ [(c, m)])))
(** main.go:40-42, 74-76: blocks while the channel is full *)
| rk_reply x b srx e tx' hd' lg : length tx' < rtxcap R ->
    rstep R (Rst x (Srv b srx (Some e) tx' hd' lg)) RReply (Rst x (Srv b srx None (tx' ++ [e]) hd' lg))
| rk_srv_take x b srx rp e tx' lg :
    rstep R (Rst x (Srv b srx rp (e :: tx') None lg)) RSrvTake (Rst x (Srv b srx rp tx' (Some e) lg))
| rk_srv_pass x b srx rp tx' c m lg outs b' :
    finishes (fun f => send f (rs R) (rss R) (ml_dest m) c (Some (ml_msg m)) b) b outs b' ->
    rstep R (Rst x (Srv b srx rp tx' (Some (c, m)) lg)) RSrvPass (Rst (spread R outs x) (Srv b' srx rp tx' None lg))
(** the client reads *)
| rk_back x v i k w tx hd a o u n rx g r outs a' : x i = Cl k w tx hd a o u n [] rx g ->
    0 < r -> r <= length n -> (Z.of_nat r <= e_mtu (rc R i))%Z ->
    finishes (fun f => receive f (rc R i) (rcc R i) (take r n) a) a outs a' ->
    rstep R (Rst x v) (RBack i r) (Rst (<[i := Cl k w tx hd a' o u (drop r n) (mine (rcs R i) outs) rx g]> x) v)
| rk_arrive x v i k w tx hd a o u n e d rx g : x i = Cl k w tx hd a o u n (e :: d) rx g -> length rx < rrxcap R ->
    rstep R (Rst x v) (RArrive i) (Rst (<[i := Cl k w tx hd a o u n d (rx ++ [e]) g]> x) v)
(** main.go:132-136 *)
| rk_get x v i k tx hd a o u n d c m rx g : x i = Cl k true tx hd a o u n d ((c, m) :: rx) g ->
    rstep R (Rst x v) (RGet i) (Rst (<[i := Cl c false tx hd a o u n d rx (g ++ [m])]> x) v).
