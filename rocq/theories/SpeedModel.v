(** * Model of the speed test (examples/speedtest/main.go)

    One client and one server, joined by one connection.  A goroutine of the
    client puts messages without waiting for answers (main.go:41-48); the data
    listener of the server counts each message, answers it and counts the answer
    (81-88); the data listener of the client counts the answers (53-55).  The
    places in which messages wait between the endpoints are those of FlowModel.

    The counters are the uint64 variables TxCount and RxCount of the two
    programs (main.go:17-18).  [okc], [oks]: whether messages of the size that
    was given to the client and to the server pass the bytes codec (between 1
    byte and MTU - overhead, C25); those that do not are dropped in the
    goroutine that passes them down, the second place of the line.

    Simplifications: those of FlowModel; the content of the messages is left
    out; ShowSpeed (20-30) only reads the counters and is left out, and so is
    that an unsynchronised reader may see an old value; the connection stays
    open (when it is closed both programs exit, 49-51 and 77-79). *)
From Verif Require Export FlowModel.

Inductive sphase := SpIdle          (* waiting for the next message *)
                  | SpHeard         (* after RxCount++ (83) *)
                  | SpPut.          (* after the answer is put (84-86) *)
Record spst := Sp {
  sp_req : stages;                  (* from the client to the server's listener *)
  sp_ans : stages;                  (* and back *)
  sp_owes : bool;                   (* the client has put and not yet counted *)
  sp_phase : sphase;                (* the server's listener *)
  sp_ctx : Z; sp_crx : Z;           (* TxCount and RxCount of the client *)
  sp_stx : Z; sp_srx : Z }.         (* and of the server *)
Inductive splab := SpPutReq | SpCount | SpReq (i : nat) | SpLostReq | SpHear | SpReply | SpReturn
                 | SpAns (i : nat) | SpLostAns | SpGot.
Global Instance splab_eq_dec : EqDecision splab.
Proof. solve_decision. Defined.
Definition incr (x : Z) : Z := ((x + 1) mod 2^64)%Z.

Section test.
Context (okc oks : bool) (k1 k2 : nat).
Definition new_speed : spst := Sp (nothing (caps_listener k1)) (nothing (caps_listener k2)) false SpIdle 0 0 0 0.
Inductive spstep : spst -> splab -> spst -> Prop :=
(** main.go:44-46 *)
| pk_put r r' a ph ctx crx stx srx :
    lput (caps_listener k1) r (Ask 0) r' ->
    spstep (Sp r a false ph ctx crx stx srx) SpPutReq (Sp r' a true ph ctx crx stx srx)
(** 47 *)
| pk_count r a ph ctx crx stx srx :
    spstep (Sp r a true ph ctx crx stx srx) SpCount (Sp r a false ph (incr ctx) crx stx srx)
| pk_req r r' a ow ph ctx crx stx srx i :
    lmove (caps_listener k1) r i r' -> okc = true \/ i <> 1 ->
    spstep (Sp r a ow ph ctx crx stx srx) (SpReq i) (Sp r' a ow ph ctx crx stx srx)
(** proc_codec_bytes.go:27-44: the message is empty or too long *)
| pk_lost_req r a ow ph ctx crx stx srx x q :
    okc = false -> r !! 1 = Some (x :: q) ->
    spstep (Sp r a ow ph ctx crx stx srx) SpLostReq (Sp (<[1 := q]> r) a ow ph ctx crx stx srx)
(** main.go:81-83 *)
| pk_hear r a ow ctx crx stx srx x q :
    r !! (length (caps_listener k1) - 1) = Some (x :: q) ->
    spstep (Sp r a ow SpIdle ctx crx stx srx) SpHear (Sp r a ow SpHeard ctx crx stx (incr srx))
(** 84-86 *)
| pk_reply r a a' ow ctx crx stx srx :
    lput (caps_listener k2) a (Answer 0) a' ->
    spstep (Sp r a ow SpHeard ctx crx stx srx) SpReply (Sp r a' ow SpPut ctx crx stx srx)
(** 87-88 *)
| pk_return r r' a ow ctx crx stx srx x :
    ltake (caps_listener k1) r x r' ->
    spstep (Sp r a ow SpPut ctx crx stx srx) SpReturn (Sp r' a ow SpIdle ctx crx (incr stx) srx)
| pk_ans r a a' ow ph ctx crx stx srx i :
    lmove (caps_listener k2) a i a' -> oks = true \/ i <> 1 ->
    spstep (Sp r a ow ph ctx crx stx srx) (SpAns i) (Sp r a' ow ph ctx crx stx srx)
| pk_lost_ans r a ow ph ctx crx stx srx x q :
    oks = false -> a !! 1 = Some (x :: q) ->
    spstep (Sp r a ow ph ctx crx stx srx) SpLostAns (Sp r (<[1 := q]> a) ow ph ctx crx stx srx)
(** 53-55 *)
| pk_got r a a' ow ph ctx crx stx srx x :
    ltake (caps_listener k2) a x a' ->
    spstep (Sp r a ow ph ctx crx stx srx) SpGot (Sp r a' ow ph ctx (incr crx) stx srx).
End test.
