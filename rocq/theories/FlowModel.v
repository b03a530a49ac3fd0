(** * Model of the places messages wait in between two endpoints

    (endp_default.go, proc_upperdeck.go, proc_lowerdeck.go)

    Two stacks joined by one connection, one endpoint each.  Between two
    endpoints a message waits in six places, one after the other: in the
    txChannel (endp_default.go:100, 512 places), in the hand of the goroutine
    that passes it down (proc_upperdeck.go:47-66) and blocks in Write
    (proc_lowerdeck.go:113) while the connection takes nothing, in the buffers
    of the connection ([k] messages), in the hand of the receiving goroutine of
    the other side (proc_lowerdeck.go:59-86), which blocks in its send to the
    rxChannel (proc_upperdeck.go:116), in the rxChannel (endp_default.go:101,
    512 places), and in the hand of autoReceive while the data listener runs
    (endp_default.go:85-91).  Nothing in these places is ever dropped or waits
    with a timeout.

    Simplifications: what the processors do with a message on its way is not
    looked at (NetModel does): one message put in is one message that comes
    out; a Read returns one message; the capacity of the connection is counted
    in messages.  Messages are questions and answers, with a number. *)
From Verif Require Export GoBase.
From stdpp Require Export functions.

Inductive fmsg := Ask (m : nat) | Answer (m : nat).
(** The places, the one where messages enter first; each holds its messages in
    the order they came. *)
Definition stages := list (list fmsg).
(** To an endpoint with a data listener, and to one without. *)
Definition caps_listener (k : nat) : list nat := [512; 1; k; 1; 512; 1].
Definition caps_channel (k : nat) : list nat := [512; 1; k; 1; 512].

(** The first message of place [i] goes to place [S i], which has room: the
    goroutine between them takes it or gets rid of it. *)
Inductive lmove (caps : list nat) : stages -> nat -> stages -> Prop :=
| lm_move l i x q r c :
    l !! i = Some (x :: q) -> l !! S i = Some r -> caps !! S i = Some c -> length r < c ->
    lmove caps l i (<[S i := r ++ [x]]> (<[i := q]> l)).
(** A message is put into the txChannel. *)
Definition lput (caps : list nat) (l : stages) (x : fmsg) (l' : stages) : Prop :=
  exists q c, l !! 0 = Some q /\ caps !! 0 = Some c /\ length q < c /\ l' = <[0 := q ++ [x]]> l.
(** The first message of the last place is taken. *)
Definition ltake (caps : list nat) (l : stages) (x : fmsg) (l' : stages) : Prop :=
  exists q, l !! (length caps - 1) = Some (x :: q) /\ l' = <[length caps - 1 := q]> l.
Definition nothing (caps : list nat) : stages := (fun _ => []) <$> caps.

(** ** A user who asks an endpoint with a listener that answers every question *)
Inductive uop := UAsk (m : nat)      (* GetTxChannel() <- question *)
               | UTake.              (* <-GetRxChannel() *)
Record cst := Cst {
  c_req : stages;                    (* from the user to the listener *)
  c_ans : stages;                    (* back to the user's rxChannel *)
  c_users : list (list uop);         (* what each goroutine of the user still does *)
  c_got : list fmsg }.               (* what they took so far *)
Inductive clab := CAsk (u : nat) | CReq (i : nat) | CListen | CAns (i : nat) | CTake (u : nat).
Section ask.
Context (k1 k2 : nat).
Definition new_ask (users : list (list uop)) : cst :=
  Cst (nothing (caps_listener k1)) (nothing (caps_channel k2)) users [].
Inductive cstep : cst -> clab -> cst -> Prop :=
| ck_ask r r' a us u m p g :
    us !! u = Some (UAsk m :: p) -> lput (caps_listener k1) r (Ask m) r' ->
    cstep (Cst r a us g) (CAsk u) (Cst r' a (<[u := p]> us) g)
| ck_req r r' a us g i :
    lmove (caps_listener k1) r i r' -> cstep (Cst r a us g) (CReq i) (Cst r' a us g)
(** the listener puts its answer and returns (main.go:69-79 of
    examples/microservices) *)
| ck_listen r r' a a' us g m :
    ltake (caps_listener k1) r (Ask m) r' -> lput (caps_channel k2) a (Answer m) a' ->
    cstep (Cst r a us g) CListen (Cst r' a' us g)
| ck_ans r a a' us g i :
    lmove (caps_channel k2) a i a' -> cstep (Cst r a us g) (CAns i) (Cst r a' us g)
| ck_take r a a' us u p g x :
    us !! u = Some (UTake :: p) -> ltake (caps_channel k2) a x a' ->
    cstep (Cst r a us g) (CTake u) (Cst r a' (<[u := p]> us) (g ++ [x])).
End ask.

(** ** Two users who ask each other, both with listeners *)
Record gst := Gst {
  g_line : bool -> stages;           (* from user [b] to the listener of the other *)
  g_todo : bool -> list nat;         (* what user [b] still asks *)
  g_got : bool -> list nat }.        (* answers the listener of [b] was called with *)
Inductive glab := GAsk (b : bool) | GMove (b : bool) (i : nat) | GListen (b : bool) | GEnd (b : bool).
Section peers.
Context (k : bool -> nat).
Definition new_peers (todo : bool -> list nat) : gst :=
  Gst (fun b => nothing (caps_listener (k b))) todo (fun _ => []).
Inductive gstep : gst -> glab -> gst -> Prop :=
| gk_ask l t g b m p l' :
    t b = m :: p -> lput (caps_listener (k b)) (l b) (Ask m) l' ->
    gstep (Gst l t g) (GAsk b) (Gst (<[b := l']> l) (<[b := p]> t) g)
| gk_move l t g b i l' :
    lmove (caps_listener (k b)) (l b) i l' ->
    gstep (Gst l t g) (GMove b i) (Gst (<[b := l']> l) t g)
(** a question: the listener puts the answer into its endpoint's txChannel *)
| gk_listen l t g b m l1 l2 :
    ltake (caps_listener (k b)) (l b) (Ask m) l1 -> lput (caps_listener (k (negb b))) (l (negb b)) (Answer m) l2 ->
    gstep (Gst l t g) (GListen b) (Gst (<[b := l1]> (<[negb b := l2]> l)) t g)
(** an answer: the listener returns *)
| gk_end l t g b m l' :
    ltake (caps_listener (k b)) (l b) (Answer m) l' ->
    gstep (Gst l t g) (GEnd b) (Gst (<[b := l']> l) t (<[negb b := g (negb b) ++ [m]]> g)).
End peers.
