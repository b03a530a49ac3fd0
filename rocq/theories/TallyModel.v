(** * Model of a listener that counts connections

    examples/dynamic_transport/main.go and examples/dynamic_endpoint/main.go: the
    event listener of an endpoint adds one to the variable conn for every
    new-connection event (dynamic_endpoint 72, 137) and takes one off for every
    connection-closed event, ending the program when conn is zero (112-115,
    149-152).  The connections are those of ConnModel; the listener is called by
    whatever goroutine publishes the event, so several calls can overlap.

    Simplifications: what the listener does besides (adding a transport,
    starting a goroutine that sends) is left out; the connection's goroutine goes
    on when the listener has returned.  Memory accesses are sequentially
    consistent. *)
From Verif Require Export GoBase ConnModel.

(** A call of the listener: before reading conn; with the value it will store;
    before the test (closing events only). *)
Inductive hpc := HLoad | HStore (v : Z) | HCheck.
Record yst := Yst {
  y_t : tst;                          (* the connections *)
  y_conn : Z;                         (* conn *)
  y_busy : list (tlab * hpc);         (* publications going on *)
  y_exit : bool }.                    (* os.Exit has been called *)
Definition new_tally : yst := Yst new_conns 0 [] false.

Inductive ylab :=
| YOther (l : tlab)
| YBegin (l : tlab)
| YLoad (i : nat)
| YStore (i : nat)
| YEnd (i : nat) (l : tlab).
(** The steps that publish an event, with what it does to conn. *)
Definition publishes (l : tlab) : option Z :=
  match l with TNew _ => Some 1%Z | TEndPublish _ | TErrPublish _ _ => Some (-1)%Z | _ => None end.

Inductive ystep : yst -> ylab -> yst -> Prop :=
| yk_other t t' n bs l : publishes l = None -> tstep t l t' ->
    ystep (Yst t n bs false) (YOther l) (Yst t' n bs false)
(** PublishEvent reaches the listener *)
| yk_begin t t' n bs l k : publishes l = Some k -> tstep t l t' -> l ∉ bs.*1 ->
    ystep (Yst t n bs false) (YBegin l) (Yst t n (bs ++ [(l, HLoad)]) false)
(** conn++, conn-- *)
| yk_load t n bs i l k : bs !! i = Some (l, HLoad) -> publishes l = Some k ->
    ystep (Yst t n bs false) (YLoad i) (Yst t n (<[i := (l, HStore (n + k))]> bs) false)
| yk_store t n bs i l v : bs !! i = Some (l, HStore v) ->
    ystep (Yst t n bs false) (YStore i) (Yst t v (<[i := (l, HCheck)]> bs) false)
(** [if conn == 0 { os.Exit(1) }]; the listener returns *)
| yk_end t t' n bs i l k : bs !! i = Some (l, HCheck) -> publishes l = Some k -> tstep t l t' ->
    ystep (Yst t n bs false) (YEnd i l)
      (Yst t' n (delete i bs) (bool_decide (k = (-1)%Z /\ n = 0%Z))).
