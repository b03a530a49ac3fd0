(** * What an honest sender can do to the receiver (C89)

    Runs of NetModel: everything on the wire was sent by the endpoints of the
    other stack; the connection divides the bytes into Reads as it likes. *)
From Verif Require Import GoBase UBufModel UBufSpec FrameModel FrameSpec StackModel StackSpec NetModel NetSpec SafeSpec.

(** The bytes the sending stack has written so far. *)
Definition stream (s : nst) : list byte := concat (n_writes s).
(** A step of the sending stack. *)
Definition sending (l : nlab) : Prop := match l with NPut _ _ | NTake _ | NPass _ => True | _ => False end.
(** The connection may return [n] bytes to the receiving goroutine's next Read. *)
Definition may_read (N : net) (s : nst) (n : nat) : Prop :=
  n_up s = [] /\ 0 < n /\ n <= length (n_wire s) /\ (Z.of_nat n <= e_mtu (nb N))%Z.
(** If it does, the program ends. *)
Definition fatal (N : net) (s : nst) (n : nat) : Prop :=
  may_read N s n /\ exists outs, crashes (fun f => receive f (nb N) (ncb N) (take n (n_wire s)) (n_b s)) (n_b s) outs.
(** Nothing is put into a listener's channel any more, whatever either side does. *)
Definition silent (N : net) (s : nst) : Prop := forall ls s', nrun N any_read s ls s' -> NDeliver ∉ ls.
(** A receiving stack with the processors [ps], over a byte connection. *)
Definition receiver (N : net) (ps : list proc) : Prop :=
  (exists ids, wired (nb N) ids ps) /\ legal_mtu (nb N) /\ e_isref (nb N) (ncb N) = false.
