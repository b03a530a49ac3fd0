(** * Model of switching processors while two stacks talk

    The two joined stacks of NetModel, whose processors are switched on and off
    (proc_base.go:80-84 SetEnable) by their users while messages pass.

    Simplifications: those of NetModel; so a message meets the switches of one
    moment, although SetEnable may be called while it is between two processors
    (GrainModel). *)
From Verif Require Export GoBase UBufModel FrameModel StackModel NetModel.

(** The sending and the receiving stack. *)
Inductive side := SideA | SideB.
Global Instance side_eq : EqDecision side.
Proof. solve_decision. Defined.

Record wst := Wst {
  w_net : nst;
  w_on : side -> nat -> bool }.   (* the switch of each processor: side, instance *)

(** proc_base.go:10-20: the field enable *)
Definition flagged (E : env) (on : nat -> bool) : env :=
  Env (e_links E) (imap (fun i p => Proc (p_kind p) (on i)) (e_procs E)) (e_mtu E) (e_overhead E) (e_name E)
    (e_sessions E) (e_isref E) (e_write E) (e_setref E).
Definition now (N : net) (on : side -> nat -> bool) : net :=
  Net (flagged (na N) (on SideA)) (flagged (nb N) (on SideB)) (nca N) (ncb N) (nsess N) (ntxcap N) (nrxcap N).

(** The switches with which the processors were made. *)
Definition as_made (E : env) (i : nat) : bool := match e_procs E !! i with Some p => p_enable p | None => false end.
Definition new_swap (N : net) (a b : st) : wst :=
  Wst (new_net a b) (fun d => match d with SideA => as_made (na N) | SideB => as_made (nb N) end).

Inductive wlab := WNet (l : nlab) | WSet (d : side) (i : nat) (b : bool).

Inductive wstep (N : net) : wst -> wlab -> wst -> Prop :=
| wk_net s on l s' : nstep (now N on) s l s' -> wstep N (Wst s on) (WNet l) (Wst s' on)
(** proc_base.go:80-84 SetEnable *)
| wk_set s on d i b : wstep N (Wst s on) (WSet d i b) (Wst s (<[d := <[i := b]> (on d)]> on)).
