(** * Model of goroutines inside the processors at the same time

    The two joined stacks of NetModel.  Each endpoint of stack [A] has a
    goroutine that takes a message and calls the processors (proc_upperdeck.go:
    50-65), each of which calls the one below it; here every such call is a step
    of its own.  So the messages of several endpoints may be inside the
    processors at the same time, each before another processor, which they share;
    and processors may be switched on and off (proc_base.go:80-84) meanwhile.

    Simplifications: those of NetModel but the first; what one processor does to
    one message is one step (its counters: TallyModel; its maps: RaceModel). *)
From Verif Require Export GoBase UBufModel FrameModel StackModel NetModel SwapModel.

Record gst := Gst {
  g_net : nst;
  g_at : nat -> option (pid * ctx);   (* what the endpoint's goroutine calls next, and with which context *)
  g_on : side -> nat -> bool }.       (* the switch of each processor *)

(** The OnUpperData of instance [i] ends with a call of the processor below it. *)
Definition calls_lower (E : env) (i : nat) (x : ctx) (s : st) (x' : ctx) (s' : st) : Prop :=
  exists p, e_procs E !! i = Some p /\
    forall d u w, on_upper E i (p_enable p) d u w (p_kind p) x (visit s i Down x) = d x' s'.
(** It returns without calling another one. *)
Definition comes_back (E : env) (i : nat) (x : ctx) (s : st) (x' : ctx) (s' : st) : Prop :=
  exists p, e_procs E !! i = Some p /\
    forall d u w, on_upper E i (p_enable p) d u w (p_kind p) x (visit s i Down x) = Some (Done x' s').

(** proc_upperdeck.go:55-64: the context the endpoint's goroutine starts with *)
Definition start_ctx (N : net) (e : nat) (x : mail) : ctx :=
  Ctx (Some (nca N)) None (Some (ml_msg x)) (Some (OInt (match ml_dest x with Some d => d | None => nsess N e end))).

Inductive glab :=
| GNet (l : nlab)
| GTake (e : nat)
| GHop (e : nat)
| GBack (e : nat)
| GWrite (e : nat)
| GSet (d : side) (i : nat) (b : bool).

(** The steps of the net other than those of the sending goroutines. *)
Definition elsewhere (l : nlab) : Prop := match l with NTake _ | NPass _ => False | _ => True end.

Inductive gstep (N : net) : gst -> glab -> gst -> Prop :=
| gk_net s at_ on l s' : elsewhere l -> nstep (now N on) s l s' -> gstep N (Gst s at_ on) (GNet l) (Gst s' at_ on)
(** proc_upperdeck.go:54-64 *)
| gk_take tx hd a w b up rx sn ws g at_ on e x q p : hd e = None -> tx e = x :: q ->
    l_lower (e_links (na N)) PUpper = Some p ->
    gstep N (Gst (Nst tx hd a w b up rx sn ws g) at_ on) (GTake e)
      (Gst (Nst (<[e := q]> tx) (<[e := Some x]> hd) a w b up rx sn ws g) (<[e := Some (p, start_ctx N e x)]> at_) on)
(** OnUpperData of a processor *)
| gk_hop tx hd a w b up rx sn ws g at_ on e i x x' a' p : at_ e = Some (PProc i, x) ->
    calls_lower (flagged (na N) (on SideA)) i x a x' a' -> l_lower (e_links (na N)) (PProc i) = Some p ->
    gstep N (Gst (Nst tx hd a w b up rx sn ws g) at_ on) (GHop e)
      (Gst (Nst tx hd a' w b up rx sn ws g) (<[e := Some (p, x')]> at_) on)
| gk_back tx hd a w b up rx sn ws g at_ on e i x x' a' : at_ e = Some (PProc i, x) ->
    comes_back (flagged (na N) (on SideA)) i x a x' a' ->
    gstep N (Gst (Nst tx hd a w b up rx sn ws g) at_ on) (GBack e)
      (Gst (Nst tx (<[e := None]> hd) a' w b up rx sn ws g) (<[e := None]> at_) on)
(** proc_lowerdeck.go:98-120 *)
| gk_write tx hd a w b up rx sn ws g at_ on e x x' a' outs : at_ e = Some (PLower, x) ->
    lower_send (flagged (na N) (on SideA)) x a = Done x' a' -> s_out a' = s_out a ++ outs ->
    gstep N (Gst (Nst tx hd a w b up rx sn ws g) at_ on) (GWrite e)
      (Gst (Nst tx (<[e := None]> hd) a' (w ++ concat (written (nca N) outs)) b up rx sn (ws ++ written (nca N) outs) g)
        (<[e := None]> at_) on)
(** proc_base.go:80-84 SetEnable *)
| gk_set s at_ on d i b : gstep N (Gst s at_ on) (GSet d i b) (Gst s at_ (<[d := <[i := b]> (on d)]> on)).

Definition new_grain (N : net) (a b : st) : gst :=
  Gst (new_net a b) (fun _ => None) (w_on (new_swap N a b)).
