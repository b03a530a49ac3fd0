(** * What the receiving side of an endpoint should do *)
From Verif Require Import GoBase EndModel.

(** Executions: any interleaving. *)
Inductive erun (s : est) : list elab -> est -> Prop :=
| ex_nil : erun s [] s
| ex_snoc ls s1 l s2 : erun s ls s1 -> estep s1 l s2 -> erun s (ls ++ [l]) s2.
Definition ereach (s : est) : Prop := exists ls, erun new_end ls s.
(** Going on without further calls of SetDataListener or arrivals. *)
Definition silent (l : elab) : Prop := match l with LSet _ | LArrive _ => False | _ => True end.
Definition no_set (l : elab) : Prop := match l with LSet _ => False | _ => True end.

(** The message a goroutine has taken and not yet handed over. *)
Definition holds (pc : rpc) : list nat :=
  match pc with RGot m | RCall m => [m] | _ => [] end.
Definition in_hands (s : est) : list nat := concat (holds <$> e_threads s).
(** A goroutine that will go on receiving as long as the listener is not nil. *)
Definition alive (pc : rpc) : Prop := match pc with RClear | RExit => False | _ => True end.
Definition someone_receives (s : est) : Prop := exists i pc, e_threads s !! i = Some pc /\ alive pc.

(** Executions in which inAutoReceive is never tested while a goroutine is
    between deciding to return and clearing it. *)
Inductive calm (s : est) : est -> Prop :=
| calm_nil : calm s s
| calm_snoc s1 l s2 : calm s s1 -> estep s1 l s2 ->
    (l = LCheck -> RClear ∉ e_threads s1) -> calm s s2.

(** Executions in which inAutoReceive is never tested while a goroutine that has
    just been started has not set it yet. *)
Definition starting (pc : rpc) : Prop := pc = RStart \/ pc = RMark.
Inductive paced (s : est) : est -> Prop :=
| paced_nil : paced s s
| paced_snoc s1 l s2 : paced s s1 -> estep s1 l s2 ->
    (l = LCheck -> Forall (fun pc => ~ starting pc) (e_threads s1)) -> paced s s2.

(** Reception goes on: whatever happens from here on except a new call of
    SetDataListener, the goroutines can still pass all that is queued to the
    listener, in order. *)
Definition keeps_receiving (s : est) : Prop :=
  exists l, e_listener s = Some l /\
  forall ls s1, Forall no_set ls -> erun s ls s1 ->
    exists ls2 s2 c, erun s1 ls2 s2 /\ Forall silent ls2 /\ e_queue s2 = [] /\
      e_calls s2 = e_calls s1 ++ c ++ ((l,.) <$> e_queue s1).
