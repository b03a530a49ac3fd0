(** * What stacks joined by reference transports should do *)
From Verif Require Import GoBase UBufModel FrameModel StackModel StackSpec NetModel ObjModel.

Inductive orun (N : objs) (s : ost) : list olab -> ost -> Prop :=
| or_nil : orun N s [] s
| or_snoc ls s1 l s2 : orun N s ls s1 -> ostep N s1 l s2 -> orun N s (ls ++ [l]) s2.

(** The objects endpoint [e] was given, and those of them not sent yet. *)
Definition entrusted (e : nat * nat) (ls : list olab) : list msg :=
  omap (fun l => match l with OPut x m => if decide (x = e) then Some (ml_msg m) else None | _ => None end) ls.
Definition held (e : nat * nat) (s : ost) : list msg :=
  o_set s e ++ match o_hand s e with Some x => [ml_msg x] | None => [] end ++ (ml_msg <$> o_tx s e).
(** [o] is a sequence of objects with their senders and the stacks that got
    them: those of sender [e], and those that stack [j] got. *)
Definition from (e : nat * nat) (o : list (nat * nat * msg * option nat)) : list msg :=
  omap (fun p => if decide (p.1.1 = e) then Some p.1.2 else None) o.
Definition got_by (j : nat) (o : list (nat * nat * msg * option nat)) : list msg :=
  omap (fun p => if decide (p.2 = Some j) then Some p.1.2 else None) o.
(** What the listener of session [z] of stack [j] was called with. *)
Definition listened (j : nat) (z : Z) (s : ost) : list msg :=
  omap (fun p => if decide (fst p = j /\ fst (snd p) = z) then Some (snd (snd p)) else None) (o_seen s).
(** Nothing waits in a channel or with a receiving goroutine; nothing waits to be sent. *)
Definition at_rest (s : ost) : Prop :=
  (forall b, o_chan s b = []) /\ (forall j, o_up s j = []) /\ forall j z, o_rx s (j, z) = [].
Definition all_gone (s : ost) : Prop := forall e, held e s = [].
(** A step that gives no further object to an endpoint. *)
Definition own (l : olab) : Prop := match l with OPut _ _ => False | _ => True end.
Definition objects_put (ls : list olab) : nat := length (List.filter (fun l => match l with OPut _ _ => true | _ => false end) ls).
(** Every stack has processors that let references pass, a connection by
    reference that is open, and an endpoint with session 0. *)
Definition joined (N : objs) : Prop := forall j, exists ids ps,
  wired (ob_env N j) ids ps /\ Forall (fun p => passes_reference p = true) ps /\
  e_isref (ob_env N j) (ob_conn N j) = true /\ (forall os m, e_setref (ob_env N j) os (ob_conn N j) m = false) /\
  0%Z ∈ e_sessions (ob_env N j).
