(** * What the statements about features speak of *)
From Verif Require Import GoBase FeatModel.

(** The features and processors added by a list of calls, in order. *)
Definition added (cs : list fop) : list nat := omap (fun c => match c with FAdd o => Some o | _ => None end) cs.
Definition appended (cs : list fop) : list nat := omap (fun c => match c with FAppend p => Some p | _ => None end) cs.
(** The name an object carries after calls: that of its construction or of the last SetName. *)
Definition named (s : fstack) (o n : nat) : Prop := exists b, f_objs s !! o = Some b /\ f_name b = n.
Definition knows_stack (s : fstack) (o : nat) : Prop := exists b, f_objs s !! o = Some b /\ f_stack b = true.
(** [o] is the first feature of name [n]. *)
Definition first_named (s : fstack) (fs : list nat) (n o : nat) : Prop :=
  exists l1 l2, fs = l1 ++ o :: l2 /\ named s o n /\ Forall (fun p => ~ named s p n) l1.
Definition times {A} `{EqDecision A} (x : A) (l : list A) : nat := length (filter (fun y => y = x) l).
#[global] Instance party_eq_dec : EqDecision party.
Proof. solve_decision. Defined.
(** The listeners, and the endpoints without repetitions, in the order they came. *)
Definition listeners (cs : list fop) : list nat := omap (fun c => match c with FListen l => Some l | _ => None end) cs.
Definition joined (cs : list fop) : list nat :=
  fold_left (fun es c => match c with FEndpoint e => if bool_decide (e ∈ es) then es else es ++ [e] | _ => es end) cs [].
Definition was_run (cs : list fop) : bool := existsb (fun c => match c with FRun => true | _ => false end) cs.
(** The event a call publishes. *)
Definition published (cs : list fop) (c : fop) : option fevent :=
  match c with
  | FPublish ev => Some ev
  | FEndpoint e => if bool_decide (e ∈ joined cs) then None else Some (FAdded e)
  | _ => None
  end.
(** The parties of a stack. *)
Definition parties (cs : list fop) : list party :=
  (PListener <$> listeners cs) ++ (PEnd <$> joined cs) ++ (if was_run cs then [PUpper] else []) ++
  (PProc <$> appended cs) ++ (if was_run cs then [PLower] else []).
