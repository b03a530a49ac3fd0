(** * What is expected of processors appended more than once *)
From Verif Require Import GoBase StackModel TwiceModel.

(** The neighbour on either side of one place in the list of processors. *)
Definition next_below (after : list nat) : pid := match after with [] => PLower | j :: _ => PProc j end.
Definition next_above (before : list nat) : pid := match last before with None => PUpper | Some j => PProc j end.

(** The outcome of a call, and that no endpoint got anything by it. *)
Definition end_state (o : outcome) : st := match o with Done _ s => s | Crash s => s end.
Definition to_endpoint (o : out) : bool := match o with ODeliver _ _ _ => true | _ => false end.
Definition hands_nothing (o : outcome) (s : st) : Prop :=
  exists outs, s_out (end_state o) = s_out s ++ outs /\ Forall (fun o => to_endpoint o = false) outs.

(** Follow [next] from [p] for [n] steps. *)
Fixpoint twalk (next : tpid -> option tpid) (n : nat) (p : tpid) : list (option tpid) :=
  match n with
  | 0 => []
  | S n' => let q := next p in q :: match q with Some q' => twalk next n' q' | None => [] end
  end.

(** Stack [k]'s messages pass the instances [ids] in order, down to the lower
    deck of stack [kd]; and up through [ids'] to the upper deck of stack [ku]. *)
Definition sends_through (F : fields) (k : nat) (ids : list nat) (kd : nat) : Prop :=
  twalk (t_lower F) (S (length ids)) (TUpper k) = (Some ∘ TProc <$> ids) ++ [Some (TLower kd)].
Definition hears_through (F : fields) (k : nat) (ids : list nat) (ku : nat) : Prop :=
  twalk (t_upper F) (S (length ids)) (TLower k) = (Some ∘ TProc <$> ids) ++ [Some (TUpper ku)].

(** What StackModel's [PUpper], [PLower] and [PProc i] are in stack [k]. *)
Definition emb (k : nat) (p : pid) : tpid :=
  match p with PUpper => TUpper k | PLower => TLower k | PProc i => TProc i end.
