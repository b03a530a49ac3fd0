(** * What a reference transport should do *)
From Verif Require Import GoBase RefModel.

Section spec.
Context (addr : nat -> nat) (server : nat -> bool) (size : nat -> Z).
Inductive rrun (s : rst) : list rlab -> rst -> Prop :=
| rr_nil : rrun s [] s
| rr_snoc ls s1 l s2 : rrun s ls s1 -> rstep addr server size s1 l s2 -> rrun s (ls ++ [l]) s2.
Definition rreach (s : rst) : Prop := exists ls, rrun new_ref ls s.
(** The references that the servers ([side]) or clients on address [a] have put,
    and those that they have got, in the order they did. *)
Definition put_by (a : nat) (side : bool) (l : rlab) : option nat :=
  match l with
  | RSent _ t _ p | RHand _ t _ p _ _ _ => if decide (addr t = a /\ server t = side) then Some p else None
  | _ => None
  end.
Definition got_by (a : nat) (side : bool) (l : rlab) : option nat :=
  match l with
  | RGot _ t _ p | RHand _ _ _ p _ t _ => if decide (addr t = a /\ server t = side) then Some p else None
  | _ => None
  end.
Definition puts (a : nat) (side : bool) (ls : list rlab) : list nat := omap (put_by a side) ls.
Definition gots (a : nat) (side : bool) (ls : list rlab) : list nat := omap (got_by a side) ls.
(** The references with which goroutine [k] has called SetReference
    successfully, and those that it has put. *)
Definition called (k : nat) (ls : list rlab) : list (nat * nat) :=
  omap (fun l => match l with RSet k' _ c p => if decide (k' = k) then Some (c, p) else None | _ => None end) ls.
Definition done_by (k : nat) (ls : list rlab) : list (nat * nat) :=
  omap (fun l => match l with RSent k' _ c p | RHand k' _ c p _ _ _ => if decide (k' = k) then Some (c, p) else None | _ => None end) ls.
(** Calls of Run and NextConnection of transport [t]. *)
Definition run_count (t : nat) (ls : list rlab) : nat :=
  length (List.filter (fun l => match l with RRun t' => bool_decide (t' = t) | _ => false end) ls).
Definition next_count (t : nat) (ls : list rlab) : nat :=
  length (List.filter (fun l => match l with RNext t' => bool_decide (t' = t) | _ => false end) ls).
(** The connections, numbered as they were made, that the Runs of [t] made. *)
Definition made_step (t : nat) (p : nat * list nat) (l : rlab) : nat * list nat :=
  match l with RPush t' => (S p.1, if bool_decide (t' = t) then p.2 ++ [p.1] else p.2) | _ => p end.
Definition made (t : nat) (ls : list rlab) : list nat := (foldl (made_step t) (0, []) ls).2.
End spec.
