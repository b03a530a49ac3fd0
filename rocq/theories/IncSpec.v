(** * What counting should do (C90) *)
From Verif Require Import GoBase IncModel.

Inductive irun (s : ist) : list ilab -> ist -> Prop :=
| ir_nil : irun s [] s
| ir_snoc ls s1 l s2 : irun s ls s1 -> istep s1 l s2 -> irun s (ls ++ [l]) s2.
Definition ireach (s : ist) : Prop := exists ls, irun new_count ls s.

(** How many messages were counted, and how many goroutine [g] passed on. *)
Definition number (p : ilab -> bool) (ls : list ilab) : nat := length (List.filter p ls).
Definition counts (l : ilab) : bool := match l with IStore _ => true | _ => false end.
Definition passes (g : nat) (l : ilab) : bool := match l with IPass x => x =? g | _ => false end.
Definition passed_by (g : nat) (ls : list ilab) : nat := number (passes g) ls.
(** A step of [g] or [h]. *)
Definition one_of (g h : nat) (l : ilab) : Prop :=
  match l with ILoad x | IStore x | IPass x => x = g \/ x = h | IShow _ => False end.
(** Only [g] ever passes messages. *)
Definition only (g : nat) (l : ilab) : Prop := match l with ILoad x => x = g | _ => True end.
