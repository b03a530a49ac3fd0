(** * What the events of a connection should be *)
From Verif Require Import GoBase ConnModel.

Inductive trun (s : tst) : list tlab -> tst -> Prop :=
| tr_nil : trun s [] s
| tr_snoc ls s1 l s2 : trun s ls s1 -> tstep s1 l s2 -> trun s (ls ++ [l]) s2.
Definition treach (s : tst) : Prop := exists ls, trun new_conns ls s.
(** Numbers of announcements and of closing events of [c] in a log, of failed
    writes on [c] that have ended. *)
Definition announced (c : nat) (lg : list cev) : nat :=
  length (List.filter (fun e => match e with EvNew c' => Nat.eqb c' c | _ => false end) lg).
Definition farewells (c : nat) (lg : list cev) : nat :=
  length (List.filter (fun e => match e with EvClosed c' => Nat.eqb c' c | _ => false end) lg).
Definition failures (c : nat) (ls : list tlab) : nat :=
  length (List.filter (fun l => match l with TErrPublish _ c' => Nat.eqb c' c | _ => false end) ls).
