(** * What goroutines that send until their connection is closed should do *)
From Verif Require Import GoBase PollModel.

Inductive prun (P : poll) (s : pst) : list plab -> pst -> Prop :=
| pr_nil : prun P s [] s
| pr_snoc ls s1 l s2 : prun P s ls s1 -> pstep P s1 l s2 -> prun P s (ls ++ [l]) s2.
Definition preach (P : poll) (s : pst) : Prop := exists ls, prun P (new_poll P) ls s.

(** Steps that nobody has to ask for. *)
Definition goes_on (l : plab) : Prop := match l with PStart _ | PClose _ | PDelete => False | _ => True end.
(** The goroutine's connection is closed, and the goroutine asks for that. *)
Definition over (P : poll) (s : pst) (j : nat) : Prop := ptests P j = true /\ p_closed s (pconn P j) = true.
Definition all_over (P : poll) (s : pst) : Prop := forall j, j < pnum P -> over P s j.
(** It was never started or has returned. *)
Definition finished (s : pst) (j : nat) : Prop := p_at s !! j = Some PNone \/ p_at s !! j = Some PDone.
(** The messages that are still to be put by goroutines that were past the test. *)
Definition to_come (s : pst) : nat :=
  length (List.filter (fun f => match f with PSleep | PSend => true | _ => false end) (p_at s)).
(** The endpoint is registered, or was deleted when its goroutine was busy. *)
Definition served (s : pst) : Prop := p_g s <> GGone /\ (p_del s = true -> p_g s <> GWait true).
(** How often [j] put a message; what was put, in order; what is under way. *)
Definition puts_of (j : nat) (ls : list plab) : nat :=
  length (List.filter (fun l => match l with PPut i => bool_decide (i = j) | _ => false end) ls).
Definition all_puts (ls : list plab) : list nat := omap (fun l => match l with PPut i => Some i | _ => None end) ls.
Definition in_call (s : pst) : list nat := match p_g s with GBusy x => [x] | _ => [] end.
(** [j] waits at the put, and always will. *)
Definition for_ever_waiting (P : poll) (s : pst) (j : nat) : Prop :=
  forall ls s', prun P s ls s' -> p_at s' !! j = Some PSend /\ PPut j ∉ ls.
