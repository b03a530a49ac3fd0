(** * What a count of connections should be *)
From Verif Require Import GoBase ConnModel TallyModel.

(** Runs in which [ok] holds of every step. *)
Inductive yrun (ok : yst -> ylab -> Prop) (s : yst) : list ylab -> yst -> Prop :=
| yr_nil : yrun ok s [] s
| yr_snoc ls s1 l s2 : yrun ok s ls s1 -> ok s1 l -> ystep s1 l s2 -> yrun ok s (ls ++ [l]) s2.
Definition any_order (s : yst) (l : ylab) : Prop := True.
(** Events are published one after the other. *)
Definition one_at_a_time (s : yst) (l : ylab) : Prop := match l with YBegin _ => y_busy s = [] | _ => True end.
(** Connections announced and not reported closed by their goroutine. *)
Definition living (t : tst) : nat :=
  length (List.filter (fun p => match fst p with PTaken | PEnded => false | _ => true end) (t_conns t)).
(** Failed writes that have been reported. *)
Definition write_failures (ls : list ylab) : nat :=
  length (List.filter (fun l => match l with YEnd _ (TErrPublish _ _) => true | _ => false end) ls).
