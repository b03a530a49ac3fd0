(** * What heartbeat supervision should do *)
From Verif Require Import GoBase BeatModel.

Inductive brun (timeout : Z) (shut : bool) (s : bst) : list blab -> bst -> Prop :=
| br_nil : brun timeout shut s [] s
| br_snoc ls s1 l s2 : brun timeout shut s ls s1 -> bstep timeout shut s1 l s2 -> brun timeout shut s (ls ++ [l]) s2.
Definition breach (timeout : Z) (shut : bool) (s : bst) : Prop := exists ls, brun timeout shut new_beat ls s.

(** The time at the end of a history. *)
Definition ticks (l : blab) : Z := match l with BTick d => d | _ => 0 end.
Definition clock (ls : list blab) : Z := fold_left (fun n l => n + ticks l)%Z ls 0%Z.
(** The time of the last label in the history that satisfies [p]. *)
Definition lasttime (p : blab -> bool) (ls : list blab) : option Z :=
  snd (fold_left (fun x l => (fst x + ticks l, if p l then Some (fst x) else snd x))%Z ls (0%Z, None)).
(** Signs of life of [c]: registered; arrived. *)
Definition sign (c : nat) (l : blab) : bool := match l with BOpen c' | BBeat c' => Nat.eqb c' c | _ => false end.
Definition arrival (c : nat) (l : blab) : bool := match l with BOpen c' | BArrive c' => Nat.eqb c' c | _ => false end.
(** Ends of supervision of [c]. *)
Definition dropped (c : nat) (l : blab) : bool := match l with BGone c' | BLate c' => Nat.eqb c' c | _ => false end.
(** [c] is supervised: its last sign is not followed by an end of supervision. *)
Definition supervised (c : nat) (ls : list blab) : Prop :=
  exists l1 l l2, ls = l1 ++ l :: l2 /\ sign c l = true /\ Forall (fun l' => dropped c l' = false) l2.
(** [T] seconds in nanoseconds. *)
Definition nsec (T : Z) : Z := T * 1000000000.
(** Steps of check itself, and their number. *)
Definition own_step (l : blab) : Prop := match l with BKeep _ | BLate _ | BShut _ | BLost _ | BDone => True | _ => False end.
Definition own_steps (ls : list blab) : nat :=
  length (List.filter (fun l => match l with BKeep _ | BLate _ | BShut _ | BLost _ | BDone => true | _ => false end) ls).
