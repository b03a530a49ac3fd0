(** * Counting and map accesses as they should be *)
From Verif Require Import GoBase RaceModel.

Inductive qrun (s : qst) : list qlab -> qst -> Prop :=
| qr_nil : qrun s [] s
| qr_snoc ls s1 l s2 : qrun s ls s1 -> qstep s1 l s2 -> qrun s (ls ++ [l]) s2.
(** Messages counted: completed increments. *)
Definition counted (ls : list qlab) : nat := length (List.filter (fun l => match l with QStore _ => true | _ => false end) ls).
Definition is_store (l : qlab) : Prop := match l with QStore _ => True | _ => False end.
(** No increment falls between the load and the store of another one. *)
Definition undisturbed (ls : list qlab) : Prop :=
  forall l1 g l2 l3, ls = l1 ++ QLoad g :: l2 ++ QStore g :: l3 -> QLoad g ∉ l2 -> QStore g ∉ l2 -> Forall (fun l => ~ is_store l) l2.

Inductive mrun (s : mst) : list mlab -> mst -> Prop :=
| mr_nil : mrun s [] s
| mr_snoc ls s1 l s2 : mrun s ls s1 -> mstep s1 l s2 -> mrun s (ls ++ [l]) s2.
Definition mreach (s : mst) : Prop := exists ls, mrun new_map ls s.
(** A write overlaps another access. *)
Definition overlap (s : mst) : Prop :=
  exists k, m_acc s k = AWriting /\ ((exists k', k' <> k /\ m_acc s k' <> AOut) \/ (exists g, m_gor s !! g = Some true)).

(** Where a caller is according to what it has done. *)
Inductive phase := PhOut | PhLocked | PhInside.
Definition phase_step (k : nat) (p : phase) (l : mlab) : phase :=
  match l with
  | MLock x | MEnd x => if x =? k then PhLocked else p
  | MUnlock x => if x =? k then PhOut else p
  | MRead x | MWrite x => if x =? k then PhInside else p
  | _ => p
  end.
Definition phase_of (k : nat) (ls : list mlab) : phase := fold_left (phase_step k) ls PhOut.
(** Endpoint goroutines started so far; whether goroutine [g] is in its read. *)
Definition started (ls : list mlab) : nat := length (List.filter (fun l => match l with MSpawn _ => true | _ => false end) ls).
Definition peeking (g : nat) (ls : list mlab) : bool :=
  fold_left (fun b l => match l with MPeek x => if x =? g then true else b | MPeekEnd x => if x =? g then false else b | _ => b end) ls false.
(** What may come next. *)
Definition may_come (ls : list mlab) (l : mlab) : Prop :=
  match l with
  | MLock _ => forall k, phase_of k ls = PhOut
  | MUnlock k | MRead k | MWrite k | MSpawn k => phase_of k ls = PhLocked
  | MEnd k => phase_of k ls = PhInside
  | MPeek g => g < started ls /\ peeking g ls = false
  | MPeekEnd g => peeking g ls = true
  end.
