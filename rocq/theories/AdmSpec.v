(** * What administration by several goroutines should do *)
From Verif Require Import GoBase MgmtModel MgmtSpec AdmModel.

Inductive arun (grow : nat -> nat) (s : ast) : list alab -> ast -> Prop :=
| ar_nil : arun grow s [] s
| ar_snoc ls s1 l s2 : arun grow s ls s1 -> astep grow s1 l s2 -> arun grow s (ls ++ [l]) s2.

(** All calls have returned. *)
Definition all_returned (s : ast) : Prop := forall pc, pc ∈ a_calls s -> pc = CDone.
(** Calls are made one at a time: each begins when the ones before have
    returned.  Publications go on meanwhile. *)
Inductive orun (grow : nat -> nat) (s : ast) : list alab -> ast -> Prop :=
| or_nil : orun grow s [] s
| or_snoc ls s1 l s2 : orun grow s ls s1 -> astep grow s1 l s2 ->
    ((exists e, l = AAdd e \/ l = ADel e) -> all_returned s1) -> orun grow s (ls ++ [l]) s2.

(** The calls made. *)
Definition a_op (l : alab) : option setop :=
  match l with AAdd e => Some (Ins e) | ADel e => Some (Rem e) | _ => None end.
(** The endpoints told of publication [p], in order. *)
Definition told (p : nat) (s : ast) : list nat :=
  snd <$> List.filter (fun x => Nat.eqb (fst x) p) (a_log s).
Definition finished (p : nat) (s : ast) : Prop := exists sl i, a_pubs s !! p = Some (sl, i) /\ sl_len sl <= i.
(** A deletion has moved the elements but not yet shortened the list. *)
Definition erasing (s : ast) : Prop := exists c e sl, a_calls s !! c = Some (CDelStore e sl).
(** Deletions take place at [m] and behind only. *)
Definition erases_from (m : nat) (ls : list alab) : Prop := forall c i, AErase c i ∈ ls -> m <= i.
Definition no_deletion (ls : list alab) : Prop := forall e, ADel e ∉ ls.
(** Steps inside calls and publications, the beginnings not counted. *)
Definition a_inner (l : alab) : bool := match l with AAdd _ | ADel _ | APublish => false | _ => true end.
Definition inner_steps (ls : list alab) : nat := length (List.filter a_inner ls).
Definition additions (ls : list alab) : nat := length (List.filter (fun l => match l with AAdd _ => true | _ => false end) ls).
Definition publications (ls : list alab) : nat := length (List.filter (fun l => match l with APublish => true | _ => false end) ls).
