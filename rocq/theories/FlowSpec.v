(** * Vocabulary for asking ahead of the answers *)
From Verif Require Export FlowModel.

Inductive cruns (k1 k2 : nat) (s : cst) : list clab -> cst -> Prop :=
| cr_nil : cruns k1 k2 s [] s
| cr_snoc tr s1 l s2 : cruns k1 k2 s tr s1 -> cstep k1 k2 s1 l s2 -> cruns k1 k2 s (tr ++ [l]) s2.
Inductive gruns (k : bool -> nat) (s : gst) : list glab -> gst -> Prop :=
| gr_nil : gruns k s [] s
| gr_snoc tr s1 l s2 : gruns k s tr s1 -> gstep k s1 l s2 -> gruns k s (tr ++ [l]) s2.

(** What a user asks, and how far a program is ahead of the answers. *)
Definition asked (p : list uop) : list nat := omap (fun o => match o with UAsk m => Some m | UTake => None end) p.
Definition takes (p : list uop) : nat := length (List.filter (fun o => match o with UTake => true | _ => false end) p).
Definition ahead (p : list uop) : Z := Z.of_nat (length (asked p)) - Z.of_nat (takes p).
(** At no point more than [n] ahead; at no point waiting for an answer to a
    question not asked. *)
Definition at_most_ahead (n : nat) (p : list uop) : Prop := forall p1 p2, p = p1 ++ p2 -> (ahead p1 <= Z.of_nat n)%Z.
Definition takes_answers (p : list uop) : Prop := forall p1 p2, p = p1 ++ p2 -> (0 <= ahead p1)%Z.

(** Nothing can happen any more. *)
Definition cstuck (k1 k2 : nat) (s : cst) : Prop := forall l s', ~ cstep k1 k2 s l s'.
Definition gstuck (k : bool -> nat) (s : gst) : Prop := forall l s', ~ gstep k s l s'.
(** The users have done all they wanted to. *)
Definition cdone (s : cst) : Prop := Forall (fun p => p = []) (c_users s).
Definition gdone (todo : bool -> list nat) (s : gst) : Prop := forall b, g_todo s b = [] /\ g_got s b = todo b.
