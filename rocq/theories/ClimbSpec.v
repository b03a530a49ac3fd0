(** * What the goroutines of a stack should do *)
From Verif Require Import GoBase UBufModel StackModel StackSpec ClimbModel.

Inductive urun (E : env) (s : ust) : list ulab -> ust -> Prop :=
| ur_nil : urun E s [] s
| ur_snoc ls s1 l s2 : urun E s ls s1 -> ustep E s1 l s2 -> urun E s (ls ++ [l]) s2.

(** The goroutine that takes the step. *)
Definition whose (l : ulab) : nat := match l with UStart c _ | UFail c _ | UCall c | UEnd c | UCrash c => c end.
Definition is_start (l : ulab) : bool := match l with UStart _ _ | UFail _ _ => true | _ => false end.
Definition is_crash (l : ulab) : bool := match l with UCrash _ | UFail _ _ => true | _ => false end.
(** What the goroutine [c] started. *)
Definition job_of (c : nat) (l : ulab) : option job :=
  match l with UStart c' j | UFail c' j => if decide (c' = c) then Some j else None | _ => None end.
Definition jobs_of (c : nat) (ls : list ulab) : list job := omap (job_of c) ls.
(** How many steps the goroutine of [c] took. *)
Definition steps_of (c : nat) (ls : list ulab) : nat := length (filter (fun l => whose l = c) ls).
(** What the goroutine of [c] showed: handed to endpoints, wrote, refreshed. *)
Definition shown_by (c : nat) (s : ust) : list out := (filter (fun y => y.1 = c) (u_log s)).*2.

(** The job as a call from outside. *)
Definition run_job (E : env) (j : job) (f : nat) (s : st) : option outcome :=
  match j with
  | JRead c l => receive f E c l s
  | JRef c m => receive_ref f E c m s
  | JSend z d c m => send f E z d c m s
  | JSelf i tag c => self_message f E i tag c s
  end.
(** It shows [outs] when no other goroutine is inside the processors, whatever
    happened before. *)
Definition alone_shows (E : env) (j : job) (outs : list out) : Prop :=
  forall s, exists s', finishes (fun f => run_job E j f s) s outs s'.
Definition alone_crashes (E : env) (j : job) : Prop :=
  forall s, crashes (fun f => run_job E j f s) s [].
(** A processor's own messages are those of a processor of the stack. *)
Definition inside (ids : list nat) (j : job) : Prop := match j with JSelf i _ _ => i ∈ ids | _ => True end.

(** Processors that keep nothing of what passes for later: no frame decoder,
    and no StatCounter that answers with its counters. *)
Definition keeps_nothing (p : proc) : Prop :=
  match p_kind p with KFrame _ => False | KStat => p_enable p = false | _ => True end.
(** A connection answers Write and SetReference in the same way whatever
    happened before. *)
Definition steady (E : env) : Prop :=
  (forall o o' c, e_write E o c = e_write E o' c) /\ (forall o o' c m, e_setref E o c m = e_setref E o' c m).
Definition memoryless (E : env) : Prop := Forall keeps_nothing (e_procs E) /\ steady E.
(** No processor sends what comes from above up again. *)
Definition turns_up (p : proc) : Prop := p_kind p = KLoopback.
