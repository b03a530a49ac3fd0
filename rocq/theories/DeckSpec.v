(** * What the upper deck should do *)
From Verif Require Import GoBase DeckModel.

(** ** Registration *)
(** The first registered endpoint of a session. *)
Definition first_registered (σ : nat -> Z) (r : reg) (k : Z) : option nat :=
  List.find (fun x => (σ x =? k)%Z) (r_list r).
(** Each deletion is of an endpoint that is alone in its session. *)
Fixpoint lonely_deletions (σ : nat -> Z) (r : reg) (ops : list rop) : Prop :=
  match ops with
  | [] => True
  | o :: ops' =>
      (forall e, o = RDel e -> forall x, x ∈ r_list r -> σ x = σ e -> x = e) /\
      lonely_deletions σ (rstep σ r o) ops'
  end.

(** ** Executions *)
Inductive drun (σ : nat -> Z) (s : dst) : list dlab -> dst -> Prop :=
| dr_nil : drun σ s [] s
| dr_snoc ls s1 l s2 : drun σ s ls s1 -> dstep σ s1 l s2 -> drun σ s (ls ++ [l]) s2.
Definition dreach (σ : nat -> Z) (s : dst) : Prop := exists ls, drun σ new_deck ls s.
(** Executions in which no acceptEndpoint starts while another one is between
    its two parts. *)
Inductive dserial (σ : nat -> Z) : dst -> Prop :=
| se_nil : dserial σ new_deck
| se_snoc s l s' : dserial σ s -> dstep σ s l s' -> (forall e, l = DCheck e -> d_pending s = []) -> dserial σ s'.
(** Endpoints that receive data of session [k]. *)
Definition serving (σ : nat -> Z) (s : dst) (k : Z) : list nat :=
  List.filter (fun x => (σ x =? k)%Z) ((d_map s).*1).

(** Labels that do not register endpoint [e] again. *)
Definition not_again (e : nat) (l : dlab) : Prop := l <> DInsert e.
(** What was passed down for endpoint [e]. *)
Definition sent_for (e : nat) (s : dst) : list nat :=
  omap (fun p => if decide (fst p = e) then Some (snd p) else None) (d_sent s).
(** Goroutine [i] is the only one of endpoint [e] and waits. *)
Definition only_parked (s : dst) (e i c : nat) : Prop :=
  look (d_map s) e = Some c /\ d_loops s !! i = Some (e, LParked (Some c)) /\
  forall j pc, j <> i -> d_loops s !! j = Some (e, pc) -> pc = LStopped.

(** ** Hand-over *)
Inductive hrun (σ : nat -> Z) (cap : nat) (s : hst) : list hlab -> hst -> Prop :=
| hr_nil : hrun σ cap s [] s
| hr_snoc ls s1 l s2 : hrun σ cap s ls s1 -> hstep σ cap s1 l s2 -> hrun σ cap s (ls ++ [l]) s2.
(** The messages of goroutine [c]. *)
Definition of_conn (c : nat) (l : list (nat * nat)) : list nat :=
  omap (fun p => if decide (fst p = c) then Some (snd p) else None) l.
(** Those found to be for endpoint [e]. *)
Definition found_for (e : nat) (s : hst) : list (nat * nat) :=
  omap (fun p => if decide (fst p = e) then Some (snd p) else None) (h_found s).
(** What goroutine [c] delivered for session [k]. *)
Definition delivered (c : nat) (k : Z) (ls : list hlab) : list nat :=
  omap (fun l => match l with HReceive c' k' m => if decide (c' = c /\ k' = k) then Some m else None | _ => None end) ls.
(** Endpoint [e] is the one that serves session [k] throughout. *)
Definition serves_throughout (σ : nat -> Z) (e : nat) (k : Z) (s : hst) (ls : list hlab) : Prop :=
  List.filter (fun x => (σ x =? k)%Z) (h_served s) = [e] /\
  forall l, HServe l ∈ ls -> List.filter (fun x => (σ x =? k)%Z) l = [e].

(** ** Order of transmission *)
(** The messages put into endpoint [e]'s txChannel. *)
Definition puts (e : nat) (ls : list dlab) : list nat :=
  omap (fun l => match l with DPut x m => if decide (x = e) then Some m else None | _ => None end) ls.
(** The messages that goroutines of [e] have taken and not yet passed down. *)
Definition in_hand (e : nat) (s : dst) : list nat :=
  omap (fun p => match p with (x, LSending m) => if decide (x = e) then Some m else None | _ => None end) (d_loops s).
(** How often [e] was registered. *)
Definition registrations (e : nat) (ls : list dlab) : nat :=
  length (List.filter (fun l => match l with DInsert x => x =? e | _ => false end) ls).
(** How many steps goroutines of [e] have made. *)
Definition loop_steps (e : nat) (ls : list dlab) : nat :=
  length (List.filter (fun l => match l with DLoop x => x =? e | _ => false end) ls).
