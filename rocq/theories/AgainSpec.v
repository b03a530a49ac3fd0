(** * What a stack that is run several times should do *)
From Verif Require Import GoBase AgainModel.

Inductive grun (σ : nat -> Z) (procs : bool) (s : gst) : list glab -> gst -> Prop :=
| gr_nil : grun σ procs s [] s
| gr_snoc ls s1 l s2 : grun σ procs s ls s1 -> gstep σ procs s1 l s2 -> grun σ procs s (ls ++ [l]) s2.
Definition greach (σ : nat -> Z) (procs : bool) (s : gst) : Prop := exists ls, grun σ procs new_again ls s.

(** How often Run was called. *)
Definition runs (ls : list glab) : nat := length (List.filter (fun l => match l with GRun => true | _ => false end) ls).
(** The messages put into [e]'s channel, and those passed down for it. *)
Definition put_for (e : nat) (ls : list glab) : list nat :=
  omap (fun l => match l with GPut x m => if decide (x = e) then Some m else None | _ => None end) ls.
Definition down_for (e : nat) (s : gst) : list nat :=
  omap (fun p => if decide (fst p = e) then Some (snd p) else None) (g_sent s).
(** [e]'s goroutines, of all Runs, and what they have in hand. *)
Definition goroutines (e : nat) (s : gst) : list (option nat) :=
  omap (fun p => if decide (fst p = e) then Some (snd p) else None) (concat (g_decks s)).
(** The endpoint that should serve session [k]: the first registered one. *)
Definition first_of (σ : nat -> Z) (s : gst) (k : Z) : option nat := List.find (fun x => (σ x =? k)%Z) (g_list s).
(** [e] is served by the newest deck. *)
Definition is_served (s : gst) (e : nat) : Prop := exists d, last (g_decks s) = Some d /\ e ∈ d.*1.
(** Labels by which [e] sends or receives. *)
Definition alive (e : nat) (l : glab) : Prop :=
  match l with GPass _ x _ | GRecv _ _ x => x = e | _ => False end.
(** Steps of the goroutine that Run [i] started for [e]. *)
Definition by_goroutine (i e : nat) (l : glab) : Prop :=
  match l with GTake j x _ | GPass j x _ => j = i /\ x = e | _ => False end.
