(** * What sending on a connection should do *)
From Verif Require Import GoBase UBufSpec FrameSpec WireModel.

Inductive xrun (s : xst) : list xlab -> xst -> Prop :=
| xr_nil : xrun s [] s
| xr_snoc ls s1 l s2 : xrun s ls s1 -> xstep s1 l s2 -> xrun s (ls ++ [l]) s2.
Definition xreach (s : xst) : Prop := exists ls, xrun new_wire ls s.

(** The messages a goroutine was asked to send (empty ones need no sending). *)
Definition asked (g : nat) (ls : list xlab) : list (list byte) :=
  omap (fun l => match l with XCall x m => if decide (x = g /\ m <> []) then Some m else None | _ => None end) ls.
(** Those of a list of (goroutine, message) that are [g]'s. *)
Definition of_sender {A} (g : nat) (o : list (nat * A)) : list A :=
  omap (fun p => if decide (fst p = g) then Some (snd p) else None) o.
(** How many of [g]'s calls failed, how many events it has published, and
    whether it is about to publish one. *)
Definition failures (g : nat) (ls : list xlab) : nat :=
  length (omap (fun l => match l with XFail x _ _ => if decide (x = g) then Some tt else None | _ => None end) ls).
Definition reports (g : nat) (s : xst) : nat := length (omap (fun x => if decide (x = g) then Some tt else None) (x_events s)).
Definition reporting (g : nat) (s : xst) : nat :=
  match x_at s g with XFailed | XMarked | XShut => 1 | _ => 0 end.
(** Nobody closes the connection, no write fails. *)
Definition quiet (l : xlab) : Prop := match l with XFail _ _ _ | XClose => False | _ => True end.
(** [t] is a beginning of [m], not all of it. *)
Definition cut_off (t m : list byte) : Prop := exists k, k < length m /\ t = take k m.
(** What [g] is sending. *)
Definition under_way (g : nat) (s : xst) : list (list byte) :=
  match x_at s g with XChecking m | XWriting m => [m] | _ => [] end.
(** Steps of goroutine [g] inside its calls. *)
Definition own_move (g : nat) (l : xlab) : bool :=
  match l with XDrop x _ | XGo x | XWrite x _ | XFail x _ _ | XMark x | XShutdown x | XPublish x => Nat.eqb x g | _ => false end.
Definition own_moves (g : nat) (ls : list xlab) : nat := length (List.filter (own_move g) ls).
