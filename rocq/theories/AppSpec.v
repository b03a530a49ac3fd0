(** * What the example application should do *)
From Verif Require Import GoBase AppModel.

(** ** The service center *)
(** The separator ":" and the word "reg" of the protocol. *)
Definition col : byte := 58%Z.
Definition reg : text := [114; 101; 103]%Z.
(** [r] begins with [n] and a colon. *)
Definition names (n r : text) : Prop := exists a, r = n ++ col :: a.
Definition ends_in (w r : text) : Prop := exists p, r = p ++ w.
(** The request that registers [a] under [n]. *)
Definition registers (n a : text) : text := n ++ [col] ++ a ++ [col] ++ reg.
(** Requests the center survives. *)
Definition harmless (r : text) : Prop := ends_in reg r -> col ∈ r.

(** ** Sessions *)
Inductive xrun (s : xst) : list xlab -> xst -> Prop :=
| xr_nil : xrun s [] s
| xr_snoc ls s1 l s2 : xrun s ls s1 -> xstep s1 l s2 -> xrun s (ls ++ [l]) s2.
Definition connects (ls : list xlab) : nat :=
  length (List.filter (fun l => match l with XConnect _ => true | _ => false end) ls).
(** The connection announced or read from last. *)
Definition last_touched (ls : list xlab) : option nat :=
  foldl (fun o l => match l with XConnect c | XRead c _ => Some c | _ => o end) None ls.
(** What arrived, and what was read, in order. *)
Definition arrived (ls : list xlab) : list (nat * nat) := omap (fun l => match l with XArrive c d => Some (c, d) | _ => None end) ls.
Definition was_read (ls : list xlab) : list (nat * nat) := omap (fun l => match l with XRead c d => Some (c, d) | _ => None end) ls.
