(** * What a decoder shared by several connections should do *)
From Verif Require Import GoBase UBufModel FrameModel FrameSpec MixModel.

Inductive jrun (mtu : nat) (s : jst) : list jlab -> jst -> Prop :=
| jr_nil : jrun mtu s [] s
| jr_snoc ls s1 l s2 : jrun mtu s ls s1 -> jstep mtu s1 l s2 -> jrun mtu s (ls ++ [l]) s2.

(** The chunks that have arrived on connection [g], and what has been handed up on it. *)
Definition arrived (g : nat) (ls : list jlab) : list (list byte) :=
  omap (fun l => match l with JArrive x ch => if decide (x = g) then Some ch else None | _ => None end) ls.
Definition ups (g : nat) (s : jst) : list (list byte) :=
  omap (fun x => if decide (fst x = g) then Some (snd x) else None) (j_up s).
(** [o] is what the chunks [chs] give when every one is decoded alone. *)
Definition each_alone (chs o : list (list byte)) : Prop :=
  exists os, Forall2 (fun ch o => exists crash, chunk_out ch o crash) chs os /\ o = concat os.
(** Every chunk is shorter than the cache (the default capacity of the cache is
    twice the MTU). *)
Definition all_fit (k mtu : nat) (ls : list jlab) : Prop :=
  forall g ch, ch ∈ arrived g ls -> chunk_fits k mtu ch.
(** A step of goroutine [g] or an arrival for it, and the cache of a new decoder. *)
Definition by_alone (g : nat) (l : jlab) : Prop := match l with JArrive x _ | JMove x => x = g end.
Definition fresh_cache (k : nat) : vbuf := VB 0 0 0 (make_store k).
(** How many steps goroutine [g] has made. *)
Definition moves (g : nat) (ls : list jlab) : nat :=
  length (List.filter (fun l => match l with JMove x => x =? g | _ => false end) ls).
