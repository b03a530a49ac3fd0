(** * Copy-on-write buffers as they should be: independent deques *)
From Verif Require Import GoBase UBufModel UBufSpec CowModel.

Inductive crun (s : cst) : list clab -> cst -> Prop :=
| cr_nil : crun s [] s
| cr_snoc ls s1 l s2 : crun s ls s1 -> cstep s1 l s2 -> crun s (ls ++ [l]) s2.

(** What the calls made so far mean for the buffers, each a deque of its own
    (UBufSpec.v): nothing a goroutine does to its buffer touches another. *)
Definition meaning1 (qs : list deque) (l : clab) : list deque :=
  match l with
  | CAlloc n r => qs ++ [q_new n r]
  | CSnap h => match qs !! h with Some q => qs ++ [q] | None => qs end
  | CSkip h n => alter (fun q => q_pop q n) h qs
  | CReset h => alter (fun q => snd (q_step OpReset q)) h qs
  | CPut h x => alter (fun q => q_append q [x]) h qs
  | CHead h l => alter (fun q => q_prepend q l) h qs
  | _ => qs
  end.
Definition meaning (ls : list clab) : list deque := fold_left meaning1 ls [].

(** What the goroutine of buffer [h] would find in it. *)
Definition holds (s : cst) (h : nat) : option (list byte) :=
  b ← cc_bufs s !! h; c ← cc_cells s !! b_loc b;
  Some (take (b_wr b - b_rd b) (drop (b_rd b) (c_bytes c))).

(** Isolation: every byte a goroutine has looked at is the one its own calls
    imply, and so is what every buffer holds now. *)
Definition looks_right (ls : list clab) : Prop :=
  forall l1 h i x l2, ls = l1 ++ CLook h i x :: l2 ->
    exists q, meaning l1 !! h = Some q /\ q_data q !! i = Some x.
Definition holds_right (ls : list clab) (s : cst) : Prop :=
  forall h, holds s h = q_data <$> meaning ls !! h.
Definition isolated (ls : list clab) (s : cst) : Prop := looks_right ls /\ holds_right ls s.

(** Buffer [h] has left the storage of number [a] by decrementing its count but
    is still copying from it. *)
Definition copying (s : cst) (h a : nat) : Prop :=
  exists b l new k, cc_bufs s !! h = Some b /\ b_loc b = a /\ b_pc b = PCopy l new k.
(** Runs in which no goroutine loads the count of some storage while another is
    copying from it. *)
Inductive calm_run (s : cst) : list clab -> cst -> Prop :=
| cm_nil : calm_run s [] s
| cm_snoc ls s1 l s2 : calm_run s ls s1 -> cstep s1 l s2 ->
    (forall h b, l = CLoad h -> cc_bufs s1 !! h = Some b -> forall h', h' <> h -> ~ copying s1 h' (b_loc b)) ->
    calm_run s (ls ++ [l]) s2.
(** Only buffer [h] is ever written to. *)
Definition one_writer (h : nat) (ls : list clab) : Prop := forall h' w l, CBegin h' w l ∈ ls -> h' = h.

(** Steps of a writing call under way of the goroutine of buffer [h]. *)
Definition by_buf (h : nat) (l : clab) : Prop :=
  match l with CLoad h' | CDec h' | CCopy h' | CSwap h' | CPut h' _ | CHead h' _ => h' = h | _ => False end.
(** A write at the tail is under way. *)
Definition tail_write (b : cbuf) : Prop :=
  match b_pc b with PLoad Tail _ | PDec Tail _ | PWrite Tail _ | PCopy _ _ _ => True | _ => False end.

(** The calls: made on buffer [h], and what the deque [q] says of them. *)
Definition call_on (l : clab) : option nat :=
  match l with CSnap h | CLook h _ _ | CSkip h _ | CReset h | CBegin h _ _ => Some h | _ => None end.
Definition allowed (q : deque) (l : clab) : Prop :=
  match l with
  | CLook _ i x => q_data q !! i = Some x
  | CSkip _ n => n <= length (q_data q)
  | CSnap _ | CReset _ => True
  | CBegin _ Tail l => l <> [] /\ length l <= q_tail q
  | CBegin _ Head l => l <> [] /\ length l <= q_head q
  | _ => False
  end.
Definition by_bufb (h : nat) (l : clab) : bool :=
  match l with CLoad h' | CDec h' | CCopy h' | CSwap h' | CPut h' _ | CHead h' _ => Nat.eqb h' h | _ => false end.
Definition steps_by (h : nat) (ls : list clab) : nat := length (List.filter (by_bufb h) ls).
