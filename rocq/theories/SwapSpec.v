(** * What stacks should do whose processors are switched on and off *)
From Verif Require Import GoBase UBufModel FrameModel FrameSpec StackModel StackSpec NetModel NetSpec SwapModel.

Inductive wrun (N : net) (ok : wst -> wlab -> Prop) (s : wst) : list wlab -> wst -> Prop :=
| wr_nil : wrun N ok s [] s
| wr_snoc ls s1 l s2 : wrun N ok s ls s1 -> ok s1 l -> wstep N s1 l s2 -> wrun N ok s (ls ++ [l]) s2.

(** Processors whose switch the peer does not notice. *)
Definition unseen (k : kind) : bool := match k with KHeartbeat | KStat | KFlow => true | _ => false end.
Definition alike (p q : proc) : Prop := p_kind p = p_kind q /\ (unseen (p_kind p) = true \/ p_enable p = p_enable q).
Definition unseen_at (N : net) (d : side) (i : nat) : Prop :=
  forall p, e_procs (match d with SideA => na N | SideB => nb N end) !! i = Some p -> unseen (p_kind p) = true.

(** What the net itself does. *)
Definition net_labels (ls : list wlab) : list nlab := omap (fun l => match l with WNet l => Some l | _ => None end) ls.

(** The instances of both stacks, top first, and the number of those above the
    codec. *)
Record layout := Layout { lo_codec : kind; lo_a : list nat; lo_above_a : nat; lo_b : list nat; lo_above_b : nat }.
(** The processors of a stack, with their switches. *)
Definition stack_of (E : env) (ids : list nat) : list proc := omap (fun i => e_procs E !! i) ids.
Definition above (E : env) (ids : list nat) (n : nat) : list proc := take n (stack_of E ids).
Definition below (E : env) (ids : list nat) (n : nat) : list proc := drop (S n) (stack_of E ids).
(** Byte messages pass this stack. *)
Definition fit (E : env) (k : kind) (ids : list nat) (n : nat) (c : conn) : Prop :=
  wired E ids (above E ids n ++ Proc k true :: below E ids n) /\
  Forall (fun p => passes_message p = true) (above E ids n) /\ Forall (fun p => carries p = true) (below E ids n) /\
  e_isref E c = false /\ (e_mtu E < 2^32)%Z.
(** They pass from one to the other. *)
Definition ready (L : layout) (N : net) : Prop :=
  fit (na N) (lo_codec L) (lo_a L) (lo_above_a L) (nca N) /\ accepts (na N) (nca N) /\
  fit (nb N) (lo_codec L) (lo_b L) (lo_above_b L) (ncb N) /\
  Forall2 alike (below (na N) (lo_a L) (lo_above_a L)) (below (nb N) (lo_b L) (lo_above_b L)).

(** A switch of the receiver that the sender could notice is used only while
    nothing is under way, a message is sent only while the two stacks agree and
    when it can be sent, and a Read ends where a Write ended. *)
Definition careful (L : layout) (N : net) (s : wst) (l : wlab) : Prop :=
  let N' := now N (w_on s) in
  let ps := below (nb N') (lo_b L) (lo_above_b L) in
  match l with
  | WSet SideB i _ => unseen_at N SideB i \/ n_wire (w_net s) = []
  | WNet (NPass e) => ready L N' /\ forall x, n_hand (w_net s) e = Some x -> sendable N' (lo_codec L) ps e x
  | WNet l => whole_read (framed ps) (w_net s) l
  | _ => True
  end.
(** Only switches that the peer does not notice are used; a Read ends where a
    Write ended. *)
Definition discreet (L : layout) (N : net) (s : wst) (l : wlab) : Prop :=
  match l with
  | WSet d i _ => unseen_at N d i
  | WNet l => whole_read (framed (below (nb N) (lo_b L) (lo_above_b L))) (w_net s) l
  end.
(** Every Read returns one Write. *)
Definition one_by_one (s : wst) (l : wlab) : Prop := match l with WNet l => whole_read false (w_net s) l | _ => True end.
(** Directly below the codec stands an enabled SessionResolver or FrameDecoder [kd]. *)
Definition visible_header (kd : kind) : Prop := kd = KSession \/ exists cap, kd = KFrame cap.
