(** * What the endpoints of a stack with a Loopback should do *)
From Verif Require Import GoBase UBufModel FrameModel StackModel StackSpec LoopModel.

Inductive lrun (L : lop) (s : lst) : list llab -> lst -> Prop :=
| lr_nil : lrun L s [] s
| lr_snoc ls s1 l s2 : lrun L s ls s1 -> lstep L s1 l s2 -> lrun L s (ls ++ [l]) s2.

(** A codec [k] with a Loopback somewhere below, whatever is below that; the
    processors between keep nothing of a message. *)
Definition over (L : lop) (k : kind) (ps : list proc) : Prop :=
  exists ids pre en rest, wired (lenv L) ids (pre ++ Proc k true :: ps ++ Proc KLoopback en :: rest) /\
    Forall (fun p => passes_message p = true) pre.
Definition looped (L : lop) (k : kind) : Prop :=
  over L k [] \/
  exists ps, over L k ps /\ Forall (fun p => carries p = true) ps /\
    (forall i cap en, e_procs (lenv L) !! i <> Some (Proc (KFrame cap) en)) /\
    (e_mtu (lenv L) < 2^32)%Z /\ forall e, (0 <= lsess L e < 2^32)%Z.
(** The codec gives the message back, and it fits the MTU.  With processors below
    the codec, a connection and a session that fits their headers are needed. *)
Definition returnable (L : lop) (k : kind) (x : parcel) : Prop :=
  (exists l, encodes k (pc_msg x) l /\ decodes k l (pc_msg x) /\ l <> [] /\
    (Z.of_nat (length l) <= e_mtu (lenv L) - e_overhead (lenv L))%Z) /\
  (over L k [] \/
   (exists c, pc_conn x = Some c /\ e_isref (lenv L) c = false) /\ forall z, pc_dest x = Some z -> (0 <= z < 2^32)%Z).
(** The session [x] is for if [e] sends it. *)
Definition goes_to (L : lop) (e : nat) (x : parcel) : Z := dest_of (lsess L e) (pc_dest x).

(** What was put into the transmit channel of [e], by users and by listeners. *)
Definition put_by (e : nat) (l : llab) : option parcel :=
  match l with LPut f x | LSend _ f x => if decide (f = e) then Some x else None | _ => None end.
Definition put_to (e : nat) (ls : list llab) : list parcel := omap (put_by e) ls.
Definition all_returnable (L : lop) (k : kind) (ls : list llab) : Prop :=
  forall e x, x ∈ put_to e ls -> returnable L k x.
(** Those of them that have not reached a receive channel yet. *)
Definition waiting (e : nat) (s : lst) : list parcel :=
  match o_hand s e with HTook x | HUp x (_ :: _) => [x] | _ => [] end ++ o_tx s e.
(** In a sequence of parcels with their senders: those of [e]; the messages for [z]. *)
Definition from (e : nat) (o : list (nat * parcel)) : list parcel :=
  omap (fun p => if decide (fst p = e) then Some (snd p) else None) o.
Definition meant_for (L : lop) (z : Z) (o : list (nat * parcel)) : list msg :=
  omap (fun p => if decide (goes_to L (fst p) (snd p) = z) then Some (pc_msg (snd p)) else None) o.
(** What the listener of [z] was called with. *)
Definition told (z : Z) (s : lst) : list msg :=
  omap (fun p => if decide (fst p = z) then Some (snd p) else None) (o_seen s).
(** All goroutines wait for something to do. *)
Definition at_rest (s : lst) : Prop :=
  (forall e, o_tx s e = [] /\ o_hand s e = HIdle) /\ forall z, o_rx s z = [] /\ o_todo s z = [].
(** A step that is not a user's. *)
Definition own (l : llab) : Prop := match l with LPut _ _ => False | _ => True end.
Definition user_puts (ls : list llab) : nat :=
  length (omap (fun l => match l with LPut e x => Some (e, x) | _ => None end) ls).
(** The listeners send nothing; at most one message for each they are called with. *)
Definition silent (L : lop) : Prop := forall z m, lreply L z m = [].
Definition one_each (L : lop) : Prop := forall z m, length (lreply L z m) <= 1.
(** Somebody has something to do. *)
Definition busy (s : lst) : Prop :=
  (exists e, o_tx s e <> [] \/ o_hand s e <> HIdle) \/ exists z, o_rx s z <> [] \/ o_todo s z <> [].
