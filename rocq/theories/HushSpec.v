(** * When the traffic between two stacks should come to rest *)
From Verif Require Import GoBase UBufModel FrameModel StackModel StackSpec NetModel NetSpec DuoModel DuoSpec.

(** Steps that only carry on with what is on the connection. *)
Definition onward (l : dlab) : Prop := match l with DRead _ _ | DDeliver _ | DListen _ _ => True | _ => False end.
Definition reading (l : dlab) : Prop := match l with DRead _ _ => True | _ => False end.
(** How many Reads of side [b], and how many Reads, there are in a run. *)
Definition reads_by (b : bool) (ls : list dlab) : nat :=
  length (List.filter (fun l => match l with DRead b' _ => Bool.eqb b' b | _ => false end) ls).
Definition reads (ls : list dlab) : nat := reads_by true ls + reads_by false ls.
Definition passes (ls : list dlab) : nat :=
  length (List.filter (fun l => match l with DPass _ => true | _ => false end) ls).
(** Bytes that were written and not yet read. *)
Definition on_way (s : dst) : nat := length (d_wire s true) + length (d_wire s false).

(** No processor of the stack answers what comes in. *)
Definition mute (E : env) : Prop :=
  Forall (fun p => match p_kind p with KEcho | KStat => p_enable p = false | _ => True end) (e_procs E).
(** An enabled Echo is the lowest processor, over the byte connection [c]. *)
Definition mirrors (E : env) (c : conn) : Prop :=
  exists ids pa, wired E ids (pa ++ [Proc KEcho true]) /\ e_isref E c = false /\ accepts E c /\ (0 < e_mtu E < 2^32)%Z.
