(** * What two stacks that talk in both directions should do *)
From Verif Require Import GoBase UBufModel FrameModel FrameSpec StackModel StackSpec NetModel NetSpec DuoModel.

(** Runs in which [ok] holds of every step. *)
Inductive drun (D : duo) (ok : dst -> dlab -> Prop) (s : dst) : list dlab -> dst -> Prop :=
| dr_nil : drun D ok s [] s
| dr_snoc ls s1 l s2 : drun D ok s ls s1 -> ok s1 l -> dstep D s1 l s2 -> drun D ok s (ls ++ [l]) s2.

Definition any_reads (s : dst) (l : dlab) : Prop := True.
(** A Read ends where a Write of the other side ended; it may return the bytes
    of several Writes if [joined]. *)
Definition whole_reads (joined : bool) (s : dst) (l : dlab) : Prop :=
  match l with
  | DRead b n => exists i j, d_got s (negb b) = length (concat (take i (d_writes s (negb b)))) /\
      n = length (concat (take j (drop i (d_writes s (negb b))))) /\ (joined = false -> j = 1)
  | _ => True
  end.

(** One direction: side [b] sends, the other one receives. *)
Definition one_way (D : duo) (b : bool) : net :=
  Net (du_env D b) (du_env D (negb b)) (du_conn D b) (du_conn D (negb b)) (du_sess D b) (du_txcap D) (du_rxcap D).
(** Both stacks have the codec [k] and below it the processors [ps], with their
    StatCounters enabled, and room for a message of one byte. *)
Definition paired (D : duo) (k : kind) (ps : list proc) : Prop :=
  (forall b, matching (one_way D b) k ps /\ (e_overhead (du_env D b) < e_mtu (du_env D b))%Z) /\
  Forall (fun p => match p_kind p with KStat => p_enable p = true | _ => True end) ps.

(** The mails endpoint [e] was given, and those of them not sent yet. *)
Definition dgiven (e : bool * nat) (ls : list dlab) : list mail :=
  omap (fun l => match l with DPut x m => if decide (x = e) then Some m else None | _ => None end) ls.
Definition dunsent (e : bool * nat) (s : dst) : list mail :=
  match d_hand s e with Some x => [x] | None => [] end ++ d_tx s e.
(** What the listener of session [z] of side [b] was called with. *)
Definition dheard (b : bool) (z : Z) (s : dst) : list msg :=
  omap (fun p => if decide (fst p = b /\ fst (snd p) = z) then Some (snd (snd p)) else None) (d_seen s).
(** Nothing is under way between the two stacks, and nothing waits to be sent. *)
Definition dsettled (s : dst) : Prop :=
  (forall b, d_wire s b = [] /\ d_up s b = []) /\ forall e, d_rx s e = [].
Definition dall_sent (s : dst) : Prop := forall e, dunsent e s = [].
Definition dall_sendable (D : duo) (k : kind) (ps : list proc) (ls : list dlab) : Prop :=
  forall b e x, DPut (b, e) x ∈ ls -> sendable (one_way D b) k ps e x.
(** A step that puts no further mail into a channel and sends no message of a
    processor's own. *)
Definition dinner (l : dlab) : Prop := match l with DPut _ _ | DSelf _ _ _ => False | _ => True end.
Definition dmails_put (ls : list dlab) : nat := length (List.filter (fun l => match l with DPut _ _ => true | _ => false end) ls).
Definition own_sent (ls : list dlab) : nat := length (List.filter (fun l => match l with DSelf _ _ _ => true | _ => false end) ls).
(** Answers to requests for statistics fit into a read of the other side. *)
Definition answers_fit (D : duo) (ps : list proc) : Prop :=
  forall b, (17 + Z.of_nat (length (e_name (du_env D b))) + room ps <= e_mtu (du_env D (negb b)))%Z.

(** How often side [b] sent a heartbeat, and asked for statistics. *)
Definition selfs (b : bool) (tag : byte) (ls : list dlab) : nat :=
  length (List.filter (fun l => match l with DSelf b' _ t => Bool.eqb b' b && (t =? tag)%Z | _ => false end) ls).
(** How often a Heartbeat of side [b] noted a heartbeat, and how often a
    StatCounter of side [b] showed the numbers of the other side. *)
Definition noted (b : bool) (s : dst) : nat :=
  length (List.filter (fun o => match o with ORefresh _ _ => true | _ => false end) (s_out (d_st s b))).
Definition showed (b : bool) (s : dst) : nat :=
  length (List.filter (fun o => match o with OShow _ _ _ _ => true | _ => false end) (s_out (d_st s b))).
