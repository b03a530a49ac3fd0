(** * What an echo server should do for its client (C95)

    Runs of DuoModel in which side [c] is the client and the lowest processor of
    the other side is an enabled Echo. *)
From Verif Require Import GoBase UBufModel FrameModel FrameSpec StackModel StackSpec NetModel NetSpec DuoModel DuoSpec HushSpec.

(** All that side [b] has written. *)
Definition sent (b : bool) (s : dst) : list byte := concat (d_writes s b).
(** The other side is an echo server, and none of its goroutines sends anything. *)
Definition echoes (D : duo) (c : bool) : Prop := mirrors (du_env D (negb c)) (du_conn D (negb c)).
Definition quietly (c : bool) (l : dlab) : Prop :=
  match l with DPass (v, _) => v = c | DSelf v _ _ => v = c | _ => True end.
(** The client's Reads end where one of its own Writes ended; they may return
    the bytes of several Writes if [joined].  The server reads as it likes. *)
Definition own_reads (c joined : bool) (s : dst) (l : dlab) : Prop :=
  match l with
  | DRead v n => v = c -> exists i j, d_got s (negb c) = length (concat (take i (d_writes s c))) /\
      n = length (concat (take j (drop i (d_writes s c)))) /\ (joined = false -> j = 1)
  | _ => True
  end.
(** Two stacks as the client's. *)
Definition twice (D : duo) (c : bool) : duo :=
  Duo (fun _ => du_env D c) (fun _ => du_conn D c) (fun _ => du_sess D c) (du_txcap D) (du_rxcap D).
Definition cl_sendable (D : duo) (c : bool) (k : kind) (ps : list proc) (ls : list dlab) : Prop :=
  forall e x, DPut (c, e) x ∈ ls -> sendable (one_way (twice D c) c) k ps e x.
