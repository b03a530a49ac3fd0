(** * What two joined stacks should do *)
From Verif Require Import GoBase UBufModel FrameModel FrameSpec StackModel StackSpec NetModel.

(** Runs in which [ok] holds of every step. *)
Inductive nrun (N : net) (ok : nst -> nlab -> Prop) (s : nst) : list nlab -> nst -> Prop :=
| nr_nil : nrun N ok s [] s
| nr_snoc ls s1 l s2 : nrun N ok s ls s1 -> ok s1 l -> nstep N s1 l s2 -> nrun N ok s (ls ++ [l]) s2.

Definition any_read (s : nst) (l : nlab) : Prop := True.
(** A Read ends where a Write ended; it may return the bytes of several Writes
    if [joined]. *)
Definition whole_read (joined : bool) (s : nst) (l : nlab) : Prop :=
  match l with
  | NRead n => exists i j, n_got s = length (concat (take i (n_writes s))) /\
      n = length (concat (take j (drop i (n_writes s)))) /\ (joined = false -> j = 1)
  | _ => True
  end.

(** The mails endpoint [e] of A was given, and those of them not sent yet. *)
Definition given (e : nat) (ls : list nlab) : list mail :=
  omap (fun l => match l with NPut x m => if decide (x = e) then Some m else None | _ => None end) ls.
Definition unsent (e : nat) (s : nst) : list mail :=
  match n_hand s e with Some x => [x] | None => [] end ++ n_tx s e.
(** [o] is a sequence of mails with their senders: those of [e], and the
    messages among them that are for session [z]. *)
Definition mails_of (e : nat) (o : list (nat * mail)) : list mail :=
  omap (fun p => if decide (fst p = e) then Some (snd p) else None) o.
Definition mails_for (N : net) (z : Z) (o : list (nat * mail)) : list msg :=
  omap (fun p => if decide (dest_of (nsess N (fst p)) (ml_dest (snd p)) = z) then Some (ml_msg (snd p)) else None) o.
(** What the listener of session [z] was called with. *)
Definition heard (z : Z) (s : nst) : list msg :=
  omap (fun p => if decide (fst p = z) then Some (snd p) else None) (n_seen s).
(** Nothing is under way between the two stacks, and nothing waits to be sent. *)
Definition settled (s : nst) : Prop := n_wire s = [] /\ n_up s = [] /\ forall z, n_rx s z = [].
Definition all_sent (s : nst) : Prop := forall e, unsent e s = [].

(** Both stacks have the codec [k] and below it the processors [ps]. *)
Definition matching (N : net) (k : kind) (ps : list proc) : Prop :=
  exists idsA idsB preA preB,
    wired (na N) idsA (preA ++ Proc k true :: ps) /\ wired (nb N) idsB (preB ++ Proc k true :: ps) /\
    Forall (fun p => passes_message p = true) preA /\ Forall (fun p => passes_message p = true) preB /\
    Forall (fun p => carries p = true) ps /\
    e_isref (na N) (nca N) = false /\ accepts (na N) (nca N) /\ (e_mtu (na N) < 2^32)%Z /\
    e_isref (nb N) (ncb N) = false /\ (e_mtu (nb N) < 2^32)%Z.
(** [x] can be sent by [e]: its encoding fits both MTUs, and its session number
    fits its field and is served. *)
Definition sendable_as (N : net) (k : kind) (ps : list proc) (e : nat) (x : mail) (l : list byte) : Prop :=
  let z := dest_of (nsess N e) (ml_dest x) in
  encodes k (ml_msg x) l /\ decodes k l (ml_msg x) /\ l <> [] /\
    (Z.of_nat (length l) <= e_mtu (na N) - e_overhead (na N))%Z /\
    (Z.of_nat (length l) + room ps <= e_mtu (nb N))%Z /\
    (0 <= z < 2^32)%Z /\ (existsb resolves ps = true \/ z = 0%Z) /\ z ∈ e_sessions (nb N).
Definition sendable (N : net) (k : kind) (ps : list proc) (e : nat) (x : mail) : Prop :=
  exists l, sendable_as N k ps e x l.
Definition all_sendable (N : net) (k : kind) (ps : list proc) (ls : list nlab) : Prop :=
  forall e x, NPut e x ∈ ls -> sendable N k ps e x.
(** A step that puts no further mail into a channel. *)
Definition inner (l : nlab) : Prop := match l with NPut _ _ => False | _ => True end.
Definition mails_put (ls : list nlab) : nat := length (List.filter (fun l => match l with NPut _ _ => true | _ => false end) ls).
(** The lowest processor is a frame decoder. *)
Definition framed (ps : list proc) : bool :=
  match rev ps with p :: _ => framing p | [] => false end.
