(** * What becomes of a transport's connections and goroutines *)
From Verif Require Import GoBase SockModel SockSpec ConnModel ConnSpec LifeModel.

Inductive lrun (uds server : bool) (maxretry : Z) (s : lst) : list llab -> lst -> Prop :=
| lr_nil : lrun uds server maxretry s [] s
| lr_snoc ls s1 l s2 : lrun uds server maxretry s ls s1 -> lstep uds server maxretry s1 l s2 ->
    lrun uds server maxretry s (ls ++ [l]) s2.

(** Nothing goes on: the transport does not run, every goroutine has ended, and every connection that was handed out is closed. *)
Definition at_rest (s : lst) : Prop :=
  k_crash (l_tp s) = None /\ k_lock (l_tp s) = None /\ k_running (l_tp s) = false /\
  (forall i g, k_gos (l_tp s) !! i = Some g -> g = GDone) /\
  (forall d p, l_deck s !! d = Some p -> p = DEnd) /\
  (forall i c p, l_rd s !! i = Some (c, p) -> p = PEnded) /\
  (forall j u, k_users (l_tp s) !! j = Some u -> exists r, u = UDone r) /\
  (forall ch q b, k_chans (l_tp s) !! ch = Some (q, b) -> q = [] /\ b = true) /\
  (forall c, c ∈ k_handed (l_tp s) -> c ∈ k_closed (l_tp s)) /\
  (forall c, announced c (l_log s) = farewells c (l_log s)).
(** No connection is between the socket and its announcement, and no dial or
    call of Listen is going on: the goroutine of the transport has ended or waits
    in Accept of the transport's listener. *)
Definition quiet (s : lst) : Prop :=
  (forall ch q b, k_chans (l_tp s) !! ch = Some (q, b) -> q = []) /\
  (forall j c, k_users (l_tp s) !! j <> Some (UGot (Some c))) /\
  (forall d j c, l_deck s !! d = Some (DWait j) -> k_users (l_tp s) !! j <> Some (UDone (Some c))) /\
  (forall d c, l_deck s !! d <> Some (DHave c)) /\
  (forall i g, k_gos (l_tp s) !! i = Some g -> g = GDone \/ exists l, g = GWait l /\ k_listener (l_tp s) = Some l).
(** Steps of the goroutines (as opposed to calls of DeleteTransport, AddTransport and Close by the user). *)
Definition by_itself (l : llab) : bool :=
  match l with LAccept | LDelete | LTran (SClosed _) => false | _ => true end.
Definition steps_by_itself (ls : list llab) : nat := length (List.filter by_itself ls).
(** No goroutine can make a step. *)
Definition stuck (uds server : bool) (maxretry : Z) (s : lst) : Prop :=
  forall l s', lstep uds server maxretry s l s' -> by_itself l = false.
(** Steps of Stop. *)
Definition inner_steps (ls : list llab) : nat :=
  length (List.filter (fun l => match l with LTran SInner => true | _ => false end) ls).

(** Goroutines and calls of NextConnection so far. *)
Definition population (s : lst) : nat :=
  length (k_gos (l_tp s)) + length (k_users (l_tp s)) + length (l_deck s) + length (l_rd s).
(** A server that waits for connections, with nothing under way. *)
Definition accepting (s : lst) : Prop :=
  up (l_tp s) /\ None ∉ k_conns (l_tp s) /\
  (exists i l, k_gos (l_tp s) !! i = Some (GWait l) /\ k_listener (l_tp s) = Some l /\ k_socks (l_tp s) !! l = Some true) /\
  exists d j ch, l_deck s !! d = Some (DWait j) /\ k_users (l_tp s) !! j = Some (URecv ch) /\ k_next (l_tp s) = Some ch /\
    k_chans (l_tp s) !! ch = Some ([], false).
