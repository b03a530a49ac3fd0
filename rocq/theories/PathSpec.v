(** * What the address of a server transport should lead to *)
From Verif Require Import GoBase SockModel SockSpec PathModel.
From stdpp Require Import list.

(** Runs in which [ok] holds of every step. *)
Inductive prun (uds : bool) (ok : pst -> plab -> Prop) (s : pst) : list plab -> pst -> Prop :=
| pr_nil : prun uds ok s [] s
| pr_snoc ls s1 l s2 : prun uds ok s ls s1 -> ok s1 l -> pstep uds s1 l s2 -> prun uds ok s (ls ++ [l]) s2.

(** A client that connects to the address gets to the socket [l]. *)
Definition leads (uds : bool) (s : pst) (l : nat) : Prop :=
  k_socks (p_sock s) !! l = Some true /\ (uds = true -> p_file s = Some l).
(** The accept goroutine of the latest Run. *)
Definition newest (s : pst) : option gpc := last (k_gos (p_sock s)).
(** It has stored its listener and accepts connections. *)
Definition working (g : gpc) : Prop := match g with GAccept | GWait _ | GHave _ | GSend _ _ => True | _ => False end.
(** Every accept goroutine started so far has ended. *)
Definition all_ended (uds : bool) (s : pst) : Prop :=
  forall i g, k_gos (p_sock s) !! i = Some g -> g = GDone /\ (uds = true -> p_left s i = true).
(** No accept goroutine is before the end of its preparations. *)
Definition prepared (s : pst) : Prop :=
  forall i g, k_gos (p_sock s) !! i = Some g -> g <> GListen /\ forall l, g <> GStore l.

Definition anything (s : pst) (l : plab) : Prop := True.
(** Run is called again only after the earlier accept goroutines have ended. *)
Definition after_end (uds : bool) (s : pst) (l : plab) : Prop := l = PSockStep SRun -> k_running (p_sock s) = false -> all_ended uds s.
(** Besides, Stop is called only once the goroutine has stored its listener. *)
Definition patient (uds : bool) (s : pst) (l : plab) : Prop := after_end uds s l /\ (l = PSockStep SStop -> prepared s).
(** Nothing is left of the transport: no socket listens, there is no file. *)
Definition free (s : pst) : Prop := (forall l, k_socks (p_sock s) !! l <> Some true) /\ p_file s = None.
(** The transport can be stopped: it runs, and nil is not among its connections. *)
Definition stoppable (s : pst) : Prop := up (p_sock s) /\ None ∉ k_conns (p_sock s) /\ p_fatal s = false.
(** The labels of a call of Stop by a user that is not interrupted. *)
Definition pstop (l : plab) : Prop := l = PSockStep SStop \/ l = PSockStep SInner \/ l = PUnlisten.
