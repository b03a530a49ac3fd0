(** * What a socket transport should do *)
From Verif Require Import GoBase SockModel.

Inductive krun (uds server : bool) (maxretry : Z) (s : sst) : list slab -> sst -> Prop :=
| kr_nil : krun uds server maxretry s [] s
| kr_snoc ls s1 l s2 : krun uds server maxretry s ls s1 -> kstep uds server maxretry s1 l s2 ->
    krun uds server maxretry s (ls ++ [l]) s2.
Definition kreach (uds server : bool) (maxretry : Z) (s : sst) : Prop :=
  exists ls, krun uds server maxretry new_sock ls s.
(** Number of calls of Run, of dials, of failed dials. *)
Definition runs (ls : list slab) : nat := length (List.filter (fun l => match l with SRun => true | _ => false end) ls).
Definition dials (ls : list slab) : nat := length (List.filter (fun l => match l with SDial _ => true | _ => false end) ls).
(** The labels of a Stop called by a user that is not interrupted. *)
Definition stop_label (l : slab) : Prop := l = SStop \/ l = SInner.
(** A running transport, no lock held. *)
Definition up (s : sst) : Prop := k_crash s = None /\ k_lock s = None /\ k_running s = true.
(** No connection is on its way from the socket to the caller of NextConnection. *)
Definition settled (s : sst) : Prop :=
  (forall ch q b, k_chans s !! ch = Some (q, b) -> q = []) /\
  (forall i c, k_gos s !! i <> Some (GHave c)) /\
  (forall i ch c, k_gos s !! i <> Some (GSend ch c)) /\
  (forall j c, k_users s !! j <> Some (UGot (Some c))).

(** The steps that Stop has to go while it holds the lock. *)
Definition stop_left (s : sst) : nat :=
  match k_lock s with None => 0 | Some (PSock, _) => 4 | Some (PNil, _) => 3 | Some (PClose, _) => 2 | Some (PDrop, _) => 1 end.
