(** * Theorems about the socket transports (properties C47, C48, C51, C58)

    Only statements: every proof is one lemma.  [uds]: the Unix transport,
    otherwise TCP; [server]: ForServer; [maxretry]: MaxRetryCount.  [krun s ls s']
    is any interleaving of Run, Stop, NextConnection, the accept or connect
    goroutines and the outcomes of Accept and Dial. *)
From Verif Require Import GoBase SockModel SockSpec SockProofs SockRest.

(** ** C47 *)
(** Run once and never stopped by a user, a transport does not crash. *)
Theorem C47_without_stop_partial (uds server : bool) (maxretry : Z) ls s : krun uds server maxretry new_sock ls s -> runs ls <= 1 -> SStop ∉ ls -> k_crash s = None.
Proof. exact (never_crashes uds server maxretry ls s). Qed.
Print Assumptions C47_without_stop_partial.

(** No schedule makes Stop close a closed or nil channel. *)
Theorem C47_never_closes_twice_partial (uds server : bool) (maxretry : Z) s : kreach uds server maxretry s -> k_crash s <> Some CrClose.
Proof. exact (never_closes_closed uds server maxretry s). Qed.
Print Assumptions C47_never_closes_twice_partial.

(** A Unix transport never closes a nil connection. *)
Theorem C47_unix_no_nil_connection_partial (uds server : bool) (maxretry : Z) s : uds = true -> kreach uds server maxretry s -> None ∉ k_conns s /\ k_crash s <> Some CrNilConn.
Proof. exact (uds_no_nil uds server maxretry s). Qed.
Print Assumptions C47_unix_no_nil_connection_partial.

(** A crash is final: no goroutine makes another step. *)
Theorem C47_crash_ends_partial (uds server : bool) (maxretry : Z) s ls s' : k_crash s <> None -> krun uds server maxretry s ls s' -> ls = [] /\ s' = s.
Proof. exact (crash_ends uds server maxretry s ls s'). Qed.
Print Assumptions C47_crash_ends_partial.

(** Whenever a goroutine is about to hand over a connection, Stop makes it send on a closed channel. *)
Theorem C47_send_crashes_refuted (uds server : bool) (maxretry : Z) s i ch c q : up s -> k_gos s !! i = Some (GSend ch c) -> k_next s = Some ch ->
  k_chans s !! ch = Some (q, false) ->
  exists ls s', Forall stop_label ls /\ krun uds server maxretry s (ls ++ [SGo]) s' /\ k_crash s' = Some CrSend.
Proof. exact (send_crashes uds server maxretry s i ch c q). Qed.
Print Assumptions C47_send_crashes_refuted.

(** Whenever the accept goroutine is about to call Accept, Stop makes it use a nil listener. *)
Theorem C47_accept_crashes_refuted (uds server : bool) (maxretry : Z) s i : up s -> kreach uds server maxretry s -> k_gos s !! i = Some GAccept ->
  exists ls s', Forall stop_label ls /\ krun uds server maxretry s (ls ++ [SGo]) s' /\ k_crash s' = Some CrListener.
Proof. exact (accept_crashes uds server maxretry s i). Qed.
Print Assumptions C47_accept_crashes_refuted.

(** Whenever NextConnection can wait on a TCP transport, Stop, Run, Stop can close a nil connection. *)
Theorem C47_nil_connection_crashes_refuted (uds server : bool) (maxretry : Z) s ch : uds = false -> up s -> k_next s = Some ch -> k_chans s !! ch = Some ([], false) -> None ∉ k_conns s ->
  exists ls1 ls2 s', Forall stop_label ls1 /\ Forall stop_label ls2 /\
    krun uds server maxretry s (SCall :: ls1 ++ [SReceive; SRun; SReturn] ++ ls2) s' /\ k_crash s' = Some CrNilConn.
Proof. exact (nil_crashes uds server maxretry s ch). Qed.
Print Assumptions C47_nil_connection_crashes_refuted.

(** Every transport: Run, then Stop at once; the next connection made crashes the program. *)
Theorem C47_stop_after_run_crashes_refuted (uds server : bool) (maxretry : Z) : (server = false -> (0 < maxretry)%Z) ->
  exists ls1 ls2 s', Forall stop_label ls1 /\ SStop ∉ ls2 /\ krun uds server maxretry new_sock (SRun :: ls1 ++ ls2) s' /\ k_crash s' = Some CrSend.
Proof. exact (stopped_at_once_crashes uds server maxretry ). Qed.
Print Assumptions C47_stop_after_run_crashes_refuted.

(** The states of these theorems are reached. *)
Tactic Notation "ks" open_constr(t) := eapply krun_cons; [eapply t; try done; try (simpl; lia)|]; cbn.
Tactic Notation "kl" open_constr(t) := eapply krun_one; eapply t; try done; try (simpl; lia).
Example C47_example_sending : exists ls s, krun false true 3 new_sock ls s /\ runs ls <= 1 /\ SStop ∉ ls /\ up s /\
  k_gos s !! 0 = Some (GSend 0 0) /\ k_next s = Some 0 /\ k_chans s !! 0 = Some ([], false).
Proof.
  exists [SRun; SCall; SGo; SGo; SGo; SIncoming; SGo]. eexists. split.
  { ks (sk_run false true 3 new_sock). ks (sk_call false true 3 _ 0). ks (sk_listen false true 3 _ 0). ks (sk_store false true 3 _ 0 0).
    ks (sk_eval false true 3 _ 0 0). ks (sk_incoming false true 3 _ 0 0). kl (sk_have false true 3 _ 0 0 0). }
  split_and!; try done. rewrite !not_elem_of_cons. split_and!; try done. apply not_elem_of_nil.
Qed.
Example C47_example_accepting : exists s, kreach false true 3 s /\ up s /\ k_gos s !! 0 = Some GAccept /\ None ∉ k_conns s /\
  k_next s = Some 0 /\ k_chans s !! 0 = Some ([], false).
Proof.
  eexists. split.
  { exists [SRun; SGo; SGo]. ks (sk_run false true 3 new_sock). ks (sk_listen false true 3 _ 0). kl (sk_store false true 3 _ 0 0). }
  split_and!; try done. apply not_elem_of_nil.
Qed.
Example C47_example_unix : exists s, kreach true false 3 s /\ k_handed s = [0] /\ k_users s = [UDone (Some 0); URecv 0] /\ k_conns s = [Some 0].
Proof.
  eexists. split.
  { exists [SRun; SCall; SCall; SDial false; SDial true; SGo; SGo; SReceive; SReturn].
    ks (sk_run true false 3 new_sock). ks (sk_call true false 3 _ 0). ks (sk_call true false 3 _ 0). ks (sk_dial_fail true false 3 _ 0 0).
    ks (sk_dial_ok true false 3 _ 0 1). ks (sk_have true false 3 _ 0 0 0). ks (sk_send true false 3 _ 0 0 0 []).
    ks (sk_receive true false 3 _ 0 0 0 [] false). kl (sk_return true false 3 _ 0 (Some 0)). }
  done.
Qed.

(** ** C48 *)
(** Whenever a connection waits in the channel at the time of Stop, NextConnection returns it afterwards, and it is open. *)
Theorem C48_left_open_refuted (uds server : bool) (maxretry : Z) s ch c q : up s -> k_next s = Some ch -> k_chans s !! ch = Some (c :: q, false) -> None ∉ k_conns s ->
  c ∉ k_closed s -> Some c ∉ k_conns s ->
  exists ls s', Forall stop_label ls /\ krun uds server maxretry s (ls ++ [SCall; SReceive; SReturn]) s' /\
    k_running s' = false /\ k_gos s' = k_gos s /\ c ∈ k_handed s' /\ c ∉ k_closed s'.
Proof. exact (left_open uds server maxretry s ch c q). Qed.
Print Assumptions C48_left_open_refuted.

(** Run once and stopped when no connection is on its way: all that was or will be handed out is closed. *)
Theorem C48_settled_closes_partial (uds server : bool) (maxretry : Z) ls s ls1 s1 ls2 s2 : krun uds server maxretry new_sock ls s -> runs ls <= 1 -> up s -> settled s ->
  krun uds server maxretry s ls1 s1 -> Forall stop_label ls1 -> k_running s1 = false -> krun uds server maxretry s1 ls2 s2 -> SRun ∉ ls2 ->
  forall c, c ∈ k_handed s2 -> c ∈ k_closed s2.
Proof. exact (settled_closes uds server maxretry ls s ls1 s1 ls2 s2). Qed.
Print Assumptions C48_settled_closes_partial.

(** At most 16 connections wait in a channel, in every schedule; so Stop leaves no more than these open. *)
Theorem C48_backlog_partial (uds server : bool) (maxretry : Z) ls s ch q b : krun uds server maxretry new_sock ls s ->
  k_chans s !! ch = Some (q, b) -> length q <= 16.
Proof. exact (backlog_at uds server maxretry ls s ch q b). Qed.
Print Assumptions C48_backlog_partial.

(** While a Stop is under way Run, other Stops and returning calls of NextConnection wait; it can always go on, and
    every step brings it nearer to its end, at most four away, or ends the program. *)
Theorem C48_stop_ends_partial (uds server : bool) (maxretry : Z) s x : k_lock s = Some x ->
  stop_left s <= 4 /\
  (k_crash s = None -> exists s', kstep uds server maxretry s SInner s') /\
  forall l s', kstep uds server maxretry s l s' ->
    l <> SRun /\ l <> SStop /\ l <> SReturn /\
    (l <> SInner -> k_lock s' = Some x) /\ (l = SInner -> k_crash s' <> None \/ stop_left s' < stop_left s).
Proof. exact (stop_ends uds server maxretry s x). Qed.
Print Assumptions C48_stop_ends_partial.

Example C48_example_waiting : exists s, kreach false false 3 s /\ up s /\ k_next s = Some 0 /\ k_chans s !! 0 = Some ([0], false) /\
  None ∉ k_conns s /\ 0 ∉ k_closed s /\ Some 0 ∉ k_conns s /\ k_gos s = [GDone].
Proof.
  eexists. split.
  { exists [SRun; SDial true; SGo; SGo]. ks (sk_run false false 3 new_sock). ks (sk_dial_ok false false 3 _ 0 0).
    ks (sk_have false false 3 _ 0 0 0). kl (sk_send false false 3 _ 0 0 0 []). }
  split_and!; try done; apply not_elem_of_nil.
Qed.
(** A Stop under way. *)
Example C48_example_stopping : exists s, kreach false true 3 s /\ k_lock s = Some (PNil, None) /\ k_crash s = None /\ stop_left s = 3.
Proof.
  eexists. split.
  { exists [SRun; SGo; SGo; SStop; SInner]. ks (sk_run false true 3 new_sock). ks (sk_listen false true 3 _ 0). ks (sk_store false true 3 _ 0 0).
    ks (sk_stop false true 3). kl (sk_sock false true 3 _ None 0). }
  done.
Qed.
Example C48_example_settled : exists ls s ls1 s1, krun false true 3 new_sock ls s /\ runs ls <= 1 /\ up s /\ settled s /\
  krun false true 3 s ls1 s1 /\ Forall stop_label ls1 /\ k_running s1 = false /\ k_handed s1 = [0] /\ k_closed s1 = [0].
Proof.
  exists [SRun; SCall; SGo; SGo; SGo; SIncoming; SGo; SGo; SReceive; SReturn]. eexists. exists [SStop; SInner; SInner; SInner; SInner]. eexists. split.
  { ks (sk_run false true 3 new_sock). ks (sk_call false true 3 _ 0). ks (sk_listen false true 3 _ 0). ks (sk_store false true 3 _ 0 0).
    ks (sk_eval false true 3 _ 0 0). ks (sk_incoming false true 3 _ 0 0). ks (sk_have false true 3 _ 0 0 0). ks (sk_send false true 3 _ 0 0 0 []).
    ks (sk_receive false true 3 _ 0 0 0 [] false). kl (sk_return false true 3 _ 0 (Some 0)). }
  split; [vm_compute; lia|]. split; [done|]. split.
  { split_and!; cbn.
    - by intros [|[]] q b [= <- <-].
    - by intros [|[]].
    - by intros [|[]].
    - by intros [|[]]. }
  split.
  { ks (sk_stop false true 3). ks (sk_sock false true 3 _ None 0). ks (sk_nil false true 3 _ None). ks (sk_close false true 3 _ None 0 []).
    apply krun_one. apply (sk_drop false true 3 _ None); try done. change (None ∉ [Some 0]). by rewrite elem_of_list_singleton. }
  split; [|done]. repeat (apply Forall_cons; split; [by (by left) || (by right)|]). by apply Forall_nil.
Qed.

(** ** C51 *)
(** Run once (and stopped any number of times): when the connect goroutine has ended, it has made one connection within MaxRetryCount dials, or all of them failed and the transport is stopped. *)
Theorem C51_outcome (uds server : bool) (maxretry : Z) ls s : server = false -> krun uds server maxretry new_sock ls s -> runs ls <= 1 -> k_gos s = [GDone] ->
  (k_made s = 1 /\ 1 <= dials ls <= Z.to_nat maxretry) \/
  (k_made s = 0 /\ dials ls = Z.to_nat maxretry /\ k_running s = false).
Proof. exact (client_outcome uds server maxretry ls s). Qed.
Print Assumptions C51_outcome.

(** At most MaxRetryCount dials per Run, in every schedule. *)
Theorem C51_dials_at_most (uds server : bool) (maxretry : Z) ls s : krun uds server maxretry new_sock ls s -> dials ls <= runs ls * Z.to_nat maxretry.
Proof. exact (dials_at_most uds server maxretry ls s). Qed.
Print Assumptions C51_dials_at_most.

(** At most one connection handed out per Run, in every schedule. *)
Theorem C51_handed_at_most (uds server : bool) (maxretry : Z) ls s : server = false -> krun uds server maxretry new_sock ls s -> length (k_handed s) <= runs ls.
Proof. exact (handed_at_most uds server maxretry ls s). Qed.
Print Assumptions C51_handed_at_most.

(** No connection is handed out twice (client or server), and only made ones are. *)
Theorem C51_handed_once (uds server : bool) (maxretry : Z) ls s : krun uds server maxretry new_sock ls s -> NoDup (k_handed s) /\ forall c, c ∈ k_handed s -> c < k_made s.
Proof. exact (handed_once uds server maxretry ls s). Qed.
Print Assumptions C51_handed_once.

(** A goroutine that dials ends: if all dials it has left fail, it goes on to Stop, having made no connection. *)
Theorem C51_gives_up (uds server : bool) (maxretry : Z) (n : nat) s (i : nat) : k_crash s = None -> k_gos s !! i = Some (GDial n) ->
  exists s', krun uds server maxretry s (replicate (Z.to_nat maxretry - n) (SDial false) ++ [SGo]) s' /\
    k_gos s' !! i = Some GStop /\ k_made s' = k_made s /\ forall j, j <> i -> k_gos s' !! j = k_gos s !! j.
Proof. exact (fun H1 H2 => gives_up uds server maxretry _ n s i H1 H2 eq_refl). Qed.
Print Assumptions C51_gives_up.

Example C51_example_dialling : exists s, kreach true false 2 s /\ k_crash s = None /\ k_gos s !! 0 = Some (GDial 1).
Proof.
  eexists. split.
  { exists [SRun; SDial false]. ks (sk_run true false 2 new_sock). kl (sk_dial_fail true false 2 _ 0 0). }
  done.
Qed.
Example C51_example_made : exists ls s, krun false false 3 new_sock ls s /\ runs ls <= 1 /\ k_gos s = [GDone] /\ k_made s = 1 /\ dials ls = 2.
Proof.
  exists [SRun; SDial false; SDial true; SGo; SGo]. eexists. split.
  { ks (sk_run false false 3 new_sock). ks (sk_dial_fail false false 3 _ 0 0). ks (sk_dial_ok false false 3 _ 0 1).
    ks (sk_have false false 3 _ 0 0 0). kl (sk_send false false 3 _ 0 0 0 []). }
  vm_compute. split_and!; try done; lia.
Qed.
Example C51_example_failed : exists ls s, krun true false 2 new_sock ls s /\ runs ls <= 1 /\ k_gos s = [GDone] /\ k_made s = 0 /\ dials ls = 2.
Proof.
  exists [SRun; SDial false; SDial false; SGo; SGo; SInner; SInner; SInner]. eexists. split.
  { ks (sk_run true false 2 new_sock). ks (sk_dial_fail true false 2 _ 0 0). ks (sk_dial_fail true false 2 _ 0 1).
    ks (sk_dial_end true false 2 _ 0 2). ks (sk_go_stop true false 2 _ 0). ks (sk_sock_none true false 2 _ (Some 0)).
    ks (sk_close true false 2 _ (Some 0) 0 []). kl (sk_drop true false 2 _ (Some 0)). apply not_elem_of_nil. }
  vm_compute. split_and!; try done; lia.
Qed.

(** ** C58 *)
(** Stop and Run of a server whose goroutine waits in Accept: the old goroutine stops the new run, and no user did. *)
Theorem C58_restart_stops_refuted (uds server : bool) (maxretry : Z) s i l ch q : server = true -> up s -> k_next s = Some ch -> k_chans s !! ch = Some (q, false) -> None ∉ k_conns s ->
  k_gos s !! i = Some (GWait l) ->
  exists ls1 ls2 s', Forall stop_label ls1 /\ SStop ∉ ls2 /\ SRun ∉ ls2 /\
    krun uds server maxretry s (ls1 ++ SRun :: ls2) s' /\ k_running s' = false /\ k_crash s' = None /\ last (k_gos s') = Some GListen.
Proof. exact (restart_stops uds server maxretry s i l ch q). Qed.
Print Assumptions C58_restart_stops_refuted.

(** Run again after the goroutines of the former run have ended, it goes on until Stop, a failing Accept or a failing Dial. *)
Theorem C58_restart_runs_partial (uds server : bool) (maxretry : Z) s ls s' : (server = false -> (0 < maxretry)%Z) ->
  k_crash s = None -> k_lock s = None -> k_running s = false -> (forall i g, k_gos s !! i = Some g -> g = GDone) ->
  krun uds server maxretry s (SRun :: ls) s' -> SStop ∉ ls -> SAcceptErr ∉ ls -> SDial false ∉ ls ->
  k_running s' = true /\ k_crash s' = None.
Proof. exact (restart_runs uds server maxretry s ls s'). Qed.
Print Assumptions C58_restart_runs_partial.

Example C58_example_waiting : exists s, kreach false true 3 s /\ up s /\ k_next s = Some 0 /\ k_chans s !! 0 = Some ([], false) /\
  None ∉ k_conns s /\ k_gos s !! 0 = Some (GWait 0).
Proof.
  eexists. split.
  { exists [SRun; SGo; SGo; SGo]. ks (sk_run false true 3 new_sock). ks (sk_listen false true 3 _ 0). ks (sk_store false true 3 _ 0 0).
    kl (sk_eval false true 3 _ 0 0). }
  split_and!; try done; apply not_elem_of_nil.
Qed.
Example C58_example_ended : exists s, kreach false true 3 s /\ k_crash s = None /\ k_lock s = None /\ k_running s = false /\ k_gos s = [GDone].
Proof.
  eexists. split.
  { exists [SRun; SGo; SGo; SGo; SStop; SInner; SInner; SInner; SInner; SAcceptErr; SGo].
    ks (sk_run false true 3 new_sock). ks (sk_listen false true 3 _ 0). ks (sk_store false true 3 _ 0 0). ks (sk_eval false true 3 _ 0 0).
    ks (sk_stop false true 3). ks (sk_sock false true 3 _ None 0). ks (sk_nil false true 3 _ None). ks (sk_close false true 3 _ None 0 []).
    ks (sk_drop false true 3 _ None); [apply not_elem_of_nil|]. ks (sk_accept_err false true 3 _ 0 0). kl (sk_go_stop_idle false true 3 _ 0). }
  done.
Qed.
