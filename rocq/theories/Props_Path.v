(** * Theorems about the addresses of the server transports (properties C72, C73)

    Only statements: every proof is one lemma.  [uds]: the Unix transport,
    otherwise TCP.  [prun uds ok s ls s']: Run, Stop, NextConnection and the
    accept goroutines run, in any order, as long as [ok] holds of every step. *)
From Verif Require Import GoBase SockModel SockSpec PathModel PathSpec PathProofs.
From stdpp Require Import list.

(** ** C72 *)

(** If every Run comes after the end of the earlier accept goroutines: once the goroutine has stored its listener and while the transport runs, the address leads to the socket it accepts on. *)
Theorem C72_leads_partial uds ls s g : prun uds (after_end uds) new_path ls s -> up (p_sock s) -> newest s = Some g -> working g ->
  exists l, k_listener (p_sock s) = Some l /\ leads uds s l /\ forall l', g = GWait l' -> l' = l.
Proof. exact (leads_tidy uds ls s g). Qed.
Print Assumptions C72_leads_partial.

(** But whenever an accept goroutine waits, Stop followed by Run can leave a Unix transport that runs and accepts without a socket file: the old goroutine removes the new file. *)
Theorem C72_file_removed_refuted uds ls s i l : uds = true -> prun uds anything new_path ls s -> stoppable s ->
  k_gos (p_sock s) !! i = Some (GWait l) ->
  exists ls1 s', Forall pstop ls1 /\
    prun uds anything s (ls1 ++ [PSockStep SAcceptErr; PSockStep SGo; PSockStep SRun; PClear; PListen; PSockStep SGo; PSockStep SGo; PLeave]) s' /\
    up (p_sock s') /\ p_file s' = None /\ exists l', newest s' = Some (GWait l') /\ k_socks (p_sock s') !! l' = Some true.
Proof. exact (file_removed uds anything ls s i l). Qed.
Print Assumptions C72_file_removed_refuted.

(** And whenever a goroutine is between Listen and storing the listener, Stop followed by Run can leave clients waiting at a socket on which nobody accepts, while the transport accepts on another one. *)
Theorem C72_listener_replaced_refuted uds ls s i l : uds = true -> prun uds anything new_path ls s -> stoppable s ->
  k_gos (p_sock s) !! i = Some (GStore l) ->
  exists ls1 s' l', Forall pstop ls1 /\
    prun uds anything s (ls1 ++ [PSockStep SRun; PClear; PListen; PSockStep SGo; PSockStep SGo; PSockStep SGo]) s' /\
    up (p_sock s') /\ newest s' = Some (GWait l) /\ leads uds s' l' /\ l' <> l /\ forall j, k_gos (p_sock s') !! j <> Some (GWait l').
Proof. exact (listener_replaced uds anything ls s i l). Qed.
Print Assumptions C72_listener_replaced_refuted.

(** Keeps the states small. *)
Ltac flat := cbv beta iota delta [go new_sock set_running set_conns set_chans set_next set_socks set_listener set_lock set_gos set_users set_made set_closed set_handed set_crash k_running k_conns k_chans k_next k_socks k_listener k_lock k_gos k_users k_made k_closed k_handed k_crash]; cbn.
Tactic Notation "ps" open_constr(t) := eapply prun_cons; [done|eapply t; try done; try (simpl; lia)|]; flat.
Tactic Notation "pk" open_constr(t) := eapply prun_cons; [done|apply pk_sock; [eapply t; try done; try (simpl; lia)|done]|]; flat.
(** A Unix transport that is waiting for clients, *)
Definition wait_labels : list plab := [PSockStep SRun; PClear; PListen; PSockStep SGo; PSockStep SGo].
Example C72_example_waiting : exists s, prun true anything new_path wait_labels s /\ stoppable s /\ k_gos (p_sock s) !! 0 = Some (GWait 0) /\ leads true s 0.
Proof.
  eexists. split.
  { pk sk_run. ps (pk_clear _ _ _ _ _ 0). ps (pk_listen _ _ _ _ _ 0). pk (sk_store _ _ _ _ 0).
    apply prun_one; [done|]. apply pk_sock; [by eapply (sk_eval _ _ _ _ 0)|done]. }
  split; [|done]. split; [done|]. split; [apply not_elem_of_nil|done].
Qed.
(** one between Listen and storing the listener, *)
Example C72_example_storing : exists s, prun true anything new_path [PSockStep SRun; PClear; PListen] s /\ stoppable s /\ k_gos (p_sock s) !! 0 = Some (GStore 0).
Proof.
  eexists. split.
  { pk sk_run. ps (pk_clear _ _ _ _ _ 0). apply prun_one; [done|]. apply (pk_listen _ _ _ _ _ 0); done. }
  split; [|done]. split; [done|]. split; [apply not_elem_of_nil|done].
Qed.
(** and one that is stopped and run again after the end of its goroutine. *)
Definition again_labels : list plab :=
  wait_labels ++ [PSockStep SStop; PUnlisten; PSockStep SInner; PSockStep SInner; PSockStep SInner; PSockStep SAcceptErr; PSockStep SGo; PLeave] ++ wait_labels.
Ltac okp := first [done | split; [intros _ _ i g Hi; repeat (destruct i as [|i]; [injection Hi as <-; split; [done|intros _; by vm_compute]|]); done|done]
  | split; [done|intros _ i g Hi; repeat (destruct i as [|i]; [injection Hi as <-; by split|]); done]].
Tactic Notation "qs" open_constr(t) := eapply prun_cons; [okp|eapply t; try done; try (simpl; lia)|]; flat.
Tactic Notation "qk" open_constr(t) := eapply prun_cons; [okp|apply pk_sock; [eapply t; try done; try (simpl; lia)|done]|]; flat.
Example C72_example_again : exists s, prun true (patient true) new_path again_labels s /\ up (p_sock s) /\ newest s = Some (GWait 1) /\ p_file s = Some 1.
Proof.
  eexists. split.
  { qk sk_run. qs (pk_clear _ _ _ _ _ 0). qs (pk_listen _ _ _ _ _ 0). qk (sk_store _ _ _ _ 0). qk (sk_eval _ _ _ _ 0).
    qk sk_stop. qs pk_unlisten. qk sk_nil. qk sk_close. qk sk_drop. { apply not_elem_of_nil. } qk (sk_accept_err _ _ _ _ 0). qk (sk_go_stop_idle _ _ _ _ 0).
    qs (pk_leave _ _ _ _ _ 0).
    qk sk_run. qs (pk_clear _ _ _ _ _ 1). qs (pk_listen _ _ _ _ _ 1). qk (sk_store _ _ _ _ 1).
    apply prun_one; [okp|]. apply pk_sock; [by eapply (sk_eval _ _ _ _ 1)|done]. }
  done.
Qed.

(** ** C73 *)

(** If besides Stop is called only once the listener has been stored, the address is never found in use, *)
Theorem C73_never_in_use_partial uds ls s : prun uds (patient uds) new_path ls s -> p_fatal s = false.
Proof. exact (never_fatal uds ls s). Qed.
Print Assumptions C73_never_in_use_partial.

(** and while the transport does not run nothing is left of it: no socket listens and there is no file. *)
Theorem C73_free_partial uds ls s : prun uds (patient uds) new_path ls s -> k_running (p_sock s) = false -> free s.
Proof. exact (stopped_free uds ls s). Qed.
Print Assumptions C73_free_partial.

(** For a Unix transport the first part needs only that every Run comes after the end of the earlier goroutines. *)
Theorem C73_unix_never_in_use_partial uds ls s : uds = true -> prun uds (after_end uds) new_path ls s -> p_fatal s = false.
Proof. exact (unix_never_fatal uds ls s). Qed.
Print Assumptions C73_unix_never_in_use_partial.

(** Finding the address in use, or any crash of the transport, is final (C73_tcp_in_use_refuted and C73_example_tcp give such a state). *)
Theorem C73_in_use_ends_partial uds ok s ls s' : p_fatal s = true \/ k_crash (p_sock s) <> None -> prun uds ok s ls s' -> ls = [] /\ s' = s.
Proof. exact (path_crash_ends uds ok s ls s'). Qed.
Print Assumptions C73_in_use_ends_partial.

(** But whenever a TCP transport's goroutine is between Listen and storing the listener, Stop followed by Run ends the program, *)
Theorem C73_tcp_in_use_refuted uds ls s i l : uds = false -> prun uds anything new_path ls s -> stoppable s -> k_gos (p_sock s) !! i = Some (GStore l) ->
  exists ls1 s', Forall pstop ls1 /\ prun uds anything s (ls1 ++ [PSockStep SRun; PFatal]) s' /\ p_fatal s' = true.
Proof. exact (fatal_tcp uds anything ls s i l). Qed.
Print Assumptions C73_tcp_in_use_refuted.

(** and whenever a Unix transport's goroutine has not called Listen yet, Stop followed by Run can end the program. *)
Theorem C73_unix_in_use_refuted uds ls s i : uds = true -> prun uds anything new_path ls s -> stoppable s -> k_gos (p_sock s) !! i = Some GListen ->
  exists ls1 ls2 s', Forall (fun l => l = PClear) ls1 /\ Forall pstop ls2 /\
    prun uds anything s (ls1 ++ ls2 ++ [PSockStep SRun; PClear; PListen; PFatal]) s' /\ p_fatal s' = true.
Proof. exact (fatal_unix uds anything ls s i). Qed.
Print Assumptions C73_unix_in_use_refuted.

Example C73_example_tcp : exists s, prun false anything new_path [PSockStep SRun; PListen] s /\ stoppable s /\ k_gos (p_sock s) !! 0 = Some (GStore 0).
Proof.
  eexists. split.
  { pk sk_run. apply prun_one; [done|]. apply (pk_listen _ _ _ _ _ 0); done. }
  split; [|done]. split; [done|]. split; [apply not_elem_of_nil|done].
Qed.
Example C73_example_unix : exists s, prun true anything new_path [PSockStep SRun] s /\ stoppable s /\ k_gos (p_sock s) !! 0 = Some GListen.
Proof.
  eexists. split; [apply prun_one; [done|]; apply pk_sock; [by eapply sk_run|done]|].
  split; [|done]. split; [done|]. split; [apply not_elem_of_nil|done].
Qed.
(** A TCP transport that was stopped in time. *)
Example C73_example_free : exists s, prun false (patient false) new_path
  [PSockStep SRun; PListen; PSockStep SGo; PSockStep SGo; PSockStep SStop; PUnlisten; PSockStep SInner; PSockStep SInner; PSockStep SInner] s /\
  k_running (p_sock s) = false /\ k_socks (p_sock s) = [false].
Proof.
  eexists. split.
  { qk sk_run. qs (pk_listen _ _ _ _ _ 0). qk (sk_store _ _ _ _ 0). qk (sk_eval _ _ _ _ 0).
    qk sk_stop. qs pk_unlisten. qk sk_nil. qk sk_close. apply prun_one; [okp|]. apply pk_sock; [eapply sk_drop; try done; apply not_elem_of_nil|done]. }
  done.
Qed.
