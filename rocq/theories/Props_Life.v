(** * Theorems about a transport's connections and goroutines (properties C82, C83)

    Only statements: every proof is one lemma.  [uds]: the Unix transport,
    otherwise TCP; [server]: ForServer; [maxretry]: MaxRetryCount.  [lrun s ls s']
    is any interleaving of AddTransport and DeleteTransport of a running stack
    ([LAccept], [LDelete]), of the goroutines of the transport and of the lower
    deck, of the outcomes of Accept, Dial and reads, and of calls of Close. *)
From Verif Require Import GoBase SockModel SockSpec ConnModel ConnSpec LifeModel LifeSpec LifeProofs LifeRuns.

(** ** C82 *)
(** A transport is added when nothing of an earlier addition goes on, and deleted when no connection is on its way and none comes in during Stop.  DeleteTransport returns: Stop can always make its next step, and there are at most four. *)
Theorem C82_deletion_returns_partial (uds server : bool) (maxretry : Z) ls0 s0 ls s ls1 s1 :
  lrun uds server maxretry new_life ls0 s0 -> at_rest s0 -> lrun uds server maxretry s0 (LAccept :: ls) s -> LAccept ∉ ls -> up (l_tp s) -> quiet s ->
  lrun uds server maxretry s (LDelete :: ls1) s1 -> LAccept ∉ ls1 -> LTran SIncoming ∉ ls1 ->
  k_crash (l_tp s1) = None /\ inner_steps ls1 <= 4 /\ (k_running (l_tp s1) = true -> exists s', lstep uds server maxretry s1 (LTran SInner) s').
Proof. exact (deletion_returns uds server maxretry ls0 s0 ls s ls1 s1). Qed.
Print Assumptions C82_deletion_returns_partial.

(** Afterwards nothing is announced any more, every connection is closed, and after a bounded number of steps every goroutine has ended and every announced connection has been reported closed as often as it was announced.  (Then it can be added again: [at_rest].) *)
Theorem C82_deletion_ends_partial (uds server : bool) (maxretry : Z) ls0 s0 ls s ls1 s1 ls2 s2 :
  lrun uds server maxretry new_life ls0 s0 -> at_rest s0 -> lrun uds server maxretry s0 (LAccept :: ls) s -> LAccept ∉ ls -> up (l_tp s) -> quiet s ->
  lrun uds server maxretry s (LDelete :: ls1) s1 -> LAccept ∉ ls1 -> LTran SIncoming ∉ ls1 -> k_running (l_tp s1) = false ->
  lrun uds server maxretry s1 ls2 s2 -> LAccept ∉ ls2 ->
  k_crash (l_tp s2) = None /\ steps_by_itself ls2 <= 4 * population s1 /\
  (forall c, EvNew c ∈ l_log s2 -> EvNew c ∈ l_log s) /\ (forall c, c ∈ k_handed (l_tp s2) -> c ∈ k_closed (l_tp s2)) /\
  (stuck uds server maxretry s2 -> at_rest s2).
Proof. exact (deletion_ends uds server maxretry ls0 s0 ls s ls1 s1 ls2 s2). Qed.
Print Assumptions C82_deletion_ends_partial.

(** A crash of the transport ends everything: nothing is announced or delivered after it. *)
Theorem C82_crash_ends_partial (uds server : bool) (maxretry : Z) s ls s' : k_crash (l_tp s) <> None ->
  lrun uds server maxretry s ls s' -> ls = [] /\ s' = s.
Proof. exact (life_crash_ends uds server maxretry s ls s'). Qed.
Print Assumptions C82_crash_ends_partial.

(** Whenever a connection waits in the channel at the time of DeleteTransport, it can be announced after DeleteTransport has returned, stay open, and any amount of its data is handed up. *)
Theorem C82_left_behind_refuted (uds server : bool) (maxretry : Z) tp ds rs lg d j ch c q n :
  up tp -> None ∉ k_conns tp -> ds !! d = Some (DWait j) -> k_users tp !! j = Some (URecv ch) ->
  k_next tp = Some ch -> k_chans tp !! ch = Some (c :: q, false) -> c ∉ k_closed tp -> Some c ∉ k_conns tp ->
  exists ls1 s1 ls2 s2, lrun uds server maxretry (Lst tp ds rs lg) (LDelete :: ls1) s1 /\ Forall (fun l => l = LTran SInner) ls1 /\
    k_lock (l_tp s1) = None /\ k_running (l_tp s1) = false /\ l_log s1 = lg /\
    lrun uds server maxretry s1 ls2 s2 /\ LDelete ∉ ls2 /\ LAccept ∉ ls2 /\ c ∉ k_closed (l_tp s2) /\ k_running (l_tp s2) = false /\
    l_log s2 = lg ++ EvNew c :: replicate n (EvData c).
Proof. exact (left_behind uds server maxretry tp ds rs lg d j ch c q n). Qed.
Print Assumptions C82_left_behind_refuted.

(** A server is added, takes a connection, reads from it, is deleted, and comes to rest. *)
Tactic Notation "kt" open_constr(t) := eapply lrun_cons; [eapply lk_tran; [done|]; eapply t; try done; try (simpl; lia)|]; cbn.
Tactic Notation "ll" open_constr(t) := eapply lrun_cons; [eapply t; try done|]; cbn.
Definition start : list llab := [LAccept; LCall 0; LTran SGo; LTran SGo; LTran SGo].
Definition taking : list llab := [LTran SIncoming; LTran SGo; LTran SGo; LTran SGo; LTran SReceive; LTran SReturn; LGot 0; LAnnounce 0 0; LCall 0; LRead 0 0].
Definition stop4 : list llab := [LTran SInner; LTran SInner; LTran SInner; LTran SInner].
Definition finish_up : list llab := [LDeliver 0 0; LEnd 0 0; LEndClose 0 0; LEndPublish 0 0; LTran SAcceptErr; LTran SGo; LTran SReceive; LTran SReturn; LGot 0].
Example C82_example : exists s s1 s2,
  lrun false true 3 new_life [] new_life /\ at_rest new_life /\ lrun false true 3 new_life (start ++ taking) s /\ up (l_tp s) /\ quiet s /\
  lrun false true 3 s (LDelete :: stop4) s1 /\ k_running (l_tp s1) = false /\ lrun false true 3 s1 finish_up s2 /\
  l_log s = [EvNew 0] /\ l_log s2 = [EvNew 0; EvData 0; EvClosed 0] /\ k_gos (l_tp s2) = [GDone] /\ l_deck s2 = [DEnd] /\ l_rd s2 = [(0, PEnded)].
Proof.
  eexists _, _, _. split; [constructor|]. split.
  { by split_and!. }
  split.
  { unfold start, taking, new_life. simpl.
    ll lk_accept; [by apply sk_run|]. cbn. ll lk_call; [by apply (sk_call _ _ _ _ 0)|]. cbn.
    kt (sk_listen _ _ _ _ 0). kt (sk_store _ _ _ _ 0 0). kt (sk_eval _ _ _ _ 0 0). kt (sk_incoming _ _ _ _ 0 0). kt (sk_have _ _ _ _ 0 0 0).
    kt (sk_send _ _ _ _ 0 0 0 []). kt (sk_eval _ _ _ _ 0 0). kt (sk_receive _ _ _ _ 0 0 0 [] false). kt (sk_return _ _ _ _ 0 (Some 0)).
    ll (lk_got _ _ _ _ _ _ _ 0 0 (Some 0)). ll lk_announce. ll lk_call; [by apply (sk_call _ _ _ _ 0)|]. cbn.
    apply lrun_one. eapply lk_read; try done. apply not_elem_of_nil. }
  split; [done|]. split.
  { split_and!; cbn.
    - by intros [|[]] q b [= <- <-].
    - by intros [|[|[]]] c.
    - by intros [|[]] j c [= <-].
    - by intros [|[]] c.
    - intros [|[]] g [= <-]. right. by exists 0. }
  split.
  { unfold stop4. ll lk_delete; [by apply sk_stop|]. cbn. kt (sk_sock _ _ _ _ None 0). kt (sk_nil _ _ _ _ None). kt (sk_close _ _ _ _ None 0 []).
    apply lrun_one. eapply lk_tran; [done|]. eapply (sk_drop _ _ _ _ None); try done. change (None ∉ [Some 0]). by rewrite elem_of_list_singleton. }
  split; [done|]. split.
  { unfold finish_up. ll lk_deliver. ll lk_end. ll lk_end_close. ll lk_end_publish.
    kt (sk_accept_err _ _ _ _ 0 0). kt (sk_go_stop_idle _ _ _ _ 0). kt (sk_receive_nil _ _ _ _ 1 0). kt (sk_return _ _ _ _ 1 None).
    apply lrun_one. by eapply (lk_got _ _ _ _ _ _ _ 0 1 None). }
  done.
Qed.
Example C82_example_waiting : exists tp, lrun false true 3 new_life (start ++ [LTran SIncoming; LTran SGo; LTran SGo]) (Lst tp [DWait 0] [] []) /\
  up tp /\ None ∉ k_conns tp /\ k_users tp !! 0 = Some (URecv 0) /\ k_next tp = Some 0 /\ k_chans tp !! 0 = Some ([0], false) /\ k_closed tp = [].
Proof.
  eexists. split.
  { unfold start, new_life. simpl.
    ll lk_accept; [by apply sk_run|]. cbn. ll lk_call; [by apply (sk_call _ _ _ _ 0)|]. cbn.
    kt (sk_listen _ _ _ _ 0). kt (sk_store _ _ _ _ 0 0). kt (sk_eval _ _ _ _ 0 0). kt (sk_incoming _ _ _ _ 0 0). kt (sk_have _ _ _ _ 0 0 0).
    apply lrun_one. eapply lk_tran; [done|]. eapply (sk_send _ _ _ _ 0 0 0 []); try done. simpl. lia. }
  split_and!; try done. apply not_elem_of_nil.
Qed.

(** A transport deleted right after it was added crashes when its goroutine hands over a connection. *)
Example C82_example_crash : exists s, k_crash (l_tp s) = Some CrSend /\ l_deck s = [DNext] /\
  lrun false true 3 new_life [LAccept; LDelete; LTran SInner; LTran SInner; LTran SInner; LTran SGo; LTran SGo; LTran SGo; LTran SIncoming; LTran SGo; LTran SGo] s.
Proof.
  eexists. split; [|split; [|
    unfold new_life; ll lk_accept; [by apply sk_run|]; cbn; ll lk_delete; [by apply sk_stop|]; cbn;
    kt (sk_sock_none _ _ _ _ None); kt (sk_close _ _ _ _ None 0 []); ll lk_tran; [by eapply (sk_drop _ _ _ _ None); [..|apply not_elem_of_nil]|]; cbn;
    kt (sk_listen _ _ _ _ 0); kt (sk_store _ _ _ _ 0 0); kt (sk_eval _ _ _ _ 0 0); kt (sk_incoming _ _ _ _ 0 0); kt (sk_have _ _ _ _ 0 0 0);
    apply lrun_one; eapply lk_tran; [done|]; by eapply (sk_send_crash _ _ _ _ 0 0 0 [])]].
  - done.
  - done.
Qed.

(** ** C83 *)
(** What a transport keeps is at most what it has handed out (and once nil): *)
Theorem C83_kept_once_partial (uds server : bool) (maxretry : Z) ls s :
  lrun uds server maxretry new_life ls s -> length (k_conns (l_tp s)) <= S (length (k_handed (l_tp s))).
Proof. exact (kept_once uds server maxretry ls s). Qed.
Print Assumptions C83_kept_once_partial.

(** But until it is added again nothing is ever taken from that list, *)
Theorem C83_never_dropped_refuted (uds server : bool) (maxretry : Z) s ls s' :
  lrun uds server maxretry s ls s' -> LAccept ∉ ls -> k_conns (l_tp s) `prefix_of` k_conns (l_tp s').
Proof. exact (kept_run uds server maxretry s ls s'). Qed.
Print Assumptions C83_never_dropped_refuted.

(** and a waiting server can come to keep any number of connections that are closed and reported closed. *)
Theorem C83_kept_refuted (uds server : bool) (maxretry : Z) ls0 s n : server = true -> lrun uds server maxretry new_life ls0 s -> accepting s ->
  exists ls s' cs, lrun uds server maxretry s ls s' /\ LDelete ∉ ls /\ LAccept ∉ ls /\ accepting s' /\ length cs = n /\ NoDup cs /\
    k_conns (l_tp s') = k_conns (l_tp s) ++ (Some <$> cs) /\ (forall c, c ∈ cs -> c ∈ k_closed (l_tp s') /\ EvClosed c ∈ l_log s').
Proof. exact (kept uds server maxretry ls0 s n). Qed.
Print Assumptions C83_kept_refuted.

Example C83_example : exists s, lrun true true 3 new_life start s /\ accepting s /\ k_conns (l_tp s) = [].
Proof.
  eexists. split.
  { unfold start, new_life.
    ll lk_accept; [by apply sk_run|]. cbn. ll lk_call; [by apply (sk_call _ _ _ _ 0)|]. cbn.
    kt (sk_listen _ _ _ _ 0). kt (sk_store _ _ _ _ 0 0). apply lrun_one. eapply lk_tran; [done|]. by eapply (sk_eval _ _ _ _ 0 0). }
  split; [|done]. split; [done|]. split; [apply not_elem_of_nil|]. split; [by exists 0, 0|]. by exists 0, 0, 0.
Qed.
