(** * Theorems about the events of connections (property C52)

    Only statements: every proof is one lemma.  [trun new_conns ls s] is any
    interleaving of the receiving goroutines of any number of connections, of
    writes on them that succeed or fail, and of calls of Close. *)
From Verif Require Import GoBase ConnModel ConnSpec ConnProofs.

(** ** C52 *)
(** Data received on a connection is processed only after its new-connection event, *)
Theorem C52_new_before_data ls s l1 c l2 : trun new_conns ls s -> t_log s = l1 ++ EvData c :: l2 -> EvNew c ∈ l1.
Proof. exact (new_first ls s l1 c l2). Qed.
Print Assumptions C52_new_before_data.

(** which is published once. *)
Theorem C52_announced_at_most_once ls s c : trun new_conns ls s -> announced c (t_log s) <= 1.
Proof. exact (announced_once ls s c). Qed.
Print Assumptions C52_announced_at_most_once.

(** Closing events: one for the end of receiving and one for every failed write; the connection is closed when receiving has ended.  Exactly once, if no write on it fails. *)
Theorem C52_closing_events_partial ls s c p b : trun new_conns ls s -> t_conns s !! c = Some (p, b) ->
  farewells c (t_log s) = failures c ls + match p with PEnded => 1 | _ => 0 end /\ (p = PEnded -> b = true).
Proof. exact (farewell_count ls s c p b). Qed.
Print Assumptions C52_closing_events_partial.

(** The end of receiving always closes the connection and publishes. *)
Theorem C52_end_closes s c b : t_conns s !! c = Some (PReading, b) ->
  exists s', trun s [TEnd c; TEndClose c; TEndPublish c] s' /\ t_log s' = t_log s ++ [EvClosed c] /\ t_conns s' !! c = Some (PEnded, true).
Proof. exact (end_closes s c b). Qed.
Print Assumptions C52_end_closes.

(** And nothing but these, or somebody else's Close, closes a connection. *)
Theorem C52_closed_by ls s c p : trun new_conns ls s -> t_conns s !! c = Some (p, true) ->
  TEndClose c ∈ ls \/ (exists w, TErrClose w c ∈ ls) \/ TClose c ∈ ls.
Proof. exact (closed_by ls s c p). Qed.
Print Assumptions C52_closed_by.

(** If no write on it fails, the closing event is the last event of the connection. *)
Theorem C52_closed_is_last_partial ls s c l1 l2 : trun new_conns ls s -> failures c ls = 0 -> t_log s = l1 ++ EvClosed c :: l2 ->
  EvData c ∉ l2 /\ EvClosed c ∉ l2.
Proof. exact (last_word ls s c l1 l2). Qed.
Print Assumptions C52_closed_is_last_partial.

(** Whenever a write is going on, its failure and the end of receiving publish the closing event twice. *)
Theorem C52_exactly_once_refuted s c b w : t_conns s !! c = Some (PReading, b) -> t_writers s !! w = Some (c, WWriting) ->
  exists s', trun s [TWriteErr w c; TErrClose w c; TErrPublish w c; TEnd c; TEndClose c; TEndPublish c] s' /\
    t_log s' = t_log s ++ [EvClosed c; EvClosed c].
Proof. exact (closed_twice s c b w). Qed.
Print Assumptions C52_exactly_once_refuted.

(** and data already read is processed after the closing event of a failed write. *)
Theorem C52_data_after_closed_refuted s c b w : t_conns s !! c = Some (PGot, b) -> t_writers s !! w = Some (c, WWriting) ->
  exists s', trun s [TWriteErr w c; TErrClose w c; TErrPublish w c; TDeliver c] s' /\
    t_log s' = t_log s ++ [EvClosed c; EvData c].
Proof. exact (data_after_closed s c b w). Qed.
Print Assumptions C52_data_after_closed_refuted.

(** Two connections; a write on connection 0 fails while it has data. *)
Tactic Notation "cs" open_constr(t) := eapply trun_cons; [eapply t; try done|]; cbn.
Definition opening : list tlab := [TNext; TNext; TNew 0; TNew 1; TRead 1; TDeliver 1; TWrite 0; TRead 0].
Example C52_example : exists s, trun new_conns (opening ++ [TEnd 1; TEndClose 1; TEndPublish 1]) s /\
  t_log s = [EvNew 0; EvNew 1; EvData 1; EvClosed 1] /\ t_conns s = [(PGot, false); (PEnded, true)] /\ t_writers s = [(0, WWriting)] /\
  failures 1 (opening ++ [TEnd 1; TEndClose 1; TEndPublish 1]) = 0.
Proof.
  eexists. split.
  { cs tk_next. cs tk_next. cs tk_new. cs tk_new. cs tk_read. cs tk_deliver. cs tk_write; [left|].
    cs tk_read. cs tk_end. cs tk_end_close. apply trun_one. by eapply tk_end_publish. }
  by vm_compute.
Qed.
Example C52_failure_example : exists s, trun new_conns (opening ++ [TDeliver 0; TWriteErr 0 0; TErrClose 0 0; TErrPublish 0 0; TEnd 0; TEndClose 0; TEndPublish 0]) s /\
  t_log s = [EvNew 0; EvNew 1; EvData 1; EvData 0; EvClosed 0; EvClosed 0] /\
  farewells 0 (t_log s) = 2 /\ failures 0 (opening ++ [TDeliver 0; TWriteErr 0 0; TErrClose 0 0; TErrPublish 0 0; TEnd 0; TEndClose 0; TEndPublish 0]) = 1.
Proof.
  eexists. split.
  { cs tk_next. cs tk_next. cs tk_new. cs tk_new. cs tk_read. cs tk_deliver. cs tk_write; [left|].
    cs tk_read. cs tk_deliver. cs tk_write_err. cs tk_err_close. cs tk_err_publish. cs tk_end. cs tk_end_close. apply trun_one. by eapply tk_end_publish. }
  by vm_compute.
Qed.
