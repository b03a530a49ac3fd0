(** * Theorems about message objects and sessions (properties C63-C65)

    Only statements: every proof is one lemma.  [arun (new_addr σ) ls s]:
    endpoints made with the sessions [σ] are added, deleted and given other
    sessions, messages are filled in, put into channels and read by the deck's
    goroutines field by field, interleaved in any way. *)
From Verif Require Import GoBase AddrModel AddrSpec AddrProofs.

(** What was passed down for [e] is, in order and without gaps, what was put into its channel: each message with the destination session set last and not cleared since (else the session of [e]), and the connection and content set last, if nobody changes it on its way.  The rest is on its way. *)
Theorem C63_sent_as_set σ ls s e : arun_if untouched (new_addr σ) ls s -> keeps_session e ls ->
  exists waiting, posted (σ e) e ls = passed_down e s ++ waiting /\ length waiting = length (under_way s e).
Proof. exact (sent_as_set σ ls s e). Qed.
Print Assumptions C63_sent_as_set.

Ltac step := econstructor; try done; simpl; intros; unfold insert, fn_insert in *; repeat case_decide; simplify_eq; done.
Ltac calm := intros ? ? ?; simplify_eq; try (intros ?; unfold under_way; simpl; unfold insert, fn_insert; repeat case_decide; subst;
  simpl; rewrite ?elem_of_app, ?elem_of_cons, ?elem_of_nil; intuition (congruence || lia));
  try (intros Hacc; vm_compute in Hacc; congruence).
Ltac go := eapply arun_if_cons; [solve [step]|solve [repeat split; calm]|cbn [app]].
(** Message 5 is sent to session 9, then put again without it; message 6 is being read. *)
Example C63_example : exists s, arun_if untouched (new_addr (fun e => 3%Z))
  ([ASet 5 (SetData (Some 1)); ASet 5 (SetDestinationSession 9); AAccept 0; APut 0 5; ASet 6 (SetConnection (Some 7)); ATake 0; APut 0 6] ++
   [ARead 0; ARead 0; ARead 0; ARead 0; ASet 5 ClearDestinationSession; APut 0 5; ATake 0; ARead 0]) s /\
  passed_down 0 s = [Passed 9 None (Some 1)] /\ under_way s 0 = [6; 5] /\
  posted 3 0 ([ASet 5 (SetData (Some 1)); ASet 5 (SetDestinationSession 9); AAccept 0; APut 0 5; ASet 6 (SetConnection (Some 7)); ATake 0; APut 0 6] ++
   [ARead 0; ARead 0; ARead 0; ARead 0; ASet 5 ClearDestinationSession; APut 0 5; ATake 0; ARead 0]) =
    [Passed 9 None (Some 1); Passed 3 (Some 7) None; Passed 3 None (Some 1)].
Proof. eexists. split; [cbn [app]; unfold new_addr; do 15 go; apply ai_nil|done]. Qed.

(** Whenever an accepted endpoint that is not busy gets another session, it sends the next message without destination with the former session, but receives under the new one only. *)
Theorem C64_other_session_refuted σ ls s e k o k' : arun (new_addr σ) ls s -> busyless s e k -> k' <> k ->
  destination (calls_on o ls) = None ->
  exists ls' s', arun s (ASession e k' :: APut e o :: ls') s' /\ (forall l, l ∈ ls' -> l = ATake e \/ l = ARead e) /\
    (exists m, a_out s' = a_out s ++ [(e, m)] /\ p_session m = k) /\
    receives s' e k' /\ ~ receives s' e k.
Proof. exact (change_session σ ls s e k o k'). Qed.
Print Assumptions C64_other_session_refuted.

(** Any two accepted endpoints can be given the same session; then either gets its messages. *)
Theorem C64_shared_session_refuted σ ls s e1 e2 : arun (new_addr σ) ls s -> accepted s e1 -> accepted s e2 -> e1 <> e2 ->
  exists s', arun s [ASession e1 (a_sess s e2)] s' /\ receives s' e1 (a_sess s e2) /\ receives s' e2 (a_sess s e2).
Proof. exact (share_session σ ls s e1 e2). Qed.
Print Assumptions C64_shared_session_refuted.

(** Both apply to endpoints 0 and 1. *)
Example C64_refuted_example : exists ls s, arun (new_addr Z.of_nat) ls s /\ busyless s 0 0 /\ accepted s 0 /\ accepted s 1.
Proof.
  exists [AAccept 0; AAccept 1]. eexists. split.
  - eapply arun_cons; [step|]. eapply arun_one. unfold new_addr. constructor.
    intros x. unfold insert, fn_insert. case_decide; subst; done.
  - repeat split; try done; intros E; vm_compute in E; done.
Qed.

(** While no accepted endpoint is given another session (and no message changed on its way), an endpoint receives under one session, and sends its messages without destination with the same one. *)
Theorem C64_same_session_partial σ ls s e m s' : arun_if (fun s l => untouched s l /\ settled s l) (new_addr σ) ls s ->
  passes s e m s' ->
  receives s e (a_sess s e) /\ (forall k, receives s e k -> k = a_sess s e) /\
  exists o q, under_way s e = o :: q /\ m = as_set (a_sess s e) (calls_on o ls).
Proof. exact (same_session σ ls s e m s'). Qed.
Print Assumptions C64_same_session_partial.

(** ... and no two endpoints receive under the same session. *)
Theorem C64_own_session_partial σ ls s x y k : arun_if settled (new_addr σ) ls s -> receives s x k -> receives s y k -> x = y.
Proof. exact (own_session σ ls s x y k). Qed.
Print Assumptions C64_own_session_partial.

(** In every state, reachable or not: an endpoint is refused exactly when it is accepted already or its session is received by somebody;
    it is accepted exactly when it is not refused; and data is dropped exactly when nobody receives under its session. *)
Theorem C64_admission_partial s e k x :
  ((exists s', astep s (ARefuse e) s') <-> exists y, accepted s y /\ (y = e \/ receives s y (a_sess s e))) /\
  ((exists s', astep s (AAccept e) s') <-> ~ exists s', astep s (ARefuse e) s') /\
  ((exists s', astep s (ADrop k x) s') <-> ~ exists y, receives s y k).
Proof. exact (conj (refused_when s e) (conj (accepted_when s e) (dropped_when s k x))). Qed.
Print Assumptions C64_admission_partial.

(** An endpoint is given a session before it is added, and two messages are on their way. *)
Example C64_partial_example : exists s s', arun_if (fun s l => untouched s l /\ settled s l) (new_addr (fun e => 3%Z))
  [AAccept 0; ASession 1 4; AAccept 1; ASet 5 (SetData (Some 8)); APut 1 5; ATake 1; APut 1 6; ARead 1; ARead 1] s /\
  passes s 1 (Passed 4 None (Some 8)) s' /\ receives s 0 3 /\ receives s 1 4.
Proof.
  eexists _, _. split; [unfold new_addr; do 9 go; apply ai_nil|]. split_and!.
  - split; [by apply ak_data|done].
  - exists 0. eexists. change 3%Z with ((<[1:=4%Z]> (fun _ : nat => 3%Z)) 0). by constructor.
  - exists 0. eexists. change 4%Z with ((<[1:=4%Z]> (fun _ : nat => 3%Z)) 1) at 2. by constructor.
Qed.

(** Whenever an endpoint is not busy: a message put, changed by any setter and put again can be passed down twice as it was left by the last change. *)
Theorem C65_reused_message_refuted σ ls s e k o f : arun (new_addr σ) ls s -> busyless s e k ->
  exists ls' s' m, arun s (APut e o :: ASet o f :: APut e o :: ls') s' /\
    (forall l, l ∈ ls' -> l = ATake e \/ l = ARead e) /\
    a_out s' = a_out s ++ [(e, m); (e, m)] /\ m = as_set k (calls_on o ls ++ [f]).
Proof. exact (reuse_lost σ ls s e k o f). Qed.
Print Assumptions C65_reused_message_refuted.

Example C65_example : exists s, arun (new_addr (fun e => 3%Z)) [ASet 5 (SetData (Some 1)); AAccept 0] s /\ busyless s 0 3.
Proof.
  eexists. split; [eapply (ar_snoc _ [_]); [eapply (ar_snoc _ []); [apply ar_nil|]|]; step|]. done.
Qed.

(** The part of C65 that holds is C63_sent_as_set: it lets the user change and put
    a message again once it has been passed down. *)
