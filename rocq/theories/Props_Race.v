(** * Theorems about unsynchronised accesses (properties C35, C61)

    Only statements: every proof is one lemma.  [qrun new_ctr ls s]: any number
    of goroutines increment one counter of a StatCounter, interleaved in any way.
    [mrun new_map ls s]: any number of callers of the upper deck and any number
    of endpoint goroutines access its map. *)
From Verif Require Import GoBase RaceModel RaceSpec RaceProofs.

(** ** C35 *)
(** In every state any number of concurrent messages can be counted as one. *)
Theorem C35_concurrent_lost_refuted s gs : gs <> [] -> NoDup gs -> (forall g, g ∈ gs -> q_reg s g = None) ->
  exists ls s', qrun s ls s' /\ counted ls = length gs /\ q_ctr s' = ((q_ctr s + 1) mod 2^64)%Z.
Proof. exact (lost_updates s gs). Qed.
Print Assumptions C35_concurrent_lost_refuted.

(** Any number of complete counts can be wiped out by one message that is counted meanwhile. *)
Theorem C35_concurrent_goes_back_refuted s g h k : g <> h -> q_reg s g = None -> q_reg s h = None ->
  exists ls s', qrun s ls s' /\ counted ls = k + 1 /\ q_ctr s' = ((q_ctr s + 1) mod 2^64)%Z.
Proof. exact (goes_back s g h k). Qed.
Print Assumptions C35_concurrent_goes_back_refuted.

(** The counter never exceeds the number of messages, *)
Theorem C35_never_more_partial ls s : qrun new_ctr ls s -> (0 <= q_ctr s <= Z.of_nat (counted ls))%Z.
Proof. exact (never_more ls s). Qed.
Print Assumptions C35_never_more_partial.

(** and is exact when no increment falls into another one. *)
Theorem C35_undisturbed_partial ls s : qrun new_ctr ls s -> undisturbed ls -> q_ctr s = (Z.of_nat (counted ls) mod 2^64)%Z.
Proof. exact (count_exact ls s). Qed.
Print Assumptions C35_undisturbed_partial.

Example C35_undisturbed_example : exists s, qrun new_ctr [QLoad 3; QStore 3; QLoad 5; QStore 5; QLoad 3] s /\
  undisturbed [QLoad 3; QStore 3; QLoad 5; QStore 5; QLoad 3] /\ q_ctr s = 2%Z /\ q_reg s 3 = Some 2%Z /\ q_reg s 5 = None /\ q_reg s 6 = None.
Proof.
  eexists. split.
  { eapply qrun_cons; [by constructor|]. eapply qrun_cons; [by constructor|]. eapply qrun_cons; [by constructor|]. eapply qrun_cons; [by constructor|].
    apply qrun_one. by constructor. }
  split; [|by vm_compute].
  intros l1 g l2 l3 E N1 N2.
  destruct l1 as [|? [|? [|? [|? [|? l1]]]]]; simpl in E; simplify_eq.
  - destruct l2 as [|? l2]; [constructor|]. simplify_eq/=. destruct N2. left.
  - destruct l2 as [|? l2]; [constructor|]. simplify_eq/=. destruct N2. left.
  - by destruct l2.
  - by destruct l1.
Qed.

(** ** C61 *)
(** From every state that can be reached, the next write of any caller can overlap the read of an endpoint's goroutine. *)
Theorem C61_overlap_refuted s k : mreach s -> exists ls s', mrun s ls s' /\ m_acc s' k = AWriting /\ overlap s'.
Proof. exact (overlap_reached s k). Qed.
Print Assumptions C61_overlap_refuted.

(** As long as no endpoint's goroutine has been started there is no overlap. *)
Theorem C61_alone_partial ls s : mrun new_map ls s -> (forall k, MSpawn k ∉ ls) -> ~ overlap s.
Proof. exact (alone_apart ls s). Qed.
Print Assumptions C61_alone_partial.

(** Accesses of the callers never overlap each other. *)
Theorem C61_callers_apart_partial s k k' : mreach s -> m_acc s k <> AOut -> m_acc s k' <> AOut -> k = k'.
Proof. exact (callers_apart s k k'). Qed.
Print Assumptions C61_callers_apart_partial.

(** Exactly this order is kept: a caller takes the lock when nobody is between
    Lock and Unlock, accesses the map and starts goroutines only between them and
    one access after the other; a goroutine reads after it was started, one read
    after the other, whoever holds the lock. *)
Theorem C61_order_partial ls s l : mrun new_map ls s -> (exists s', mstep s l s') <-> may_come ls l.
Proof. exact (comes_next ls s l). Qed.
Print Assumptions C61_order_partial.

Example C61_example : exists s, mrun new_map [MLock 0; MRead 0; MEnd 0; MUnlock 0; MLock 0; MWrite 0; MEnd 0; MSpawn 0; MUnlock 0; MPeek 0; MLock 1; MWrite 1] s /\
  m_acc s 1 = AWriting /\ overlap s.
Proof.
  eexists. split.
  { eapply mrun_cons; [by constructor|]. eapply mrun_cons; [by constructor|]. eapply mrun_cons; [by constructor|]. eapply mrun_cons; [by constructor|].
    eapply mrun_cons; [by constructor|]. eapply mrun_cons; [by constructor|]. eapply mrun_cons; [by constructor|]. eapply mrun_cons; [by constructor|].
    eapply mrun_cons; [by constructor|]. eapply mrun_cons; [by constructor|]. eapply mrun_cons; [by constructor|]. apply mrun_one. by constructor. }
  split; [done|]. exists 1. split; [done|]. right. by exists 0.
Qed.
(** In that state: the goroutine may end its read, the caller its write, nobody may lock. *)
Example C61_order_example : let ls := [MLock 0; MRead 0; MEnd 0; MUnlock 0; MLock 0; MWrite 0; MEnd 0; MSpawn 0; MUnlock 0; MPeek 0; MLock 1; MWrite 1] in
  may_come ls (MPeekEnd 0) /\ may_come ls (MEnd 1) /\ ~ may_come ls (MPeek 0) /\ ~ may_come ls (MPeek 1) /\
  ~ may_come ls (MUnlock 1) /\ forall k, ~ may_come ls (MLock k).
Proof.
  split_and!; try done.
  - intros [_ H]. discriminate H.
  - intros [H _]. vm_compute in H. lia.
  - intros k H. by specialize (H 1).
Qed.
