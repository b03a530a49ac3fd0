(** * Theorems about goroutines that send until their connection is closed (property C104)

    Only statements: every proof is one lemma.  [prun P s ls s']: the user's
    goroutines, the endpoint's goroutine, closings and a deletion of the endpoint
    happen, in any order. *)
From Verif Require Import GoBase PollModel PollSpec PollProofs.
From stdpp Require Import list numbers.

(** ** C104 *)

(** Once its connection is closed, a goroutine puts at most one more message, however long the run. *)
Theorem C104_one_more_partial P s ls s' j : over P s j -> prun P s ls s' -> puts_of j ls <= 1.
Proof. exact (at_most_one P s ls s' j). Qed.
Print Assumptions C104_one_more_partial.

(** As long as the endpoint's goroutine serves its channel: when all connections are closed, all schedules end, within that many steps, and they end only when every goroutine has returned and the channel is empty. *)
Theorem C104_all_return_partial P s ls s' : 0 < pcap P -> preach P s -> all_over P s -> served s -> prun P s ls s' -> Forall goes_on ls ->
  length ls <= 5 * pnum P + 2 * length (p_tx s) + 2 /\
  ((forall l s'', goes_on l -> ~ pstep P s' l s'') -> (forall j, j < pnum P -> finished s' j) /\ p_tx s' = []).
Proof. exact (all_return P s ls s'). Qed.
Print Assumptions C104_all_return_partial.

(** It serves it as long as the endpoint is not deleted, and, if it was in a call at the deletion, afterwards as well. *)
Theorem C104_served_partial P s : preach P s ->
  (p_del s = false -> served s) /\
  (forall x s', p_g s = GBusy x -> pstep P s PDelete s' -> served s') /\
  (forall h s', p_g s = GWait h -> pstep P s PDelete s' -> ~ served s' /\ exists s'', pstep P s' PStop s'' /\ p_g s'' = GGone).
Proof. exact (fun H => conj (kept_served P s H) (conj (busy_served P s) (fun h s' => waiting_not_served P s h s' H))). Qed.
Print Assumptions C104_served_partial.

(** After a deletion they still return if the channel has room for what is to come from those that are past the test: so it does if the connections are closed, with time to notice, before the endpoint is deleted. *)
Theorem C104_room_partial P s ls s' : preach P s -> all_over P s -> length (p_tx s) + to_come s <= pcap P -> prun P s ls s' -> Forall goes_on ls ->
  length ls <= 5 * pnum P + 2 * length (p_tx s) + 2 /\
  ((forall l s'', goes_on l -> ~ pstep P s' l s'') -> forall j, j < pnum P -> finished s' j).
Proof. exact (fun Hr Ao Hm H F => conj (ends_bound P s ls s' Hr Ao H F) (all_return_room P s ls s' Hr Ao Hm H F)). Qed.
Print Assumptions C104_room_partial.

(** Nothing that was put is lost, doubled or overtaken: it was handed to the processors, is in a call, or is in the channel, which never holds more than its capacity. *)
Theorem C104_in_order_partial P ls s : prun P (new_poll P) ls s ->
  all_puts ls = p_sent s ++ in_call s ++ p_tx s /\ length (p_tx s) <= pcap P.
Proof. exact (fun H => conj (in_order P ls s H) (proj1 (proj2 (invs P s (ex_intro _ ls H))))). Qed.
Print Assumptions C104_in_order_partial.

(** A goroutine that returned tests, and its connection is closed. *)
Theorem C104_returned_partial P s j : preach P s -> p_at s !! j = Some PDone -> over P s j.
Proof. exact (returns_closed P s j). Qed.
Print Assumptions C104_returned_partial.

(** Refuted: from every state in which the endpoint's goroutine waits and one of the user's goroutines is running with its connection open, a deletion of the endpoint can leave that goroutine at the put for ever, whatever is closed later. *)
Theorem C104_deleted_refuted P s j f h : preach P s -> p_del s = false -> p_g s = GWait h -> p_at s !! j = Some f -> f <> PNone -> f <> PDone ->
  p_closed s (pconn P j) = false ->
  exists ls s', prun P s (PDelete :: PStop :: ls) s' /\ Forall goes_on ls /\ for_ever_waiting P s' j.
Proof. exact (deleted_stuck P s j f h). Qed.
Print Assumptions C104_deleted_refuted.

(** Without the test, as in examples/dynamic_transport, a goroutine never returns. *)
Theorem C104_untested_refuted P s j : preach P s -> ptests P j = false -> p_at s !! j <> Some PDone.
Proof. exact (never_returns_untested P s j). Qed.
Print Assumptions C104_untested_refuted.

(** It may send any number of messages first, while its connection is open; *)
Theorem C104_sends_partial P j m : j < pnum P -> 0 < pcap P ->
  exists ls s, prun P (new_poll P) (PStart j :: ls) s /\ Forall goes_on ls /\ puts_of j ls = m /\ p_sent s = replicate m j.
Proof. exact (open_goes_on P j m). Qed.
Print Assumptions C104_sends_partial.

(** without the test also any number after the close. *)
Theorem C104_untested_sends_refuted P j m : j < pnum P -> ptests P j = false -> 0 < pcap P ->
  exists ls s, prun P (new_poll P) (PClose (pconn P j) :: PStart j :: ls) s /\ Forall goes_on ls /\ puts_of j ls = m /\ p_sent s = replicate m j.
Proof. exact (untested_goes_on P j m). Qed.
Print Assumptions C104_untested_sends_refuted.

(** And every one of them can be left behind. *)
Theorem C104_left_behind_refuted P j : j < pnum P ->
  exists ls s, prun P (new_poll P) (PStart j :: PDelete :: PStop :: ls) s /\ Forall goes_on ls /\ for_ever_waiting P s j.
Proof. exact (left_behind P j). Qed.
Print Assumptions C104_left_behind_refuted.

(** Two goroutines on two connections, a channel of two. *)
Definition ex_poll : poll := Poll 2 (fun j => j) (fun _ => true) 2.
Definition ex_first : list plab :=
  [PStart 0; POpen 0; PStart 1; PWake 0; PPut 0; PTake; POpen 1; PClose 0; PReturn 0; PWake 1; PBack].
Definition ex_state : pst := Pst [PDone; PSend] (<[0 := true]> (fun _ => false)) [] (GWait true) false [0].
Example ex_runs : prun ex_poll (new_poll ex_poll) ex_first ex_state.
Proof.
  unfold ex_first. eapply prun_cons; [by apply pk_start|]. eapply prun_cons; [by apply pk_open|]. eapply prun_cons; [by apply pk_start|].
  eapply prun_cons; [by apply pk_wake|]. eapply prun_cons; [apply pk_put; [done|simpl; lia]|]. eapply prun_cons; [apply pk_take|].
  eapply prun_cons; [by apply pk_open|]. eapply prun_cons; [apply pk_close|]. eapply prun_cons; [by apply pk_return|].
  eapply prun_cons; [by apply pk_wake|]. apply prun_one. apply pk_back.
Qed.
(** The first has returned; the second, whose connection is open, sends. *)
Example C104_example : preach ex_poll ex_state /\ over ex_poll ex_state 0 /\ p_at ex_state !! 0 = Some PDone /\ served ex_state /\
  p_g ex_state = GWait true /\ p_del ex_state = false /\ p_at ex_state !! 1 = Some PSend /\ p_closed ex_state (pconn ex_poll 1) = false /\
  all_puts ex_first = [0] /\ p_sent ex_state = [0].
Proof. split; [by exists ex_first; apply ex_runs|]. by split_and!. Qed.
(** Now both are closed: one more message, and the second returns; even if the endpoint is deleted. *)
Example C104_example_ends : let s := Pst [PDone; PSend] (<[1 := true]> (<[0 := true]> (fun _ => false))) [] GGone true [0] in
  preach ex_poll s /\ all_over ex_poll s /\ length (p_tx s) + to_come s <= pcap ex_poll /\
  exists s', prun ex_poll s [PPut 1; PReturn 1] s' /\ finished s' 0 /\ finished s' 1.
Proof.
  split; [|split; [|split]].
  - exists (ex_first ++ [PClose 1; PDelete; PStop]). eapply prun_app; [apply ex_runs|].
    eapply prun_cons; [apply pk_close|]. eapply prun_cons; [apply pk_delete|]. apply prun_one. apply pk_stop.
  - intros [|[|j]] Hj; [done|done|simpl in Hj; lia].
  - vm_compute. lia.
  - eexists. split; [eapply prun_cons; [apply pk_put; [done|simpl; lia]|]; apply prun_one; by apply pk_return|]. split; by right.
Qed.
(** Deleted before the connection was closed: after two more messages the second waits for ever. *)
Example C104_example_stuck : exists s, prun ex_poll ex_state [PDelete; PStop; PPut 1; POpen 1; PWake 1; PPut 1; POpen 1; PWake 1; PClose 1] s /\
  p_at s !! 1 = Some PSend /\ length (p_tx s) = pcap ex_poll /\ p_closed s 1 = true.
Proof.
  eexists. split.
  - eapply prun_cons; [apply pk_delete|]. eapply prun_cons; [apply pk_stop|]. eapply prun_cons; [apply pk_put; [done|simpl; lia]|].
    eapply prun_cons; [by apply pk_open|]. eapply prun_cons; [by apply pk_wake|]. eapply prun_cons; [apply pk_put; [done|simpl; lia]|].
    eapply prun_cons; [by apply pk_open|]. eapply prun_cons; [by apply pk_wake|]. apply prun_one. apply pk_close.
  - by split_and!.
Qed.
(** A goroutine that does not test goes on after the close. *)
Example C104_example_untested : exists s, prun (Poll 1 (fun _ => 0) (fun _ => false) 2) (new_poll (Poll 1 (fun _ => 0) (fun _ => false) 2))
  [PClose 0; PStart 0; POpen 0; PWake 0; PPut 0; POpen 0] s /\ p_tx s = [0].
Proof.
  eexists. split.
  - eapply prun_cons; [apply pk_close|]. eapply prun_cons; [by apply pk_start|]. eapply prun_cons; [by apply pk_open|].
    eapply prun_cons; [by apply pk_wake|]. eapply prun_cons; [apply pk_put; [done|simpl; lia]|]. apply prun_one. by apply pk_open.
  - done.
Qed.
