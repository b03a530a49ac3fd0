(** * Theorems about heartbeat supervision (properties C53, C54, C60)

    Only statements: every proof is one lemma.  [T] is timeoutInSecond, [sh]
    closeOnLost.  [brun T sh new_beat ls s] is any interleaving of heartbeats,
    new connections, closes, heartbeat goroutines and checks, with any amounts of
    time passing in between. *)
From Verif Require Import GoBase BeatModel BeatSpec BeatProofs.

(** ** C53 *)
(** A connection is deleted, closed or reported by check only when the timeout has passed since its last registered sign of life. *)
Theorem C53_lost_only_after_timeout T sh ls l c s : brun T sh new_beat (ls ++ [l]) s -> l = BLate c \/ l = BShut c \/ l = BLost c ->
  exists t, lasttime (sign c) ls = Some t /\ (nsec T <= clock ls - t)%Z.
Proof. exact (lost_silent T sh ls l c s). Qed.
Print Assumptions C53_lost_only_after_timeout.

(** Every check, from taking the mutex to its return, reports every supervised connection that is late at its beginning. *)
Theorem C53_check_reports_all T sh ls1 todo ls2 s c t : brun T sh new_beat (ls1 ++ BCheck todo :: ls2 ++ [BDone]) s -> BDone ∉ ls2 ->
  supervised c ls1 -> lasttime (sign c) ls1 = Some t -> (nsec T <= clock ls1 - t)%Z -> BLost c ∈ ls2.
Proof. exact (check_reports T sh ls1 todo ls2 s c t). Qed.
Print Assumptions C53_check_reports_all.

(** Between two reports of a connection there is a heartbeat of it. *)
Theorem C53_once_per_silence T sh l1 c l2 s : brun T sh new_beat (l1 ++ BLost c :: l2 ++ [BLost c]) s -> BBeat c ∈ l2.
Proof. exact (once_per_silence T sh l1 c l2 s). Qed.
Print Assumptions C53_once_per_silence.

(** With CloseOnLost the reported connection is closed, *)
Theorem C53_closed_if_set T sh ls c s : brun T sh new_beat (ls ++ [BLost c]) s -> sh = true -> b_closed s c = true.
Proof. exact (lost_closed T sh ls c s). Qed.
Print Assumptions C53_closed_if_set.

(** without it check closes nothing. *)
Theorem C53_not_closed_if_unset T ls c s : brun T false new_beat ls s -> BShut c ∉ ls.
Proof. exact (never_shut T ls c s). Qed.
Print Assumptions C53_not_closed_if_unset.

(** Never reported, if signs are registered within the timeout. *)
Theorem C53_registered_in_time_partial T sh ls c s : brun T sh new_beat ls s ->
  (forall l1 l2 t, ls = l1 ++ l2 -> lasttime (sign c) l1 = Some t -> (clock l1 - t < nsec T)%Z) -> BLost c ∉ ls.
Proof. exact (steady_kept T sh ls c s). Qed.
Print Assumptions C53_registered_in_time_partial.

(** A heartbeat that has been read is registered, with the present time, once the mutex is free. *)
Theorem C53_waiting_beat_registered T sh ls s c : brun T sh new_beat ls s -> b_chk s = CIdle -> b_fly s c = true ->
  exists s', bstep T sh s (BBeat c) s' /\ b_mon s' c = Some (clock ls) /\ supervised c (ls ++ [BBeat c]).
Proof. exact (beat_registers T sh ls s c). Qed.
Print Assumptions C53_waiting_beat_registered.

(** Check always reaches its end by its own steps. *)
Theorem C53_check_ends T sh s : breach T sh s ->
  exists ls s', brun T sh s ls s' /\ b_chk s' = CIdle /\ b_now s' = b_now s /\ b_fly s' = b_fly s /\ b_gs s' = b_gs s /\ Forall own_step ls.
Proof. exact (check_ends T sh s). Qed.
Print Assumptions C53_check_ends.

(** However everything else is scheduled, from taking the mutex on a check makes at most three steps of its own for every connection before it returns, and never waits. *)
Theorem C53_check_bounded T sh ls1 todo ls2 s : brun T sh new_beat (ls1 ++ BCheck todo :: ls2) s -> BDone ∉ ls2 ->
  own_steps ls2 <= 3 * length todo /\ exists l s', own_step l /\ bstep T sh s l s'.
Proof. exact (check_bounded T sh ls1 todo ls2 s). Qed.
Print Assumptions C53_check_bounded.

(** A late connection can always be reported by a check that starts now. *)
Theorem C53_late_is_reported T sh s c t : breach T sh s -> b_chk s = CIdle -> b_mon s c = Some t -> (nsec T <= b_now s - t)%Z ->
  exists todo ls s', brun T sh s (BCheck (c :: todo) :: BLate c :: ls ++ [BLost c]) s' /\ Forall own_step ls.
Proof. exact (late_reported T sh s c t). Qed.
Print Assumptions C53_late_is_reported.

(** But heartbeats that arrive within the timeout do not protect: for every timeout there is an execution in which the pauses between arrivals on connection 1 are shorter and it is reported, as a check reporting another connection kept the heartbeat from being registered. *)
Theorem C53_in_time_lost_refuted T sh : (0 < T)%Z -> exists ls s, brun T sh new_beat ls s /\ BLost 1 ∈ ls /\
  forall l1 l2 t, ls = l1 ++ l2 -> lasttime (arrival 1) l1 = Some t -> (clock l1 - t < nsec T)%Z.
Proof. exact (in_time_lost T sh). Qed.
Print Assumptions C53_in_time_lost_refuted.

Tactic Notation "bs" open_constr(t) := eapply brun_cons; [eapply t; try done; try (vm_compute; congruence)|].
(** Timeout 1 s: connection 1 beats, connection 0 does not. *)
Definition beating : list blab := [BOpen 0; BOpen 1; BTick 600000000; BArrive 1; BBeat 1; BTick 600000000].
Lemma ex_nodup : NoDup [1; 0].
Proof. repeat constructor; rewrite ?elem_of_list_singleton; [done|apply not_elem_of_nil]. Qed.
Lemma ex_todo (m : nat -> option Z) : m 0 <> None -> m 1 <> None -> (forall c, m (S (S c)) = None) ->
  forall c, c ∈ [1; 0] <-> m c <> None.
Proof.
  intros H0 H1 H.
  intros [|[|c]]; rewrite !elem_of_cons, elem_of_nil; split; auto. rewrite H. intros; lia.
Qed.
Example C53_example : exists s, brun 1 true new_beat (beating ++ [BCheck [1; 0]; BKeep 1; BLate 0; BShut 0; BLost 0; BDone]) s /\
  lasttime (sign 1) beating = Some 600000000%Z /\ lasttime (sign 0) beating = Some 0%Z /\ clock beating = 1200000000%Z /\
  b_closed s 0 = true /\ b_closed s 1 = false /\ b_mon s 0 = None /\ b_mon s 1 = Some 600000000%Z.
Proof.
  eexists. split.
  { bs bk_open. bs bk_open. bs bk_tick. bs bk_arrive. bs bk_beat. bs bk_tick.
    eapply brun_cons; [apply bk_check; [exact ex_nodup|by apply ex_todo]|]. bs bk_keep. bs bk_late. bs bk_shut. bs bk_lost. apply brun_one. by apply bk_done. }
  by vm_compute.
Qed.
Example C53_supervised_example : supervised 0 beating /\ ~ supervised 0 (beating ++ [BCheck [1; 0]; BKeep 1; BLate 0]).
Proof.
  split.
  - exists [], (BOpen 0), (tail beating). split; [done|]. split; [done|]. by repeat constructor.
  - intros (l1 & l & l2 & E & Hs & Hf). apply Forall_forall with (x := BLate 0) in Hf; [done|].
    unfold beating in E. simpl in E. repeat (destruct l1 as [|? l1]; injection E as <- E; [first [discriminate|subst l2; by repeat constructor]|simpl in E]).
    by destruct l1.
Qed.

(** ** C54 *)
(** Whenever the heartbeat goroutine has ended while a heartbeat of the connection was read but not yet registered, the closed connection is supervised again and can be reported lost. *)
Theorem C54_ended_lost_refuted T sh s c : breach T sh s -> b_gs s c = GEnded -> b_fly s c = true ->
  exists ls s', brun T sh s ls s' /\ BLost c ∈ ls.
Proof. exact (ended_lost T sh s c). Qed.
Print Assumptions C54_ended_lost_refuted.

(** If none was, it is never reported after the goroutine has ended; *)
Theorem C54_nothing_in_flight_partial T sh l1 s1 c l2 s : brun T sh new_beat l1 s1 -> b_fly s1 c = false -> brun T sh s1 (BGone c :: l2) s -> BLost c ∉ l2.
Proof. exact (ended_quiet T sh l1 s1 c l2 s). Qed.
Print Assumptions C54_nothing_in_flight_partial.

(** in any case it is reported at most once. *)
Theorem C54_at_most_once_partial T sh l1 c l2 l3 s : brun T sh new_beat (l1 ++ BGone c :: l2 ++ BLost c :: l3) s -> BLost c ∉ l3.
Proof. exact (ended_at_most_one T sh l1 c l2 l3 s). Qed.
Print Assumptions C54_at_most_once_partial.

Example C54_example : exists s, brun 1 true new_beat [BOpen 0; BArrive 0; BClose 0; BSee 0; BGone 0] s /\
  b_gs s 0 = GEnded /\ b_fly s 0 = true /\ b_closed s 0 = true.
Proof.
  eexists. split.
  { bs bk_open. bs bk_arrive. bs bk_close. bs bk_see. apply brun_one. by eapply bk_gone. }
  by vm_compute.
Qed.
Example C54_partial_example : exists s s', brun 1 true new_beat [BOpen 0; BArrive 0; BClose 0; BSee 0; BBeat 0] s /\
  b_fly s 0 = false /\ brun 1 true s [BGone 0; BTick 2000000000; BCheck []; BDone] s'.
Proof.
  eexists. eexists. split_and!.
  { bs bk_open. bs bk_arrive. bs bk_close. bs bk_see. apply brun_one. by eapply bk_beat. }
  { done. }
  bs bk_gone. bs bk_tick.
  eapply brun_cons; [apply bk_check; [constructor|]|apply brun_one; by apply bk_done].
  intros c. rewrite elem_of_nil. destruct (decide (0 = c)) as [<-|]; [done|]. by rewrite !fn_lookup_insert_ne.
Qed.

(** ** C60 *)
(** While check has the mutex - also while the listeners of a heartbeat-lost event run - no heartbeat of any connection is registered, no new connection is taken into supervision and no heartbeat goroutine ends. *)
Theorem C60_stalled_refuted T sh s l s' c : b_chk s <> CIdle -> l = BBeat c \/ l = BOpen c \/ l = BGone c -> ~ bstep T sh s l s'.
Proof. exact (stalled T sh s l s' c). Qed.
Print Assumptions C60_stalled_refuted.

(** Connection 0 is being reported and a heartbeat of connection 1 waits. *)
Example C60_example : exists s, brun 1 true new_beat (beating ++ [BCheck [1; 0]; BKeep 1; BLate 0; BArrive 1]) s /\
  b_chk s = CLate 0 [] /\ b_fly s 1 = true.
Proof.
  eexists. split.
  { bs bk_open. bs bk_open. bs bk_tick. bs bk_arrive. bs bk_beat. bs bk_tick.
    eapply brun_cons; [apply bk_check; [exact ex_nodup|by apply ex_todo]|]. bs bk_keep. bs bk_late. apply brun_one. by apply bk_arrive. }
  by vm_compute.
Qed.
