(** * Theorems about the reference transports (properties C48, C49, C50, C59)

    Only statements: every proof is one lemma.  [addr], [server], [size]: address,
    side and MaxQueueSize of each transport.  [rrun s ls s'] is any interleaving
    of calls of Run, Stop, NextConnection, SetReference, GetReference and Close,
    on any number of transports and addresses. *)
From Verif Require Import GoBase RefModel RefSpec RefProofs RefRest.

(** ** C49 *)
(** On every address: what one side has got is a prefix of what the other side has put. *)
Theorem C49_fifo (addr : nat -> nat) (server : nat -> bool) (size : nat -> Z) ls s a side : rrun addr server size new_ref ls s -> gots addr server a (negb side) ls `prefix_of` puts addr server a side ls.
Proof. exact (fifo addr server size ls s a side). Qed.
Print Assumptions C49_fifo.

(** What a goroutine has put are the references it called SetReference with, in that order, except the one it is still putting. *)
Theorem C49_in_call_order (addr : nat -> nat) (server : nat -> bool) (size : nat -> Z) ls s k : rrun addr server size new_ref ls s -> called k ls = done_by k ls ++ option_list (r_pend s k).
Proof. exact (in_call_order addr server size ls s k). Qed.
Print Assumptions C49_in_call_order.

(** Putting blocks only when MaxQueueSize references on the same address are not yet got. *)
Theorem C49_send_enabled (addr : nat -> nat) (server : nat -> bool) (size : nat -> Z) ls s k c p t ch b x : rrun addr server size new_ref ls s -> r_crash s = false -> r_pend s k = Some (c, p) ->
  r_conns s !! c = Some (t, ch, b) -> r_chans s !! ch = Some x ->
  length (puts addr server (addr t) (server t) ls) < length (gots addr server (addr t) (negb (server t)) ls) + rc_cap x ->
  exists s', rstep addr server size s (RSent k t c p) s' /\ r_crash s' = false.
Proof. exact (send_enabled addr server size ls s k c p t ch b x). Qed.
Print Assumptions C49_send_enabled.

(** Getting blocks only when all is got, and gets the next one. *)
Theorem C49_receive_enabled (addr : nat -> nat) (server : nat -> bool) (size : nat -> Z) ls s j c t ch b : rrun addr server size new_ref ls s -> r_crash s = false -> r_wait s j = Some c ->
  r_conns s !! c = Some (t, ch, b) ->
  length (gots addr server (addr t) (server t) ls) < length (puts addr server (addr t) (negb (server t)) ls) ->
  exists s' p, rstep addr server size s (RGot j t c p) s' /\ puts addr server (addr t) (negb (server t)) ls !! length (gots addr server (addr t) (server t) ls) = Some p.
Proof. exact (receive_enabled addr server size ls s j c t ch b). Qed.
Print Assumptions C49_receive_enabled.

(** Transports 0, 2, ... are servers, transport t uses address t/2; a channel of two. *)
Tactic Notation "rs" open_constr(t) := eapply rrun_cons; [eapply t; try done; try (vm_compute; lia)|].
Tactic Notation "rl" open_constr(t) := eapply rrun_one; eapply t; try done; try (vm_compute; lia).
Definition exaddr (t : nat) : nat := t / 2.
Definition exserver (t : nat) : bool := Nat.even t.
Definition exsize (t : nat) : Z := 2.
Notation exrun := (rrun exaddr exserver exsize).
Definition connected : list rlab :=
  [RRun 0; RGlobal 0; RPush 0; RRun 1; RGlobal 1; RPush 1; RRun 2; RGlobal 2; RPush 2; RNext 0; RNext 1; RNext 2].
Example C49_example : exists s, exrun new_ref (connected ++ [RGet 7 0 0; RSet 5 1 1 30; RSent 5 1 1 30; RSet 5 1 1 31; RGot 7 0 0 30; RSent 5 1 1 31; RSet 5 1 1 32; RGet 7 0 0]) s /\
  let ls := connected ++ [RGet 7 0 0; RSet 5 1 1 30; RSent 5 1 1 30; RSet 5 1 1 31; RGot 7 0 0 30; RSent 5 1 1 31; RSet 5 1 1 32; RGet 7 0 0] in
  puts exaddr exserver 0 false ls = [30; 31] /\ gots exaddr exserver 0 true ls = [30] /\ r_pend s 5 = Some (1, 32) /\ r_wait s 7 = Some 0 /\
  r_crash s = false /\ called 5 ls = [(1, 30); (1, 31); (1, 32)].
Proof.
  eexists. split.
  { rs rk_run. rs rk_global_new. rs rk_push. rs rk_run. rs (rk_global_old _ _ _ _ _ _ _ _ _ _ _ _ _ 0). rs (rk_push _ _ _ _ _ _ _ _ _ _ _ _ _ _ 0).
    rs rk_run. rs rk_global_new. rs rk_push. rs rk_next. rs rk_next. rs rk_next.
    rs rk_get. rs rk_set. rs rk_sent. rs rk_set. rs rk_got. rs rk_sent. rs rk_set. rl rk_get. }
  done.
Qed.

(** ** C50 *)
(** Stop never does anything. *)
Theorem C50_stop_nothing_refuted (addr : nat -> nat) (server : nat -> bool) (size : nat -> Z) s t s' : rreach addr server size s -> rstep addr server size s (RStop t) s' -> s' = s.
Proof. exact (stop_nothing addr server size s t s'). Qed.
Print Assumptions C50_stop_nothing_refuted.

(** So the channel of an address is never released. *)
Theorem C50_channel_kept_refuted (addr : nat -> nat) (server : nat -> bool) (size : nat -> Z) s ls s' a ch : rreach addr server size s -> rrun addr server size s ls s' -> r_map s a = Some ch -> r_map s' a = Some ch.
Proof. exact (channel_kept addr server size s ls s' a ch). Qed.
Print Assumptions C50_channel_kept_refuted.

(** Run is not idempotent: each further Run makes another connection on the same channel and counts another user. *)
Theorem C50_run_again_connects_refuted (addr : nat -> nat) (server : nat -> bool) (size : nat -> Z) s t ch x : rreach addr server size s -> r_crash s = false -> r_mutex s = None -> r_pc s t = RIdle -> r_next s t = [] ->
  r_map s (addr t) = Some ch -> r_chans s !! ch = Some x ->
  exists s', rrun addr server size s [RRun t; RGlobal t; RPush t] s' /\ r_conns s' = r_conns s ++ [(t, ch, false)] /\
    r_next s' t = [length (r_conns s)] /\ r_mutex s' = None /\ r_pc s' t = RIdle /\ r_crash s' = false /\
    r_chans s' = <[ch := set_refs x (rc_refs x + 1)]> (r_chans s) /\ r_pend s' = r_pend s /\ r_wait s' = r_wait s /\ r_running s' t = false.
Proof. exact (run_again_connects addr server size s t ch x). Qed.
Print Assumptions C50_run_again_connects_refuted.

(** What was left in the channel before Stop is received after the next Run. *)
Theorem C50_stale_refuted (addr : nat -> nat) (server : nat -> bool) (size : nat -> Z) s t ch x p q j : rreach addr server size s -> r_crash s = false -> r_mutex s = None -> r_pc s t = RIdle -> r_next s t = [] ->
  r_map s (addr t) = Some ch -> r_chans s !! ch = Some x -> rc_buf x (server t) = p :: q -> r_pend s j = None -> r_wait s j = None ->
  exists s', rrun addr server size s [RStop t; RRun t; RGlobal t; RPush t; RNext t; RGet j t (length (r_conns s)); RGot j t (length (r_conns s)) p] s'.
Proof. exact (stale addr server size s t ch x p q j). Qed.
Print Assumptions C50_stale_refuted.

(** Run before the former connection is taken by NextConnection ... *)
Theorem C50_second_run_sticks_refuted (addr : nat -> nat) (server : nat -> bool) (size : nat -> Z) s t c : rreach addr server size s -> r_crash s = false -> r_mutex s = None -> r_pc s t = RIdle -> r_next s t = [c] ->
  exists s' ch, rrun addr server size s [RRun t; RGlobal t] s' /\ r_pc s' t = RPushing ch /\ r_next s' t = [c].
Proof. exact (second_run_sticks addr server size s t c). Qed.
Print Assumptions C50_second_run_sticks_refuted.

(** ... blocks, holding the global mutex, and until NextConnection no Run of any transport on any address gets through. *)
Theorem C50_stuck_forever_refuted (addr : nat -> nat) (server : nat -> bool) (size : nat -> Z) s t ch c s' ls : rreach addr server size s -> r_pc s t = RPushing ch -> r_next s t = [c] -> rrun addr server size s ls s' -> RNext t ∉ ls ->
  r_pc s' t = RPushing ch /\ r_next s' t = [c] /\ r_mutex s' = Some t /\ length (r_conns s') = length (r_conns s) /\
  (forall t', RGlobal t' ∉ ls /\ RPush t' ∉ ls).
Proof. exact (stuck_forever addr server size s t ch c s' ls). Qed.
Print Assumptions C50_stuck_forever_refuted.

(** If no more than one Run is ahead of NextConnection, Run does not block when it has the mutex, *)
Theorem C50_not_stuck_partial (addr : nat -> nat) (server : nat -> bool) (size : nat -> Z) ls s t ch : rrun addr server size new_ref ls s -> r_crash s = false -> run_count t ls <= next_count t ls + 1 ->
  r_pc s t = RPushing ch -> exists s', rstep addr server size s (RPush t) s'.
Proof. exact (run_not_stuck addr server size ls s t ch). Qed.
Print Assumptions C50_not_stuck_partial.

(** and nobody else holds the mutex. *)
Theorem C50_mutex_holder_partial (addr : nat -> nat) (server : nat -> bool) (size : nat -> Z) ls s t : rrun addr server size new_ref ls s -> r_crash s = false -> r_mutex s = Some t -> exists ch, r_pc s t = RPushing ch.
Proof. exact (mutex_holder addr server size ls s t). Qed.
Print Assumptions C50_mutex_holder_partial.

(** The first Run on an address connects. *)
Theorem C50_first_run_partial (addr : nat -> nat) (server : nat -> bool) (size : nat -> Z) s t : rreach addr server size s -> r_crash s = false -> r_mutex s = None -> r_pc s t = RIdle -> r_next s t = [] ->
  r_map s (addr t) = None -> (0 <= size t)%Z ->
  exists s', rrun addr server size s [RRun t; RGlobal t; RPush t] s' /\ r_conns s' = r_conns s ++ [(t, length (r_chans s), false)] /\
    r_next s' t = [length (r_conns s)] /\ r_mutex s' = None /\ r_pc s' t = RIdle /\ r_crash s' = false /\
    r_chans s' = r_chans s ++ [Rchan (Z.to_nat (size t)) 1 false (fun _ => [])].
Proof. exact (first_run_connects addr server size s t). Qed.
Print Assumptions C50_first_run_partial.

Example C50_example_taken : exists s, rreach exaddr exserver exsize s /\ r_crash s = false /\ r_mutex s = None /\ r_pc s 0 = RIdle /\
  r_next s 0 = [0] /\ r_next s 1 = [] /\ r_map s (exaddr 1) = Some 0 /\ r_map s (exaddr 2) = None.
Proof.
  eexists. split.
  { exists [RRun 0; RGlobal 0; RPush 0]. rs rk_run. rs rk_global_new. rl rk_push. }
  done.
Qed.
Example C50_example_stuck : exists ls s, exrun new_ref ls s /\ r_crash s = false /\ r_pc s 0 = RPushing 0 /\ r_next s 0 = [0] /\ r_mutex s = Some 0.
Proof.
  exists [RRun 0; RGlobal 0; RPush 0; RRun 0; RGlobal 0]. eexists. split.
  { rs rk_run. rs rk_global_new. rs rk_push. rs rk_run. rl (rk_global_old _ _ _ _ _ _ _ _ _ _ _ _ _ 0). }
  done.
Qed.
Example C50_example_next_first : exists ls s, exrun new_ref ls s /\ r_crash s = false /\ r_pc s 0 = RPushing 0 /\
  run_count 0 ls = 2 /\ next_count 0 ls = 1.
Proof.
  exists [RRun 0; RGlobal 0; RPush 0; RRun 0; RGlobal 0; RNext 0]. eexists. split.
  { rs rk_run. rs rk_global_new. rs rk_push. rs rk_run. rs (rk_global_old _ _ _ _ _ _ _ _ _ _ _ _ _ 0). rl rk_next. }
  done.
Qed.
Example C50_example_left : exists s x, rreach exaddr exserver exsize s /\ r_crash s = false /\ r_mutex s = None /\ r_pc s 0 = RIdle /\ r_next s 0 = [] /\
  r_map s 0 = Some 0 /\ r_chans s !! 0 = Some x /\ rc_buf x true = [30] /\ r_pend s 7 = None /\ r_wait s 7 = None.
Proof.
  eexists _, _. split.
  { exists [RRun 0; RGlobal 0; RPush 0; RRun 1; RGlobal 1; RPush 1; RNext 0; RNext 1; RSet 5 1 1 30; RSent 5 1 1 30].
    rs rk_run. rs rk_global_new. rs rk_push. rs rk_run. rs (rk_global_old _ _ _ _ _ _ _ _ _ _ _ _ _ 0). rs (rk_push _ _ _ _ _ _ _ _ _ _ _ _ _ _ 0).
    rs rk_next. rs rk_next. rs (rk_set _ _ _ _ _ _ _ _ _ _ _ _ _ 5 _ _ _ 30). rl rk_sent. }
  done.
Qed.

(** A negative MaxQueueSize makes the first Run on an address panic. *)
Theorem C50_panics_refuted (addr : nat -> nat) (server : nat -> bool) (size : nat -> Z) s t : r_crash s = false -> r_mutex s = None -> r_pc s t = RIdle -> rreach addr server size s ->
  r_map s (addr t) = None -> (size t < 0)%Z -> exists s', rrun addr server size s [RRun t; RGlobal t] s' /\ r_crash s' = true.
Proof. exact (panics addr server size s t). Qed.
Print Assumptions C50_panics_refuted.

(** Nothing else panics, and nothing happens afterwards. *)
Theorem C50_panics_only_partial (addr : nat -> nat) (server : nat -> bool) (size : nat -> Z) ls s : rrun addr server size new_ref ls s -> r_crash s = true ->
  (exists ls' t, ls = ls' ++ [RGlobal t] /\ (size t < 0)%Z /\ forall t', addr t' = addr t -> RPush t' ∉ ls) /\ forall l s', ~ rstep addr server size s l s'.
Proof. exact (panics_only addr server size ls s). Qed.
Print Assumptions C50_panics_only_partial.

Theorem C50_must_panic_refuted (addr : nat -> nat) (server : nat -> bool) (size : nat -> Z) s t s' : rstep addr server size s (RGlobal t) s' -> r_map s (addr t) = None -> (size t < 0)%Z -> r_crash s' = true.
Proof. exact (must_panic addr server size s t s'). Qed.
Print Assumptions C50_must_panic_refuted.

(** Run and Stop of one transport exclude each other. *)
Theorem C50_own_lock_partial (addr : nat -> nat) (server : nat -> bool) (size : nat -> Z) s t s' : rstep addr server size s (RRun t) s' \/ rstep addr server size s (RStop t) s' -> r_pc s t = RIdle.
Proof. exact (own_lock addr server size s t s'). Qed.
Print Assumptions C50_own_lock_partial.

(** NextConnection returns the connections that the Runs of this transport made, each once, in that order; the transport keeps the last one that it returned. *)
Theorem C50_next_partial (addr : nat -> nat) (server : nat -> bool) (size : nat -> Z) t ls s : rrun addr server size new_ref ls s ->
  r_next s t = drop (next_count t ls) (made t ls) /\ r_conn s t = last (take (next_count t ls) (made t ls)) /\
  next_count t ls <= length (made t ls) /\ forall c, c ∈ made t ls -> exists ch b, r_conns s !! c = Some (t, ch, b).
Proof. exact (next_in_order addr server size t ls s). Qed.
Print Assumptions C50_next_partial.

(** The second transport's connection is number 1; the first transport has got 0 and will get 2. *)
Example C50_example_next : exists s, exrun new_ref [RRun 0; RGlobal 0; RPush 0; RRun 1; RGlobal 1; RPush 1; RNext 0; RRun 0; RGlobal 0; RPush 0] s /\
  made 0 [RRun 0; RGlobal 0; RPush 0; RRun 1; RGlobal 1; RPush 1; RNext 0; RRun 0; RGlobal 0; RPush 0] = [0; 2] /\ r_next s 0 = [2] /\ r_conn s 0 = Some 0 /\ r_next s 1 = [1].
Proof.
  eexists. split; [rs rk_run; rs rk_global_new; rs rk_push; rs rk_run; rs rk_global_old; rs rk_push; rs rk_next; rs rk_run; rs rk_global_old; rl rk_push|].
  done.
Qed.

Example C50_example_panics : exists s, rrun exaddr exserver (fun t => if decide (t = 2) then (-1)%Z else exsize t) new_ref [RRun 0; RGlobal 0; RPush 0; RRun 2; RGlobal 2] s /\
  r_crash s = true.
Proof. eexists. split; [rs rk_run; rs rk_global_new; rs rk_push; rs rk_run; rl rk_global_negative|]. done. Qed.

(** ** C48, reference transport *)
(** Whatever is stopped: a connection is closed only by its own Close. *)
Theorem C48_only_close_closes_refuted (addr : nat -> nat) (server : nat -> bool) (size : nat -> Z) ls s c t ch : rrun addr server size new_ref ls s -> r_conns s !! c = Some (t, ch, true) -> RClose t c ∈ ls.
Proof. exact (only_close_closes addr server size ls s c t ch). Qed.
Print Assumptions C48_only_close_closes_refuted.

Example C48_example_reference : exists s, exrun new_ref [RRun 0; RGlobal 0; RPush 0; RNext 0; RStop 0] s /\ r_conns s = [(0, 0, false)].
Proof. eexists. split; [rs rk_run; rs rk_global_new; rs rk_push; rs rk_next; rl rk_stop|]. done. Qed.

(** ** C59 *)
(** A GetReference that waits when its connection is closed still gets what comes. *)
Theorem C59_closed_delivers_refuted (addr : nat -> nat) (server : nat -> bool) (size : nat -> Z) s j c t ch b x p q : r_crash s = false -> r_wait s j = Some c -> r_conns s !! c = Some (t, ch, b) ->
  r_chans s !! ch = Some x -> rc_buf x (server t) = p :: q -> exists s', rrun addr server size s [RClose t c; RGot j t c p] s'.
Proof. exact (closed_delivers addr server size s j c t ch b x p q). Qed.
Print Assumptions C59_closed_delivers_refuted.

(** Whatever is closed, a waiting GetReference does not return until something is put. *)
Theorem C59_peer_waits_refuted (addr : nat -> nat) (server : nat -> bool) (size : nat -> Z) s j c t ch b x ls s' : rreach addr server size s -> r_wait s j = Some c -> r_conns s !! c = Some (t, ch, b) ->
  r_chans s !! ch = Some x -> rc_buf x (server t) = [] -> rrun addr server size s ls s' -> puts addr server (addr t) (negb (server t)) ls = [] ->
  r_wait s' j = Some c.
Proof. exact (peer_waits addr server size s j c t ch b x ls s'). Qed.
Print Assumptions C59_peer_waits_refuted.

(** SetReference succeeds although the other side has closed. *)
Theorem C59_peer_sends_refuted (addr : nat -> nat) (server : nat -> bool) (size : nat -> Z) s k c t ch b c' t' b' p x : rreach addr server size s -> r_crash s = false -> r_pend s k = None -> r_wait s k = None ->
  r_conns s !! c = Some (t, ch, b) -> r_conns s !! c' = Some (t', ch, b') -> c <> c' -> b = false ->
  r_chans s !! ch = Some x -> length (rc_buf x (negb (server t))) < rc_cap x ->
  exists s', rrun addr server size s [RClose t' c'; RSet k t c p; RSent k t c p] s' /\ r_crash s' = false.
Proof. exact (peer_sends addr server size s k c t ch b c' t' b' p x). Qed.
Print Assumptions C59_peer_sends_refuted.

(** A closed connection refuses further calls. *)
Theorem C59_closed_refuses_partial (addr : nat -> nat) (server : nat -> bool) (size : nat -> Z) s ls s' c t ch : rreach addr server size s -> rrun addr server size s ls s' -> r_conns s !! c = Some (t, ch, true) ->
  forall k t' p, RSet k t' c p ∉ ls /\ RGet k t' c ∉ ls.
Proof. exact (closed_refuses addr server size s ls s' c t ch). Qed.
Print Assumptions C59_closed_refuses_partial.

Example C59_example : exists s x, rreach exaddr exserver exsize s /\ r_crash s = false /\ r_wait s 7 = Some 0 /\
  r_conns s = [(0, 0, true); (1, 0, false)] /\ r_chans s !! 0 = Some x /\ rc_buf x true = [30] /\ rc_buf x false = [] /\ r_wait s 8 = Some 1.
Proof.
  eexists _, _. split.
  { exists [RRun 0; RGlobal 0; RPush 0; RRun 1; RGlobal 1; RPush 1; RNext 0; RGet 7 0 0; RGet 8 1 1; RClose 0 0; RSet 5 1 1 30; RSent 5 1 1 30].
    rs rk_run. rs rk_global_new. rs rk_push. rs rk_run. rs (rk_global_old _ _ _ _ _ _ _ _ _ _ _ _ _ 0). rs (rk_push _ _ _ _ _ _ _ _ _ _ _ _ _ _ 0).
    rs rk_next. rs (rk_get _ _ _ _ _ _ _ _ _ _ _ _ _ 7 _ 0). rs (rk_get _ _ _ _ _ _ _ _ _ _ _ _ _ 8 _ 1).
    rs (rk_close _ _ _ _ _ _ _ _ _ _ _ _ _ _ 0). rs (rk_set _ _ _ _ _ _ _ _ _ _ _ _ _ 5 _ 1 _ 30). rl rk_sent. }
  done.
Qed.

(** Only a closed connection refuses a call. *)
Theorem C59_refuses_only_partial (addr : nat -> nat) (server : nat -> bool) (size : nat -> Z) ls s k t c p : rrun addr server size new_ref ls s ->
  RSetErr k t c p ∈ ls \/ RGetErr k t c ∈ ls -> RClose t c ∈ ls.
Proof. exact (refuses_only addr server size ls s k t c p). Qed.
Print Assumptions C59_refuses_only_partial.

(** GetReference never returns nil without an error. *)
Theorem C59_never_nil_partial (addr : nat -> nat) (server : nat -> bool) (size : nat -> Z) ls s j t c : rrun addr server size new_ref ls s -> RGotNil j t c ∉ ls.
Proof. exact (never_nil addr server size ls s j t c). Qed.
Print Assumptions C59_never_nil_partial.

(** A goroutine is in one call at a time. *)
Theorem C59_one_call_partial (addr : nat -> nat) (server : nat -> bool) (size : nat -> Z) ls s k : rrun addr server size new_ref ls s -> r_pend s k = None \/ r_wait s k = None.
Proof. exact (one_call addr server size ls s k). Qed.
Print Assumptions C59_one_call_partial.

Theorem C59_in_a_call_partial (addr : nat -> nat) (server : nat -> bool) (size : nat -> Z) s k t c p l s' : rstep addr server size s l s' ->
  l ∈ [RSet k t c p; RSetErr k t c p; RGet k t c; RGetErr k t c] -> r_pend s k = None /\ r_wait s k = None.
Proof. exact (in_a_call addr server size s k t c p l s'). Qed.
Print Assumptions C59_in_a_call_partial.

Example C59_example_refuses : exists s, exrun new_ref [RRun 0; RGlobal 0; RPush 0; RGet 7 0 0; RClose 0 0; RGetErr 8 0 0; RSetErr 5 0 0 30] s /\ r_wait s 7 = Some 0 /\ r_pend s 7 = None.
Proof.
  eexists. split.
  { rs rk_run. rs rk_global_new. rs rk_push. rs (rk_get _ _ _ _ _ _ _ _ _ _ _ _ _ 7 _ 0). rs (rk_close _ _ _ _ _ _ _ _ _ _ _ _ _ _ 0).
    rs (rk_get_err _ _ _ _ _ _ _ _ _ _ _ _ _ 8 _ 0). rl (rk_set_err _ _ _ _ _ _ _ _ _ _ _ _ _ 5 _ 0 _ 30). }
  done.
Qed.
