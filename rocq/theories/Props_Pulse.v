(** * Theorems about heartbeats between two peers (property C76)

    [purun T G sh c g ls s] is any execution, started at the beginning, of the
    sending peer's heartbeat goroutine with IntervalInSecond [G], the transport of
    connection [c] and the supervising peer with TimeoutInSecond [T] and
    CloseOnLost [sh], in which nothing is later than the bounds [g] allow. *)
From Verif Require Import GoBase BeatModel BeatSpec BeatProofs PulseModel PulseSpec PulseProofs.

(** A live peer is never reported, nor closed, if the timeout exceeds the interval by the delays. *)
Theorem C76_live_partial T G sh c g ls s : (0 <= G)%Z -> lag_ok g -> (Z.max (g_start g) (nsec G) + g_send g + g_net g < nsec T)%Z ->
  purun T G sh c g ls s -> PDie ∉ ls -> PB (BClose c) ∉ ls -> PB (BLate c) ∉ ls /\ PB (BLost c) ∉ ls.
Proof. exact (live_kept T G sh c g ls s). Qed.
Print Assumptions C76_live_partial.

(** A dead peer is reported, with any interval, [g_net g + notice T g] after its death at the latest. *)
Theorem C76_dead_partial T G sh c g l1 l2 s : (0 <= T)%Z -> lag_ok g -> purun T G sh c g (l1 ++ PDie :: l2) s ->
  PB (BLost c) ∉ l1 -> PB (BOpen c) ∈ l1 -> PB (BClose c) ∉ l1 ++ l2 ->
  (ptime l1 + g_net g + notice T g < ptime (l1 ++ PDie :: l2))%Z -> PB (BLost c) ∈ l2.
Proof. exact (dead_lost T G sh c g l1 l2 s). Qed.
Print Assumptions C76_dead_partial.

(** Without CloseOnLost also if it was reported, and came back, before. *)
Theorem C76_dead_again_partial T G sh c g l1 l2 s : (0 <= T)%Z -> lag_ok g -> purun T G sh c g (l1 ++ PDie :: l2) s ->
  sh = false -> PB (BOpen c) ∈ l1 -> PB (BClose c) ∉ l1 ++ l2 ->
  (ptime l1 + g_net g + notice T g < ptime (l1 ++ PDie :: l2))%Z -> reported c (side (l1 ++ PDie :: l2)) = true.
Proof. exact (dead_noted T G sh c g l1 l2 s). Qed.
Print Assumptions C76_dead_again_partial.

(** Any silence, of whatever cause, is reported [notice T g] after the last registered sign of life at the latest. *)
Theorem C76_noticed_partial T G sh c g ls s t : (0 <= T)%Z -> lag_ok g -> purun T G sh c g ls s -> sh = false \/ PB (BLost c) ∉ ls -> PB (BClose c) ∉ ls ->
  lasttime (sign c) (side ls) = Some t -> reported c (side ls) = true \/ (ptime ls <= t + notice T g)%Z.
Proof. exact (silent_noticed T G sh c g ls s t). Qed.
Print Assumptions C76_noticed_partial.

(** The code accepts any interval and timeout.  If the interval exceeds the
    timeout by the delays and the second between two checks, every live peer is
    reported, in each execution, [g_net g + notice T g] after a heartbeat at the
    latest, *)
Theorem C76_interval_refuted T G sh c g l1 l2 s : (0 <= T)%Z -> lag_ok g -> (g_net g + notice T g < nsec G)%Z ->
  purun T G sh c g (l1 ++ PSend :: l2) s -> PDie ∉ l2 -> sh = false \/ PB (BLost c) ∉ l1 -> PB (BClose c) ∉ l1 ++ l2 ->
  (ptime l1 + g_net g + notice T g < ptime (l1 ++ PSend :: l2))%Z -> PB (BLost c) ∈ l2.
Proof. exact (too_long T G sh c g l1 l2 s). Qed.
Print Assumptions C76_interval_refuted.

(** and without CloseOnLost again between any two heartbeats. *)
Theorem C76_every_gap_refuted T G sh c g l1 l2 s : (0 <= T)%Z -> lag_ok g -> (g_net g + notice T g < nsec G)%Z ->
  purun T G sh c g (l1 ++ PSend :: l2 ++ [PSend]) s -> PSend ∉ l2 -> sh = false \/ PB (BLost c) ∉ l1 -> PB (BClose c) ∉ l1 ++ l2 ->
  PB (BLost c) ∈ l2.
Proof. exact (gap_reported T G sh c g l1 l2 s). Qed.
Print Assumptions C76_every_gap_refuted.

(** The bounds are consistent: every execution goes on, past any time, without the peer dying and without the connection being closed. *)
Theorem C76_time_goes_on T G sh c g : (0 < G)%Z -> lag_ok g -> forall ls s n, purun T G sh c g ls s ->
  exists ls' s', purun T G sh c g (ls ++ ls') s' /\ PDie ∉ ls' /\ PB (BClose c) ∉ ls' /\ (n <= ptime (ls ++ ls'))%Z.
Proof. exact (goes_on T G sh c g). Qed.
Print Assumptions C76_time_goes_on.

(** Neither too often: a second passes between the beginnings of any two checks, the interval between any two heartbeats. *)
Theorem C76_pace_partial T G sh c g l1 l l2 l' s : (0 <= G)%Z -> purun T G sh c g (l1 ++ l :: l2 ++ [l']) s ->
  ((exists t t', l = PB (BCheck t) /\ l' = PB (BCheck t')) -> ptime l1 + second <= ptime (l1 ++ l :: l2))%Z /\
  (l = PSend /\ l' = PSend -> ptime l1 + nsec G <= ptime (l1 ++ l :: l2))%Z.
Proof. exact (pace T G sh c g l1 l l2 l' s). Qed.
Print Assumptions C76_pace_partial.

(** ** Examples *)
(** Delays: start 100 ms, late by 20 ms, network 50 ms, late by 20 ms, check 10 ms. *)
Definition ex_lag : lag := Lag 100000000 20000000 50000000 20000000 10000000.
Example ex_lag_ok : lag_ok ex_lag.
Proof. unfold lag_ok. simpl. lia. Qed.
(** The connection is opened, the peer starts 30 ms later and sends; the heartbeat takes 40 ms. *)
Definition ex_pulse_labels : list plab :=
  [PB (BCheck []); PB BDone; PB (BOpen 1); PB (BTick 30000000); PStart; PSend; PB (BTick 40000000); PB (BArrive 1); PB (BBeat 1)].
Example ex_pulse T G sh : (0 < G)%Z -> exists s, purun T G sh 1 ex_lag ex_pulse_labels s.
Proof.
  intros HG. pose proof (pur_nil T G sh 1 ex_lag) as H. unfold new_pulse, new_beat in H. pose proof ex_lag_ok as Hg.
  assert (0 <= G)%Z as HG' by lia.
  eapply (pu_more _ _ _ _ _ _ _ (PB (BCheck [])) _ HG' Hg) in H; [|apply pu_check; [simpl; lia|]; apply bk_check; [constructor|by intros d; rewrite elem_of_nil]|done].
  eapply (pu_more _ _ _ _ _ _ _ (PB BDone) _ HG' Hg) in H; [|apply pu_done, bk_done|done].
  eapply (pu_more _ _ _ _ _ _ _ (PB (BOpen 1)) _ HG' Hg) in H; [|apply pu_plain; [done|by apply bk_open]|done].
  eapply (pu_wait _ _ _ _ _ _ _ _ _ _ _ _ _ _ _ _ _ 30000000) in H; [|lia|].
  2:{ split; simpl; [intros t; rewrite fn_lookup_insert; intros [= <-]; lia|]. split; [intros t [[?%elem_of_nil _]|?]; done|]. split; [unfold second; lia|done]. }
  eapply (pu_more _ _ _ _ _ _ _ PStart _ HG' Hg) in H; [|apply pu_start|done].
  eapply (pu_more _ _ _ _ _ _ _ PSend _ HG' Hg) in H; [|apply pu_send; simpl; lia|done].
  eapply (pu_wait _ _ _ _ _ _ _ _ _ _ _ _ _ _ _ _ _ 40000000) in H; [|lia|].
  2:{ split; simpl; [unfold second; lia|]. split; [intros t [[?%elem_of_list_singleton _]|?]; [subst; lia|done]|]. split; [unfold second; lia|done]. }
  eapply (pu_more _ _ _ _ _ _ _ (PB (BArrive 1)) _ HG' Hg) in H; [|apply pu_arrive, bk_arrive; [by rewrite fn_lookup_insert|done|done]|done].
  eapply (pu_more _ _ _ _ _ _ _ (PB (BBeat 1)) _ HG' Hg) in H; [|apply pu_beat, bk_beat, fn_lookup_insert|done].
  eexists. exact H.
Qed.
(** C76_pace: two checks, a second and 10 ms apart; for heartbeats see C76_example_interval. *)
Example C76_example_pace T G sh : (0 < G)%Z ->
  exists s, purun T G sh 1 ex_lag ([] ++ PB (BCheck []) :: [PB BDone; PB (BTick 1010000000)] ++ [PB (BCheck [])]) s.
Proof.
  intros HG. pose proof (pur_nil T G sh 1 ex_lag) as H. unfold new_pulse, new_beat in H. pose proof ex_lag_ok as Hg.
  assert (0 <= G)%Z as HG' by lia.
  eapply (pu_more _ _ _ _ _ _ _ (PB (BCheck [])) _ HG' Hg) in H; [|apply pu_check; [simpl; lia|]; apply bk_check; [constructor|by intros d; rewrite elem_of_nil]|done].
  eapply (pu_more _ _ _ _ _ _ _ (PB BDone) _ HG' Hg) in H; [|apply pu_done, bk_done|done].
  eapply (pu_wait _ _ _ _ _ _ _ _ _ _ _ _ _ _ _ _ _ 1010000000) in H; [|lia|].
  2:{ split; simpl; [done|]. split; [intros t [[?%elem_of_nil _]|?]; done|]. split; [unfold second; lia|done]. }
  eapply (pu_more _ _ _ _ _ _ _ (PB (BCheck [])) _ HG' Hg) in H; [|apply pu_check; [simpl; unfold second; lia|]; apply bk_check; [constructor|by intros d; rewrite elem_of_nil]|done].
  eexists. exact H.
Qed.
(** C76_live: every second a heartbeat, timeout three seconds; the execution goes on past any time. *)
Example C76_example_live sh n : exists ls s, purun 3 1 sh 1 ex_lag (ex_pulse_labels ++ ls) s /\ (n <= ptime (ex_pulse_labels ++ ls))%Z /\
  PDie ∉ ex_pulse_labels ++ ls /\ PB (BLost 1) ∉ ex_pulse_labels ++ ls.
Proof.
  destruct (ex_pulse 3 1 sh) as (s & H); [lia|]. destruct (C76_time_goes_on 3 1 sh 1 ex_lag) with (ls := ex_pulse_labels) (s := s) (n := n) as (ls & s' & H' & Hd & Hc & Ht); [lia|apply ex_lag_ok|done|].
  assert (PDie ∉ ex_pulse_labels ++ ls) as Hd' by (rewrite not_elem_of_app; split; [apply (bool_decide_unpack _); by vm_compute|done]).
  exists ls, s'. split_and!; try done. apply (C76_live_partial 3 1 sh 1 ex_lag (ex_pulse_labels ++ ls) s'); [lia|apply ex_lag_ok|by vm_compute|done|done|].
  rewrite not_elem_of_app. split; [apply (bool_decide_unpack _); by vm_compute|done].
Qed.
(** C76_dead, C76_dead_again, C76_noticed: it dies 70 ms after the start and is reported, 4.16 s after the start at the latest. *)
Example C76_example_dead sh : exists ls s, purun 3 1 sh 1 ex_lag (ex_pulse_labels ++ PDie :: ls) s /\
  PB (BLost 1) ∈ ls /\ (ptime ex_pulse_labels = 70000000)%Z /\ (g_net ex_lag + notice 3 ex_lag = 4090000000)%Z.
Proof.
  destruct (ex_pulse 3 1 sh) as (s & H); [lia|].
  assert (exists s1, purun 3 1 sh 1 ex_lag (ex_pulse_labels ++ [PDie]) s1) as (s1 & H1).
  { destruct s as [b p w h cd cs]. eexists. pose proof (all_timely _ _ _ _ _ _ _ ex_lag_ok H) as (T1 & T2 & T3 & T4).
    econstructor; [exact H|rewrite <-(app_nil_r w) at 1; apply pu_die|]. split; [done|]. done. }
  destruct (C76_time_goes_on 3 1 sh 1 ex_lag) with (ls := ex_pulse_labels ++ [PDie]) (s := s1) (n := 5000000000%Z) as (ls & s' & H' & Hd & Hc & Ht); [lia|apply ex_lag_ok|done|].
  rewrite <-app_assoc in H', Ht. exists ls, s'. split; [done|]. split; [|done].
  eapply (C76_dead_partial 3 1 sh 1 ex_lag); [lia|apply ex_lag_ok|exact H'|apply (bool_decide_unpack _); by vm_compute|apply (bool_decide_unpack _); by vm_compute| |].
  - rewrite not_elem_of_app. split; [apply (bool_decide_unpack _); by vm_compute|done].
  - assert (ptime ex_pulse_labels = 70000000)%Z as -> by done. assert (g_net ex_lag = 50000000 /\ notice 3 ex_lag = 4040000000)%Z as [-> ->] by done. simpl in Ht |- *. lia.
Qed.
(** C76_interval, C76_every_gap: examples/heartbeat/main.go:21-46, where both peers send every ten seconds and the timeouts are 3
    and 5 seconds.  Before the second heartbeat the peer is reported, and by the server, which has CloseOnLost, closed. *)
Example C76_example_interval T sh : (T = 3 /\ sh = false \/ T = 5 /\ sh = true)%Z ->
  exists l1 l2 s, purun T 10 sh 1 ex_lag (l1 ++ PSend :: l2 ++ [PSend]) s /\ PDie ∉ l1 ++ l2 /\ PB (BLost 1) ∈ l2 /\ (sh = true -> b_closed (u_b s) 1 = true).
Proof.
  intros HT. set (l1 := [PB (BCheck []); PB BDone; PB (BOpen 1); PB (BTick 30000000); PStart]).
  destruct (ex_pulse T 10 sh) as (s & H); [lia|]. change ex_pulse_labels with ((l1 ++ [PSend]) ++ [PB (BTick 40000000); PB (BArrive 1); PB (BBeat 1)]) in H.
  apply purun_prefix in H as (s1 & H). destruct (sends_again T 10 sh 1 ex_lag l1 s1) as (l2 & s2 & H2 & Hs & Hc); [lia|apply ex_lag_ok|done|].
  assert (PB (BLost 1) ∈ l2) as Hlost.
  { eapply (C76_every_gap_refuted T 10 sh 1 ex_lag l1); [lia|apply ex_lag_ok| |exact H2|done| |].
    - destruct HT as [[-> _]|[-> _]]; by vm_compute.
    - right. apply (bool_decide_unpack _). by vm_compute.
    - rewrite not_elem_of_app. split; [apply (bool_decide_unpack _); by vm_compute|done]. }
  exists l1, l2, s2. split; [done|]. split; [|split; [done|]].
  - rewrite not_elem_of_app. split; [apply (bool_decide_unpack _); by vm_compute|].
    assert (l1 ++ PSend :: l2 ++ [PSend] = (l1 ++ PSend :: l2) ++ [PSend]) as E by (by rewrite <-app_assoc). rewrite E in H2.
    apply purun_snoc_inv in H2 as (s0 & H0 & Hst & _). intros Hin. apply dead_stays in H0; [|rewrite elem_of_app, elem_of_cons; auto]. inversion Hst; subst. done.
  - intros Hsh. eapply pulse_lost_closed; [exact H2|done|]. rewrite elem_of_app, elem_of_cons, elem_of_app. auto.
Qed.
