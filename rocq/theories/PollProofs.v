(** * Proofs about goroutines that send until their connection is closed *)
From Coq Require Import Lia.
From stdpp Require Import list numbers.
From Verif Require Import GoBase PollModel PollSpec.

Section facts.
Context (P : poll).
Notation run := (prun P).
Notation step := (pstep P).

Lemma prun_app s ls s1 ms s2 : run s ls s1 -> run s1 ms s2 -> run s (ls ++ ms) s2.
Proof. intros H1. induction 1; [by rewrite app_nil_r|]. rewrite app_assoc. by econstructor. Qed.
Lemma prun_one s l s1 : step s l s1 -> run s [l] s1.
Proof. intros H. change [l] with ([] ++ [l]). econstructor; [constructor|done]. Qed.
Lemma prun_cons s l s1 ls s2 : step s l s1 -> run s1 ls s2 -> run s (l :: ls) s2.
Proof. intros H1 H2. change (l :: ls) with ([l] ++ ls). eapply prun_app; [by apply prun_one|done]. Qed.
Lemma preach_app s ls s' : preach P s -> run s ls s' -> preach P s'.
Proof. intros [ms H] H'. exists (ms ++ ls). by eapply prun_app. Qed.

Lemma sum_insert (f : phase -> nat) l i x y : l !! i = Some y ->
  sum_list_with f (<[i := x]> l) + f y = sum_list_with f l + f x.
Proof.
  revert i. induction l as [|a l IH]; intros [|i] H; simpl in *; [done|done|injection H as ->; lia|]. specialize (IH _ H). lia.
Qed.
Definition late (f : phase) : nat := match f with PSleep | PSend => 1 | _ => 0 end.
Lemma to_come_sum s : to_come s = sum_list_with late (p_at s).
Proof. unfold to_come. induction (p_at s) as [|f l IH]; [done|]. destruct f; simpl; by rewrite IH. Qed.

(** ** Invariants *)
Lemma invs s : preach P s -> length (p_at s) = pnum P /\ length (p_tx s) <= pcap P /\
  (p_del s = false -> p_g s <> GGone /\ p_g s <> GWait false).
Proof.
  intros [ls H]. induction H as [|ls s1 l s2 H IH Hst].
  - split; [apply replicate_length|]. split; [simpl; lia|done].
  - destruct IH as (I1 & I2 & I3). inversion Hst; subst; simpl in *; rewrite ?insert_length, ?app_length; simpl; split_and!; try done; try lia.
    by intros ->.
Qed.
Lemma in_order ls s : run (new_poll P) ls s -> all_puts ls = p_sent s ++ in_call s ++ p_tx s.
Proof.
  unfold all_puts. induction 1 as [|ls s1 l s2 H IH Hst]; [done|]. rewrite omap_app, IH.
  inversion Hst; subst; simpl; unfold in_call; simpl; rewrite ?app_nil_r, <- ?app_assoc; done.
Qed.

(** ** After the close *)
Lemma closed_stays s l s' c : step s l s' -> p_closed s c = true -> p_closed s' c = true.
Proof. intros H. inversion H; subst; simpl; try done. intros E. destruct (decide (c0 = c)) as [->|Hn]; [by rewrite fn_lookup_insert|by rewrite fn_lookup_insert_ne]. Qed.
Definition left_to (s : pst) (j : nat) : nat := match p_at s !! j with Some f => late f | None => 0 end.
Lemma one_more s ls s' j : over P s j -> run s ls s' -> over P s' j /\ puts_of j ls + left_to s' j <= left_to s j.
Proof.
  intros Ho. induction 1 as [|ls s1 l s2 H IH Hst]; [by unfold puts_of; simpl|]. destruct IH as [[Ot Oc] IH].
  split; [split; [done|by eapply closed_stays]|]. revert IH. unfold puts_of. rewrite List.filter_app, app_length. unfold left_to at 1 3.
  inversion Hst; subst; simpl in *; try lia.
  all: destruct (decide (j0 = j)) as [->|Hn];
    [rewrite list_lookup_insert by (by eapply lookup_lt_Some); rewrite H0; simpl; try lia
    |rewrite list_lookup_insert_ne by done; try rewrite bool_decide_eq_false_2 by done; simpl; lia].
  - rewrite H1 in Oc by done. done.
  - rewrite bool_decide_eq_true_2 by done. simpl. lia.
Qed.
Lemma at_most_one s ls s' j : over P s j -> run s ls s' -> puts_of j ls <= 1.
Proof.
  intros Ho H. destruct (one_more _ _ _ _ Ho H) as [_ Hl]. assert (left_to s j <= 1); [|lia].
  unfold left_to. destruct (p_at s !! j) as [[]|]; simpl; lia.
Qed.

(** ** Every schedule ends *)
Definition cost (f : phase) : nat := match f with PNone | PDone => 0 | PTest => 1 | PSleep => 5 | PSend => 4 end.
Definition busyness (g : server) : nat := match g with GWait _ => 1 | GBusy _ => 2 | GGone => 0 end.
Definition potential (s : pst) : nat := sum_list_with cost (p_at s) + 2 * length (p_tx s) + busyness (p_g s).
Lemma cost_bound l : sum_list_with cost l <= 5 * length l.
Proof. induction l as [|f l IH]; simpl; [lia|]. destruct f; simpl; lia. Qed.
Lemma step_down s l s' : preach P s -> all_over P s -> goes_on l -> step s l s' -> potential s' < potential s /\ all_over P s'.
Proof.
  intros Hr Ao Ho Hst. destruct (invs s Hr) as (Hlen & _).
  assert (all_over P s') as Ao'. { intros j Hj. destruct (Ao j Hj). split; [done|]. by eapply closed_stays. }
  split; [|done]. unfold potential.
  inversion Hst; subst; simpl in *; try done; rewrite ?app_length; simpl; try lia.
  all: try (match goal with H : _ !! ?j = Some ?y |- context [<[?j := ?x]> ?l] => pose proof (sum_insert cost l j x y H) as E; simpl in E end; try lia).
  pose proof (lookup_lt_Some _ _ _ H). destruct (Ao j) as [Ht Hc]; [lia|]. simpl in Hc. rewrite H0 in Hc by done. done.
Qed.
Lemma ends s ls s' : preach P s -> all_over P s -> run s ls s' -> Forall goes_on ls ->
  length ls + potential s' <= potential s /\ all_over P s'.
Proof.
  intros Hr Ao. induction 1 as [|ls s1 l s2 H IH Hst]; [done|]. intros [F1 F2]%Forall_app. destruct (IH F1) as [I1 I2].
  destruct (step_down s1 l s2) as [D1 D2]; [by eapply preach_app|done|by inversion F2|done|]. rewrite app_length. simpl. split; [lia|done].
Qed.
Lemma ends_bound s ls s' : preach P s -> all_over P s -> run s ls s' -> Forall goes_on ls ->
  length ls <= 5 * pnum P + 2 * length (p_tx s) + 2.
Proof.
  intros Hr Ao H F. destruct (ends _ _ _ Hr Ao H F) as [I _]. destruct (invs s Hr) as (Hlen & _).
  pose proof (cost_bound (p_at s)). unfold potential in I at 2. destruct (p_g s); simpl in *; lia.
Qed.

(** ** It stops only when all have returned *)
Lemma stuck_phase s j : preach P s -> all_over P s -> (forall l s', goes_on l -> ~ step s l s') -> j < pnum P ->
  finished s j \/ p_at s !! j = Some PSend /\ length (p_tx s) = pcap P.
Proof.
  intros Hr Ao Hn Hj. destruct (invs s Hr) as (Hlen & Hcap & _). destruct (lookup_lt_is_Some_2 (p_at s) j) as [f Hf]; [lia|].
  destruct s as [at_ cl tx g d sn]. simpl in *. unfold finished. simpl. destruct (Ao j Hj) as [Ht Hc]. simpl in Hc.
  destruct f; [by left; left| | | |by left; right].
  - exfalso. eapply (Hn (PReturn j)); [done|]. by apply pk_return.
  - exfalso. eapply (Hn (PWake j)); [done|]. by apply pk_wake.
  - right. split; [done|]. destruct (decide (length tx < pcap P)); [|lia]. exfalso. eapply (Hn (PPut j)); [done|]. by apply pk_put.
Qed.
Lemma served_keeps s l s' : served s -> goes_on l -> step s l s' -> served s'.
Proof.
  intros [S1 S2] Ho Hst. inversion Hst; subst; simpl in *; try done; unfold served; simpl; split; try done.
  - intros ->. done.
  - by specialize (S2 eq_refl).
Qed.
Lemma stops_served s : 0 < pcap P -> preach P s -> all_over P s -> served s -> (forall l s', goes_on l -> ~ step s l s') ->
  (forall j, j < pnum P -> finished s j) /\ p_tx s = [].
Proof.
  intros Hc Hr Ao [S1 S2] Hn.
  assert (p_tx s = []) as Ht.
  { destruct s as [at_ cl tx g d sn]. simpl in *. destruct tx as [|x tx]; [done|]. exfalso. destruct g as [h|y|]; [| |done].
    - eapply (Hn PTake); [done|]. apply pk_take.
    - eapply (Hn PBack); [done|]. apply pk_back. }
  split; [|done]. intros j Hj. destruct (stuck_phase s j Hr Ao Hn Hj) as [?|[_ E]]; [done|]. rewrite Ht in E. simpl in E. lia.
Qed.
Lemma served_run s ls s' : served s -> run s ls s' -> Forall goes_on ls -> served s'.
Proof.
  intros Hs. induction 1 as [|ls s1 l s2 H IH Hst]; [done|]. intros [F1 F2]%Forall_app. inversion F2; subst. eapply served_keeps; [by apply IH|done|done].
Qed.
Lemma all_return s ls s' : 0 < pcap P -> preach P s -> all_over P s -> served s -> run s ls s' -> Forall goes_on ls ->
  length ls <= 5 * pnum P + 2 * length (p_tx s) + 2 /\
  ((forall l s'', goes_on l -> ~ step s' l s'') -> (forall j, j < pnum P -> finished s' j) /\ p_tx s' = []).
Proof.
  intros Hc Hr Ao Hs H F. split; [by eapply ends_bound|]. intros Hn. destruct (ends _ _ _ Hr Ao H F) as [_ Ao'].
  apply stops_served; try done; [by eapply preach_app|by eapply served_run].
Qed.

(** After the deletion: if there is room for what is to come. *)
Lemma room_keeps s l s' : all_over P s -> preach P s -> goes_on l -> step s l s' ->
  length (p_tx s') + to_come s' <= length (p_tx s) + to_come s.
Proof.
  intros Ao Hr Ho Hst. destruct (invs s Hr) as (Hlen & _). rewrite !to_come_sum.
  inversion Hst; subst; simpl in *; try done; rewrite ?app_length; simpl; try lia.
  all: try (match goal with H : _ !! ?j = Some ?y |- context [<[?j := ?x]> ?l] => pose proof (sum_insert late l j x y H) as E; simpl in E end; try lia).
  pose proof (lookup_lt_Some _ _ _ H). destruct (Ao j) as [Ht Hc]; [lia|]. simpl in Hc. rewrite H0 in Hc by done. done.
Qed.
Lemma room_run s ls s' : preach P s -> all_over P s -> run s ls s' -> Forall goes_on ls ->
  length (p_tx s') + to_come s' <= length (p_tx s) + to_come s.
Proof.
  intros Hr Ao. induction 1 as [|ls s1 l s2 H IH Hst]; [done|]. intros [F1 F2]%Forall_app. inversion F2; subst.
  destruct (ends _ _ _ Hr Ao H F1) as [_ Ao1]. specialize (IH F1).
  pose proof (room_keeps s1 l s2 Ao1 (preach_app _ _ _ Hr H) H2 Hst). lia.
Qed.
Lemma late_pos l j : l !! j = Some PSend -> 1 <= sum_list_with late l.
Proof. revert j. induction l as [|f l IH]; intros [|j] H; simpl in *; [done|done|injection H as ->; simpl; lia|]. specialize (IH _ H). lia. Qed.
Lemma all_return_room s ls s' : preach P s -> all_over P s -> length (p_tx s) + to_come s <= pcap P -> run s ls s' -> Forall goes_on ls ->
  (forall l s'', goes_on l -> ~ step s' l s'') -> forall j, j < pnum P -> finished s' j.
Proof.
  intros Hr Ao Hroom H F Hn j Hj. destruct (ends _ _ _ Hr Ao H F) as [_ Ao']. pose proof (room_run _ _ _ Hr Ao H F) as Hk.
  destruct (stuck_phase s' j (preach_app _ _ _ Hr H) Ao' Hn Hj) as [?|[E1 E2]]; [done|].
  rewrite (to_come_sum s') in Hk. pose proof (late_pos _ _ E1). lia.
Qed.

(** ** Stuck for ever *)
Lemma gone_stays s ls s' : p_g s = GGone -> run s ls s' -> p_g s' = GGone.
Proof. intros Hg. induction 1 as [|ls s1 l s2 H IH Hst]; [done|]. inversion Hst; subst; simpl in *; congruence. Qed.
Lemma full_stuck s j : p_g s = GGone -> length (p_tx s) = pcap P -> p_at s !! j = Some PSend -> for_ever_waiting P s j.
Proof.
  intros Hg Hf Hj ls s' H.
  enough (p_g s' = GGone /\ length (p_tx s') = pcap P /\ p_at s' !! j = Some PSend /\ PPut j ∉ ls) by naive_solver.
  induction H as [|ls s1 l s2 H IH Hst]; [split; [done|split; [done|split; [done|apply not_elem_of_nil]]]|]. destruct IH as (I1 & I2 & I3 & I4).
  inversion Hst; subst; simpl in *; try congruence; try lia.
  all: (split; [done|split; [done|split; [|rewrite not_elem_of_app, elem_of_list_singleton; split; [done|congruence]]]]).
  all: first [done|destruct (decide (j0 = j)) as [->|Hn]; [congruence|by rewrite list_lookup_insert_ne]].
Qed.
Lemma fill_up n : forall s j f, p_g s = GGone -> length (p_tx s) <= pcap P -> p_at s !! j = Some f -> f <> PNone -> f <> PDone ->
  p_closed s (pconn P j) = false -> pcap P - length (p_tx s) = n ->
  exists ls s', run s ls s' /\ Forall goes_on ls /\ p_g s' = GGone /\ length (p_tx s') = pcap P /\ p_at s' !! j = Some PSend.
Proof.
  assert (forall s j f, p_at s !! j = Some f -> f <> PNone -> f <> PDone -> p_closed s (pconn P j) = false ->
    exists ls s1, run s ls s1 /\ Forall goes_on ls /\ p_at s1 !! j = Some PSend /\ p_g s1 = p_g s /\ p_tx s1 = p_tx s /\ p_closed s1 = p_closed s) as to_send.
  { intros [at_ cl tx g d sn] j f Hj H1 H2 Hc. simpl in *. pose proof (lookup_lt_Some _ _ _ Hj). destruct f; try done.
    - eexists [POpen j; PWake j], _. split; [|split; [by repeat constructor|]].
      + eapply prun_cons; [by apply pk_open|]. apply prun_one, pk_wake. by rewrite list_lookup_insert.
      + simpl. split_and!; try done. by rewrite list_lookup_insert by (by rewrite insert_length).
    - eexists [PWake j], _. split; [by apply prun_one, pk_wake|]. split; [by repeat constructor|]. simpl. split_and!; try done. by rewrite list_lookup_insert.
    - exists [], (Pst at_ cl tx g d sn). split; [constructor|]. by split_and!. }
  induction n as [|n IH]; intros s j f Hg Hl Hj H1 H2 Hc Hn; destruct (to_send s j f Hj H1 H2 Hc) as (ls & s1 & R1 & F1 & E1 & E2 & E3 & E4).
  - exists ls, s1. split_and!; try done; [congruence|rewrite E3; lia].
  - destruct s1 as [at1 cl1 tx1 g1 d1 sn1]. simpl in *. subst tx1 g1 cl1. pose proof (lookup_lt_Some _ _ _ E1).
    destruct (IH (Pst (<[j := PTest]> at1) (p_closed s) (p_tx s ++ [j]) (p_g s) d1 sn1) j PTest) as (ms & s2 & R2 & F2 & I); simpl; try done.
    + rewrite app_length. simpl. lia.
    + by rewrite list_lookup_insert.
    + rewrite app_length. simpl. lia.
    + exists (ls ++ PPut j :: ms), s2. split; [|split; [|exact I]].
      * eapply prun_app; [exact R1|]. eapply prun_cons; [|exact R2]. apply pk_put; [done|lia].
      * apply Forall_app. split; [done|]. by constructor.
Qed.
Lemma gone_stuck s j f : preach P s -> p_g s = GGone -> p_at s !! j = Some f -> f <> PNone -> f <> PDone -> p_closed s (pconn P j) = false ->
  exists ls s', run s ls s' /\ Forall goes_on ls /\ for_ever_waiting P s' j.
Proof.
  intros Hr Hg Hj H1 H2 Hc. destruct (invs s Hr) as (_ & Hl & _).
  destruct (fill_up _ s j f Hg Hl Hj H1 H2 Hc eq_refl) as (ls & s' & R & F & E1 & E2 & E3). exists ls, s'. split; [done|]. split; [done|]. by apply full_stuck.
Qed.
Lemma deleted_stuck s j f h : preach P s -> p_del s = false -> p_g s = GWait h -> p_at s !! j = Some f -> f <> PNone -> f <> PDone ->
  p_closed s (pconn P j) = false ->
  exists ls s', run s (PDelete :: PStop :: ls) s' /\ Forall goes_on ls /\ for_ever_waiting P s' j.
Proof.
  intros Hr Hd Hg Hj H1 H2 Hc. destruct (invs s Hr) as (_ & _ & I). destruct (I Hd) as [_ I2].
  destruct h; [|congruence]. destruct s as [at_ cl tx g d sn]. simpl in *. subst d g.
  assert (run (Pst at_ cl tx (GWait true) false sn) [PDelete; PStop] (Pst at_ cl tx GGone true sn)) as R0.
  { eapply prun_cons; [apply pk_delete|]. apply prun_one, pk_stop. }
  destruct (gone_stuck (Pst at_ cl tx GGone true sn) j f) as (ls & s' & R & F & W); try done; [by eapply preach_app|].
  exists ls, s'. split; [|done]. exact (prun_app _ _ _ _ _ R0 R).
Qed.

(** ** Without the test *)
Lemma never_returns_untested s j : preach P s -> ptests P j = false -> p_at s !! j <> Some PDone.
Proof.
  intros [ls H] Ht. induction H as [|ls s1 l s2 H IH Hst].
  - simpl. intros E. apply lookup_replicate in E as [E _]. done.
  - inversion Hst; subst; simpl in *; try done; destruct (decide (j0 = j)) as [->|Hn]; try congruence;
      try (rewrite list_lookup_insert_ne by done; done); rewrite list_lookup_insert by (by eapply lookup_lt_Some); done.
Qed.
(** A call ends in a return only if the connection is closed. *)
Lemma returns_closed s j : preach P s -> p_at s !! j = Some PDone -> over P s j.
Proof.
  intros [ls H]. induction H as [|ls s1 l s2 H IH Hst].
  - simpl. intros E. apply lookup_replicate in E as [E _]. done.
  - intros E. assert (p_at s1 !! j = Some PDone \/ l = PReturn j) as [E'|El].
    { inversion Hst; subst; simpl in *; try (by left); destruct (decide (j0 = j)) as [->|Hn]; try (by right);
        try (rewrite list_lookup_insert_ne in E by done; by left); rewrite list_lookup_insert in E by (by eapply lookup_lt_Some); done. }
    + destruct (IH E') as [I1 I2]. split; [done|by eapply closed_stays].
    + subst l. by inversion Hst; subst.
Qed.
(** ** Which endpoints are served *)
Lemma kept_served s : preach P s -> p_del s = false -> served s.
Proof. intros Hr Hd. destruct (invs s Hr) as (_ & _ & I). destruct (I Hd). split; [done|congruence]. Qed.
Lemma busy_served s x s' : p_g s = GBusy x -> step s PDelete s' -> served s'.
Proof. intros Hg Hst. inversion Hst; subst; simpl in *. subst. by split. Qed.
Lemma waiting_not_served s h s' : preach P s -> p_g s = GWait h -> step s PDelete s' -> ~ served s' /\ exists s'', step s' PStop s'' /\ p_g s'' = GGone.
Proof.
  intros Hr Hg Hst. destruct (invs s Hr) as (_ & _ & I). inversion Hst; subst; simpl in *. subst.
  destruct (I eq_refl) as [_ I2]. destruct h; [|done]. split.
  - intros [_ S]. by specialize (S eq_refl).
  - eexists. split; [apply pk_stop|done].
Qed.
(** ** From the start *)
Lemma left_behind j : j < pnum P -> exists ls s, run (new_poll P) (PStart j :: PDelete :: PStop :: ls) s /\ Forall goes_on ls /\ for_ever_waiting P s j.
Proof.
  intros Hj. assert (p_at (new_poll P) !! j = Some PNone) as E by (by apply lookup_replicate).
  assert (run (new_poll P) [PStart j] (Pst (<[j := PTest]> (p_at (new_poll P))) (fun _ => false) [] (GWait true) false [])) as R1.
  { apply prun_one. by apply pk_start. }
  destruct (deleted_stuck (Pst (<[j := PTest]> (p_at (new_poll P))) (fun _ => false) [] (GWait true) false []) j PTest true)
    as (ls & s & R & F & W); try done.
  - by exists [PStart j].
  - simpl. apply list_lookup_insert. by rewrite replicate_length.
  - exists ls, s. split; [|done]. exact (prun_app _ _ _ _ _ R1 R).
Qed.
Lemma sends_on_and_on m : forall s j h, p_at s !! j = Some PTest -> p_g s = GWait h -> p_tx s = [] -> 0 < pcap P ->
  (ptests P j = true -> p_closed s (pconn P j) = false) ->
  exists ls s', run s ls s' /\ Forall goes_on ls /\ puts_of j ls = m /\ p_sent s' = p_sent s ++ replicate m j.
Proof.
  induction m as [|m IH]; intros s j h Hj Hg Ht Hc Ho.
  - exists [], s. split; [constructor|]. split; [done|]. split; [done|]. simpl. by rewrite app_nil_r.
  - destruct s as [at_ cl tx g d sn]. simpl in *. subst g tx. pose proof (lookup_lt_Some _ _ _ Hj).
    set (at3 := <[j := PTest]> (<[j := PSend]> (<[j := PSleep]> at_))).
    assert (run (Pst at_ cl [] (GWait h) d sn) [POpen j; PWake j; PPut j; PTake; PBack] (Pst at3 cl [] (GWait (negb d)) d (sn ++ [j]))) as R1.
    { eapply prun_cons; [by apply pk_open|]. eapply prun_cons; [apply pk_wake; by rewrite list_lookup_insert|].
      eapply prun_cons; [apply pk_put; [by rewrite list_lookup_insert by (by rewrite insert_length)|done]|].
      eapply prun_cons; [apply pk_take|]. apply prun_one. apply pk_back. }
    destruct (IH (Pst at3 cl [] (GWait (negb d)) d (sn ++ [j])) j (negb d)) as (ls & s' & R & F & E1 & E2); try done.
    { simpl. unfold at3. by rewrite list_lookup_insert by (by rewrite !insert_length). }
    exists ([POpen j; PWake j; PPut j; PTake; PBack] ++ ls), s'. split; [by eapply prun_app|]. split; [apply Forall_app; split; [by repeat constructor|done]|].
    split.
    + revert E1. unfold puts_of. simpl. rewrite bool_decide_eq_true_2 by done. simpl. lia.
    + rewrite E2. simpl. by rewrite <- app_assoc.
Qed.
Lemma untested_goes_on j m : j < pnum P -> ptests P j = false -> 0 < pcap P ->
  exists ls s, run (new_poll P) (PClose (pconn P j) :: PStart j :: ls) s /\ Forall goes_on ls /\ puts_of j ls = m /\ p_sent s = replicate m j.
Proof.
  intros Hj Ht Hc. assert (p_at (new_poll P) !! j = Some PNone) as E by (by apply lookup_replicate).
  set (s1 := Pst (<[j := PTest]> (p_at (new_poll P))) (<[pconn P j := true]> (fun _ => false)) [] (GWait true) false []).
  assert (run (new_poll P) [PClose (pconn P j); PStart j] s1) as R1.
  { eapply prun_cons; [apply pk_close|]. apply prun_one. by apply pk_start. }
  destruct (sends_on_and_on m s1 j true) as (ls & s & R & F & E1 & E2); try done.
  - simpl. apply list_lookup_insert. by rewrite replicate_length.
  - congruence.
  - exists ls, s. split; [exact (prun_app _ _ _ _ _ R1 R)|]. by rewrite E2.
Qed.
Lemma open_goes_on j m : j < pnum P -> 0 < pcap P ->
  exists ls s, run (new_poll P) (PStart j :: ls) s /\ Forall goes_on ls /\ puts_of j ls = m /\ p_sent s = replicate m j.
Proof.
  intros Hj Hc. assert (p_at (new_poll P) !! j = Some PNone) as E by (by apply lookup_replicate).
  set (s1 := Pst (<[j := PTest]> (p_at (new_poll P))) (fun _ => false) [] (GWait true) false []).
  assert (run (new_poll P) [PStart j] s1) as R1 by (apply prun_one; by apply pk_start).
  destruct (sends_on_and_on m s1 j true) as (ls & s & R & F & E1 & E2); try done.
  - simpl. apply list_lookup_insert. by rewrite replicate_length.
  - exists ls, s. split; [exact (prun_app _ _ _ _ _ R1 R)|]. by rewrite E2.
Qed.
End facts.
