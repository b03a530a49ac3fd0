(** * More proofs about the reference transports: panics, refusals, and what Stop does behind its test *)
From Verif Require Import GoBase RefModel RefSpec RefProofs.

Section transports.
Context (addr : nat -> nat) (server : nat -> bool) (size : nat -> Z).
Notation rstep := (rstep addr server size).
Notation rrun := (rrun addr server size).
Notation rreach := (rreach addr server size).

(** ** Panics *)
Lemma panics s t : r_crash s = false -> r_mutex s = None -> r_pc s t = RIdle -> rreach s ->
  r_map s (addr t) = None -> (size t < 0)%Z -> exists s', rrun s [RRun t; RGlobal t] s' /\ r_crash s' = true.
Proof.
  intros Hc Hm Hp Hr Ha Hs. pose proof (not_running addr server size _ Hr t) as Hn.
  destruct s as [nx cn rn pc mx mp chs cs pe wa cr]. simpl in *. subst cr mx. eexists. split.
  - eapply rrun_cons; [by apply rk_run|]. apply rrun_one. apply rk_global_negative; [by rewrite fset_eq|done|done].
  - done.
Qed.
Lemma pushed_mapped ls s t : rrun new_ref ls s -> RPush t ∈ ls -> r_map s (addr t) <> None.
Proof.
  induction 1 as [|ls s1 l s2 H IH Hst]; intros Hi; [by apply elem_of_nil in Hi|].
  assert (rreach s1) as Hr by (by exists ls). apply elem_of_app in Hi as [Hi|Hi].
  - destruct (r_map s1 (addr t)) as [ch|] eqn:E; [|by destruct (IH Hi)].
    by rewrite (channel_kept addr server size s1 [l] s2 _ ch Hr (rrun_one _ _ _ _ _ _ Hst) E).
  - apply elem_of_list_singleton in Hi as <-. destruct (cinv_reach addr server size _ Hr) as (_ & C2 & _).
    inversion Hst; subst; simpl in *. match goal with E : _ = RPushing _ |- _ => destruct (C2 _ _ E) as [-> _] end. done.
Qed.
Lemma panics_only ls s : rrun new_ref ls s -> r_crash s = true ->
  (exists ls' t, ls = ls' ++ [RGlobal t] /\ (size t < 0)%Z /\ forall t', addr t' = addr t -> RPush t' ∉ ls) /\ forall l s', ~ rstep s l s'.
Proof.
  intros H Hc. split; [|intros l s' Hst; inversion Hst; subst; done].
  destruct H as [|ls s1 l s2 H Hst]; [done|]. assert (rreach s1) as Hr by (by exists ls).
  pose proof (not_running addr server size _ Hr) as Hn. destruct (cinv_reach addr server size _ Hr) as (C1 & C2 & C3 & C4).
  pose proof (fun t => pushed_mapped ls s1 t H) as Hp.
  inversion Hst; subst; simpl in *; try done; try congruence.
  - exists ls, t. split; [done|]. split; [done|]. intros t' E Hi. apply elem_of_app in Hi as [Hi|Hi].
    + apply (Hp _ Hi). by rewrite E.
    + by apply elem_of_list_singleton in Hi.
  - exfalso. destruct (C3 _ _ (C1 _ _ _ _ H1)) as (y & Hy & Hcl). congruence.
Qed.

(** ** Refusals *)
Lemma refuses_only ls s k t c p : rrun new_ref ls s -> RSetErr k t c p ∈ ls \/ RGetErr k t c ∈ ls -> RClose t c ∈ ls.
Proof.
  induction 1 as [|ls s1 l s2 H IH Hst]; intros Hi; [by destruct Hi as [Hi|Hi]; apply elem_of_nil in Hi|].
  rewrite !elem_of_app, !elem_of_list_singleton in Hi. apply elem_of_app. 
  destruct Hi as [[Hi| <-]|[Hi| <-]]; left; try (apply IH; by auto); inversion Hst; subst;
    eapply (only_close_closes addr server size _ _ _ _ _ H); done.
Qed.
Lemma never_nil ls s j t c : rrun new_ref ls s -> RGotNil j t c ∉ ls.
Proof.
  induction 1 as [|ls s1 l s2 H IH Hst]; [apply not_elem_of_nil|]. rewrite not_elem_of_app, elem_of_list_singleton. split; [done|]. intros <-.
  assert (rreach s1) as Hr by (by exists ls). destruct (cinv_reach addr server size _ Hr) as (C1 & C2 & C3 & C4).
  inversion Hst; subst; simpl in *. match goal with E : _ !! c = Some _ |- _ => destruct (C3 _ _ (C1 _ _ _ _ E)) as (y & Hy & Hcl) end. congruence.
Qed.
Lemma one_call ls s k : rrun new_ref ls s -> r_pend s k = None \/ r_wait s k = None.
Proof.
  induction 1 as [|ls s1 l s2 H IH Hst]; [by left|].
  pose proof (not_running addr server size s1 ltac:(by exists ls)) as Hn.
  inversion Hst; subst; simpl in *; try done; try congruence; unfold fset; repeat case_decide; subst; auto.
Qed.

(** ** Behind the test *)
Lemma stop_shared s t c ch b x : r_crash s = false -> r_mutex s = None -> r_pc s t = RIdle -> r_running s t = true ->
  r_conn s t = Some c -> r_conns s !! c = Some (t, ch, b) -> r_map s (addr t) = Some ch -> r_chans s !! ch = Some x -> rc_refs x <> 1%Z ->
  (exists s', rstep s (RStop t) s') /\ forall s', rstep s (RStop t) s' ->
    r_crash s' = false /\ r_mutex s' = None /\ r_pc s' = r_pc s /\ r_running s' = r_running s /\ r_conn s' = r_conn s /\ r_next s' = r_next s /\
    r_conns s' = <[c := (t, ch, true)]> (r_conns s) /\ r_map s' = r_map s /\ r_pend s' = r_pend s /\ r_wait s' = r_wait s /\
    r_chans s' = <[ch := Rchan (rc_cap x) (rc_refs x - 1) (rc_closed x) (rc_buf x)]> (r_chans s).
Proof.
  destruct s as [nx cn rn pc mx mp chs cs pe wa cr]; simpl; intros -> -> Hp Hn Hc Hcs Hm Hx Hr. split.
  - eexists. by eapply rk_stop_release.
  - intros s' Hst. inversion Hst; subst; try congruence. simplify_eq. rewrite decide_False by done. done.
Qed.
Lemma stop_last s t c ch b x : r_crash s = false -> r_mutex s = None -> r_pc s t = RIdle -> r_running s t = true ->
  r_conn s t = Some c -> r_conns s !! c = Some (t, ch, b) -> r_map s (addr t) = Some ch -> r_chans s !! ch = Some x -> rc_refs x = 1%Z ->
  (exists s', rstep s (RStop t) s') /\ forall s', rstep s (RStop t) s' ->
    r_crash s' = rc_closed x /\ r_mutex s' = None /\ r_pc s' = r_pc s /\ r_running s' = r_running s /\ r_conn s' = r_conn s /\ r_next s' = r_next s /\
    r_conns s' = <[c := (t, ch, true)]> (r_conns s) /\ r_map s' (addr t) = None /\ (forall a, a <> addr t -> r_map s' a = r_map s a) /\
    r_pend s' = r_pend s /\ r_wait s' = r_wait s /\
    r_chans s' = <[ch := Rchan (rc_cap x) 0 true (rc_buf x)]> (r_chans s).
Proof.
  destruct s as [nx cn rn pc mx mp chs cs pe wa cr]; simpl; intros -> -> Hp Hn Hc Hcs Hm Hx Hr. split.
  - eexists. by eapply rk_stop_release.
  - intros s' Hst. inversion Hst; subst; try congruence. simplify_eq. rewrite decide_True by done. simpl. split_and!; try done.
    + by rewrite fset_eq.
    + intros a Ha. by rewrite fset_ne.
Qed.
Lemma stop_unknown s t c ch b : r_crash s = false -> r_mutex s = None -> r_pc s t = RIdle -> r_running s t = true ->
  r_conn s t = Some c -> r_conns s !! c = Some (t, ch, b) -> r_map s (addr t) = None ->
  (exists s', rstep s (RStop t) s') /\ forall s', rstep s (RStop t) s' ->
    r_crash s' = false /\ r_conns s' = <[c := (t, ch, true)]> (r_conns s) /\ r_map s' = r_map s /\ r_chans s' = r_chans s /\ r_running s' = r_running s.
Proof.
  destruct s as [nx cn rn pc mx mp chs cs pe wa cr]; simpl; intros -> -> Hp Hn Hc Hcs Hm. split.
  - eexists. by eapply rk_stop_unknown.
  - intros s' Hst. inversion Hst; subst; try congruence. by simplify_eq.
Qed.
Lemma stop_waits s t s' : rstep s (RStop t) s' -> r_running s t = true -> r_pc s t = RIdle /\ (r_conn s t = None \/ r_mutex s = None).
Proof. intros Hst Hn. inversion Hst; subst; simpl in *; try congruence; auto. Qed.
Lemma stop_early s t : r_crash s = false -> r_pc s t = RIdle -> r_running s t = true -> r_conn s t = None ->
  (exists s', rstep s (RStop t) s') /\ forall s', rstep s (RStop t) s' -> r_crash s' = true.
Proof.
  destruct s as [nx cn rn pc mx mp chs cs pe wa cr]; simpl; intros -> Hp Hn Hc. split.
  - eexists. by apply rk_stop_nil.
  - intros s' Hst. inversion Hst; subst; try congruence. done.
Qed.
Lemma run_running s t : r_crash s = false -> r_pc s t = RIdle -> r_running s t = true ->
  (exists s', rstep s (RRun t) s') /\ forall s', rstep s (RRun t) s' -> s' = s.
Proof.
  destruct s as [nx cn rn pc mx mp chs cs pe wa cr]; simpl; intros -> Hp Hn. split.
  - eexists. by apply rk_run_again.
  - intros s' Hst. inversion Hst; subst; [congruence|done].
Qed.
(** Two Stops give up two shares. *)
Lemma twice s t c ch b x : r_crash s = false -> r_mutex s = None -> r_pc s t = RIdle -> r_running s t = true ->
  r_conn s t = Some c -> r_conns s !! c = Some (t, ch, b) -> r_map s (addr t) = Some ch -> r_chans s !! ch = Some x ->
  rc_refs x = 2%Z -> rc_closed x = false ->
  exists s', rrun s [RStop t; RStop t] s' /\ r_crash s' = false /\ r_map s' (addr t) = None /\
    r_conns s' = <[c := (t, ch, true)]> (r_conns s) /\ r_pend s' = r_pend s /\ r_wait s' = r_wait s /\
    r_chans s' !! ch = Some (Rchan (rc_cap x) 0 true (rc_buf x)).
Proof.
  intros H1 H2 H3 H4 H5 H6 H7 H8 H9 H10. pose proof (lookup_lt_Some _ _ _ H6) as L1. pose proof (lookup_lt_Some _ _ _ H8) as L2.
  destruct (stop_shared s t c ch b x) as [[s1 S1] E1]; try done; [lia|].
  destruct (E1 s1 S1) as (A1 & A2 & A3 & A4 & A5 & A6 & A7 & A8 & A9 & A10 & A11).
  destruct (stop_last s1 t c ch true (Rchan (rc_cap x) (rc_refs x - 1) (rc_closed x) (rc_buf x))) as [[s2 S2] E2]; try congruence.
  { rewrite A7. by apply list_lookup_insert. } { rewrite A11. by apply list_lookup_insert. } { simpl. lia. }
  destruct (E2 s2 S2) as (B1 & B2 & B3 & B4 & B5 & B6 & B7 & B8 & B9 & B10 & B11 & B12). simpl in *.
  exists s2. split; [eapply rrun_cons; [exact S1|by apply rrun_one]|]. split_and!; try congruence.
  - rewrite B7, A7. by rewrite list_insert_insert.
  - rewrite B12, A11, list_insert_insert. by apply list_lookup_insert.
Qed.
Lemma twice_panics s t c ch b x k c2 t2 b2 p : r_crash s = false -> r_mutex s = None -> r_pc s t = RIdle -> r_running s t = true ->
  r_conn s t = Some c -> r_conns s !! c = Some (t, ch, b) -> r_map s (addr t) = Some ch -> r_chans s !! ch = Some x ->
  rc_refs x = 2%Z -> rc_closed x = false -> c2 <> c -> r_conns s !! c2 = Some (t2, ch, b2) -> r_pend s k = Some (c2, p) ->
  exists s', rrun s [RStop t; RStop t; RSent k t2 c2 p] s' /\ r_crash s' = true.
Proof.
  intros H1 H2 H3 H4 H5 H6 H7 H8 H9 H10 Hc H11 H12.
  destruct (twice s t c ch b x) as (s2 & R & B1 & B2 & B3 & B4 & B5 & B6); try done.
  destruct s2 as [nx cn rn pc mx mp chs cs pe wa cr]. simpl in *. subst cr.
  eexists. split; [eapply (rrun_app _ _ _ s [RStop t; RStop t]); [exact R|]; apply rrun_one; eapply rk_sent_crash; [by rewrite B4| |exact B6|done]|done].
  rewrite B3, list_lookup_insert_ne by done. exact H11.
Qed.
Lemma twice_nil s t c ch b x j c2 t2 b2 : r_crash s = false -> r_mutex s = None -> r_pc s t = RIdle -> r_running s t = true ->
  r_conn s t = Some c -> r_conns s !! c = Some (t, ch, b) -> r_map s (addr t) = Some ch -> r_chans s !! ch = Some x ->
  rc_refs x = 2%Z -> rc_closed x = false -> c2 <> c -> r_conns s !! c2 = Some (t2, ch, b2) -> r_wait s j = Some c2 -> rc_buf x (server t2) = [] ->
  exists s', rrun s [RStop t; RStop t; RGotNil j t2 c2] s' /\ r_wait s' j = None /\ r_crash s' = false.
Proof.
  intros H1 H2 H3 H4 H5 H6 H7 H8 H9 H10 Hc H11 H12 H13.
  destruct (twice s t c ch b x) as (s2 & R & B1 & B2 & B3 & B4 & B5 & B6); try done.
  destruct s2 as [nx cn rn pc mx mp chs cs pe wa cr]. simpl in *. subst cr.
  eexists. split; [eapply (rrun_app _ _ _ s [RStop t; RStop t]); [exact R|]; apply rrun_one; eapply rk_got_nil; [by rewrite B5| |exact B6|done|done]|].
  - rewrite B3, list_lookup_insert_ne by done. exact H11.
  - simpl. by rewrite fset_eq.
Qed.
(** ** What each step needs, in any state *)
Lemma own_lock s t s' : rstep s (RRun t) s' \/ rstep s (RStop t) s' -> r_pc s t = RIdle.
Proof. intros [H|H]; inversion H; subst; done. Qed.
Lemma must_panic s t s' : rstep s (RGlobal t) s' -> r_map s (addr t) = None -> (size t < 0)%Z -> r_crash s' = true.
Proof. intros H Hm Hs. inversion H; subst; simpl in *; try lia; try done. congruence. Qed.
Lemma in_a_call s k t c p l s' : rstep s l s' -> l ∈ [RSet k t c p; RSetErr k t c p; RGet k t c; RGetErr k t c] -> r_pend s k = None /\ r_wait s k = None.
Proof. intros H Hl. rewrite !elem_of_cons in Hl. destruct Hl as [->|[->|[->|[->|Hl]]]]; try (inversion H; subst; done). by apply elem_of_nil in Hl. Qed.
Lemma closed_channel s k t c p j s' ch b x : r_conns s !! c = Some (t, ch, b) -> r_chans s !! ch = Some x ->
  (rstep s (RSent k t c p) s' -> r_crash s' = rc_closed x) /\
  (rstep s (RGotNil j t c) s' -> rc_closed x = true /\ rc_buf x (server t) = []) /\
  (forall t' c', rstep s (RHand k t c p j t' c') s' -> rc_closed x = false /\ rc_buf x (negb (server t)) = []).
Proof.
  intros Hc Hx. split; [|split].
  - intros H. inversion H; subst; simpl in *; simplify_eq; done.
  - intros H. inversion H; subst; simpl in *; simplify_eq; done.
  - intros t' c' H. inversion H; subst; simpl in *; simplify_eq.
    split; [done|]. match goal with E : server t' = _ |- _ => rewrite <- E end. done.
Qed.

(** ** NextConnection *)
Lemma made_counts t ls s : rrun new_ref ls s -> (foldl (made_step t) (0, []) ls).1 = length (r_conns s).
Proof.
  induction 1 as [|ls s1 l s2 H IH Hst]; [done|]. rewrite foldl_app. simpl.
  assert (forall t, r_running s1 t = false) as Hn by (apply (not_running addr server size); by exists ls).
  inversion Hst; subst; simpl in *; rewrite ?IH; try done; rewrite ?insert_length, ?app_length; simpl; try lia.
  by case_decide; simpl; rewrite insert_length.
Qed.
Lemma handed t ls s : rrun new_ref ls s -> exists h, made t ls = h ++ r_next s t /\ r_conn s t = last h /\ length h = next_count t ls /\
  forall c, c ∈ made t ls -> exists ch b, r_conns s !! c = Some (t, ch, b).
Proof.
  induction 1 as [|ls s1 l s2 H IH Hst]; [exists []; split_and!; try done; intros c Hc; by apply elem_of_nil in Hc|].
  pose proof (made_counts t ls s1 H) as Hlen.
  assert (forall t, r_running s1 t = false) as Hn by (apply (not_running addr server size); by exists ls).
  destruct IH as (h & I1 & I2 & I3 & I4). unfold made, next_count in *. rewrite foldl_app, List.filter_app, app_length.
  inversion Hst; subst; simpl in *; rewrite ?Nat.add_0_r; try (by exists h); try (specialize (Hn t0); congruence).
  - (* Run *) destruct (decide (t0 = t)) as [->|Ht].
    + rewrite bool_decide_eq_true_2 by done. exists h. rewrite fset_eq, I1, Hlen, app_assoc. split_and!; try done.
      intros c Hc. apply elem_of_app in Hc as [Hc|Hc].
      * rewrite <- I1 in Hc. destruct (I4 c Hc) as (ch' & b & E). exists ch', b. by apply lookup_app_l_Some.
      * apply elem_of_list_singleton in Hc as ->. exists ch, false. rewrite lookup_app_r by lia. by rewrite Nat.sub_diag.
    + rewrite bool_decide_eq_false_2 by done. exists h. rewrite fset_ne by done. split_and!; try done.
      intros c Hc. destruct (I4 c Hc) as (ch' & b & E). exists ch', b. by apply lookup_app_l_Some.
  - (* NextConnection *) destruct (decide (t0 = t)) as [->|Ht].
    + rewrite bool_decide_eq_true_2 by done. exists (h ++ [c]). rewrite !fset_eq. rewrite I1. split_and!; try done.
      * rewrite <- app_assoc. simpl. congruence.
      * by rewrite last_snoc.
      * rewrite app_length. simpl. lia.
      * intros c' Hc. apply I4. by rewrite I1.
    + rewrite bool_decide_eq_false_2 by done. simpl. rewrite Nat.add_0_r. exists h. by rewrite !fset_ne by done.
  - (* Close *) exists h. split_and!; try done. intros c' Hc. destruct (I4 c' Hc) as (ch' & b' & E).
    destruct (decide (c' = c)) as [->|Hne].
    + assert ((t, ch', b') = (t0, ch, b)) as [= -> -> ->] by congruence. exists ch, true. apply list_lookup_insert. by eapply lookup_lt_Some.
    + exists ch', b'. by rewrite list_lookup_insert_ne.
Qed.
Lemma next_in_order t ls s : rrun new_ref ls s ->
  r_next s t = drop (next_count t ls) (made t ls) /\ r_conn s t = last (take (next_count t ls) (made t ls)) /\
  next_count t ls <= length (made t ls) /\ forall c, c ∈ made t ls -> exists ch b, r_conns s !! c = Some (t, ch, b).
Proof.
  intros H. destruct (handed t ls s H) as (h & -> & I2 & <- & I4). rewrite drop_app, take_app. split_and!; try done.
  rewrite app_length. lia.
Qed.
End transports.
