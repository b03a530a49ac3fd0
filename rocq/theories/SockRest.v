(** * How many connections wait, and that dialling ends *)
From Verif Require Import GoBase SockModel SockSpec SockProofs.

Section rest.
Context (uds server : bool) (maxretry : Z).
Notation run := (krun uds server maxretry).

Lemma chans_ins (l : list (list nat * bool)) ch x : (length (fst x) <= 16) ->
  Forall (fun y => length (fst y) <= 16) l -> Forall (fun y => length (fst y) <= 16) (<[ch := x]> l).
Proof. intros H1 H2. by apply Forall_insert. Qed.
Lemma backlog ls s : run new_sock ls s -> Forall (fun x => length (fst x) <= 16) (k_chans s).
Proof.
  induction 1 as [|ls s1 l s2 R IH St]; [constructor|].
  destruct St; cbn; try done.
  - apply Forall_app. split; [done|]. apply Forall_singleton. simpl. lia.
  - apply chans_ins; [|done]. by eapply (Forall_lookup_1 _ _ ch (q, false)) in IH.
  - apply chans_ins; [|done]. simpl. rewrite app_length. simpl. lia.
  - apply chans_ins; [|done]. eapply (Forall_lookup_1 _ _ ch (c :: q, b)) in IH; [|done]. simpl in *. lia.
Qed.
Lemma backlog_at ls s ch q b : run new_sock ls s -> k_chans s !! ch = Some (q, b) -> length q <= 16.
Proof. intros R E. by eapply (Forall_lookup_1 _ _ ch (q, b) (backlog _ _ R)) in E. Qed.

Lemma gives_up m : forall n s i, k_crash s = None -> k_gos s !! i = Some (GDial n) -> Z.to_nat maxretry - n = m ->
  exists s', run s (replicate m (SDial false) ++ [SGo]) s' /\ k_gos s' !! i = Some GStop /\
    k_made s' = k_made s /\ forall j, j <> i -> k_gos s' !! j = k_gos s !! j.
Proof.
  induction m as [|m IH]; intros n s i Hc Hg Hm.
  - exists (go i GStop s). split; [apply krun_one; eapply sk_dial_end; [done|done|lia]|]. cbn.
    split; [apply list_lookup_insert; by eapply lookup_lt_Some|]. split; [done|]. intros j Hj. by rewrite list_lookup_insert_ne.
  - destruct (IH (S n) (go i (GDial (S n)) s) i) as (s' & R & E1 & E2 & E3); [done| |lia|].
    { cbn. apply list_lookup_insert. by eapply lookup_lt_Some. }
    exists s'. split; [simpl; eapply krun_cons; [eapply sk_dial_fail; [done|done|lia]|exact R]|].
    split; [done|]. split; [done|]. intros j Hj. rewrite E3 by done. cbn. by rewrite list_lookup_insert_ne.
Qed.
End rest.

(** ** Stop comes to its end and keeps the others out *)
Lemma stop_alone (uds server : bool) (maxretry : Z) s l s' x : k_lock s = Some x -> kstep uds server maxretry s l s' ->
  l <> SRun /\ l <> SStop /\ l <> SReturn /\
  (l <> SInner -> k_lock s' = Some x) /\ (l = SInner -> k_crash s' <> None \/ stop_left s' < stop_left s).
Proof.
  intros Hl Hs. unfold stop_left. rewrite Hl. inversion Hs; subst; split_and!; try done; try congruence; intros; try done; try congruence.
  all: try (left; done); right; simpl.
  all: match goal with H : k_lock ?s0 = Some (_, _) |- _ => rewrite H in Hl; injection Hl as <- end; simpl; lia.
Qed.
Lemma stop_goes_on (uds server : bool) (maxretry : Z) s x : k_crash s = None -> k_lock s = Some x -> exists s', kstep uds server maxretry s SInner s'.
Proof.
  intros Hc Hl. destruct x as [[] w].
  - destruct (k_listener s) as [l|] eqn:E; eexists; [by eapply sk_sock|by eapply sk_sock_none].
  - eexists. by eapply sk_nil.
  - destruct (k_next s) as [ch|] eqn:E; [|eexists; eapply sk_close_crash; [done|done|congruence]].
    destruct (k_chans s !! ch) as [[q [|]]|] eqn:E2; [| |].
    + eexists. eapply sk_close_crash; [done|done|]. intros ch' q' E'. rewrite E in E'. injection E' as <-. rewrite E2. congruence.
    + eexists. by eapply sk_close.
    + eexists. eapply sk_close_crash; [done|done|]. intros ch' q' E'. rewrite E in E'. injection E' as <-. by rewrite E2.
  - destruct (decide (None ∈ k_conns s)); eexists; [by eapply sk_drop_crash|by eapply sk_drop].
Qed.
Lemma stop_ends (uds server : bool) (maxretry : Z) s x : k_lock s = Some x ->
  stop_left s <= 4 /\
  (k_crash s = None -> exists s', kstep uds server maxretry s SInner s') /\
  forall l s', kstep uds server maxretry s l s' ->
    l <> SRun /\ l <> SStop /\ l <> SReturn /\
    (l <> SInner -> k_lock s' = Some x) /\ (l = SInner -> k_crash s' <> None \/ stop_left s' < stop_left s).
Proof.
  intros Hl. split; [unfold stop_left; rewrite Hl; destruct x as [[] ?]; lia|].
  split; [intros Hc; by eapply stop_goes_on|]. intros l s'. by apply stop_alone.
Qed.
