(** * Every schedule of the deck's goroutines ends with everything passed down *)
From Verif Require Import GoBase DeckModel DeckSpec DeckProofs.

Section sigma.
Context (σ : nat -> Z).

(** What a goroutine may still do by itself. *)
Definition weight (e : nat) (p : nat * lpc) : nat :=
  if fst p =? e then match snd p with LTop => 2 | LReady _ => 1 | LParked _ => 0 | LSending _ => 3 | LStopped => 0 end else 0.
Definition load (e : nat) (s : dst) : nat := sum_list_with (weight e) (d_loops s) + 3 * length (d_tx s e).
Lemma weight_insert (l : list (nat * lpc)) i p q e : l !! i = Some p ->
  sum_list_with (weight e) (<[i := q]> l) + weight e p = sum_list_with (weight e) l + weight e q.
Proof. revert i. induction l as [|x l IH]; intros [|i] H; simpl in *; try done; [injection H as ->; lia|]. specialize (IH _ H). lia. Qed.
Lemma weight_wake (l : list (nat * lpc)) c e : (e, LParked (Some c)) ∉ l ->
  sum_list_with (weight e) (wake c <$> l) = sum_list_with (weight e) l.
Proof.
  induction l as [|[a b] l IH]; intros H; [done|]. rewrite fmap_cons. cbn [sum_list_with]. rewrite IH by (intros ?; apply H; by right). f_equal.
  destruct b as [| |[c'|]| |]; try done. unfold wake. simpl. destruct (Nat.eqb_spec c' c) as [->|]; [|done].
  unfold weight. simpl. destruct (Nat.eqb_spec a e) as [->|]; [|done]. destruct H. left.
Qed.
(** Never deleted: its stop channels are open and empty, no goroutine of it has stopped. *)
Definition kept (e : nat) (s : dst) : Prop :=
  (forall c ch, d_chans s !! c = Some ch -> sc_owner ch = e -> sc_buf ch = [] /\ sc_closed ch = false) /\
  (forall i, d_loops s !! i <> Some (e, LStopped)).
Lemma kept_step s l s' e : dreach σ s -> dstep σ s l s' -> l <> DDelete e -> kept e s -> kept e s'.
Proof.
  intros Hr Hst Hl [K1 K2]. destruct (owned_reach σ s Hr) as [O1 O2].
  assert (HL : forall i e' pc, (e', pc) <> (e, LStopped) -> forall j, <[i := (e', pc)]> (d_loops s) !! j <> Some (e, LStopped)).
  { intros i e' pc Hne j Hj. apply insert_pair_lookup in Hj as [(_ & -> & ->)|[_ Hj]]; [done|by apply K2 in Hj]. }
  assert (HC : forall c0 ch0 x, sc_owner x = sc_owner ch0 -> d_chans s !! c0 = Some ch0 -> sc_owner ch0 <> e ->
    forall c ch, <[c0 := x]> (d_chans s) !! c = Some ch -> sc_owner ch = e -> sc_buf ch = [] /\ sc_closed ch = false).
  { intros c0 ch0 x Hx H0 Hn c ch Hc Ho. destruct (decide (c0 = c)) as [->|].
    - rewrite list_lookup_insert in Hc by (by eapply lookup_lt_Some). injection Hc as <-. congruence.
    - rewrite list_lookup_insert_ne in Hc by done. by eapply K1. }
  inversion Hst; subst; unfold kept; simpl in *; try done; try (split; [done|by apply HL]).
  - split.
    + intros c ch Hc Ho. apply lookup_app_Some in Hc as [Hc|[_ Hc]]; [by eapply K1|].
      destruct (c - length (d_chans s)) as [|[]]; simpl in Hc; [|done..]. by injection Hc as <-.
    + intros j Hj. apply lookup_app_Some in Hj as [Hj|[_ Hj]]; [by apply K2 in Hj|]. destruct (j - length (d_loops s)) as [|[]]; done.
  - assert (e0 <> e) as Hne by congruence.
    destruct (O1 _ _ (look_in _ _ _ H)) as (ch1 & C1 & C2). destruct (O2 i e' c (or_intror H0)) as (ch2 & C3 & C4).
    assert (ch1 = ch /\ ch2 = ch) as [-> ->] by naive_solver. assert (e' <> e) as Hne' by congruence.
    split; [eapply HC; [|exact H1|]; [done|congruence]|].
    intros j Hj. rewrite list_lookup_fmap in Hj. destruct (<[i := (e', LStopped)]> (d_loops s) !! j) as [[a pc]|] eqn:E; [|done].
    simpl in Hj. injection Hj as Hj. assert (a = e) as ->. { pose proof (f_equal fst Hj) as Hf. by rewrite wake_fst in Hf. }
    assert (pc = LStopped) as ->. { destruct pc as [| |[c'|]| |]; unfold wake in Hj; simpl in Hj; try done. by destruct (c' =? c). }
    eapply (HL i e' LStopped); [congruence|exact E].
  - assert (e0 <> e) as Hne by congruence. destruct (O1 _ _ (look_in _ _ _ H)) as (ch1 & C1 & C2).
    split; [|done]. eapply HC; [|exact H1|]; [done|]. naive_solver.
  - destruct (O2 i e0 c (or_introl H)) as (ch1 & C1 & C2). assert (ch1 = ch) as -> by naive_solver.
    assert (e0 <> e) as Hne. { intros <-. destruct (K1 _ _ C1 C2) as [Hb _]. congruence. }
    split; [eapply HC; [|exact H0|]; [done|congruence]|]. apply HL. congruence.
Qed.
Lemma kept_run ls s e : drun σ new_deck ls s -> DDelete e ∉ ls -> kept e s.
Proof.
  induction 1 as [|ls s1 l s2 H IH Hst]; intros Hn; [done|]. apply not_elem_of_app in Hn as [Hn1 Hn2]. apply not_elem_of_cons in Hn2 as [Hn2 _].
  eapply kept_step; [by exists ls|done|congruence|auto].
Qed.
Lemma load_run ls s e : drun σ new_deck ls s -> DDelete e ∉ ls ->
  loop_steps e ls + load e s <= 2 * registrations e ls + 3 * length (puts e ls).
Proof.
  intros Hr. induction Hr as [|ls s1 l s2 H IH Hst]; intros Hn; [done|].
  apply not_elem_of_app in Hn as [Hn1 Hn2]. apply not_elem_of_cons in Hn2 as [Hn2 _]. specialize (IH Hn1).
  rewrite registrations_app, puts_app, app_length. unfold loop_steps in *. rewrite List.filter_app, app_length.
  pose proof (kept_run _ _ _ H Hn1) as [K1 K2]. destruct (owned_reach σ s1 (ex_intro _ _ H)) as [O1 O2].
  assert (HI : forall i p q, d_loops s1 !! i = Some p -> sum_list_with (weight e) (<[i := q]> (d_loops s1)) + weight e p = sum_list_with (weight e) (d_loops s1) + weight e q).
  { intros. by apply weight_insert. }
  unfold load in *. revert IH. generalize (registrations e ls), (length (puts e ls)). intros n1 n2 IH.
  inversion Hst; subst; unfold registrations, puts; simpl in *.
  - lia.
  - rewrite sum_list_with_app. simpl. unfold weight at 2. simpl. destruct (e0 =? e); simpl; lia.
  - lia.
  - assert (e0 <> e) as Hne by congruence.
    destruct (O1 _ _ (look_in _ _ _ H0)) as (ch1 & C1 & C2). destruct (O2 i e' c (or_intror H1)) as (ch2 & C3 & C4).
    assert (ch1 = ch /\ ch2 = ch) as [-> ->] by naive_solver. assert (e' <> e) as Hne' by congruence.
    rewrite weight_wake.
    + specialize (HI i _ (e', LStopped) H1). unfold weight at 2 4 in HI. simpl in HI. rewrite (proj2 (Nat.eqb_neq e' e) Hne') in HI. lia.
    + intros [j Hj]%elem_of_list_lookup. apply insert_pair_lookup in Hj as [(_ & -> & ?)|[_ Hj]]; [done|].
      destruct (O2 j e c (or_intror Hj)) as (ch3 & C5 & C6). naive_solver.
  - lia.
  - specialize (HI i _ (e0, LSending m) H0). unfold weight at 2 4 in HI. simpl in HI. case_decide; subst; simpl.
    + rewrite Nat.eqb_refl in HI. lia.
    + rewrite (proj2 (Nat.eqb_neq e0 e)) in HI by done. lia.
  - unfold set_tx. repeat case_decide; subst; simpl; try done; rewrite ?app_length; simpl; lia.
  - specialize (HI i _ (e0, LReady (look (d_map s1) e0)) H0). unfold weight at 2 4 in HI. simpl in HI. destruct (e0 =? e); simpl; lia.
  - specialize (HI i _ (e0, LStopped) H0). unfold weight at 2 4 in HI. simpl in HI. destruct (e0 =? e); simpl; lia.
  - specialize (HI i _ (e0, LTop) H0). unfold weight at 2 4 in HI. simpl in HI. destruct (Nat.eqb_spec e0 e) as [->|]; simpl; [|lia].
    destruct (O2 i e c (or_introl H0)) as (ch1 & C1 & C2). destruct (K1 _ _ C1 C2). congruence.
  - specialize (HI i _ (e0, LSending m) H0). unfold weight at 2 4 in HI. simpl in HI. unfold set_tx. destruct (Nat.eqb_spec e0 e) as [->|].
    + rewrite decide_True by done. rewrite H1 in IH. simpl in *. lia.
    + rewrite decide_False by done. simpl. lia.
  - specialize (HI i _ (e0, LParked ch) H0). unfold weight at 2 4 in HI. simpl in HI. destruct (e0 =? e); simpl; lia.
  - specialize (HI i _ (e0, LTop) H0). unfold weight at 2 4 in HI. simpl in HI. destruct (e0 =? e); simpl; lia.
Qed.
Lemma loop_steps_bound ls s e : drun σ new_deck ls s -> DDelete e ∉ ls ->
  loop_steps e ls <= 2 * registrations e ls + 3 * length (puts e ls).
Proof. intros H Hn. pose proof (load_run _ _ _ H Hn). lia. Qed.
Lemma loops_end ls s e : drun σ new_deck ls s -> DDelete e ∉ ls -> 1 <= registrations e ls -> (forall s', ~ dstep σ s (DLoop e) s') ->
  in_hand e s = [] /\ d_tx s e = [].
Proof.
  intros H Hn Hreg Hstop. pose proof (kept_run _ _ _ H Hn) as [K1 K2]. destruct (owned_reach σ s (ex_intro _ _ H)) as [O1 O2].
  pose proof (loops_registrations σ _ _ e H) as Hl. split.
  - rewrite in_hand_eq. assert (forall p, p ∈ d_loops s -> forall m, p <> (e, LSending m)) as G.
    { intros p [i Hi]%elem_of_list_lookup m ->. eapply Hstop. by apply (dk_send _ _ i). }
    revert G. generalize (d_loops s). intros l G. induction l as [|[a b] l IH]; [done|].
    assert (omap (hand1 e) l = []) as El by (apply IH; intros; apply G; by right).
    cbn [omap list_omap]. destruct (hand1 e (a, b)) as [m|] eqn:Eh; [|exact El]. exfalso.
    unfold hand1 in Eh. destruct b; try done. case_decide; [|done]. subst. by eapply G; [left|].
  - unfold loops_of in Hl. destruct (List.filter (fun p => fst p =? e) (d_loops s)) as [|[a pc] r] eqn:E; [simpl in Hl; lia|].
    assert ((a, pc) ∈ List.filter (fun p => fst p =? e) (d_loops s)) as Hin by (rewrite E; left).
    apply elem_of_list_In, filter_In in Hin as [Hin Ha]. simpl in Ha. apply Nat.eqb_eq in Ha as ->.
    apply elem_of_list_In, elem_of_list_lookup in Hin as [i Hi].
    destruct pc as [|ch|ch|m|].
    + exfalso. eapply Hstop. by apply (dk_read _ _ i).
    + destruct (d_tx s e) as [|m q] eqn:Et; [done|]. exfalso. eapply Hstop. by eapply (dk_take _ _ i).
    + eapply parked_empty; [by exists ls|exact Hi].
    + exfalso. eapply Hstop. by apply (dk_send _ _ i).
    + by apply K2 in Hi.
Qed.
Lemma all_passed ls s e : drun σ new_deck ls s -> DDelete e ∉ ls -> 1 <= registrations e ls -> (forall s', ~ dstep σ s (DLoop e) s') ->
  sent_for e s ≡ₚ puts e ls /\ (registrations e ls = 1 -> sent_for e s = puts e ls).
Proof.
  intros H Hn Hreg Hstop. destruct (loops_end _ _ _ H Hn Hreg Hstop) as [E1 E2]. split.
  - rewrite <- (sent_exactly_once σ ls s e H), E1, E2. simpl. by rewrite app_nil_r.
  - intros Hr. rewrite <- (sent_in_order σ ls s e H) by lia. rewrite E1, E2. simpl. by rewrite app_nil_r.
Qed.
End sigma.

(** ** What a goroutine that is about to wait may do *)
Lemma turn (σ : nat -> Z) s i e c ch : d_loops s !! i = Some (e, LReady (Some c)) -> d_chans s !! c = Some ch ->
  let becomes pc := exists s', dstep σ s (DLoop e) s' /\ d_loops s' !! i = Some (e, pc) in
  (becomes LStopped <-> exists b, sc_buf ch = true :: b) /\
  (becomes LTop <-> sc_buf ch = [] /\ sc_closed ch = true) /\
  (forall m, becomes (LSending m) <-> exists q, d_tx s e = m :: q) /\
  (becomes (LParked (Some c)) <-> d_tx s e = [] /\ sc_buf ch = [] /\ sc_closed ch = false).
Proof.
  intros Hi Hc becomes. pose proof (lookup_lt_Some _ _ _ Hi) as Hlt.
  assert (forall j x, j <> i -> <[j := x]> (d_loops s) !! i = Some (e, LReady (Some c))) as Hother.
  { intros j x Hj. by rewrite list_lookup_insert_ne. }
  assert (forall x, <[i := x]> (d_loops s) !! i = Some x) as Hself. { intros x. by apply list_lookup_insert. }
  split_and!.
  - split.
    + intros (s' & Hs & Hp). inversion Hs; subst; cbn [d_loops] in Hp.
      all: match type of Hp with <[?j := _]> _ !! _ = _ => destruct (decide (j = i)) as [->|Hne];
        [rewrite Hself in Hp|by rewrite Hother in Hp] end; try discriminate Hp.
      match goal with H : d_loops s !! i = Some (e, LReady (Some ?c0)) |- _ => rewrite Hi in H; injection H as <- end.
      match goal with H : d_chans s !! c = Some ?x |- _ => rewrite Hc in H; injection H as <- end. eauto.
    + intros [b Hb]. eexists. split; [by eapply dk_stop|]. apply Hself.
  - split.
    + intros (s' & Hs & Hp). inversion Hs; subst; cbn [d_loops] in Hp.
      all: match type of Hp with <[?j := _]> _ !! _ = _ => destruct (decide (j = i)) as [->|Hne];
        [rewrite Hself in Hp|by rewrite Hother in Hp] end; try discriminate Hp; try congruence.
      match goal with H : d_loops s !! i = Some (e, LReady (Some ?c0)) |- _ => rewrite Hi in H; injection H as <- end.
      match goal with H : d_chans s !! c = Some ?x |- _ => rewrite Hc in H; injection H as <- end. done.
    + intros [H1 H2]. eexists. split; [by eapply dk_closed|]. apply Hself.
  - intros m. split.
    + intros (s' & Hs & Hp). inversion Hs; subst; cbn [d_loops] in Hp.
      all: match type of Hp with <[?j := _]> _ !! _ = _ => destruct (decide (j = i)) as [->|Hne];
        [rewrite Hself in Hp|by rewrite Hother in Hp] end; try discriminate Hp; try congruence.
      injection Hp as <-. eauto.
    + intros [q Hq]. eexists. split; [by eapply dk_take|]. apply Hself.
  - split.
    + intros (s' & Hs & Hp). inversion Hs; subst; cbn [d_loops] in Hp.
      all: match type of Hp with <[?j := _]> _ !! _ = _ => destruct (decide (j = i)) as [->|Hne];
        [rewrite Hself in Hp|by rewrite Hother in Hp] end; try discriminate Hp; try congruence.
      injection Hp as ->. split; [done|]. match goal with H : forall c sc, _ |- _ => by apply (H c ch) end.
    + intros (H1 & H2 & H3). eexists. split; [eapply dk_park; [done|done|]|apply Hself].
      intros c' sc [= <-] E. rewrite Hc in E. by injection E as <-.
Qed.
