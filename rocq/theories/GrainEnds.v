(** * More proofs about goroutines inside the processors at the same time: every schedule ends *)
From Coq Require Import ZArith Lia.
From Verif Require Import GoBase UBufModel FrameModel FrameSpec StackModel StackSpec NetModel NetSpec NetProofs CountFacts NetRest SwapModel SwapSpec SwapProofs SwapRest GrainModel GrainSpec GrainProofs.
From stdpp Require Import sets list.

(** ** Calls *)
Definition ishop (l : glab) : bool := match l with GHop _ => true | _ => false end.
Lemma cntl_app {A} (f : A -> bool) l m : cntl f (l ++ m) = cntl f l + cntl f m.
Proof. unfold cntl. by rewrite List.filter_app, app_length. Qed.
Lemma grain_counted ls : length (List.filter not_set ls) = cntl ishop ls + length (net_labels (outside ls)).
Proof.
  induction ls as [|l ls IH]; [done|]. unfold cntl, outside, net_labels in *. cbn [omap list_omap].
  destruct l; cbn [seen_as omap list_omap List.filter not_set ishop length]; rewrite IH; lia.
Qed.
Fixpoint from (i : nat) (ids : list nat) : list nat :=
  match ids with [] => [] | j :: r => if decide (i = j) then j :: r else from i r end.
Lemma from_at i ids n : NoDup ids -> ids !! n = Some i -> from i ids = drop n ids.
Proof.
  intros Hn. revert n. induction Hn as [|j ids Hj _ IH]; intros n Hi; [done|]. simpl. destruct n as [|n]; simpl in *.
  - injection Hi as ->. by rewrite decide_True.
  - rewrite decide_False; [by apply IH|]. intros ->. by apply Hj, elem_of_list_lookup_2 with n.
Qed.
Section ends.
Context (L : layout) (N : net) (R : ready L N).
Definition to_go (s : gst) (e : nat) : list nat :=
  match g_at s e with Some (PProc i, _) => from i (lo_a L) | Some (PUpper, _) => lo_a L | _ => [] end.
Lemma to_go_at s e n cx : g_at s e = Some (pid_at L n, cx) -> to_go s e = drop n (lo_a L).
Proof.
  intros H. unfold to_go. rewrite H. unfold pid_at. destruct (lo_a L !! n) as [i|] eqn:Ei.
  - apply from_at; [|done]. destruct R as [((_ & Hn & _) & _) _]. done.
  - rewrite drop_ge; [done|]. by apply lookup_ge_None.
Qed.
Lemma grain_hops a b ls s : caches_idle (nb N) b -> grun N (gently L N) (new_grain N a b) ls s ->
  all_sendable N (lo_codec L) (SwapSpec.below (nb N) (lo_b L) (lo_above_b L)) (net_labels (outside ls)) ->
  exists n, amount (to_go s) n /\ n + cntl ishop ls <= length (lo_a L) * cntl istake (net_labels (outside ls)).
Proof.
  intros Hi H. induction H as [|ls s1 l s2 Hr IH Hok Hst]; intros A.
  { exists 0. split; [apply amount_nil|]. unfold cntl. simpl. lia. }
  assert (net_labels (outside (ls ++ [l])) = net_labels (outside ls) ++ net_labels (outside [l])) as En.
  { unfold net_labels, outside. by rewrite omap_app, omap_app. }
  assert (all_sendable N (lo_codec L) (SwapSpec.below (nb N) (lo_b L) (lo_above_b L)) (net_labels (outside ls))) as A1.
  { intros e x Hx. apply (A e x). rewrite En. apply elem_of_app. by left. }
  destruct (IH A1) as (n & T & E). destruct (grain_seen L N R a b ls s1 Hi Hr A1) as (_ & _ & _ & _ & Iv).
  destruct (grain_seen L N R a b (ls ++ [l]) s2 Hi (gr_snoc _ _ _ _ _ _ _ Hr Hok Hst) A) as (_ & _ & _ & _ & Iv2).
  rewrite En, cntl_snoc, cntl_app.
  assert (cntl istake (net_labels (outside [l])) = match l with GTake _ | GNet (NTake _) => 1 | _ => 0 end) as -> by (by destruct l as [[]| | | | |]).
  destruct Hst as [s at_ on l s' He Hst|tx hd aa w bb up rx sn ws g at_ on e x q p Hh Htx Hp
    |tx hd aa w bb up rx sn ws g at_ on e i x x' a' p Hat Hc Hp|tx hd aa w bb up rx sn ws g at_ on e i x x' a' Hat Hc
    |tx hd aa w bb up rx sn ws g at_ on e x x' a' outs Hat Hl Ho|s at_ on d i b']; simpl.
  - exists n. split; [exact T|]. destruct l; try done; simpl; lia.
  - exists (n + length (lo_a L)). split; [|lia]. apply (amount_more (to_go (Gst (Nst tx hd aa w bb up rx sn ws g) at_ on)) _ n e); [done| |].
    + intros y Hy. unfold to_go. simpl. by rewrite fn_lookup_insert_ne.
    + specialize (Iv e). simpl in Iv. rewrite Hh in Iv. unfold to_go at 2. simpl. rewrite Iv. simpl.
      assert (p = pid_at L 0) as ->.
      { pose proof (lower_at L N R 0 ltac:(lia)) as E0. simpl in E0. congruence. }
      rewrite (to_go_at _ e 0 (start_ctx N e x)); [done|]. simpl. by rewrite fn_lookup_insert.
  - specialize (Iv e). simpl in Iv. destruct (hd e) as [mx|]; [|congruence].
    destruct Iv as (m & cx & Ea & _). pose proof (to_go_at (Gst (Nst tx hd aa w bb up rx sn ws g) at_ on) e m cx Ea) as Eg.
    rewrite Hat in Ea. injection Ea as Epid <-.
    assert (lo_a L !! m = Some i) as Hm by (unfold pid_at in Epid; destruct (lo_a L !! m); congruence).
    assert (p = pid_at L (S m)) as ->.
    { pose proof (lower_at L N R (S m) ltac:(by apply lookup_lt_Some in Hm)) as E0. simpl in E0. rewrite <- Epid in E0. congruence. }
    destruct (amount_less (to_go (Gst (Nst tx hd aa w bb up rx sn ws g) at_ on)) 
      (to_go (Gst (Nst tx hd a' w bb up rx sn ws g) (<[e := Some (pid_at L (S m), x')]> at_) on)) n e 1 T) as (n' & T' & ->).
    + intros y Hy. unfold to_go. simpl. by rewrite fn_lookup_insert_ne.
    + rewrite Eg. rewrite (to_go_at _ e (S m) x') by (simpl; by rewrite fn_lookup_insert). rewrite (drop_S _ _ _ Hm). simpl. lia.
    + exists n'. split; [done|]. lia.
  - destruct (amount_less (to_go (Gst (Nst tx hd aa w bb up rx sn ws g) at_ on)) 
      (to_go (Gst (Nst tx (<[e:=None]> hd) a' w bb up rx sn ws g) (<[e := None]> at_) on)) n e (length (to_go (Gst (Nst tx hd aa w bb up rx sn ws g) at_ on) e)) T) as (n' & T' & ->).
    + intros y Hy. unfold to_go. simpl. by rewrite fn_lookup_insert_ne.
    + unfold to_go at 2. simpl. by rewrite fn_lookup_insert.
    + exists n'. split; [done|]. lia.
  - exists n. split; [|lia]. eapply amount_ext; [exact T|]. intros y. unfold to_go. simpl. destruct (decide (y = e)) as [->|Hy].
    + by rewrite fn_lookup_insert, Hat.
    + by rewrite fn_lookup_insert_ne.
  - exists n. split; [exact T|]. lia.
Qed.
Lemma grain_ends a b ls s : caches_idle (nb N) b -> grun N (gently L N) (new_grain N a b) ls s ->
  all_sendable N (lo_codec L) (SwapSpec.below (nb N) (lo_b L) (lo_above_b L)) (net_labels (outside ls)) ->
  length (List.filter not_set ls) <= (6 + length (lo_a L)) * mails_put (net_labels (outside ls)).
Proof.
  intros Hi H A. destruct (grain_hops a b ls s Hi H A) as (n & _ & E). destruct (grain_seen L N R a b ls s Hi H A) as (t & Rt & _).
  pose proof (swap_ends L N a b _ t R Hi Rt A) as Hs. destruct (swap_counts _ _ _ _ _ _ Rt) as [((n1 & _ & E1) & _) _].
  rewrite grain_counted. change (mails_put (net_labels (outside ls))) with (cntl isput (net_labels (outside ls))) in *.
  set (T := cntl istake (net_labels (outside ls))) in *. set (P := cntl isput (net_labels (outside ls))) in *.
  assert (length (lo_a L) * T <= length (lo_a L) * P) by (apply Nat.mul_le_mono_l; lia). lia.
Qed.
End ends.
