(** * Every schedule of the goroutines that share a decoder ends *)
From Verif Require Import GoBase UBufModel UBufSpec FrameModel FrameSpec MixModel MixSpec MixProofs.

Lemma moves_app g ls ms : moves g (ls ++ ms) = moves g ls + moves g ms.
Proof. unfold moves. by rewrite List.filter_app, app_length. Qed.
Lemma moves_move g h : moves g [JMove h] = if h =? g then 1 else 0.
Proof. unfold moves. simpl. by destruct (h =? g). Qed.
Lemma rank_pos k p : okpc k p -> p <> JIdle -> 0 < rank p.
Proof. destruct p as [| | | | | | | | |[]|[]| | | | | | | | | | | |]; simpl; intros ? ?; try done; lia. Qed.
Lemma mix_steps k mtu ls s g : 0 < k -> jrun mtu (new_decoder k) ls s -> all_fit k mtu ls ->
  moves g ls + (if j_crashed s then 0 else rank (j_at s g)) <= sum_list_with (fun ch => 12 + length ch) (arrived g ls).
Proof.
  intros Hk Hr. induction Hr as [|ls s1 l s2 Hr IH Hst]; intros Hf; [done|].
  destruct (all_fit_app _ _ _ _ Hf) as [Hf1 Hf2]. specialize (IH Hf1). destruct (mix_inv_reach _ _ _ _ Hk Hr Hf1) as [Hcc H].
  rewrite moves_app, arrived_app, sum_list_with_app.
  destruct Hst as [c at_ up h ch Hi Hne Hm|c at_ up h c' p o Hi Hm|c at_ up h Hm]; cbn [j_crashed j_at j_cache] in *.
  - destruct (decide (h = g)) as [->|Hx].
    + rewrite fn_lookup_insert, Hi in *. cbn [arrived omap list_omap]. rewrite decide_True by done. cbn [sum_list_with]. rewrite Nat.add_0_r.
      assert (chunk_fits k mtu ch) as Hch. { apply (Hf2 g). cbn [arrived omap list_omap]. rewrite decide_True by done. left. }
      destruct (rx_okb _ _ _ Hch) as [Hu Ru].
      assert (v_rlen (rx_chunk mtu ch) = length ch) as Hl. { unfold rx_chunk. unfold v_rlen. simpl. lia. }
      cbn [rank] in *. lia.
    + rewrite fn_lookup_insert_ne by done. cbn [arrived omap list_omap]. rewrite decide_False by done. rewrite Nat.add_0_r. cbn [sum_list_with]. lia.
  - rewrite moves_move. cbn [arrived omap list_omap sum_list_with]. destruct (Nat.eqb_spec h g) as [->|Hx].
    + rewrite fn_lookup_insert. destruct (H g) as (Ho & os & rest & _ & _ & H3 & _).
      pose proof (rank_move k c (at_ g) rest c' p o Hk Hcc Ho H3 Hi Hm). lia.
    + rewrite fn_lookup_insert_ne by done. lia.
  - rewrite moves_move. cbn [arrived omap list_omap sum_list_with]. destruct (Nat.eqb_spec h g) as [->|Hx]; [|lia].
    destruct (H g) as (Ho & _). pose proof (rank_pos k (at_ g) Ho) as R.
    destruct (decide (rank (at_ g) = 0)) as [E|]; [|lia]. exfalso.
    destruct (at_ g) eqn:Ea; try (cbn in Hm; done); assert (0 < 0); try lia; rewrite E in R; by apply R.
Qed.
Lemma mix_moves_bound k mtu ls s g : 0 < k -> jrun mtu (new_decoder k) ls s -> all_fit k mtu ls ->
  moves g ls <= sum_list_with (fun ch => 12 + length ch) (arrived g ls).
Proof. intros H1 H2 H3. pose proof (mix_steps k mtu ls s g H1 H2 H3). lia. Qed.
Lemma mix_ends k mtu ls s g : 0 < k -> jrun mtu (new_decoder k) ls s -> all_fit k mtu ls ->
  j_crashed s = false -> (forall s', ~ jstep mtu s (JMove g) s') -> each_alone (arrived g ls) (ups g s).
Proof.
  intros Hk Hr Hf Hc Hs. destruct (mix_isolated k mtu ls s g Hk Hr Hf) as (o & rest & H1 & H2 & H3).
  assert (j_at s g = JIdle) as Hi.
  { destruct s as [c at_ up cr]. simpl in *. subst cr. destruct (jmove c (at_ g)) as [[[c' p] x]|] eqn:E.
    - assert (at_ g = JIdle \/ at_ g <> JIdle) as [?|Hn] by (destruct (at_ g); auto); [done|].
      exfalso. eapply Hs. by apply jk_move.
    - exfalso. eapply Hs. by apply jk_panic. }
  rewrite (H3 Hi), app_nil_r in H2. by rewrite H2.
Qed.
