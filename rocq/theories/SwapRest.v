(** * More proofs about stacks whose processors are switched: every schedule ends *)
From Coq Require Import ZArith Lia.
From Verif Require Import GoBase UBufModel FrameModel FrameSpec StackModel StackSpec NetModel NetSpec NetProofs CountFacts NetRest SwapModel SwapSpec SwapProofs.
From stdpp Require Import sets list.

Lemma swap_counts L N a b ls s : wrun N (discreet L N) (new_swap N a b) ls s ->
  totals (net_labels ls) (w_net s) /\ reads_le (net_labels ls) (w_net s).
Proof.
  induction 1 as [|ls s1 l s2 _ [IH1 IH2] Hok Hs]; [split; [apply totals_new|apply reads_new]|].
  unfold net_labels in *. rewrite omap_app. destruct Hs as [s on l s' Hs|s on d i b']; simpl in *; [|by rewrite app_nil_r].
  split; [by eapply totals_step|by eapply reads_step].
Qed.
Lemma swap_ends L N a b ls s : ready L N -> caches_idle (nb N) b -> wrun N (discreet L N) (new_swap N a b) ls s ->
  all_sendable N (lo_codec L) (SwapSpec.below (nb N) (lo_b L) (lo_above_b L)) (net_labels ls) ->
  length (net_labels ls) <= 6 * mails_put (net_labels ls).
Proof.
  intros R Hi H A. destruct (discreet_careful _ _ _ _ _ _ R Hi H A) as (Hc & _). destruct (winv_reach _ _ _ _ _ _ Hi Hc) as (os & i & [I1 I2 I3 I4 I5 I6 I7 I8 I9]).
  destruct (swap_counts _ _ _ _ _ _ H) as [((n1 & T1 & E1) & (n2 & T2 & E2) & (n3 & T3 & E3) & E4) [_ Hr]]. specialize (Hr i I4).
  pose proof (counted (sent_of os.*1) [] (given_all (net_labels ls)) _ n2 T2) as C1. simpl in C1.
  assert (length os + n2 = cntl isput (net_labels ls)) as C1'.
  { rewrite <- given_count, <- C1; [unfold sent_of; rewrite !fmap_length; lia|].
    intros e. rewrite given_named, <- I1, app_length. fold (mails_of e (sent_of os.*1)). unfold mails_of, named. lia. }
  pose proof (counted (n_seen (w_net s)) (n_up (w_net s)) ((fun p => (zed N p, ml_msg (po_mail p))) <$> take i os.*1) _ n3 T3) as C2.
  rewrite fmap_length, take_length, fmap_length in C2. rewrite all_counted. change (mails_put (net_labels ls)) with (cntl isput (net_labels ls)).
  assert (length (n_seen (w_net s)) + n3 + length (n_up (w_net s)) = i `min` length os) as C2'; [|lia].
  apply C2. intros z. rewrite named_posts, <- I6, !app_length. unfold heard, named, upz. lia.
Qed.

