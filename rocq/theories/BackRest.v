(** * More proofs about echo servers: every schedule ends *)
From Coq Require Import ZArith Lia.
From Verif Require Import GoBase UBufModel FrameModel FrameSpec StackModel StackSpec NetModel NetSpec NetProofs DuoModel DuoSpec DuoPath DuoItems DuoProofs
  HushSpec HushProofs SiftSpec SiftProofs BackSpec BackSift BackProofs CountFacts NetRest DuoRest.
From stdpp Require Import sets list.

(** Every Read returns a byte at least. *)
Lemma reads_bytes D ok ss ls s : drun D ok (new_duo ss) ls s -> reads ls <= d_got s true + d_got s false.
Proof.
  induction 1 as [|ls s1 l s2 R IH Hok St]; [done|]. rewrite reads_snoc. inversion St; subst; simpl in *; try lia.
  destruct b; simpl; rewrite fn_lookup_insert, fn_lookup_insert_ne by done; lia.
Qed.

Section ends.
Context (D : duo) (c : bool) (k : kind) (ps : list proc) (S : echoes D c) (P : paired (twice D c) k ps).
Notation sv := (negb c).
Notation D' := (twice D c).
Notation W := (one_way D' c).
Notation run := (drun D (own_reads c (framed ps))).

(** Nothing that the server is given is sent. *)
Lemma server_keeps ok ss ls s e : drun D ok (new_duo ss) ls s -> Forall (quietly c) ls -> dunsent (sv, e) s = dgiven (sv, e) ls.
Proof.
  induction 1 as [|ls s1 l s2 R IH Hok St]; intros F; [done|]. apply Forall_app in F as [F1 F2]. apply Forall_cons_1 in F2 as [F2 _].
  specialize (IH F1). unfold dgiven in *. rewrite omap_app, <- IH. unfold dunsent in *. inversion St; subst; simpl in *; rewrite ?app_nil_r; try done.
  - case_decide as E; [rewrite <- E, fn_lookup_insert; by rewrite app_assoc|]. rewrite fn_lookup_insert_ne by done. by rewrite app_nil_r.
  - destruct (decide (e0 = (sv, e))) as [->|Hn]; [by rewrite !fn_lookup_insert, H, H0|by rewrite !fn_lookup_insert_ne].
  - subst. rewrite fn_lookup_insert_ne; [done|]. intros [=]. by destruct c.
Qed.
Lemma echo_ends ss ls s : answers_fit D' ps -> 0 < du_rxcap D -> init_st (du_env D c) = Some (ss c) ->
  run (new_duo ss) ls s -> Forall (quietly c) ls -> cl_sendable D c k ps ls ->
  length ls <= 5 * dmails_put ls + own_sent ls + 2 * length (sent c s) /\
  ((forall l s', dinner l -> quietly c l -> own_reads c (framed ps) s l -> ~ dstep D s l s') ->
    dsettled s /\ forall e, dunsent (c, e) s = []).
Proof.
  intros Hf Hc Hi R Q A. split.
  - destruct (binv_reach D c k ps S P _ _ _ Hi R Q A) as (os & i & I).
    destruct (duo_totals D _ _ _ _ R) as ((n1 & T1 & E1) & (n2 & T2 & E2) & (n3 & T3 & E3) & E4).
    pose proof (reads_bytes _ _ _ _ _ R) as Hr.
    destruct (returned_stream D c S _ _ _ _ R Q) as (V1 & V2 & V3 & V4).
    destruct (wire_kept D _ _ _ _ c R) as (r1 & Er1 & Lr1). destruct (wire_kept D _ _ _ _ sv R) as (r2 & Er2 & Lr2).
    assert (d_got s true + d_got s false <= 2 * length (sent c s)) as Hb.
    { pose proof (f_equal length Er1) as L1. pose proof (f_equal length Er2) as L2. pose proof (f_equal length V1) as L3.
      rewrite take_length in L3. unfold sent in *. rewrite app_length in *. destruct c; simpl in *; lia. }
    pose proof (bn_dir _ _ _ _ _ _ _ _ I) as [J1 J2 J3 J4 J5 J6 J7 J8 J9 J10 J11 J12].
    pose proof (counted (tag c (sent_of (posts os))) [] (dgiven_all ls) _ n2 T2) as C1.
    unfold tag, sent_of in C1. rewrite !fmap_length in C1. cbn [length] in C1. rewrite Nat.add_0_r, dgiven_count in C1.
    assert (length (posts os) + n2 = cntl dput ls) as C1'.
    { apply C1. intros [b e]. rewrite dgiven_named. fold (sent_of (posts os)). fold (tag c (sent_of (posts os))). rewrite named_tag. simpl.
      destruct (decide (c = b)) as [<-|Hbc].
      - rewrite <- J2, app_length. unfold mails_of, named. lia.
      - assert (b = sv) as -> by (by destruct b, c). rewrite (server_keeps _ _ _ _ e R Q). simpl. lia. }
    pose proof (counted (seen_tag s) (tag c (d_up s c)) (tag c ((fun p => (zed W p, ml_msg (po_mail p))) <$> posts (take i os))) _ n3 T3) as C2.
    unfold seen_tag, tag in C2. rewrite !fmap_length in C2.
    assert (length (d_seen s) + n3 + length (d_up s c) = length (posts (take i os))) as C2'.
    { apply C2. intros [b z]. fold (seen_tag s). fold (tag c (d_up s c)).
      fold (tag c ((fun p => (zed W p, ml_msg (po_mail p))) <$> posts (take i os))).
      rewrite seen_named, !named_tag. destruct (decide (c = b)) as [<-|Hbc].
      - specialize (J7 z). unfold heards in J7. rewrite named_posts, <- J7, !app_length. unfold upz, named. lia.
      - assert (b = sv) as -> by (by destruct b, c). rewrite V3, V4. done. }
    pose proof (posts_take i os).
    rewrite dall_counted. change (dmails_put ls) with (cntl dput ls). change (own_sent ls) with (cntl dself ls). lia.
  - intros Hn. destruct (echo_finishes D c k ps S P Hf Hc _ _ _ Hi R Q A) as (ms & s' & R' & F & F' & Hs & Ha).
    assert (ms = [] /\ s' = s \/ exists l s1, dinner l /\ quietly c l /\ own_reads c (framed ps) s l /\ dstep D s l s1) as [[-> ->]|(l & s1 & K1 & K2 & K3 & K4)];
      [|by split|by destruct (Hn l s1 K1 K2 K3)].
    clear -R' F F'. induction R' as [|ms s1 l s2 R IH Hok St]; [by left|right]. apply Forall_app in F as [F1 F2]. apply Forall_app in F' as [G1 G2].
    inversion F2; subst. inversion G2; subst. destruct (IH F1 G1) as [[-> ->]|?]; [by eexists _, _|done].
Qed.
End ends.
