(** * Property-level facts about UBuf *)
From Verif Require Import GoBase UBufModel UBufSpec UBufProofs UBufHeapProofs.

Lemma reachable_wf b : reachable b -> wf b.
Proof.
  intros (c & r & b0 & ops & Hl & Ha & Ho & <-).
  destruct (alloc_wf c r b0 Ha) as (W & _). destruct (v_run_refines ops b0 W Ho) as (b' & E & W' & _).
  by rewrite E.
Qed.

Lemma reachable_step b o x b' : reachable b -> op_ok o -> v_step o b = Ok x b' -> reachable b'.
Proof.
  intros (c & r & b0 & ops & Hl & Ha & Ho & Hr) Hop Hs.
  exists c, r, b0, (ops ++ [o]). repeat split; try done; try lia.
  { apply Forall_app. by split; [|constructor]. }
  destruct (alloc_wf c r b0 Ha) as (W & _).
  clear Ha Hl. revert b0 W Hr. induction ops as [|o1 ops IH]; intros b0 W Hr; simpl in *.
  - subst. by rewrite Hs.
  - apply Forall_cons_1 in Ho as [Ho1 Ho2].
    destruct (v_step_refines o1 b0 W Ho1) as (b1 & E1 & W1 & _). rewrite E1 in *.
    specialize (IH Ho2 b1 W1).
    destruct (v_run ops b1) as [xs b2] eqn:E2. simpl in *.
    specialize (IH Hr). destruct (v_run (ops ++ [o]) b1). done.
Qed.

(** Result and visible contents after a call on a well-formed buffer. *)
Lemma step_spec o b : wf b -> op_ok o ->
  exists b', v_step o b = Ok (fst (q_step o (absq b))) b' /\ wf b' /\
             v_res b' = q_res (snd (q_step o (absq b))) /\
             v_hlen b' = q_head (snd (q_step o (absq b))) /\
             readable b' = q_data (snd (q_step o (absq b))) /\
             v_tlen b' = q_tail (snd (q_step o (absq b))).
Proof.
  intros W Hop. destruct (v_step_refines o b W Hop) as (b' & E & W' & A).
  exists b'. rewrite <- A. done.
Qed.

Lemma wf_sum b : wf b -> v_hlen b + v_rlen b + v_tlen b = v_cap b.
Proof. intros (H1 & H2 & _). unfold v_hlen, v_rlen, v_tlen. lia. Qed.

(** ** C01, C02 *)
Lemma q_cap_run ops q : Forall op_ok ops ->
  q_res q <= q_cap q -> q_cap (snd (q_run ops q)) = q_cap q /\ q_res (snd (q_run ops q)) = q_res q.
Proof.
  revert q. induction ops as [|o ops IH]; intros q Ho Hr; [done|]. simpl.
  inversion Ho as [|? ? Ho1 Ho2]; subst.
  assert (Hs : q_cap (snd (q_step o q)) = q_cap q /\ q_res (snd (q_step o q)) = q_res q).
  { destruct o as [c|p|o w v|wr| |n|o w|r|n| |o w|c|p|o w v| |]; simpl; unfold q_cap in *.
    - destruct (q_tail q =? 0) eqn:E; cleq; simpl; [done|]. rewrite app_length; simpl. lia.
    - destruct (q_tail q =? 0) eqn:E; cleq; simpl; [done|].
      destruct (length p <=? q_tail q) eqn:E1; cleq; simpl; rewrite app_length, ?take_length; lia.
    - destruct (q_tail q <? wbytes w) eqn:E; cleq; simpl; [done|]. rewrite app_length, enc_length. lia.
    - destruct (q_empty q) eqn:Ed; simpl; [done|].
      specialize (Ho1 (q_data q)). destruct (wr (q_data q)) as [n []]; simpl in *; [done|].
      rewrite drop_length. lia.
    - destruct (q_data q) eqn:Ed; cbn [snd q_head q_data q_tail q_pop q_res]; rewrite Ed; simpl; [done|].
      rewrite drop_0. lia.
    - destruct (q_empty q) eqn:Ed; [done|].
      destruct (n <=? length (q_data q)) eqn:E; cleq; simpl; rewrite drop_length; lia.
    - destruct (length (q_data q) <? wbytes w) eqn:E; cleq; simpl; [done|]. rewrite drop_length. lia.
    - destruct (q_tail q =? 0) eqn:E; cleq; simpl; [done|].
      specialize (Ho1 (q_tail q)). destruct (r (q_tail q)) as [l []]; simpl in *; [done|].
      rewrite app_length. lia.
    - destruct (q_empty q) eqn:Ed; [done|].
      by destruct (n <=? length (q_data q)).
    - destruct (q_data q) eqn:Ed; simpl; by rewrite Ed.
    - by destruct (length (q_data q) <? wbytes w).
    - destruct (q_head q <? 1) eqn:E; cleq; simpl; [done|]. lia.
    - destruct (q_head q <? length p) eqn:E; cleq; simpl; [done|].
      destruct (_ && _ && _); simpl; [done|]. rewrite app_length. lia.
    - destruct (q_head q <? wbytes w) eqn:E; cleq; simpl; [done|]. rewrite app_length, enc_length. lia.
    - unfold q_cap; simpl; lia.
    - done. }
  destruct (q_step o q) as [x q1]. simpl in *. destruct Hs as [H1 H2].
  destruct (IH q1 Ho2 ltac:(lia)) as [H3 H4].
  destruct (q_run ops q1) as [xs q2]. simpl in *. lia.
Qed.

Lemma q_run_length ops q : length (fst (q_run ops q)) = length ops.
Proof.
  revert q. induction ops as [|o ops IH]; intros q; [done|]. simpl.
  destruct (q_step o q) as [x q1]. specialize (IH q1). destruct (q_run ops q1). simpl in *. lia.
Qed.

Lemma deque_refinement c r ops :
  (0 < c /\ 0 <= r <= c)%Z -> Forall op_ok ops ->
  exists b0 b, v_alloc c r = Some b0 /\
    let '(outs, q) := q_run ops (q_new (Z.to_nat c) (Z.to_nat r)) in
    v_run ops b0 = (Some <$> outs, b) /\
    v_hlen b = q_head q /\ readable b = q_data q /\ v_tlen b = q_tail q.
Proof.
  intros Hl Ho. destruct (alloc_some c r Hl) as [b0 Ha].
  destruct (alloc_wf c r b0 Ha) as (W & A & _).
  destruct (v_run_refines ops b0 W Ho) as (b & E & W' & A').
  exists b0, b. split; [done|]. rewrite A in *.
  destruct (q_run ops _) as [outs q]. simpl in *. rewrite E. subst q. done.
Qed.

Lemma space_accounting c r ops :
  (0 < c /\ 0 <= r <= c)%Z -> Forall op_ok ops ->
  exists b0, v_alloc c r = Some b0 /\
    let '(outs, b) := v_run ops b0 in
    length outs = length ops /\ Forall is_Some outs /\
    v_hlen b + v_rlen b + v_tlen b = v_cap b /\ v_rd b <= v_wr b <= v_cap b /\ v_cap b = Z.to_nat c.
Proof.
  intros Hl Ho. destruct (alloc_some c r Hl) as [b0 Ha].
  destruct (alloc_wf c r b0 Ha) as (W & A & _).
  destruct (v_run_refines ops b0 W Ho) as (b & E & W' & A').
  exists b0. split; [done|]. rewrite E.
  pose proof (wf_sum b W') as Hsum. pose proof W' as (H1 & H2 & H3 & H4).
  split; [rewrite fmap_length; apply q_run_length|].
  split; [apply Forall_fmap; apply Forall_true; by eexists|].
  split; [done|]. split; [done|].
  assert (Hc : q_res (absq b0) <= q_cap (absq b0)).
  { rewrite A. unfold q_cap, q_new; simpl. lia. }
  destruct (q_cap_run ops (absq b0) Ho Hc) as [Hcap _]. rewrite <- A' in Hcap.
  unfold q_cap in Hcap. rewrite A in Hcap. simpl in Hcap.
  rewrite (readable_length b W') in Hcap. unfold v_hlen in *. lia.
Qed.

Lemma failure_keeps o b x b' :
  reachable b -> op_ok o -> v_step o b = Ok x b' -> all_or_nothing_failure o x ->
  v_hlen b' = v_hlen b /\ readable b' = readable b /\ v_tlen b' = v_tlen b.
Proof.
  intros Hr Ho Hs Hf. pose proof (reachable_wf b Hr) as W.
  destruct (step_spec o b W Ho) as (b1 & E1 & W1 & S0 & S1 & S2 & S3). rewrite Hs in E1.
  injection E1 as -> ->. rewrite S1, S2, S3.
  destruct o; simpl in *; try done; repeat (case_match; simpl in *; try done).
Qed.

(** ** C03, C04 *)
Lemma digits_be_le n v : rev (le_bytes n v) = digits_be n v.
Proof.
  unfold digits_be. revert v. induction n as [|n IH]; intros v; [done|].
  cbn [le_bytes rev]. rewrite IH. rewrite seq_S, fmap_app. simpl.
  replace (n - 0 - n) with 0 by lia. f_equal.
  - apply list_fmap_ext. intros i x Hx. apply lookup_seq in Hx as [-> Hi]. simpl.
    rewrite Z.div_div by (try lia; apply Z.pow_pos_nonneg; lia).
    f_equal. f_equal. replace (n - 0 - i) with (S (n - 1 - i)) by lia.
    rewrite Nat2Z.inj_succ, Z.pow_succ_r by lia. done.
  - simpl. by rewrite Z.div_1_r.
Qed.
Lemma enc_digits o w v : enc o w v = digits o w v.
Proof.
  destruct o; simpl; unfold be_bytes; rewrite ?digits_be_le; try done.
  rewrite <- digits_be_le. rewrite <- (reverse_involutive (le_bytes _ _)) at 1.
  f_equal. by rewrite <- rev_alt, rev_reverse || (unfold reverse; rewrite <- rev_alt).
Qed.

Lemma tail_run ops q : Forall tail_write ops -> Forall op_ok ops ->
  exists extra, q_data (snd (q_run ops q)) = q_data q ++ extra.
Proof.
  revert q. induction ops as [|o ops IH]; intros q Ht Ho; simpl.
  - exists []. by rewrite app_nil_r.
  - inversion Ht as [|? ? Ht1 Ht2]; inversion Ho as [|? ? Ho1 Ho2]; subst.
    assert (exists e1, q_data (snd (q_step o q)) = q_data q ++ e1) as [e1 E1].
    { destruct o as [c|p|o w v|wr| |n|o w|r|n| |o w|c|p|o w v| |]; simpl in *; try done.
      - destruct (q_tail q =? 0); simpl; [exists []; by rewrite app_nil_r|by eexists].
      - destruct (q_tail q =? 0); simpl; [exists []; by rewrite app_nil_r|].
        destruct (length p <=? q_tail q); simpl; by eexists.
      - destruct (q_tail q <? wbytes w); simpl; [exists []; by rewrite app_nil_r|by eexists].
      - destruct (q_tail q =? 0); simpl; [exists []; by rewrite app_nil_r|].
        destruct (r (q_tail q)) as [l []]; simpl; [exists []; by rewrite app_nil_r|by eexists]. }
    destruct (q_step o q) as [x q1]. simpl in *.
    destruct (IH q1 Ht2 Ho2) as [e2 E2]. destruct (q_run ops q1) as [xs q2]. simpl in *.
    exists (e1 ++ e2). by rewrite E2, E1, app_assoc.
Qed.

Lemma q_run_app ops1 ops2 q :
  q_run (ops1 ++ ops2) q =
  (fst (q_run ops1 q) ++ fst (q_run ops2 (snd (q_run ops1 q))), snd (q_run ops2 (snd (q_run ops1 q)))).
Proof.
  revert q. induction ops1 as [|o ops IH]; intros q; simpl.
  - by destruct (q_run ops2 q).
  - destruct (q_step o q) as [x q1]. rewrite IH. by destruct (q_run ops q1).
Qed.

Lemma roundtrip_tail b o w v ops :
  reachable b -> (0 <= v < wmax w)%Z -> wbytes w <= v_tlen b ->
  Forall tail_write ops -> Forall op_ok ops ->
  exists xs b',
    v_run (OpWriteU o w v :: ops ++ [OpRead (v_rlen b); OpPeekU o w; OpReadU o w]) b
    = (Some (RErr None) :: xs ++ [Some (RBytes (readable b) None); Some (RVal v None); Some (RVal v None)], b')
    /\ length xs = length ops.
Proof.
  intros Hr Hv Hroom Ht Ho. pose proof (reachable_wf b Hr) as W.
  set (all := OpWriteU o w v :: ops ++ [OpRead (v_rlen b); OpPeekU o w; OpReadU o w]).
  assert (Hall : Forall op_ok all).
  { constructor; [done|]. apply Forall_app. split; [done|]. by repeat constructor. }
  destruct (v_run_refines all b W Hall) as (b' & E & _ & _).
  remember (v_run all b) as R eqn:ER. clear ER Hall.
  unfold all in *. clear all. cbn [q_run] in E. cbn [q_step absq q_tail] in E.
  destruct (v_tlen b <? wbytes w) eqn:E0; cleq; [lia|].
  set (q1 := q_append (absq b) (enc o w v)) in *.
  rewrite q_run_app in E.
  destruct (tail_run ops q1 Ht Ho) as [extra Ex].
  pose proof (q_run_length ops q1) as Hlen.
  destruct (q_run ops q1) as [xs q2] eqn:Eq. simpl in Ex, Hlen, E.
  pose proof (readable_length b W) as Lr.
  assert (Hpos : wbytes w > 0) by (destruct w; simpl; lia).
  pose proof (enc_length o w v) as Le.
  assert (Hq2 : q_empty q2 = false).
  { unfold q_empty. rewrite Ex. destruct (readable b); [|done].
    destruct (enc o w v) eqn:X; simpl in Le; [lia|done]. }
  rewrite Hq2 in E.
  assert (L2 : length (q_data q2) = v_rlen b + wbytes w + length extra).
  { rewrite Ex, !app_length. lia. }
  destruct (v_rlen b <=? length (q_data q2)) eqn:E1; cleq; [|lia]. simpl in E.
  assert (Ed : drop (v_rlen b) (q_data q2) = enc o w v ++ extra).
  { rewrite Ex, <- app_assoc, <- Lr. apply drop_app. }
  rewrite Ed in E. rewrite app_length, Le in E.
  destruct (wbytes w + length extra <? wbytes w) eqn:E2; cleq; [lia|].
  simpl in E. rewrite Ed, app_length, Le in E.
  destruct (wbytes w + length extra <? wbytes w) eqn:E3; cleq; [lia|].
  simpl in E.
  rewrite take_app_alt in E by done. rewrite dec_enc in E by done.
  rewrite Ex in E. rewrite <- app_assoc in E. rewrite take_app_alt in E by (by rewrite Lr).
  exists (Some <$> xs), b'. rewrite fmap_length. split; [|done].
  rewrite E. f_equal. f_equal. by rewrite fmap_app.
Qed.

Lemma roundtrip_head b o w v ops :
  reachable b -> (0 <= v < wmax w)%Z -> wbytes w <= v_hlen b ->
  Forall tail_write ops -> Forall op_ok ops ->
  exists xs b',
    v_run (OpHeadU o w v :: ops ++ [OpPeekU o w; OpReadU o w]) b
    = (Some (RErr None) :: xs ++ [Some (RVal v None); Some (RVal v None)], b')
    /\ length xs = length ops.
Proof.
  intros Hr Hv Hroom Ht Ho. pose proof (reachable_wf b Hr) as W.
  set (all := OpHeadU o w v :: ops ++ [OpPeekU o w; OpReadU o w]).
  assert (Hall : Forall op_ok all).
  { constructor; [done|]. apply Forall_app. split; [done|]. by repeat constructor. }
  destruct (v_run_refines all b W Hall) as (b' & E & _ & _).
  remember (v_run all b) as R eqn:ER. clear ER Hall.
  unfold all in *. clear all. cbn [q_run] in E. cbn [q_step absq q_head] in E.
  unfold v_hlen in *.
  destruct (v_rd b <? wbytes w) eqn:E0; cleq; [lia|].
  set (q1 := q_prepend (absq b) (enc o w v)) in *.
  rewrite q_run_app in E.
  destruct (tail_run ops q1 Ht Ho) as [extra Ex].
  pose proof (q_run_length ops q1) as Hlen.
  destruct (q_run ops q1) as [xs q2] eqn:Eq. simpl in Ex, Hlen, E.
  pose proof (enc_length o w v) as Le.
  assert (Ed : q_data q2 = enc o w v ++ readable b ++ extra) by (by rewrite Ex, <- app_assoc).
  rewrite Ed, !app_length, Le in E.
  destruct (wbytes w + (length (readable b) + length extra) <? wbytes w) eqn:E2; cleq; [lia|].
  simpl in E. rewrite Ed, !app_length, Le in E.
  destruct (wbytes w + (length (readable b) + length extra) <? wbytes w) eqn:E3; cleq; [lia|].
  simpl in E. rewrite take_app_alt in E by done. rewrite dec_enc in E by done.
  exists (Some <$> xs), b'. rewrite fmap_length. split; [|done].
  rewrite E. f_equal. f_equal. by rewrite fmap_app.
Qed.

Lemma byte_order b o w v :
  reachable b ->
  (wbytes w <= v_tlen b -> exists b', v_step (OpWriteU o w v) b = Ok (RErr None) b' /\
      readable b' = readable b ++ digits o w v) /\
  (wbytes w <= v_hlen b -> exists b', v_step (OpHeadU o w v) b = Ok (RErr None) b' /\
      readable b' = digits o w v ++ readable b).
Proof.
  intros Hr. pose proof (reachable_wf b Hr) as W. split; intros Hroom.
  - destruct (step_spec (OpWriteU o w v) b W I) as (b' & E & _ & _ & _ & S2 & _).
    cbn [q_step absq q_tail] in *. destruct (v_tlen b <? wbytes w) eqn:E0; cleq; [lia|].
    exists b'. rewrite <- enc_digits. done.
  - destruct (step_spec (OpHeadU o w v) b W I) as (b' & E & _ & _ & _ & S2 & _).
    cbn [q_step absq q_head] in *. unfold v_hlen in *. destruct (v_rd b <? wbytes w) eqn:E0; cleq; [lia|].
    exists b'. rewrite <- enc_digits. done.
Qed.

Lemma fixed_width_fail b o w v :
  reachable b ->
  (v_tlen b < wbytes w -> v_step (OpWriteU o w v) b = Ok (RErr (Some ENoFree)) b) /\
  (v_hlen b < wbytes w -> v_step (OpHeadU o w v) b = Ok (RErr (Some EHead)) b) /\
  (v_rlen b < wbytes w -> v_step (OpReadU o w) b = Ok (RVal 0 (Some ENoData)) b) /\
  (v_rlen b < wbytes w -> v_step (OpPeekU o w) b = Ok (RVal 0 (Some EPeek)) b).
Proof.
  intros Hr. cbn [v_step]. unfold v_writeU, v_headU, v_writehead, v_readU, v_peekU, v_hlen.
  split_and!; intros H.
  - destruct (v_tlen b <? wbytes w) eqn:E; cleq; [done|lia].
  - destruct (v_rd b <? wbytes w) eqn:E; cleq; [done|lia].
  - destruct (v_rlen b <? wbytes w) eqn:E; cleq; [done|lia].
  - destruct (v_rlen b <? wbytes w) eqn:E; cleq; [done|lia].
Qed.

Lemma fixed_width_ok b o w v :
  reachable b ->
  (wbytes w <= v_tlen b -> exists b', v_step (OpWriteU o w v) b = Ok (RErr None) b' /\
      readable b' = readable b ++ digits o w v /\ v_hlen b' = v_hlen b /\ v_tlen b' = v_tlen b - wbytes w) /\
  (wbytes w <= v_hlen b -> exists b', v_step (OpHeadU o w v) b = Ok (RErr None) b' /\
      readable b' = digits o w v ++ readable b /\ v_hlen b' = v_hlen b - wbytes w /\ v_tlen b' = v_tlen b) /\
  (wbytes w <= v_rlen b -> exists x b', v_step (OpReadU o w) b = Ok (RVal x None) b' /\
      (Forall byte_ok (readable b) -> readable b = digits o w x ++ readable b') /\
      readable b' = drop (wbytes w) (readable b) /\
      v_hlen b' = v_hlen b + wbytes w /\ v_tlen b' = v_tlen b) /\
  (wbytes w <= v_rlen b -> exists x, v_step (OpPeekU o w) b = Ok (RVal x None) b /\
      (Forall byte_ok (readable b) -> digits o w x = take (wbytes w) (readable b))).
Proof.
  intros Hr. pose proof (reachable_wf b Hr) as W. pose proof (readable_length b W) as Lr.
  split_and!; intros Hroom.
  - destruct (step_spec (OpWriteU o w v) b W I) as (b' & E & _ & _ & S1 & S2 & S3).
    cbn [q_step absq q_tail] in *. destruct (v_tlen b <? wbytes w) eqn:E0; cleq; [lia|].
    exists b'. rewrite <- enc_digits. simpl in *. rewrite enc_length in S3. done.
  - destruct (step_spec (OpHeadU o w v) b W I) as (b' & E & _ & _ & S1 & S2 & S3).
    cbn [q_step absq q_head] in *. unfold v_hlen in *. destruct (v_rd b <? wbytes w) eqn:E0; cleq; [lia|].
    exists b'. rewrite <- enc_digits. simpl in *. rewrite enc_length in S1. done.
  - destruct (step_spec (OpReadU o w) b W I) as (b' & E & _ & _ & S1 & S2 & S3).
    cbn [q_step absq q_data] in *. rewrite Lr in *.
    destruct (v_rlen b <? wbytes w) eqn:E0; cleq; [lia|]. simpl in *.
    eexists _, b'. split; [exact E|]. split; [|done].
    intros Hb. rewrite <- enc_digits, enc_dec, S2.
    + by rewrite take_drop.
    + by apply Forall_take.
    + rewrite take_length. lia.
  - cbn [v_step]. unfold v_peekU. destruct (v_rlen b <? wbytes w) eqn:E; cleq; [lia|].
    rewrite (s_range_prefix b (wbytes w) W E). simpl. eexists. split; [done|].
    intros Hb. rewrite <- enc_digits, enc_dec; [done|by apply Forall_take|].
    rewrite take_length. lia.
Qed.

(** ** C05 *)
Lemma head_write b p :
  reachable b ->
  (length p <= v_hlen b -> (p <> [] \/ 0 < v_rlen b + v_tlen b) ->
     exists b', v_step (OpHeadBytes p) b = Ok (RErr None) b' /\ readable b' = p ++ readable b /\
                v_hlen b' = v_hlen b - length p /\ v_tlen b' = v_tlen b) /\
  (length p <= v_hlen b -> p = [] -> v_rlen b + v_tlen b = 0 ->
     v_step (OpHeadBytes p) b = Ok (RErr (Some EFull)) b) /\
  (v_hlen b < length p -> v_step (OpHeadBytes p) b = Ok (RErr (Some EHead)) b).
Proof.
  intros Hr. pose proof (reachable_wf b Hr) as W. pose proof (readable_length b W) as Lr.
  pose proof W as (H1 & H2 & H3 & H4).
  split_and!.
  - intros Hroom Hne.
    destruct (step_spec (OpHeadBytes p) b W I) as (b' & E & _ & _ & S1 & S2 & S3).
    cbn [q_step absq q_head q_tail] in *. unfold v_hlen in *.
    destruct (v_rd b <? length p) eqn:E0; cleq; [lia|].
    rewrite (q_empty_len b W) in *.
    destruct ((length p =? 0) && (v_rlen b =? 0) && (v_tlen b =? 0)) eqn:E1; simpl in *.
    { apply andb_prop in E1 as [E1 E3]. apply andb_prop in E1 as [E1 E2]. cleq.
      apply nil_length_inv in E1. destruct Hne; [done|lia]. }
    exists b'. done.
  - intros _ -> H0. cbn [v_step]. unfold v_headbytes, v_writehead; simpl.
    destruct (v_rd b <? 0) eqn:E; cleq; [lia|]. rewrite Nat.sub_0_r.
    unfold v_write_err, v_write, v_tlen, set_wr; simpl. unfold v_cap at 1; simpl. fold (v_cap b).
    unfold v_rlen, v_tlen in *. destruct (v_cap b - v_rd b =? 0) eqn:E2; cleq; [|lia].
    simpl. f_equal. by destruct b.
  - intros Hlt. cbn [v_step]. unfold v_headbytes, v_writehead, v_hlen in *.
    destruct (v_rd b <? length p) eqn:E; cleq; [done|lia].
Qed.

Lemma head_write_byte b c :
  reachable b ->
  (1 <= v_hlen b -> exists b', v_step (OpHeadByte c) b = Ok (RErr None) b' /\ readable b' = c :: readable b /\
                v_hlen b' = v_hlen b - 1 /\ v_tlen b' = v_tlen b) /\
  (v_hlen b = 0 -> v_step (OpHeadByte c) b = Ok (RErr (Some EHead)) b).
Proof.
  intros Hr. pose proof (reachable_wf b Hr) as W. split.
  - intros Hroom. destruct (step_spec (OpHeadByte c) b W I) as (b' & E & _ & _ & S1 & S2 & S3).
    cbn [q_step absq q_head] in *. unfold v_hlen in *.
    destruct (v_rd b <? 1) eqn:E0; cleq; [lia|]. exists b'. done.
  - intros H. cbn [v_step]. unfold v_headbyte, v_writehead, v_hlen in *.
    destruct (v_rd b <? 1) eqn:E; cleq; [done|lia].
Qed.

(** ** C06, C07 *)
Lemma write_counts b p :
  reachable b ->
  exists n e b', v_step (OpWrite p) b = Ok (RCount n e) b' /\
    n = Nat.min (length p) (v_tlen b) /\ readable b' = readable b ++ take n p /\
    v_hlen b' = v_hlen b /\ v_tlen b' = v_tlen b - n /\
    (v_tlen b <> 0 -> (e = None <-> n = length p)) /\ (v_tlen b = 0 -> e <> None).
Proof.
  intros Hr. pose proof (reachable_wf b Hr) as W.
  destruct (step_spec (OpWrite p) b W I) as (b' & E & _ & _ & S1 & S2 & S3).
  cbn [q_step absq q_tail] in *. unfold v_hlen in *.
  destruct (v_tlen b =? 0) eqn:E0; cleq; simpl in *.
  - exists 0, (Some EFull), b'. rewrite app_nil_r. split_and!; try done; try lia.
  - destruct (length p <=? v_tlen b) eqn:E1; cleq; simpl in *.
    + exists (length p), None, b'. rewrite firstn_all. split_and!; try done; try lia.
    + exists (v_tlen b), (Some EPartial), b'.
      rewrite take_length in S3. split_and!; try done; try lia.
      intros _. split; [done|lia].
Qed.

Lemma read_counts b n :
  reachable b ->
  exists e b', v_step (OpRead n) b = Ok (RBytes (take n (readable b)) e) b' /\
    readable b' = drop n (readable b) /\
    v_hlen b' = v_hlen b + length (take n (readable b)) /\ v_tlen b' = v_tlen b /\
    (readable b <> [] -> (e = None <-> n <= length (readable b))) /\ (readable b = [] -> e = None).
Proof.
  intros Hr. pose proof (reachable_wf b Hr) as W.
  destruct (step_spec (OpRead n) b W I) as (b' & E & _ & _ & S1 & S2 & S3).
  cbn [q_step] in *. unfold q_empty in *. cbn [absq q_data] in *. unfold v_hlen in *.
  destruct (readable b) as [|x l] eqn:El.
  - exists None, b'. rewrite take_nil, drop_nil. simpl in *. rewrite El in S2. split_and!; try done; lia.
  - rewrite <- El in E, S1, S2, S3 |- *.
    destruct (n <=? length (readable b)) eqn:E1; cleq; simpl in *.
    + exists None, b'. rewrite take_length. split_and!; try done; try lia.
    + exists (Some ENoMoreRead), b'. rewrite take_ge, drop_ge by lia.
      rewrite drop_all in S2. split_and!; try done; try lia.
      { intros _. split; [done|lia]. }
      by rewrite El.
Qed.

Lemma peek_counts b n :
  reachable b ->
  exists e, v_step (OpPeek n) b = Ok (RBytes (take n (readable b)) e) b /\
    (readable b <> [] -> (e = None <-> n <= length (readable b))) /\ (readable b = [] -> e <> None).
Proof.
  intros Hr. pose proof (reachable_wf b Hr) as W. pose proof (readable_length b W) as Lr.
  cbn [v_step]. unfold v_peek.
  destruct (v_rlen b =? 0) eqn:E; cleq.
  - assert (readable b = []) as E0 by (apply nil_length_inv; lia).
    exists (Some EPeek). simpl. rewrite E0, take_nil. done.
  - rewrite (s_from_rd b W). rewrite take_app_le by lia.
    assert (Ht : take (v_rlen b `min` n) (readable b) = take n (readable b)).
    { destruct (Nat.le_gt_cases n (v_rlen b)); [f_equal; lia|]. rewrite !take_ge by lia. done. }
    rewrite Ht. simpl. eexists. split; [reflexivity|]. split.
    + intros _. rewrite take_length.
      destruct (n `min` length (readable b) <? n) eqn:E1; cleq; split; intros; try done; lia.
    + intros H0. rewrite H0 in Lr. simpl in Lr. lia.
Qed.

Lemma writeto_accounts b (wr : writer) :
  reachable b -> (forall l, fst (wr l) <= length l) ->
  (readable b = [] -> v_step (OpWriteTo wr) b = Ok (ROffer None 0 None) b) /\
  (readable b <> [] ->
     let n := fst (wr (readable b)) in
     if snd (wr (readable b))
     then v_step (OpWriteTo wr) b = Ok (ROffer (Some (readable b)) n (Some EIO)) b
     else exists b', v_step (OpWriteTo wr) b = Ok (ROffer (Some (readable b)) n None) b' /\
          readable b' = drop n (readable b) /\ v_hlen b' = v_hlen b + n /\ v_tlen b' = v_tlen b).
Proof.
  intros Hr Hok. pose proof (reachable_wf b Hr) as W. pose proof (readable_length b W) as Lr.
  cbn [v_step]. unfold v_writeto. split.
  - intros E. rewrite E in Lr. simpl in Lr. rewrite <- Lr. done.
  - intros E. destruct (v_rlen b =? 0) eqn:E0; cleq.
    { destruct E. apply nil_length_inv. lia. }
    rewrite (s_range_rdwr b W). specialize (Hok (readable b)).
    destruct (wr (readable b)) as [n failed]. simpl in *. destruct failed; [done|].
    destruct (pop_spec b n W ltac:(lia)) as [W' A].
    eexists; split; [reflexivity|].
    change (readable (set_rd b (v_rd b + n))) with (q_data (absq (set_rd b (v_rd b + n)))).
    rewrite A. done.
Qed.

Lemma readfrom_accounts b (r : reader) :
  reachable b -> (forall n, length (fst (r n)) <= n) ->
  (v_tlen b = 0 -> v_step (OpReadFrom r) b = Ok (RCount 0 None) b) /\
  (v_tlen b <> 0 ->
     let l := fst (r (v_tlen b)) in
     exists b', (if snd (r (v_tlen b))
       then v_step (OpReadFrom r) b = Ok (RCount 0 (Some EIO)) b' /\ readable b' = readable b /\ v_tlen b' = v_tlen b
       else v_step (OpReadFrom r) b = Ok (RCount (length l) None) b' /\ readable b' = readable b ++ l
            /\ v_tlen b' = v_tlen b - length l) /\ v_hlen b' = v_hlen b /\ length l <= v_tlen b).
Proof.
  intros Hr Hok. pose proof (reachable_wf b Hr) as W. split.
  - intros E. cbn [v_step]. unfold v_readfrom. by rewrite E.
  - intros E. destruct (step_spec (OpReadFrom r) b W Hok) as (b' & E1 & _ & _ & S1 & S2 & S3).
    cbn [q_step absq q_tail] in *. destruct (v_tlen b =? 0) eqn:E0; cleq; [done|].
    specialize (Hok (v_tlen b)). exists b'.
    destruct (r (v_tlen b)) as [l failed]. simpl in *. destruct failed; simpl in *; done.
Qed.

(** ** C13 *)
Lemma from_nil data r :
  v_from data r = None <-> data = None \/ exists s, data = Some s /\
     (scap s = 0 \/ (r < 0)%Z \/ (Z.of_nat (scap s) < r)%Z).
Proof.
  destruct data as [s|]; simpl; [|split; [by left|done]].
  destruct ((Z.of_nat (scap s) <=? 0) || (r <? 0) || (r >? Z.of_nat (scap s)))%Z eqn:E.
  - split; [|done]. intros _. right. exists s. split; [done|].
    rewrite !orb_true_iff, Z.leb_le, Z.ltb_lt, Z.gtb_lt in E. lia.
  - split; [done|]. intros [|(s' & [= <-] & H)]; [done|].
    apply orb_false_iff in E as [E E3]. apply orb_false_iff in E as [E1 E2].
    apply Z.leb_gt in E1. apply Z.ltb_ge in E2. rewrite Z.gtb_ltb in E3. apply Z.ltb_ge in E3. lia.
Qed.

Lemma from_storage s r b : v_from (Some s) r = Some b ->
  v_st b = s /\ v_cap b = scap s /\ v_hlen b = Z.to_nat r /\ readable b = [] /\ v_tlen b = scap s - Z.to_nat r.
Proof.
  simpl. destruct (_ || _ || _)%Z; [done|]. intros [= <-]. split_and!; try done.
  unfold readable, v_rlen; simpl. by rewrite Nat.sub_diag.
Qed.

Lemma from_full_wf s r b : v_from (Some s) r = Some b -> blen s = scap s -> wf b.
Proof.
  intros H Hl. simpl in H.
  destruct ((Z.of_nat (scap s) <=? 0) || (r <? 0) || (r >? Z.of_nat (scap s)))%Z eqn:E; [done|].
  apply orb_false_iff in E as [E E3]. apply orb_false_iff in E as [E1 E2].
  apply Z.leb_gt in E1. apply Z.ltb_ge in E2. rewrite Z.gtb_ltb in E3. apply Z.ltb_ge in E3.
  injection H as <-. unfold wf, v_cap; simpl. lia.
Qed.

Lemma from_full_refines s r b ops : v_from (Some s) r = Some b -> blen s = scap s -> Forall op_ok ops ->
  exists b', let '(outs, q) := q_run ops (q_new (scap s) (Z.to_nat r)) in
    v_run ops b = (Some <$> outs, b') /\ v_hlen b' = q_head q /\ readable b' = q_data q /\ v_tlen b' = q_tail q.
Proof.
  intros H Hl Ho. pose proof (from_full_wf s r b H Hl) as W.
  destruct (from_storage s r b H) as (H1 & H2 & H3 & H4 & H5).
  assert (A : absq b = q_new (scap s) (Z.to_nat r)).
  { unfold absq, q_new. rewrite H4, H5. unfold v_hlen in H3. rewrite H3. f_equal.
    simpl in H. destruct (_ || _ || _)%Z; [done|]. by injection H as <-. }
  destruct (v_run_refines ops b W Ho) as (b' & E & W' & A').
  exists b'. rewrite A in *. destruct (q_run ops _) as [outs q]. simpl in *. subst q. done.
Qed.

Lemma from_short_panics s r b c :
  v_from (Some s) r = Some b -> blen s <= v_hlen b -> v_hlen b < scap s ->
  exists b', v_step (OpWriteByte c) b = Panic b'.
Proof.
  intros H Hlt Hc. destruct (from_storage s r b H) as (H1 & H2 & H3 & H4 & H5).
  assert (E : v_wr b = v_rd b).
  { simpl in H. destruct (_ || _ || _)%Z; [done|]. by injection H as <-. }
  cbn [v_step]. unfold v_writebyte. unfold v_hlen in *.
  destruct (v_tlen b =? 0) eqn:E0; cleq; [lia|].
  unfold v_writebyte_body, s_set. rewrite H1, E.
  destruct (v_rd b <? blen s) eqn:E1; cleq; [lia|]. by eexists.
Qed.

Lemma from_short_write s r b p :
  v_from (Some s) r = Some b -> v_hlen b <= blen s -> blen s < scap s -> length p = v_tlen b ->
  exists b', v_step (OpWrite p) b = Ok (RCount (blen s - v_hlen b) (Some EPartial)) b'.
Proof.
  intros H Hlt Hc Hp. destruct (from_storage s r b H) as (H1 & H2 & H3 & H4 & H5).
  assert (E : v_wr b = v_rd b).
  { simpl in H. destruct (_ || _ || _)%Z; [done|]. by injection H as <-. }
  cbn [v_step]. unfold v_write. unfold v_hlen in *.
  destruct (v_tlen b =? 0) eqn:E0; cleq; [lia|].
  unfold v_write_body, s_from. rewrite H1, E.
  destruct (v_rd b <=? blen s) eqn:E1; cleq; [|lia]. simpl.
  rewrite take_length, drop_length. unfold scap in *.
  eexists. f_equal. f_equal; [lia|].
  match goal with |- context [?x <? ?y] => destruct (x <? y) eqn:E2 end; cleq; [done|lia].
Qed.

(** ** C14 *)
Lemma readfull_terminates b n :
  reachable b -> 0 < v_rlen b ->
  exists b', v_readfull 1 n [] b = Some (Ok (take n (readable b), negb (n <=? v_rlen b)) b') /\
             readable b' = drop n (readable b).
Proof.
  intros Hr Hpos. pose proof (reachable_wf b Hr) as W. pose proof (readable_length b W) as Lr.
  destruct (Nat.eq_dec n 0) as [->|Hn].
  { exists b. by rewrite drop_0. }
  destruct (Nat.le_gt_cases n (v_rlen b)) as [Hle|Hgt].
  - rewrite (v_readfull_enough b n 1 []) by (try done; lia).
    eexists. split.
    + simpl. f_equal. f_equal. f_equal. by rewrite (proj2 (Nat.leb_le n (v_rlen b)) Hle).
    + destruct (pop_spec b n W ltac:(lia)) as [_ A].
      change (readable (set_rd b (v_rd b + n))) with (q_data (absq (set_rd b (v_rd b + n)))). by rewrite A.
  - cbn [v_readfull]. destruct (n =? 0) eqn:E0; cleq; [done|].
    destruct (read_counts b n Hr) as (e & b' & E & S2 & _ & _ & He & _).
    cbn [v_step] in E. destruct (v_read n b) as [[l e'] b''|]; simpl in E; [|done].
    injection E as -> -> ->.
    rewrite take_ge by lia.
    destruct (length (readable b) =? n) eqn:E1; cleq; [lia|].
    destruct e as [e|].
    + exists b'. simpl. split; [|done]. f_equal. f_equal. f_equal.
      destruct (n <=? v_rlen b) eqn:E2; cleq; [lia|done].
    + exfalso. assert (readable b <> []) as Hne by (intros X; rewrite X in Lr; simpl in Lr; lia).
      apply He in Hne. destruct Hne as [Hne _]. specialize (Hne eq_refl). lia.
Qed.

Lemma readfull_spins b n fuel : reachable b -> v_rlen b = 0 -> 0 < n -> v_readfull fuel n [] b = None.
Proof.
  intros Hr H0 Hn. revert n Hn. induction fuel as [|fuel IH]; intros n Hn; simpl.
  - destruct (n =? 0) eqn:E; cleq; [lia|done].
  - destruct (n =? 0) eqn:E; cleq; [lia|]. unfold v_read. rewrite H0. simpl.
    destruct n; [lia|]. simpl. apply IH. lia.
Qed.
