(** * Proofs about the frame decoder *)
From Verif Require Import GoBase UBufModel UBufSpec UBufProofs UBufHeapProofs UBufFacts FrameModel FrameSpec.

Lemma v_read_wf n b : wf b -> v_rlen b <> 0 ->
  v_read n b = Ok (take n (readable b), if v_rlen b <? n then Some ENoMoreRead else None)
                  (set_rd b (v_rd b + Nat.min n (v_rlen b))).
Proof.
  intros W H. unfold v_read. destruct (v_rlen b =? 0) eqn:E; cleq; [lia|].
  rewrite (s_from_rd b W). pose proof (readable_length b W) as L.
  assert (take (v_rlen b `min` n) (readable b ++ drop (v_wr b) (arr (v_st b))) = take n (readable b)) as ->.
  { destruct (Nat.le_ge_cases n (v_rlen b)).
    - rewrite Nat.min_r by lia. by rewrite take_app_le by lia.
    - rewrite Nat.min_l by lia. rewrite take_app_le by lia. rewrite !take_ge by lia. done. }
  rewrite take_length, L.
  destruct (v_rlen b <? n) eqn:E1; cleq.
  - rewrite Nat.min_r by lia. by rewrite (proj2 (Nat.ltb_lt _ _)) by lia.
  - rewrite Nat.min_l by lia. by rewrite Nat.ltb_irrefl.
Qed.

(** What a cache accepts from [d]: everything up to its room, or nothing. *)
Definition accepted (room : nat) (d : list byte) : list byte :=
  if room <=? length d then take room d else [].

Lemma body_ok l want c : wf c -> length l <= v_tlen c ->
  exists c', v_readfrom_body (fun _ => (l, want)) c = Ok (if want then (0, Some EIO) else (length l, None)) c' /\
   wf c' /\ v_res c' = v_res c /\ v_rd c' = v_rd c /\ v_cap c' = v_cap c /\
   readable c' = (if want then readable c else readable c ++ l).
Proof.
  intros W H. pose proof (v_step_refines (OpReadFrom (fun _ => (take (v_tlen c) l, want))) c W) as R.
  unfold v_readfrom_body. destruct (s_from_wr c W) as (dst & -> & Ld). cbv zeta.
  destruct (append_spec c l W H) as [W1 A1].
  assert (v_cap (set_st c (Store (splice (arr (v_st c)) (v_wr c) l) (blen (v_st c)))) = v_cap c) as Hc.
  { unfold v_cap, scap; simpl. apply splice_length. unfold v_tlen, v_cap, scap in H.
    destruct W as (? & ? & ?). unfold v_cap, scap in *. lia. }
  clear R. destruct want.
  - eexists; split; [reflexivity|]. destruct W as (H1 & H2 & H3 & H4).
    split; [|split; [done|split; [done|split; [done|]]]].
    + unfold wf. rewrite Hc. simpl. lia.
    + unfold absq, q_append in A1. injection A1 as A1 _. simpl in A1.
      destruct (split_arr c) as (hd & tl & Ea & Lh & Lt); [done|].
      assert (Lr : length (readable c) = v_rlen c) by (apply readable_length; done).
      unfold set_st. cbn [v_res v_rd v_wr v_st arr blen].
      eapply (readable_eq _ _ _ _ _ hd _ (l ++ drop (length l) tl)); [|lia|unfold v_rlen in *; lia].
      rewrite Ea at 1. replace (v_wr c) with (length hd + length (readable c)) by (unfold v_rlen in *; lia).
      rewrite splice_app by lia. by rewrite <- ?app_assoc.
  - eexists; split; [reflexivity|]. split; [done|]. split; [done|]. split; [done|]. split; [done|].
    injection A1 as A1 _. simpl in A1. exact A1.
Qed.

Lemma ub_readfrom_spec c u : wf c -> wf u ->
  exists x c' u', ub_readfrom None c u = Ok x (c', u') /\ wf c' /\ v_res c' = v_res c /\
   v_rd c' = v_rd c /\ v_cap c' = v_cap c /\
   readable c' = readable c ++ accepted (v_tlen c) (readable u).
Proof.
  intros Wc Wu. unfold ub_readfrom, accepted. rewrite (readable_length u Wu).
  destruct (v_tlen c =? 0) eqn:E; cleq.
  - rewrite E. simpl. rewrite take_0, app_nil_r. by eexists _, c, u.
  - destruct (v_rlen u =? 0) eqn:E0; cleq.
    + assert (v_read (v_tlen c) u = Ok ([], None) u) as -> by (unfold v_read; by rewrite E0).
      destruct (body_ok [] false c Wc ltac:(simpl; lia)) as (c' & -> & W' & H1 & H2 & H3 & H4).
      rewrite E0. destruct (v_tlen c) eqn:E1; [lia|]. simpl in *.
      by eexists _, c', u.
    + rewrite v_read_wf by done. pose proof (readable_length u Wu) as L.
      edestruct (body_ok (take (v_tlen c) (readable u))) as (c' & Eb & W' & H1 & H2 & H3 & H4).
      { exact Wc. } { rewrite take_length. lia. }
      rewrite Eb.
      eexists _, c', _. split; [reflexivity|]. repeat (split; [done|]).
      rewrite H4. destruct (v_rlen u <? v_tlen c) eqn:E1, (v_tlen c <=? v_rlen u) eqn:E2; cleq; try lia; try done.
      by rewrite app_nil_r.
Qed.

Lemma announced_dec d : 4 <= length d -> dec BE (take 4 d) = announced d.
Proof.
  intros H. destruct d as [|a [|b [|c [|e d]]]]; simpl in H; try lia.
  unfold byte in *. unfold dec, be_val, announced. simpl rev. unfold le_val. simpl app.
  rewrite Z.mul_0_r, Z.add_0_r. nia.
Qed.

Lemma v_peekU_wf b : wf b -> 4 <= v_rlen b -> v_peekU BE W32 b = Ok (announced (readable b), None) b.
Proof.
  intros W H. unfold v_peekU. cbn [wbytes]. destruct (v_rlen b <? 4) eqn:E; cleq; [lia|].
  rewrite (s_range_prefix b 4 W H). rewrite announced_dec; [done|]. rewrite (readable_length b W). done.
Qed.

Lemma v_readU_wf b : wf b -> 4 <= v_rlen b ->
  v_readU BE W32 b = Ok (announced (readable b), None) (set_rd b (v_rd b + 4)).
Proof.
  intros W H. unfold v_readU. cbn [wbytes]. destruct (v_rlen b <? 4) eqn:E; cleq; [lia|].
  rewrite (v_readfull_enough b 4 1 [] W) by lia. cbn [app].
  rewrite announced_dec; [done|]. by rewrite (readable_length b W).
Qed.

Lemma fd_cut_spec L u : wf u -> 4 <= v_rlen u ->
  let d := readable u in
  if (L <=? 0)%Z then fd_cut L u = None
  else exists u', wf u' /\ v_res u' = v_res u /\ v_cap u' = v_cap u /\ v_tlen u' = v_tlen u /\
    if (4 + L <=? Z.of_nat (length d))%Z
    then exists nb, fd_cut L u = Some (Some nb, u') /\ wf nb /\
           readable nb = take (Z.to_nat L) (drop 4 d) /\ readable u' = drop (4 + Z.to_nat L) d
    else fd_cut L u = Some (None, u').
Proof.
  intros W H4 d. assert (Ld : length d = v_rlen u) by (by apply readable_length).
  unfold fd_cut. destruct (L <=? 0)%Z eqn:E.
  { unfold v_alloc. by rewrite E. }
  apply Z.leb_gt in E.
  destruct (alloc_some L 0) as (nb & Ea); [lia|]. rewrite Ea.
  destruct (alloc_wf _ _ _ Ea) as (Wn & An & _). unfold q_new in An. injection An as A1 A2 A3 A4.
  rewrite (v_readU_wf u W H4).
  destruct (pop_spec u 4 W H4) as [W1 A]. unfold absq, q_pop in A. injection A as A5.
  set (u1 := set_rd u (v_rd u + 4)) in *.
  assert (R1 : v_rlen u1 = v_rlen u - 4) by (unfold u1, set_rd, v_rlen; simpl; lia).
  simpl in A4. rewrite Nat.sub_0_r in A4.
  unfold ub_copyn, ub_readfrom. destruct (v_tlen nb =? 0) eqn:E1; cleq; [lia|].
  assert (Z.to_nat L `min` v_tlen nb = Z.to_nat L) as -> by lia.
  destruct (v_rlen u1 =? 0) eqn:E2; cleq.
  - assert (v_read (Z.to_nat L) u1 = Ok ([], None) u1) as -> by (unfold v_read; by rewrite E2).
    destruct (body_ok [] false nb Wn ltac:(simpl; lia)) as (c' & -> & _).
    cbn [length]. destruct (0 =? Z.to_nat L) eqn:E3; cleq; [lia|].
    exists u1. repeat (split; [done|]).
    destruct (_ <=? _)%Z eqn:E4; [apply Z.leb_le in E4; lia|done].
  - rewrite (v_read_wf _ u1 W1 E2).
    destruct (pop_spec u1 (Z.to_nat L `min` v_rlen u1) W1 ltac:(lia)) as [W2 A'].
    unfold absq, q_pop in A'. injection A' as A7.
    set (u2 := set_rd u1 _) in *.
    edestruct (body_ok (take (Z.to_nat L) (readable u1))) as (c' & Eb & Wc' & _ & _ & _ & Rc').
    { exact Wn. } { rewrite take_length. lia. }
    rewrite Eb. exists u2. split; [done|]. split; [done|]. split; [done|]. split; [done|].
    destruct (_ <=? _)%Z eqn:E4; [apply Z.leb_le in E4|apply Z.leb_gt in E4].
    + destruct (v_rlen u1 <? Z.to_nat L) eqn:E5; cleq; [lia|].
      rewrite take_length, (readable_length u1 W1).
      destruct (_ =? _) eqn:E6; cleq; [|lia].
      exists c'. split; [done|]. split; [done|].
      rewrite Rc', A3, A5. simpl. split; [done|].
      rewrite A7. simpl. rewrite A5. simpl. rewrite drop_drop. f_equal. lia.
    + destruct (v_rlen u1 <? Z.to_nat L) eqn:E5; cleq; [done|lia].
Qed.

(** ** One iteration over the chunk *)
Lemma cur_step_spec c u : wf c -> wf u -> (Z.of_nat (v_rlen u) < 2^32)%Z ->
  let d := readable u in let n := Z.of_nat (length d) in
  if (length d <? 4) || (n <? announced d)%Z then
    exists c' u', fd_cur_step c u = (FdStop, c', u') /\ wf c' /\ v_res c' = v_res c /\ v_rd c' = v_rd c /\
      v_cap c' = v_cap c /\ readable c' = readable c ++ accepted (v_tlen c) d
  else if (announced d =? n)%Z then
    exists u', fd_cur_step c u = (FdLast, c, u') /\ wf u' /\ readable u' = drop 4 d
  else if (announced d <=? 0)%Z then fd_cur_step c u = (FdPanic, c, u)
  else if (4 + announced d <=? n)%Z then
    exists nb u', fd_cur_step c u = (FdNew nb, c, u') /\ wf nb /\ wf u' /\
      readable nb = take (Z.to_nat (announced d)) (drop 4 d) /\
      readable u' = drop (4 + Z.to_nat (announced d)) d
  else exists u', fd_cur_step c u = (FdStop, v_reset c, u').
Proof.
  intros Wc Wu Hs d n. assert (Ld : length d = v_rlen u) by (by apply readable_length).
  unfold fd_cur_step. rewrite <- Ld.
  destruct (length d <? 4) eqn:E; cleq; cbn [orb].
  { destruct (ub_readfrom_spec c u Wc Wu) as (x & c' & u' & -> & H). by exists c', u'. }
  rewrite v_peekU_wf by (done || lia). fold d.
  rewrite Z.mod_small by lia. fold n. rewrite Z.gtb_ltb.
  destruct (n <? announced d)%Z eqn:E1.
  { destruct (ub_readfrom_spec c u Wc Wu) as (x & c' & u' & -> & H). by exists c', u'. }
  destruct (announced d =? n)%Z eqn:E2.
  { rewrite v_readU_wf by (done || lia). destruct (pop_spec u 4 Wu ltac:(lia)) as [W A].
    injection A as A. exists (set_rd u (v_rd u + 4)). done. }
  pose proof (fd_cut_spec (announced d) u Wu ltac:(lia)) as C. cbv zeta in C. fold d in C. fold n in C.
  destruct (announced d <=? 0)%Z eqn:E3.
  { rewrite C. done. }
  destruct C as (u' & Wu' & _ & _ & _ & C).
  destruct (4 + announced d <=? n)%Z eqn:E4.
  - destruct C as (nb & -> & Wn & R1 & R2). by exists nb, u'.
  - rewrite C. by exists u'.
Qed.

Lemma cached_step_spec c : wf c ->
  let d := readable c in let n := Z.of_nat (length d) in
  if length d =? 0 then fd_cached_step c = (FdStop, v_reset c)
  else if (length d <? 4) || (n <? announced d)%Z then fd_cached_step c = (FdStop, c)
  else if (announced d <=? 0)%Z then fd_cached_step c = (FdPanic, c)
  else exists c', wf c' /\ v_res c' = v_res c /\ v_cap c' = v_cap c /\ v_tlen c' = v_tlen c /\
    if (4 + announced d <=? n)%Z then
      exists nb, fd_cached_step c = (FdNew nb, c') /\ wf nb /\
        readable nb = take (Z.to_nat (announced d)) (drop 4 d) /\
        readable c' = drop (4 + Z.to_nat (announced d)) d
    else fd_cached_step c = (FdStop, v_reset c').
Proof.
  intros W d n. assert (Ld : length d = v_rlen c) by (by apply readable_length).
  unfold fd_cached_step. rewrite <- Ld.
  destruct (length d =? 0) eqn:E0; [done|].
  destruct (length d <? 4) eqn:E; cleq; cbn [orb]; [done|].
  rewrite v_peekU_wf by (done || lia). fold d. fold n.
  destruct (n <? announced d)%Z eqn:E1; [done|].
  pose proof (fd_cut_spec (announced d) c W ltac:(lia)) as C. cbv zeta in C. fold d in C. fold n in C.
  destruct (announced d <=? 0)%Z eqn:E3.
  { by rewrite C. }
  destruct C as (c' & W' & H1 & H2 & H3 & C). exists c'. repeat (split; [done|]).
  destruct (4 + announced d <=? n)%Z eqn:E4.
  - destruct C as (nb & -> & Wn & R1 & R2). by exists nb.
  - by rewrite C.
Qed.

(** ** The specification relation *)
Lemma digits_announced v l : (0 <= v < 2^32)%Z -> announced (digits BE W32 v ++ l) = v.
Proof.
  intros H. rewrite <- enc_digits. rewrite <- announced_dec.
  - rewrite take_app_le by (rewrite enc_length; done).
    rewrite take_ge by (rewrite enc_length; done). by apply dec_enc.
  - rewrite app_length, enc_length. simpl. lia.
Qed.
Lemma digits_length o w v : length (digits o w v) = wbytes w.
Proof. rewrite <- enc_digits. apply enc_length. Qed.

Lemma frame_announced p l : (Z.of_nat (length p) < 2^32)%Z ->
  announced (frame p ++ l) = Z.of_nat (length p).
Proof. intros H. unfold frame. rewrite <- app_assoc. apply digits_announced. lia. Qed.
Lemma frame_length p : length (frame p) = 4 + length p.
Proof. unfold frame. by rewrite app_length, digits_length. Qed.
Lemma frame_drop4 p l : drop 4 (frame p ++ l) = p ++ l.
Proof.
  unfold frame. rewrite <- app_assoc. pose proof (digits_length BE W32 (Z.of_nat (length p))) as L.
  change (wbytes W32) with 4 in L. rewrite <- L at 1. by rewrite drop_app.
Qed.
Lemma frame_payload p l : take (length p) (drop 4 (frame p ++ l)) = p.
Proof. rewrite frame_drop4. apply take_app. Qed.
Lemma frame_rest p l : drop (4 + length p) (frame p ++ l) = l.
Proof. rewrite <- drop_drop, frame_drop4. apply drop_app. Qed.

Lemma announced_range d : Forall byte_ok d -> 4 <= length d -> (0 <= announced d < 2^32)%Z.
Proof.
  intros Hb H. destruct d as [|a [|b [|c [|e d]]]]; simpl in H; try lia.
  rewrite !Forall_cons in Hb. unfold byte_ok in Hb. unfold announced. lia.
Qed.

Lemma cut_front d : Forall byte_ok d -> 4 <= length d -> (0 < announced d)%Z ->
  (4 + announced d <= Z.of_nat (length d))%Z ->
  let p := take (Z.to_nat (announced d)) (drop 4 d) in
  d = frame p ++ drop (4 + Z.to_nat (announced d)) d /\ length p = Z.to_nat (announced d) /\ p <> [].
Proof.
  intros Hb H4 H0 Hn p.
  assert (Lp : length p = Z.to_nat (announced d)) by (unfold p; rewrite take_length, drop_length; lia).
  split; [|split; [done|]].
  - unfold frame. rewrite Lp, Z2Nat.id by lia. rewrite <- enc_digits, <- announced_dec by done.
    rewrite enc_dec.
    + rewrite announced_dec by done. unfold p. rewrite <- drop_drop, <- app_assoc, take_drop. by rewrite take_drop.
    + by apply Forall_take.
    + rewrite take_length. cbn [wbytes]. lia.
  - intros E. rewrite E in Lp. simpl in Lp. lia.
Qed.

Lemma cuts_total d : Forall byte_ok d -> exists ps r, cuts d ps r.
Proof.
  remember (length d) as n eqn:En. revert d En. induction (lt_wf n) as [n _ IH]. intros d -> Hb.
  destruct (decide (length d < 4)); [exists [], d; constructor; by left|].
  pose proof (announced_range d Hb ltac:(lia)) as Ha.
  destruct (decide (announced d = 0%Z)); [exists [], d; constructor; by right; left|].
  destruct (decide (Z.of_nat (length d) < 4 + announced d)%Z); [exists [], d; constructor; by right; right|].
  destruct (cut_front d Hb) as (E & Lp & Np); [lia..|].
  edestruct (IH (length (drop (4 + Z.to_nat (announced d)) d))) as (ps & r & Hc).
  { rewrite drop_length. lia. } { reflexivity. } { by apply Forall_drop. }
  exists (take (Z.to_nat (announced d)) (drop 4 d) :: ps), r. rewrite E at 1.
  constructor; [exact Np|lia|exact Hc].
Qed.

Lemma frame_not_done p l : p <> [] -> (Z.of_nat (length p) < 2^32)%Z ->
  ~ (length (frame p ++ l) < 4 \/ announced (frame p ++ l) = 0%Z \/
     (Z.of_nat (length (frame p ++ l)) < 4 + announced (frame p ++ l))%Z).
Proof.
  intros Hp Hl. rewrite frame_announced by done. rewrite app_length, frame_length.
  assert (length p <> 0) by (by destruct p). lia.
Qed.

Lemma cuts_unique d ps r ps' r' : cuts d ps r -> cuts d ps' r' -> ps = ps' /\ r = r'.
Proof.
  intros H. revert ps' r'. induction H as [r Hr|p l ps r Hp Hl H IH]; intros ps' r' H'.
  - inversion H' as [|p l ps r0 Hp Hl]; subst; [done|]. by destruct (frame_not_done p l Hp Hl).
  - remember (frame p ++ l) as d eqn:Ed.
    destruct H' as [r1 Hr1|p1 l1 ps1 r1 Hp1 Hl1 H1].
    + subst r1. by destruct (frame_not_done p l Hp Hl).
    + assert (length p1 = length p) as L.
      { pose proof (frame_announced p l Hl) as E. pose proof (frame_announced p1 l1 Hl1) as E1.
        rewrite Ed in E1. lia. }
      apply (app_inj_1 (frame p1) (frame p)) in Ed as [Ef ->].
      2:{ rewrite !frame_length. lia. }
      assert (p1 = p) as ->.
      { pose proof (frame_drop4 p1 []) as D1. rewrite app_nil_r, Ef in D1.
        pose proof (frame_drop4 p []) as D. rewrite app_nil_r in D.
        rewrite !app_nil_r in *. congruence. }
      destruct (IH _ _ H1) as [-> ->]. done.
Qed.

Lemma cuts_shape d ps r : cuts d ps r -> d = frames ps ++ r.
Proof.
  induction 1 as [|p l ps r Hp Hl H ->]; [done|]. unfold frames. simpl. by rewrite <- app_assoc.
Qed.

Lemma frames_cuts ps r : Forall (fun p => p <> [] /\ (Z.of_nat (length p) < 2^32)%Z) ps ->
  (length r < 4 \/ announced r = 0%Z \/ (Z.of_nat (length r) < 4 + announced r)%Z) ->
  cuts (frames ps ++ r) ps r.
Proof.
  intros H Hr. induction H as [|p ps [H1 H2] _ IH]; [by constructor|].
  unfold frames. simpl. rewrite <- app_assoc. by constructor.
Qed.

Lemma cuts_done_rest d ps r : cuts d ps r ->
  length r < 4 \/ announced r = 0%Z \/ (Z.of_nat (length r) < 4 + announced r)%Z.
Proof. by induction 1. Qed.

(** ** Chunks *)
Lemma rx_chunk_wf mtu l : length l <= mtu ->
  wf (rx_chunk mtu l) /\ readable (rx_chunk mtu l) = l /\ v_rlen (rx_chunk mtu l) = length l.
Proof.
  intros H. unfold rx_chunk. split; [|split].
  - unfold wf, v_cap, scap. simpl. rewrite app_length, replicate_length. lia.
  - unfold readable, v_rlen. simpl. rewrite Nat.sub_0_r, drop_0. apply take_app.
  - unfold v_rlen. simpl. lia.
Qed.

(** ** Idle caches *)
Lemma idle_wf k c : idle k c -> wf c /\ readable c = [] /\ v_tlen c = k.
Proof.
  intros (H1 & H2 & H3 & H4 & H5). unfold wf, readable, v_tlen, v_rlen.
  rewrite H1, H2, H3, H4, H5. repeat split; lia.
Qed.
Lemma wf_idle c : wf c -> v_res c = 0 -> v_rd c = 0 -> readable c = [] -> idle (v_cap c) c.
Proof.
  intros W H1 H2 H3. pose proof (readable_length c W) as L. rewrite H3 in L. simpl in L.
  destruct W as (?&?&?&?). unfold v_rlen in L. unfold idle. repeat split; try lia; done.
Qed.
Lemma reset_idle c : wf c -> v_res c = 0 -> idle (v_cap c) (v_reset c).
Proof. intros (?&?&?&?) Hr. unfold v_reset, idle. simpl. done. Qed.
Lemma alloc_idle k c : v_alloc (Z.of_nat k) 0 = Some c -> idle k c.
Proof.
  intros H. destruct (alloc_wf _ _ _ H) as (W & A & _). unfold v_alloc in H.
  destruct (_ || _); [done|]. injection H as <-. unfold idle, v_cap, scap. simpl.
  rewrite replicate_length, Nat2Z.id. done.
Qed.

(** ** The loop over a chunk *)
Lemma fd_cur_cuts fuel k c u ps r : idle k c -> wf u -> (Z.of_nat (v_rlen u) < 2^32)%Z ->
  cuts (readable u) ps r -> length r < k -> length ps < fuel ->
  exists bs c', fd_cur fuel c u = Some (bs, c', tail_crash r) /\ idle k c' /\
    readable <$> bs = ps ++ tail_out r.
Proof.
  intros Hc. revert u ps. induction fuel as [|fuel IH]; intros u ps Wu Hs Hcut Hk Hf; [lia|].
  destruct (idle_wf k c Hc) as (Wc & Rc & Tc).
  pose proof (cur_step_spec c u Wc Wu Hs) as S. cbv zeta in S. cbn [fd_cur].
  remember (readable u) as d eqn:Ed.
  destruct Hcut as [r Hr|p l ps r Hp Hl Hcut].
  - unfold tail_crash, tail_out.
    destruct ((length r <? 4) || (Z.of_nat (length r) <? announced r)%Z) eqn:E.
    { destruct S as (c' & u' & -> & Wc' & H1 & H2 & H3 & H4).
      exists [], c'.
      assert ((4 <=? length r) && (announced r =? Z.of_nat (length r))%Z = false) as ->.
      { apply orb_true_iff in E as [E|E].
        - cleq. destruct (4 <=? length r) eqn:?; cleq; [lia|done].
        - apply Z.ltb_lt in E. destruct (announced r =? _)%Z eqn:?; [lia|]. apply andb_false_r. }
      assert ((4 <=? length r) && (announced r =? 0)%Z = false) as ->.
      { apply orb_true_iff in E as [E|E].
        - cleq. destruct (4 <=? length r) eqn:?; cleq; [lia|done].
        - apply Z.ltb_lt in E. destruct (announced r =? _)%Z eqn:?; [lia|]. apply andb_false_r. }
      split; [done|]. split; [|done]. 
      destruct Hc as (I1 & I2 & I3 & I4 & I5). rewrite <- I4, <- H3.
      apply wf_idle; [done|congruence|congruence|].
      rewrite H4, Rc, Tc. unfold accepted. destruct (k <=? length r) eqn:?; cleq; [lia|done]. }
    apply orb_false_iff in E as [E1 E2]. cleq. apply Z.ltb_ge in E2.
    destruct (4 <=? length r) eqn:E3; cleq; [|lia]. cbn [andb].
    destruct (announced r =? Z.of_nat (length r))%Z eqn:E4.
    { destruct S as (u' & -> & Wu' & R'). apply Z.eqb_eq in E4.
      destruct (announced r =? 0)%Z eqn:E5; [lia|].
      exists [u'], c. split; [done|]. split; [done|]. by rewrite list_fmap_singleton, R'. }
    apply Z.eqb_neq in E4.
    destruct (announced r <=? 0)%Z eqn:E5.
    { apply Z.leb_le in E5. rewrite S. assert (announced r = 0)%Z as -> by lia.
      exists [], c. done. }
    apply Z.leb_gt in E5. destruct (announced r =? 0)%Z eqn:E6; [lia|].
    destruct (4 + announced r <=? Z.of_nat (length r))%Z eqn:E7; [lia|].
    destruct S as (u' & ->). exists [], (v_reset c). split; [done|]. split; [|done].
    destruct Hc as (I1 & I2 & I3 & I4 & I5). rewrite <- I4. by apply reset_idle.
  - pose proof (frame_announced p l Hl) as Ha. rewrite Ha in S.
    assert (Lp : length p <> 0) by (by destruct p).
    assert (Lt : length (frame p ++ l) = 4 + length p + length l) by (rewrite app_length, frame_length; lia).
    destruct (length (frame p ++ l) <? 4) eqn:E1; cleq; [lia|].
    destruct (_ <? _)%Z eqn:E2 in S; [lia|]. cbn [orb] in S.
    destruct (_ =? _)%Z eqn:E3 in S; [lia|].
    destruct (_ <=? 0)%Z eqn:E4 in S; [lia|].
    destruct (_ <=? _)%Z eqn:E5 in S; [|lia].
    rewrite Nat2Z.id, frame_payload, frame_rest in S.
    destruct S as (nb & u' & -> & Wn & Wu' & Rn & Ru').
    destruct (IH u' ps Wu') as (bs & c' & -> & Ic & Rb).
    { rewrite <- (readable_length u' Wu'), Ru'. rewrite <- (readable_length u Wu), <- Ed, Lt in Hs. lia. }
    { by rewrite Ru'. } { done. } { simpl in Hf. lia. }
    exists (nb :: bs), c'. split; [done|]. split; [done|]. by rewrite fmap_cons, Rn, Rb.
Qed.

Lemma fd_cached_idle fuel k c : idle k c -> 0 < fuel -> exists c', fd_cached fuel c = Some ([], c', false) /\ idle k c'.
Proof.
  intros Hc Hf. destruct fuel as [|f]; [lia|]. destruct (idle_wf k c Hc) as (W & R & _).
  pose proof (cached_step_spec c W) as S. cbv zeta in S. rewrite R in S. simpl in S.
  cbn [fd_cached]. rewrite S. exists (v_reset c). split; [done|].
  destruct Hc as (I1 & I2 & I3 & I4 & I5). rewrite <- I4. by apply reset_idle.
Qed.

(** The decoder on one chunk, when the cache is idle and larger than what is
    left of the chunk. *)
Lemma fd_recv_cuts fuel k mtu c ch ps r : idle k c -> length ch <= mtu -> (Z.of_nat (length ch) < 2^32)%Z ->
  cuts ch ps r -> length r < k -> length ps < fuel ->
  exists bs c', fd_recv fuel c (rx_chunk mtu ch) = Some (bs, c', tail_crash r) /\ idle k c' /\
    readable <$> bs = ps ++ tail_out r.
Proof.
  intros Hc Hm Hs Hcut Hk Hf. destruct (rx_chunk_wf mtu ch Hm) as (Wu & Ru & Lu).
  destruct (idle_wf k c Hc) as (Wc & Rc & Tc).
  unfold fd_recv, fd_current. rewrite <- (readable_length c Wc), Rc. cbn [length Nat.ltb Nat.leb].
  destruct (fd_cur_cuts fuel k c (rx_chunk mtu ch) ps r) as (bs & c' & -> & Ic & Rb);
    [done|done|by rewrite Lu|by rewrite Ru|done|done|].
  destruct (tail_crash r).
  - by exists bs, c'.
  - destruct (fd_cached_idle fuel k c' Ic ltac:(lia)) as (c2 & -> & Ic2).
    exists bs, c2. by rewrite app_nil_r.
Qed.

(** ** C16 *)
Lemma frames_cons p ps : frames (p :: ps) = frame p ++ frames ps.
Proof. done. Qed.
Arguments frame : simpl never.

Lemma frames_length ps : Forall payload_ok ps -> 5 * length ps <= length (frames ps).
Proof.
  induction 1 as [|p ps [H1 H2] _ IH]; [done|].
  rewrite frames_cons, app_length, frame_length. destruct p; [done|]. cbn [length] in *. lia.
Qed.
Lemma cuts_payload_ok d ps r : cuts d ps r -> Forall payload_ok ps.
Proof. induction 1; [done|]. by constructor. Qed.

Lemma cuts_length d ps r : cuts d ps r -> 5 * length ps + length r <= length d.
Proof.
  intros H. pose proof (cuts_shape _ _ _ H) as ->.
  pose proof (frames_length ps (cuts_payload_ok _ _ _ H)) as L. rewrite app_length. lia.
Qed.

Lemma feed_frames fuel k mtu c pss : idle k c -> 0 < k ->
  Forall (Forall payload_ok) pss ->
  Forall (fun ps => length (frames ps) <= mtu /\ (Z.of_nat (length (frames ps)) < 2^32)%Z /\
                    length (frames ps) < fuel) pss ->
  exists c', fd_feed fuel mtu c (frames <$> pss) = Some (pss, c', false) /\ idle k c'.
Proof.
  intros Hc Hk Hp. revert c Hc. induction Hp as [|ps pss Hps _ IH]; intros c Hc Hl; [by exists c|].
  rewrite fmap_cons. cbn [fd_feed].
  inversion Hl as [|? ? (H1 & H2 & H3) Hl']; subst.
  assert (Hcut : cuts (frames ps) ps []).
  { rewrite <- (app_nil_r (frames ps)). apply frames_cuts; [done|]. left. simpl. lia. }
  destruct (fd_recv_cuts fuel k mtu c (frames ps) ps [] Hc H1 H2 Hcut) as (bs & c1 & -> & Ic & Rb).
  { done. } { pose proof (frames_length ps Hps). lia. }
  change (tail_crash []) with false. cbv iota.
  destruct (IH c1 Ic Hl') as (c2 & -> & Ic2). exists c2. split; [|done].
  change (tail_out []) with (@nil (list byte)) in Rb. rewrite app_nil_r in Rb. by rewrite Rb.
Qed.

(** ** C17 *)
Lemma tail_out_length r : Forall (fun p => length p + 4 = length r) (tail_out r).
Proof.
  unfold tail_out. destruct (_ && _) eqn:E; [|done]. apply andb_true_iff in E as [E _]. cleq.
  constructor; [|done]. rewrite drop_length. lia.
Qed.

Lemma frames_each p ps : p ∈ ps -> length p + 4 <= length (frames ps).
Proof.
  induction 1 as [ps|p q ps H IH]; rewrite frames_cons, app_length, frame_length; lia.
Qed.

Lemma cuts_out_short d ps r p : cuts d ps r -> p ∈ ps ++ tail_out r -> length p + 4 <= length d.
Proof.
  intros Hc H. pose proof (cuts_shape _ _ _ Hc) as ->. rewrite app_length.
  apply elem_of_app in H as [H|H].
  - pose proof (frames_each _ _ H). lia.
  - pose proof (tail_out_length r) as T. rewrite Forall_forall in T. specialize (T p H). simpl in T. lia.
Qed.



Lemma recv_stateless fuel k mtu c ch : idle k c -> chunk_fits k mtu ch -> length ch < fuel ->
  exists bs c' crash, fd_recv fuel c (rx_chunk mtu ch) = Some (bs, c', crash) /\ idle k c' /\
    chunk_out ch (readable <$> bs) crash.
Proof.
  intros Hc (H1 & H2 & H3 & H4) Hf. destruct (cuts_total ch H1) as (ps & r & Hcut).
  pose proof (cuts_length _ _ _ Hcut) as L.
  destruct (fd_recv_cuts fuel k mtu c ch ps r Hc H3 H4 Hcut) as (bs & c' & E & Ic & Rb); [lia..|].
  exists bs, c', (tail_crash r). split; [done|]. split; [done|]. by exists ps, r.
Qed.

Lemma feed_stateless fuel k mtu c chs : idle k c -> Forall (chunk_fits k mtu) chs ->
  Forall (fun ch => length ch < fuel) chs ->
  exists outs c' crash, fd_feed fuel mtu c chs = Some (outs, c', crash) /\ idle k c' /\
    Forall2 (fun ch o => exists b, chunk_out ch o b) (take (length outs) chs) outs /\
    (if crash then exists ch o, chs !! (length outs - 1) = Some ch /\ last outs = Some o /\ chunk_out ch o true
     else Forall2 (fun ch o => chunk_out ch o false) chs outs).
Proof.
  intros Hc H. revert c Hc. induction H as [|ch chs H1 H2 IH]; intros c Hc Hf; simpl.
  { exists [], c, false. split; [done|]. split; [done|]. split; by constructor. }
  inversion Hf as [|? ? Hf1 Hf2]; subst.
  destruct (recv_stateless fuel k mtu c ch Hc H1 Hf1) as (bs & c1 & crash & -> & Ic & Ho).
  destruct crash.
  - exists [readable <$> bs], c1, true. split; [done|]. split; [done|]. split.
    + simpl. rewrite take_0. constructor; [by exists true|constructor].
    + exists ch, (readable <$> bs). done.
  - destruct (IH c1 Ic Hf2) as (outs & c2 & crash & -> & Ic2 & Hall & Hcr).
    eexists (_ :: outs), c2, crash. split; [done|]. split; [done|]. split.
    + simpl. constructor; [by exists false|done].
    + destruct crash.
      * destruct Hcr as (ch' & o & E1 & E2 & E3).
        destruct outs as [|o0 outs]; [done|].
        exists ch', o. split; [|split; [done|done]].
        simpl in E1 |- *. rewrite Nat.sub_0_r in E1. done.
      * by constructor.
Qed.

Lemma split_never_delivered fuel k mtu c chs p : idle k c -> Forall (chunk_fits k mtu) chs ->
  Forall (fun ch => length ch < fuel) chs ->
  concat chs = frame p -> Forall (fun ch => length ch < length (frame p)) chs ->
  exists outs c' crash, fd_feed fuel mtu c chs = Some (outs, c', crash) /\ p ∉ concat outs.
Proof.
  intros Hc Hf Hfu _ Hs. destruct (feed_stateless fuel k mtu c chs Hc Hf Hfu) as (outs & c' & crash & E & _ & H & _).
  exists outs, c', crash. split; [done|]. intros Hin.
  apply elem_of_list_In, in_concat in Hin as (o & Ho & Hp). apply elem_of_list_In in Ho, Hp.
  apply elem_of_list_lookup in Ho as (i & Ei).
  destruct (Forall2_lookup_r _ _ _ _ _ H Ei) as (ch & Ech & b & ps & r & Hcut & -> & _).
  pose proof (cuts_out_short _ _ _ _ Hcut Hp) as L.
  apply lookup_take_Some in Ech as [Ech _].
  rewrite Forall_lookup in Hs. specialize (Hs _ _ Ech). cbn beta in Hs. rewrite frame_length in Hs. lia.
Qed.

(** ** C18, C19: crash and truncation *)
Lemma zero_crash fuel k mtu c ps x : idle k c -> 4 + length x < k -> Forall payload_ok ps ->
  let ch := frames ps ++ [0; 0; 0; 0]%Z ++ x in
  length ch <= mtu -> (Z.of_nat (length ch) < 2^32)%Z -> length ch < fuel ->
  exists bs c', fd_recv fuel c (rx_chunk mtu ch) = Some (bs, c', true) /\ readable <$> bs = ps.
Proof.
  intros Hc Hk Hp ch Hm Hs Hf.
  assert (Hcut : cuts ch ps ([0; 0; 0; 0]%Z ++ x)).
  { apply frames_cuts; [done|]. right; left. done. }
  pose proof (cuts_length _ _ _ Hcut) as L.
  edestruct (fd_recv_cuts fuel k mtu c ch) as (bs & c' & E & _ & Rb); try done; [simpl; lia..|].
  exists bs, c'. split; [exact E|]. rewrite Rb. unfold tail_out.
  change (announced ([0; 0; 0; 0]%Z ++ x)) with 0%Z. cbn [length app Nat.leb andb].
  destruct (0 =? _)%Z eqn:E0; [apply Z.eqb_eq in E0; lia|]. apply app_nil_r.
Qed.

Lemma truncated_delivered fuel k mtu c ps x : idle k c -> 4 + length x < k -> Forall payload_ok ps ->
  (4 + Z.of_nat (length x) < 2^32)%Z ->
  let ch := frames ps ++ digits BE W32 (4 + Z.of_nat (length x)) ++ x in
  length ch <= mtu -> (Z.of_nat (length ch) < 2^32)%Z -> length ch < fuel ->
  exists bs c', fd_recv fuel c (rx_chunk mtu ch) = Some (bs, c', false) /\ readable <$> bs = ps ++ [x].
Proof.
  intros Hc Hk Hp Hx ch Hm Hs Hf.
  set (r := digits BE W32 (4 + Z.of_nat (length x)) ++ x).
  assert (Lr : length r = 4 + length x) by (unfold r; by rewrite app_length, digits_length).
  assert (Ha : announced r = (4 + Z.of_nat (length x))%Z) by (apply digits_announced; lia).
  assert (Hcut : cuts ch ps r). { apply frames_cuts; [done|]. right; right. lia. }
  pose proof (cuts_length _ _ _ Hcut) as L.
  edestruct (fd_recv_cuts fuel k mtu c ch) as (bs & c' & E & _ & Rb); try done; [simpl; lia..|].
  assert (tail_crash r = false) as Ec.
  { unfold tail_crash. rewrite Ha. destruct (_ =? 0)%Z eqn:E0; [lia|]. apply andb_false_r. }
  rewrite Ec in E. exists bs, c'. split; [exact E|]. rewrite Rb. f_equal.
  unfold tail_out. rewrite Ha, Lr.
  destruct (4 <=? _) eqn:E1; cleq; [|lia]. destruct (_ =? _)%Z eqn:E2; [|apply Z.eqb_neq in E2; lia]. cbn [andb].
  done.
Qed.

(** ** Every state of the cache: termination, and what can come out *)
Lemma block_refl x : block_of x x.
Proof. exists [], []. by rewrite app_nil_r. Qed.
Lemma block_trans x y z : block_of x y -> block_of y z -> block_of x z.
Proof. intros (a & b & ->) (a' & b' & ->). exists (a' ++ a), (b ++ b'). by rewrite <- !app_assoc. Qed.
Lemma block_drop n l : block_of (drop n l) l.
Proof. exists (take n l), []. by rewrite app_nil_r, take_drop. Qed.
Lemma block_take n l : block_of (take n l) l.
Proof. exists [], (drop n l). simpl. by rewrite take_drop. Qed.
Lemma block_nil l : block_of [] l.
Proof. exists [], l. done. Qed.
Lemma block_accepted k l : block_of (accepted k l) l.
Proof. unfold accepted. destruct (_ <=? _); [apply block_take|apply block_nil]. Qed.
Lemma block_app_l a l : block_of l (a ++ l).
Proof. exists a, []. by rewrite app_nil_r. Qed.

Lemma accepted_prefix k l : exists b, l = accepted k l ++ b.
Proof.
  unfold accepted. destruct (_ <=? _); [|by exists l]. exists (drop k l). by rewrite take_drop.
Qed.

Lemma zeros_block d : Forall byte_ok d -> 4 <= length d -> (announced d <= 0)%Z ->
  block_of [0; 0; 0; 0]%Z d.
Proof.
  intros Hb H4 Ha. destruct d as [|a [|b [|c [|e d]]]]; simpl in H4; try lia.
  rewrite !Forall_cons in Hb. unfold byte_ok in Hb. unfold announced in Ha.
  assert (a = 0 /\ b = 0 /\ c = 0 /\ e = 0)%Z as (-> & -> & -> & ->) by lia.
  exists [], d. done.
Qed.

Lemma block_byte_ok x l : block_of x l -> Forall byte_ok l -> Forall byte_ok x.
Proof. intros (a & b & ->) H. rewrite !Forall_app in H. tauto. Qed.

Lemma cache_state_wf k c : cache_state k c <-> wf c /\ v_res c = 0 /\ v_cap c = k.
Proof. unfold cache_state, wf. split; intros; destruct_and!; repeat split; congruence || lia. Qed.
Local Notation frame_room c n := (wf c /\ v_res c = 0 /\ v_cap c = n).

Lemma fd_cur_general fuel n c u : frame_room c n -> readable c = [] -> wf u ->
  (Z.of_nat (v_rlen u) < 2^32)%Z -> Forall byte_ok (readable u) -> v_rlen u < fuel ->
  exists bs c' crash, fd_cur fuel c u = Some (bs, c', crash) /\ frame_room c' n /\
    Forall (fun b => block_of (readable b) (readable u)) bs /\ block_of (readable c') (readable u) /\
    (crash = true -> block_of [0; 0; 0; 0]%Z (readable u)).
Proof.
  intros (Wc & Rc & Cc) Ec. revert u. induction fuel as [|fuel IH]; intros u Wu Hs Hb Hf; [lia|].
  pose proof (cur_step_spec c u Wc Wu Hs) as S. cbv zeta in S. cbn [fd_cur].
  pose proof (readable_length u Wu) as Lu.
  destruct ((_ <? 4) || _) eqn:E1.
  { destruct S as (c' & u' & -> & W' & H1 & H2 & H3 & H4). exists [], c', false.
    split; [done|]. split; [rewrite H1, H3; done|]. split; [done|]. split; [|done].
    rewrite H4, Ec. apply block_accepted. }
  apply orb_false_iff in E1 as [E1 E1']. cleq.
  destruct (_ =? _)%Z eqn:E2 in S.
  { destruct S as (u' & -> & Wu' & R'). exists [u'], c, false.
    split; [done|]. split; [done|]. split; [|split; [|done]].
    - constructor; [|done]. rewrite R'. apply block_drop.
    - rewrite Ec. apply block_nil. }
  destruct (_ <=? 0)%Z eqn:E3 in S.
  { apply Z.leb_le in E3. rewrite S. exists [], c, true. split; [done|]. split; [done|]. split; [done|].
    split; [rewrite Ec; apply block_nil|]. intros _. by apply zeros_block. }
  apply Z.leb_gt in E3.
  destruct (_ <=? _)%Z eqn:E4 in S.
  - apply Z.leb_le in E4. destruct S as (nb & u' & -> & Wn & Wu' & R1 & R2).
    assert (Lu' : v_rlen u' < v_rlen u).
    { rewrite <- (readable_length u' Wu'), R2, drop_length. lia. }
    assert (Bu : block_of (readable u') (readable u)) by (rewrite R2; apply block_drop).
    destruct (IH u' Wu') as (bs & c' & crash & -> & Fr & H1 & H2 & H3); [lia|by eapply block_byte_ok|lia|].
    exists (nb :: bs), c', crash. split; [done|]. split; [done|]. split; [|split].
    + constructor.
      * rewrite R1. eapply block_trans; [apply block_take|apply block_drop].
      * eapply Forall_impl; [done|]. intros b Hbl. simpl in Hbl. by eapply block_trans.
    + by eapply block_trans.
    + intros Hc. eapply block_trans; [by apply H3|done].
  - destruct S as (u' & ->). exists [], (v_reset c), false.
    split; [done|]. split.
    { split; [|done]. destruct Wc as (?&?&?&?). unfold wf, v_reset, v_cap in *; simpl. lia. }
    split; [done|]. split; [|done].
    unfold readable, v_rlen, v_reset; simpl. rewrite Nat.sub_diag. apply block_nil.
Qed.

Lemma fd_cached_general fuel n c : frame_room c n -> Forall byte_ok (readable c) -> v_rlen c < fuel ->
  exists bs c' crash, fd_cached fuel c = Some (bs, c', crash) /\ frame_room c' n /\
    Forall (fun b => block_of (readable b) (readable c)) bs /\ block_of (readable c') (readable c) /\
    (crash = true -> block_of [0; 0; 0; 0]%Z (readable c)).
Proof.
  revert c. induction fuel as [|fuel IH]; intros c (Wc & Rc & Cc) Hb Hf; [lia|].
  pose proof (cached_step_spec c Wc) as S. cbv zeta in S. cbn [fd_cached].
  pose proof (readable_length c Wc) as Lc.
  assert (Hreset : forall c', wf c' -> v_res c' = 0 -> v_cap c' = n ->
            frame_room (v_reset c') n /\ block_of (readable (v_reset c')) (readable c)).
  { intros c' (?&?&?&?) R C. split.
    - split; [|done]. unfold wf, v_reset, v_cap in *; simpl. lia.
    - unfold readable at 1, v_rlen, v_reset; simpl. rewrite Nat.sub_diag. apply block_nil. }
  destruct (_ =? 0) eqn:E0 in S.
  { rewrite S. exists [], (v_reset c), false. destruct (Hreset c Wc Rc Cc). done. }
  destruct ((_ <? 4) || _) eqn:E1.
  { rewrite S. exists [], c, false. split; [done|]. split; [done|]. split; [done|].
    split; [apply block_refl|done]. }
  apply orb_false_iff in E1 as [E1 E1']. cleq.
  destruct (_ <=? 0)%Z eqn:E3 in S.
  { apply Z.leb_le in E3. rewrite S. exists [], c, true. split; [done|]. split; [done|]. split; [done|].
    split; [apply block_refl|]. intros _. by apply zeros_block. }
  apply Z.leb_gt in E3. destruct S as (c' & W' & R' & C' & T' & S).
  destruct (_ <=? _)%Z eqn:E4 in S.
  - apply Z.leb_le in E4. destruct S as (nb & -> & Wn & R1 & R2).
    assert (Lu' : v_rlen c' < v_rlen c).
    { rewrite <- (readable_length c' W'), R2, drop_length. lia. }
    assert (Bu : block_of (readable c') (readable c)) by (rewrite R2; apply block_drop).
    destruct (IH c') as (bs & c2 & crash & -> & Fr & H1 & H2 & H3).
    { split; [done|]. split; congruence. } { by eapply block_byte_ok. } { lia. }
    exists (nb :: bs), c2, crash. split; [done|]. split; [done|]. split; [|split].
    + constructor.
      * rewrite R1. eapply block_trans; [apply block_take|apply block_drop].
      * eapply Forall_impl; [done|]. intros b Hbl. simpl in Hbl. by eapply block_trans.
    + by eapply block_trans.
    + intros Hc. eapply block_trans; [by apply H3|done].
  - rewrite S. exists [], (v_reset c'), false.
    destruct (Hreset c' W' ltac:(congruence) ltac:(congruence)). done.
Qed.

Lemma fd_recv_general fuel n mtu c ch : frame_room c n -> Forall byte_ok (readable c) ->
  Forall byte_ok ch -> length ch <= mtu -> (Z.of_nat (length ch) < 2^32)%Z ->
  length (readable c) + length ch < fuel ->
  exists bs c' crash, fd_recv fuel c (rx_chunk mtu ch) = Some (bs, c', crash) /\ frame_room c' n /\
    Forall (fun b => block_of (readable b) (readable c ++ ch)) bs /\
    block_of (readable c') (readable c ++ ch) /\
    (crash = true -> block_of [0; 0; 0; 0]%Z (readable c ++ ch)).
Proof.
  intros Hc Hbc Hb Hm Hs Hf. destruct (rx_chunk_wf mtu ch Hm) as (Wu & Ru & Lu).
  pose proof Hc as (Wc & Rc & Cc). pose proof (readable_length c Wc) as Lc.
  unfold fd_recv, fd_current.
  assert (Hball : Forall byte_ok (readable c ++ ch)) by (by apply Forall_app).
  destruct (0 <? v_rlen c) eqn:E; cleq.
  - destruct (ub_readfrom_spec c (rx_chunk mtu ch) Wc Wu) as (x & c1 & u1 & -> & W1 & R1 & _ & C1 & D1).
    rewrite Ru in D1.
    assert (B1 : block_of (readable c1) (readable c ++ ch)).
    { rewrite D1. destruct (accepted_prefix (v_tlen c) ch) as (b & Eb). exists [], b. simpl.
      rewrite <- app_assoc. by rewrite <- Eb. }
    assert (L1 : length (readable c1) <= length (readable c) + length ch).
    { destruct B1 as (a & b & Eb). apply (f_equal length) in Eb. rewrite !app_length in Eb. lia. }
    destruct (fd_cached_general fuel n c1) as (bs & c2 & crash & -> & Fr & H1 & H2 & H3).
    { split; [done|]. split; congruence. } { by eapply block_byte_ok. }
    { rewrite <- (readable_length c1 W1). lia. }
    exists bs, c2, crash. split; [done|]. split; [done|]. split; [|split].
    + eapply Forall_impl; [done|]. intros b Hbl. simpl in Hbl. by eapply block_trans.
    + by eapply block_trans.
    + intros Hcr. eapply block_trans; [by apply H3|done].
  - assert (Er : readable c = []) by (destruct (readable c); [done|simpl in *; lia]).
    rewrite Er in *. cbn [app] in *.
    destruct (fd_cur_general fuel n c (rx_chunk mtu ch)) as (bs & c1 & crash & -> & Fr & H1 & H2 & H3);
      rewrite ?Ru, ?Lu; try done.
    rewrite Ru in H1, H2, H3.
    destruct crash; [by exists bs, c1, true|].
    assert (L1 : length (readable c1) <= length ch).
    { destruct H2 as (a & b & Eb). apply (f_equal length) in Eb. rewrite !app_length in Eb. lia. }
    destruct (fd_cached_general fuel n c1 Fr) as (bs2 & c2 & crash & -> & Fr2 & G1 & G2 & G3).
    { by eapply block_byte_ok. } { destruct Fr as (W1 & _). rewrite <- (readable_length c1 W1). simpl in Hf. lia. }
    exists (bs ++ bs2), c2, crash. split; [done|]. split; [done|]. split; [|split].
    + apply Forall_app. split; [done|]. eapply Forall_impl; [done|]. intros b Hbl. simpl in Hbl. by eapply block_trans.
    + by eapply block_trans.
    + intros Hcr. eapply block_trans; [by apply G3|done].
Qed.

(** ** C20, C21: interference and wedging *)

Lemma wedged_iff c : wedged c <-> wf c /\ v_tlen c = 0 /\ 4 <= length (readable c) /\
  (Z.of_nat (length (readable c)) < announced (readable c))%Z.
Proof. unfold wedged, wf. split; intros; destruct_and!; repeat split; congruence || lia. Qed.

Lemma wedged_recv fuel mtu c ch : wedged c -> 0 < fuel ->
  fd_recv fuel c (rx_chunk mtu ch) = Some ([], c, false).
Proof.
  intros (W & T & H4 & Ha)%wedged_iff Hf. unfold fd_recv, fd_current. pose proof (readable_length c W) as L.
  destruct (0 <? v_rlen c) eqn:E; cleq; [|lia].
  unfold ub_readfrom. rewrite T. cbn [Nat.eqb].
  destruct fuel as [|f]; [lia|]. cbn [fd_cached].
  pose proof (cached_step_spec c W) as S. cbv zeta in S.
  destruct (_ =? 0) eqn:E0 in S; cleq; [lia|].
  destruct (_ <? 4) eqn:E1 in S; cleq; [lia|]. cbn [orb] in S.
  destruct (_ <? _)%Z eqn:E2 in S; [|lia]. rewrite S. done.
Qed.

Lemma wedged_feed fuel mtu c chs : wedged c -> 0 < fuel ->
  fd_feed fuel mtu c chs = Some ((fun _ => []) <$> chs, c, false).
Proof.
  intros Hw Hf. induction chs as [|ch chs IH]; simpl; [done|].
  rewrite (wedged_recv fuel mtu c ch Hw Hf), IH. done.
Qed.

Lemma becomes_wedged fuel k mtu c ch : idle k c -> 4 <= k -> k <= length ch -> length ch <= mtu ->
  (Z.of_nat (length ch) < announced ch < 2^32)%Z -> 0 < fuel ->
  exists c', fd_recv fuel c (rx_chunk mtu ch) = Some ([], c', false) /\ wedged c'.
Proof.
  intros Hc H4 Hk Hm Ha Hf. destruct (rx_chunk_wf mtu ch Hm) as (Wu & Ru & Lu).
  destruct (idle_wf k c Hc) as (Wc & Rc & Tc).
  pose proof (cur_step_spec c (rx_chunk mtu ch) Wc Wu ltac:(rewrite Lu; lia)) as S. cbv zeta in S.
  rewrite Ru in S.
  destruct (length ch <? 4) eqn:E1 in S; cleq; [lia|]. cbn [orb] in S.
  destruct (_ <? _)%Z eqn:E2 in S; [|lia].
  destruct S as (c' & u' & S & W' & R' & Rd' & C' & D').
  rewrite Rc, Tc in D'. unfold accepted in D'. destruct (k <=? length ch) eqn:E3; cleq; [|lia].
  cbn [app] in D'.
  assert (L' : length (readable c') = k) by (rewrite D', take_length; lia).
  assert (Hw : wedged c').
  { apply wedged_iff. split; [done|]. split; [|split; [lia|]].
    - pose proof (readable_length c' W') as L. unfold v_tlen. unfold v_rlen in L.
      destruct Hc as (?&?&?&?&?). rewrite C'. lia.
    - rewrite L', D'.
      assert (announced (take k ch) = announced ch) as ->; [|lia].
      destruct k as [|[|[|[|k]]]]; try lia. by destruct ch as [|? [|? [|? [|? ch]]]]. }
  exists c'. split; [|done].
  unfold fd_recv, fd_current. rewrite <- (readable_length c Wc), Rc. cbn [length Nat.ltb Nat.leb].
  destruct fuel as [|f]; [lia|]. cbn [fd_cur]. rewrite S.
  pose proof (wedged_recv (Datatypes.S f) mtu c' ch Hw ltac:(lia)) as G. unfold fd_recv, fd_current in G.
  apply wedged_iff in Hw as (_ & T & _).
  destruct (0 <? v_rlen c') eqn:E4; cleq.
  2:{ rewrite (readable_length c' W') in L'. lia. }
  unfold ub_readfrom in G. rewrite T in G. cbn [Nat.eqb] in G. done.
Qed.

Lemma wedge_forever fuel k mtu c ch chs : idle k c -> 4 <= k -> k <= length ch -> length ch <= mtu ->
  (Z.of_nat (length ch) < announced ch < 2^32)%Z -> 0 < fuel ->
  exists c', fd_feed fuel mtu c (ch :: chs) = Some ([] :: ((fun _ => []) <$> chs), c', false).
Proof.
  intros Hc H4 Hk Hm Ha Hf.
  destruct (becomes_wedged fuel k mtu c ch) as (c' & E & Hw); try done.
  exists c'. cbn [fd_feed]. rewrite E, (wedged_feed fuel mtu c' chs Hw Hf). done.
Qed.

Lemma chunk_out_unique ch o b o' b' : chunk_out ch o b -> chunk_out ch o' b' -> o = o' /\ b = b'.
Proof.
  intros (ps & r & H & -> & ->) (ps' & r' & H' & -> & ->).
  destruct (cuts_unique _ _ _ _ _ H H') as [-> ->]. done.
Qed.

Lemma feed_pointwise fuel k mtu c chs outs c' : idle k c -> Forall (chunk_fits k mtu) chs ->
  Forall (fun ch => length ch < fuel) chs ->
  fd_feed fuel mtu c chs = Some (outs, c', false) <->
  (idle k c' /\ fd_feed fuel mtu c chs = Some (outs, c', false) /\
   Forall2 (fun ch o => chunk_out ch o false) chs outs).
Proof.
  intros Hc Hf Hfu. split; [|tauto]. intros E.
  destruct (feed_stateless fuel k mtu c chs Hc Hf Hfu) as (o & c1 & crash & E1 & I & _ & H).
  rewrite E in E1. injection E1 as <- <- <-. done.
Qed.

Lemma feed_from_outs fuel k mtu c chs outs : idle k c -> Forall (chunk_fits k mtu) chs ->
  Forall (fun ch => length ch < fuel) chs -> Forall2 (fun ch o => chunk_out ch o false) chs outs ->
  exists c', fd_feed fuel mtu c chs = Some (outs, c', false).
Proof.
  intros Hc Hf Hfu H. revert c Hc. induction H as [|ch o chs outs H1 H2 IH]; intros c Hc; simpl.
  { by exists c. }
  inversion Hf; inversion Hfu; subst.
  destruct (recv_stateless fuel k mtu c ch) as (bs & c1 & crash & -> & Ic & Ho); [done..|].
  destruct (chunk_out_unique _ _ _ _ _ H1 Ho) as [<- <-].
  destruct (IH ltac:(done) ltac:(done) c1 Ic) as (c2 & ->). by exists c2.
Qed.

Lemma interleaving_harmless {A} `{EqDecision A} fuel k mtu c (tagged : list (A * list byte)) outs c' a :
  idle k c -> Forall (chunk_fits k mtu) (snd <$> tagged) ->
  Forall (fun ch => length ch < fuel) (snd <$> tagged) ->
  fd_feed fuel mtu c (snd <$> tagged) = Some (outs, c', false) ->
  exists c2, fd_feed fuel mtu c (snd <$> filter (fun x => fst x = a) tagged) =
    Some (snd <$> filter (fun x => fst x = a) (zip (fst <$> tagged) outs), c2, false).
Proof.
  intros Hc Hf Hfu E.
  apply (feed_pointwise fuel k mtu c _ outs c' Hc Hf Hfu) in E as (_ & _ & H).
  apply (feed_from_outs fuel k); [done|..]; clear c' c Hc.
  - clear H outs Hfu. induction tagged as [|[x l] t IH]; [constructor|]. simpl in *.
    inversion Hf; subst. rewrite filter_cons. case_decide; simpl; [constructor|]; auto.
  - clear H outs Hf. induction tagged as [|[x l] t IH]; [constructor|]. simpl in *.
    inversion Hfu; subst. rewrite filter_cons. case_decide; simpl; [constructor|]; auto.
  - clear Hf Hfu. revert outs H. induction tagged as [|[x l] t IH]; intros outs H; simpl in *.
    + inversion H; subst. constructor.
    + inversion H as [|? o ? os H1 H2]; subst. simpl. rewrite !filter_cons. simpl.
      destruct (decide (x = a)); simpl; [constructor; [done|]|]; by apply IH.
Qed.

(** ** The sender *)
Lemma fd_send_spec u : wf u -> (Z.of_nat (v_rlen u) < 2^32)%Z ->
  exists u', fd_send u = Ok tt u' /\ wf u' /\
    (if 4 <=? v_hlen u then readable u' = frame (readable u) /\ v_hlen u' = v_hlen u - 4
     else u' = u).
Proof.
  intros W Hs. unfold fd_send. rewrite Z.mod_small by lia.
  destruct (step_spec (OpHeadU BE W32 (Z.of_nat (v_rlen u))) u W I) as (b' & E & W' & _ & H1 & H2 & _).
  cbn [q_step absq q_head wbytes v_step] in *. unfold v_hlen in *.
  destruct (v_headU BE W32 (Z.of_nat (v_rlen u)) u) as [x b|b] eqn:Eh; [|done].
  simpl in E. injection E as E1 ->.
  destruct (4 <=? v_rd u) eqn:E4, (v_rd u <? 4) eqn:E5; cleq; try lia.
  - exists b'. split; [done|]. split; [done|]. rewrite H1, H2. simpl. split; [|done].
    unfold frame. rewrite (readable_length u W). by rewrite <- enc_digits.
  - exists u. split; [|done]. unfold v_headU, v_writehead in Eh. cbn [wbytes] in Eh.
    destruct (v_rd u <? 4) eqn:E6; cleq; [|lia]. by injection Eh as _ <-.
Qed.

(** ** Fuel *)
Lemma fd_cur_mono f f' c u x : fd_cur f c u = Some x -> f <= f' -> fd_cur f' c u = Some x.
Proof.
  revert f' c u x. induction f as [|f IH]; intros f' c u x H Hf; [done|].
  destruct f' as [|f']; [lia|]. cbn [fd_cur] in *.
  destruct (fd_cur_step c u) as [[[| |nb|] c1] u1]; try done.
  destruct (fd_cur f c1 u1) as [[[l c2] p]|] eqn:E; [|done].
  by rewrite (IH f' _ _ _ E) by lia.
Qed.
Lemma fd_cached_mono f f' c x : fd_cached f c = Some x -> f <= f' -> fd_cached f' c = Some x.
Proof.
  revert f' c x. induction f as [|f IH]; intros f' c x H Hf; [done|].
  destruct f' as [|f']; [lia|]. cbn [fd_cached] in *.
  destruct (fd_cached_step c) as [[| |nb|] c1]; try done.
  destruct (fd_cached f c1) as [[[l c2] p]|] eqn:E; [|done].
  by rewrite (IH f' _ _ E) by lia.
Qed.
Lemma fd_recv_mono f f' c u x : fd_recv f c u = Some x -> f <= f' -> fd_recv f' c u = Some x.
Proof.
  unfold fd_recv, fd_current. intros H Hf.
  assert (H2 : forall c x, fd_cached f c = Some x -> fd_cached f' c = Some x)
    by (intros; by eapply fd_cached_mono).
  destruct (0 <? v_rlen c).
  - destruct (ub_readfrom None c u) as [a [c1 u1]|[c1 u1]]; [|done].
    destruct (fd_cached f c1) as [[[l c2] p]|] eqn:E; [|done]. by rewrite (H2 _ _ E).
  - destruct (fd_cur f c u) as [[[l c1] []]|] eqn:E; [| |done]; rewrite (fd_cur_mono _ _ _ _ _ E Hf); [done|].
    destruct (fd_cached f c1) as [[[l2 c2] p]|] eqn:E2; [|done]. by rewrite (H2 _ _ E2).
Qed.

(** ** Statements in the form used by Props_Frame *)
Lemma recv_any_state fuel k mtu c ch : cache_state k c -> Forall byte_ok (readable c) ->
  Forall byte_ok ch -> length ch <= mtu -> (Z.of_nat (length ch) < 2^32)%Z ->
  length (readable c) + length ch < fuel ->
  exists bs c' crash, fd_recv fuel c (rx_chunk mtu ch) = Some (bs, c', crash) /\ cache_state k c' /\
    Forall (fun b => block_of (readable b) (readable c ++ ch)) bs /\
    block_of (readable c') (readable c ++ ch) /\
    (crash = true -> block_of [0; 0; 0; 0]%Z (readable c ++ ch)).
Proof.
  intros Hc%cache_state_wf. intros. edestruct (fd_recv_general fuel k mtu c ch) as (bs & c' & crash & E & F & H'); try done.
  exists bs, c', crash. split; [done|]. by rewrite cache_state_wf.
Qed.

Lemma recv_terminates k c ch : cache_state k c -> Forall byte_ok (readable c) ->
  Forall byte_ok ch -> (Z.of_nat (length ch) < 2^32)%Z ->
  forall mtu, length ch <= mtu ->
  exists x, forall fuel, length (readable c) + length ch < fuel -> fd_recv fuel c (rx_chunk mtu ch) = Some x.
Proof.
  intros Hc Hbc Hb Hs mtu Hm.
  destruct (recv_any_state (S (length (readable c) + length ch)) k mtu c ch) as (bs & c' & crash & E & _); try done; [lia|].
  eexists. intros fuel Hf. eapply fd_recv_mono; [exact E|lia].
Qed.

Lemma recovers fuel k mtu c chs ps : idle k c -> Forall (chunk_fits k mtu) chs ->
  Forall (fun ch => length ch < fuel) chs -> chunk_fits k mtu (frames ps) -> length (frames ps) < fuel ->
  Forall payload_ok ps ->
  forall outs c', fd_feed fuel mtu c chs = Some (outs, c', false) ->
  exists c2, fd_feed fuel mtu c (chs ++ [frames ps]) = Some (outs ++ [ps], c2, false).
Proof.
  intros Hc Hf Hfu Hp Hpf Hok outs c' E.
  apply (feed_pointwise fuel k mtu c _ outs c' Hc Hf Hfu) in E as (_ & _ & H).
  apply (feed_from_outs fuel k); try done.
  - apply Forall_app. by split; [|constructor].
  - apply Forall_app. by split; [|constructor].
  - apply Forall2_app; [done|]. constructor; [|constructor].
    exists ps, []. split; [|split; [|done]].
    + rewrite <- (app_nil_r (frames ps)). apply frames_cuts; [done|]. left. simpl. lia.
    + by rewrite app_nil_r.
Qed.

Lemma sender_frames u : reachable u -> (Z.of_nat (v_rlen u) < 2^32)%Z -> 4 <= v_hlen u ->
  exists u', fd_send u = Ok tt u' /\ readable u' = frame (readable u).
Proof.
  intros W%reachable_wf Hs Hh. destruct (fd_send_spec u W Hs) as (u' & E & _ & H).
  destruct (4 <=? v_hlen u) eqn:E4; cleq; [|lia]. exists u'. tauto.
Qed.
