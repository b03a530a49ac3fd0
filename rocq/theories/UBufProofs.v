(** * Proofs about the single-buffer model (value level) *)
From Verif Require Import GoBase UBufModel UBufSpec.

(** ** Lists *)
Lemma splice_length a i l : i + length l <= length a -> length (splice a i l) = length a.
Proof.
  intros H. unfold splice. rewrite !app_length, take_length, drop_length. lia.
Qed.

Lemma splice_app h d t l :
  length l <= length t ->
  splice (h ++ d ++ t) (length h + length d) l = h ++ d ++ l ++ drop (length l) t.
Proof.
  intros H. unfold splice. rewrite (app_assoc h d t).
  rewrite take_app_alt by (rewrite app_length; lia).
  rewrite <- drop_drop. rewrite (drop_app_alt (h ++ d)) by (rewrite app_length; lia).
  rewrite <- !app_assoc. done.
Qed.

(** ** Byte order *)
Lemma le_bytes_length n v : length (le_bytes n v) = n.
Proof. revert v. induction n as [|n IH]; intros v; simpl; [done|]. by rewrite IH. Qed.
Lemma be_bytes_length n v : length (be_bytes n v) = n.
Proof. unfold be_bytes. by rewrite rev_length, le_bytes_length. Qed.
Lemma enc_length o w v : length (enc o w v) = wbytes w.
Proof. destruct o; simpl; rewrite ?be_bytes_length, ?le_bytes_length; done. Qed.

Lemma le_val_bytes n v : (0 <= v < 256 ^ Z.of_nat n)%Z -> le_val (le_bytes n v) = v.
Proof.
  revert v. induction n as [|n IH]; intros v Hv.
  - simpl in *. lia.
  - cbn [le_bytes le_val]. rewrite IH.
    + pose proof (Z.div_mod v 256). lia.
    + rewrite Nat2Z.inj_succ, Z.pow_succ_r in Hv by lia.
      split; [apply Z.div_pos; lia|]. apply Z.div_lt_upper_bound; lia.
Qed.
Lemma be_val_bytes n v : (0 <= v < 256 ^ Z.of_nat n)%Z -> be_val (be_bytes n v) = v.
Proof. intros H. unfold be_val, be_bytes. rewrite rev_involutive. by apply le_val_bytes. Qed.

Lemma wmax_pow w : wmax w = (256 ^ Z.of_nat (wbytes w))%Z.
Proof. destruct w; reflexivity. Qed.

Lemma dec_enc o w v : (0 <= v < wmax w)%Z -> dec o (enc o w v) = v.
Proof.
  rewrite wmax_pow. intros H. destruct o; simpl; [apply be_val_bytes|apply be_val_bytes|apply le_val_bytes]; done.
Qed.

Lemma le_bytes_ok n v : Forall byte_ok (le_bytes n v).
Proof.
  revert v. induction n as [|n IH]; intros v; simpl; constructor; [|done].
  unfold byte_ok. apply Z.mod_pos_bound. lia.
Qed.
Lemma enc_ok o w v : Forall byte_ok (enc o w v).
Proof.
  destruct o; simpl; unfold be_bytes; rewrite ?Forall_rev; try apply Forall_rev; apply le_bytes_ok.
Qed.

Lemma le_bytes_mod n v : le_bytes n (v mod 256 ^ Z.of_nat n)%Z = le_bytes n v.
Proof.
  revert v. induction n as [|n IH]; intros v; [done|].
  cbn [le_bytes]. rewrite Nat2Z.inj_succ, Z.pow_succ_r by lia.
  set (P := (256 ^ Z.of_nat n)%Z) in *.
  assert (0 < P)%Z by (apply Z.pow_pos_nonneg; lia).
  rewrite Z.rem_mul_r by lia.
  assert (E1 : ((v mod 256 + 256 * ((v / 256) mod P)) mod 256 = v mod 256)%Z).
  { rewrite Z.mul_comm, Z.mod_add by lia. apply Z.mod_mod. lia. }
  assert (E2 : ((v mod 256 + 256 * ((v / 256) mod P)) / 256 = (v / 256) mod P)%Z).
  { rewrite Z.mul_comm, Z.div_add by lia. rewrite (Z.div_small (v mod 256)); [lia|].
    apply Z.mod_pos_bound. lia. }
  rewrite E1, E2. f_equal. apply IH.
Qed.

Lemma le_val_range l : Forall byte_ok l -> (0 <= le_val l < 256 ^ Z.of_nat (length l))%Z.
Proof.
  induction 1 as [|b l Hb Hl IH]; [simpl; lia|].
  cbn [le_val length]. rewrite Nat2Z.inj_succ, Z.pow_succ_r by lia.
  unfold byte_ok in Hb. lia.
Qed.

Lemma le_bytes_val l : Forall byte_ok l -> le_bytes (length l) (le_val l) = l.
Proof.
  induction 1 as [|b l Hb Hl IH]; [done|].
  cbn [le_val length le_bytes]. unfold byte_ok in Hb.
  assert (E1 : ((b + 256 * le_val l) mod 256 = b)%Z).
  { rewrite Z.mul_comm, Z.mod_add by lia. apply Z.mod_small. lia. }
  assert (E2 : ((b + 256 * le_val l) / 256 = le_val l)%Z).
  { rewrite Z.mul_comm, Z.div_add by lia. rewrite Z.div_small by lia. lia. }
  rewrite E1, E2. by rewrite IH.
Qed.
Lemma enc_dec o w l : Forall byte_ok l -> length l = wbytes w -> enc o w (dec o l) = l.
Proof.
  intros Hl Hn. destruct o; simpl.
  1,2: unfold be_bytes, be_val; rewrite <- Hn, <- (rev_length l);
       rewrite le_bytes_val by (by apply Forall_rev); apply rev_involutive.
  rewrite <- Hn. by apply le_bytes_val.
Qed.

(** ** Well-formed buffers *)
Definition wf (b : vbuf) : Prop :=
  v_rd b <= v_wr b /\ v_wr b <= v_cap b /\ v_res b <= v_cap b /\ blen (v_st b) = v_cap b.

(** The deque a well-formed buffer stands for. *)
Definition absq (b : vbuf) : deque := DQ (v_res b) (v_rd b) (readable b) (v_tlen b).

Lemma readable_length b : wf b -> length (readable b) = v_rlen b.
Proof.
  intros (H1 & H2 & _). unfold readable. rewrite take_length, drop_length.
  unfold v_rlen, v_cap, scap in *. lia.
Qed.

(** The storage split at the two cursors. *)
Lemma split_arr b : wf b ->
  exists hd tl, arr (v_st b) = hd ++ readable b ++ tl /\ length hd = v_rd b /\ length tl = v_tlen b.
Proof.
  intros Hwf. pose proof Hwf as (H1 & H2 & _).
  exists (take (v_rd b) (arr (v_st b))), (drop (v_wr b) (arr (v_st b))).
  unfold v_cap, scap in *. repeat split.
  - unfold readable, v_rlen.
    replace (drop (v_wr b) (arr (v_st b))) with
      (drop (v_wr b - v_rd b) (drop (v_rd b) (arr (v_st b)))).
    2:{ rewrite drop_drop. f_equal. lia. }
    by rewrite take_drop, take_drop.
  - rewrite take_length. lia.
  - rewrite drop_length. unfold v_tlen, v_cap, scap. lia.
Qed.

Lemma readable_eq res0 rd0 wr0 a bl h d t :
  a = h ++ d ++ t -> rd0 = length h -> wr0 = length h + length d ->
  readable (VB res0 rd0 wr0 (Store a bl)) = d.
Proof.
  intros -> -> ->. unfold readable, v_rlen. simpl.
  rewrite drop_app. replace (length h + length d - length h) with (length d) by lia.
  by rewrite take_app.
Qed.

Lemma append_spec b l :
  wf b -> length l <= v_tlen b ->
  let b' := set_wr (set_st b (Store (splice (arr (v_st b)) (v_wr b) l) (blen (v_st b)))) (v_wr b + length l) in
  wf b' /\ absq b' = q_append (absq b) l.
Proof.
  intros Hwf Hl b'. pose proof Hwf as (H1 & H2 & H3 & H4).
  destruct (split_arr b Hwf) as (hd & tl & Ea & Lh & Lt).
  pose proof (readable_length b Hwf) as Lr.
  assert (Ew : v_wr b = length hd + length (readable b)) by (unfold v_rlen in *; lia).
  assert (Es : arr (v_st b') = hd ++ (readable b ++ l) ++ drop (length l) tl).
  { unfold b'. simpl. rewrite Ea at 1. rewrite Ew.
    rewrite splice_app by lia. by rewrite <- !app_assoc. }
  assert (Hc : v_cap b' = v_cap b).
  { unfold v_cap, scap, b'; simpl. apply splice_length. unfold v_tlen, v_cap, scap in *. lia. }
  split.
  - unfold wf. rewrite Hc. unfold b'; simpl. unfold v_tlen, v_rlen in *. lia.
  - unfold absq, q_append. simpl. f_equal.
    + unfold b' at 1. unfold set_wr, set_st. simpl.
      apply (readable_eq _ _ _ _ _ hd _ (drop (length l) tl)); [exact Es|lia|].
      rewrite app_length. lia.
    + unfold v_tlen. rewrite Hc. unfold b'; simpl. lia.
Qed.

Lemma prepend_spec b l :
  wf b -> length l <= v_rd b ->
  let b' := VB (v_res b) (v_rd b - length l) (v_wr b)
               (Store (splice (arr (v_st b)) (v_rd b - length l) l) (blen (v_st b))) in
  wf b' /\ absq b' = q_prepend (absq b) l.
Proof.
  intros Hwf Hl b'. pose proof Hwf as (H1 & H2 & H3 & H4).
  destruct (split_arr b Hwf) as (hd & tl & Ea & Lh & Lt).
  pose proof (readable_length b Hwf) as Lr.
  set (h1 := take (v_rd b - length l) hd). set (h2 := drop (v_rd b - length l) hd).
  assert (Eh : hd = h1 ++ h2) by (unfold h1, h2; by rewrite take_drop).
  assert (L1 : length h1 = v_rd b - length l) by (unfold h1; rewrite take_length; lia).
  assert (L2 : length h2 = length l) by (unfold h2; rewrite drop_length; lia).
  assert (Es : arr (v_st b') = h1 ++ (l ++ readable b) ++ tl).
  { unfold b'; simpl. rewrite Ea, Eh.
    replace (v_rd b - length l) with (length h1 + length (@nil byte)) by (simpl; lia).
    rewrite <- app_assoc.
    change (h1 ++ h2 ++ readable b ++ tl) with (h1 ++ [] ++ (h2 ++ readable b ++ tl)).
    rewrite splice_app.
    2:{ rewrite app_length. lia. }
    rewrite <- L2. rewrite drop_app. simpl. by rewrite <- app_assoc. }
  assert (Hc : v_cap b' = v_cap b).
  { unfold v_cap, scap, b'; simpl. apply splice_length.
    unfold v_cap, scap in *. lia. }
  split.
  - unfold wf. rewrite Hc. unfold b'; simpl. lia.
  - unfold absq, q_prepend. simpl. f_equal.
    + unfold b' at 1.
      apply (readable_eq _ _ _ _ _ h1 _ tl); [exact Es|lia|].
      rewrite app_length. unfold v_rlen in Lr. lia.
    + unfold v_tlen. rewrite Hc. unfold b'; simpl. lia.
Qed.

Lemma pop_spec b n :
  wf b -> n <= v_rlen b ->
  wf (set_rd b (v_rd b + n)) /\ absq (set_rd b (v_rd b + n)) = q_pop (absq b) n.
Proof.
  intros (H1 & H2 & H3 & H4) Hn. unfold v_rlen in Hn. split.
  - unfold wf, set_rd, v_cap in *; simpl. lia.
  - unfold absq, q_pop, set_rd; simpl. f_equal.
    unfold readable, v_rlen; simpl.
    rewrite skipn_firstn_comm, drop_drop. f_equal. lia.
Qed.

Lemma s_from_rd b : wf b -> s_from (v_st b) (v_rd b) = Some (readable b ++ drop (v_wr b) (arr (v_st b))).
Proof.
  intros Hwf. pose proof Hwf as (H1 & H2 & H3 & H4). unfold s_from.
  rewrite H4. unfold v_cap in *.
  destruct (v_rd b <=? scap (v_st b)) eqn:E; [|apply Nat.leb_gt in E; lia].
  f_equal. destruct (split_arr b Hwf) as (hd & tl & Ea & Lh & Lt).
  pose proof (readable_length b Hwf) as Lr.
  rewrite take_ge by (rewrite drop_length; unfold scap; lia).
  unfold readable at 1.
  replace (drop (v_wr b) (arr (v_st b))) with
      (drop (v_rlen b) (drop (v_rd b) (arr (v_st b)))).
  2:{ rewrite drop_drop. f_equal. unfold v_rlen. lia. }
  by rewrite take_drop.
Qed.

Lemma s_from_wr b : wf b -> exists dst, s_from (v_st b) (v_wr b) = Some dst /\ length dst = v_tlen b.
Proof.
  intros (H1 & H2 & H3 & H4). unfold s_from. rewrite H4. unfold v_tlen, v_cap in *.
  destruct (v_wr b <=? scap (v_st b)) eqn:E; [|apply Nat.leb_gt in E; lia].
  eexists; split; [done|]. rewrite take_length, drop_length. unfold scap in *. lia.
Qed.

Lemma s_range_rdwr b : wf b -> s_range (v_st b) (v_rd b) (v_wr b) = Some (readable b).
Proof.
  intros (H1 & H2 & H3 & H4). unfold s_range, v_cap in *.
  destruct (v_rd b <=? v_wr b) eqn:E1; [|apply Nat.leb_gt in E1; lia].
  destruct (v_wr b <=? scap (v_st b)) eqn:E2; [|apply Nat.leb_gt in E2; lia].
  done.
Qed.

Lemma s_range_prefix b n : wf b -> n <= v_rlen b ->
  s_range (v_st b) (v_rd b) (v_rd b + n) = Some (take n (readable b)).
Proof.
  intros (H1 & H2 & H3 & H4) Hn. unfold s_range, v_cap, v_rlen in *.
  destruct (v_rd b <=? v_rd b + n) eqn:E1; [|apply Nat.leb_gt in E1; lia].
  destruct (v_rd b + n <=? scap (v_st b)) eqn:E2; [|apply Nat.leb_gt in E2; lia].
  simpl. f_equal. unfold readable, v_rlen. rewrite take_take. f_equal. lia.
Qed.

Lemma s_get_rd b x l : wf b -> readable b = x :: l -> s_get (v_st b) (v_rd b) = Some x.
Proof.
  intros Hwf E. pose proof Hwf as (H1 & H2 & H3 & H4).
  pose proof (readable_length b Hwf) as Lr. rewrite E in Lr. simpl in Lr.
  unfold s_get. rewrite H4. unfold v_rlen, v_cap in *.
  destruct (v_rd b <? scap (v_st b)) eqn:E1; [|apply Nat.ltb_ge in E1; lia].
  destruct (split_arr b Hwf) as (hd & tl & Ea & Lh & Lt).
  rewrite Ea, E, <- Lh. rewrite lookup_app_r by lia.
  by rewrite Nat.sub_diag.
Qed.

(** ** Simulation, one call *)
Lemma q_empty_len b : wf b -> q_empty (absq b) = (v_rlen b =? 0).
Proof.
  intros Hwf. rewrite <- (readable_length b Hwf). unfold q_empty; simpl.
  by destruct (readable b).
Qed.

Ltac cleq := repeat match goal with
  | H : (_ =? _) = true |- _ => apply Nat.eqb_eq in H
  | H : (_ =? _) = false |- _ => apply Nat.eqb_neq in H
  | H : (_ <=? _) = true |- _ => apply Nat.leb_le in H
  | H : (_ <=? _) = false |- _ => apply Nat.leb_gt in H
  | H : (_ <? _) = true |- _ => apply Nat.ltb_lt in H
  | H : (_ <? _) = false |- _ => apply Nat.ltb_ge in H
  end.

Lemma v_write_sim b p : wf b -> v_tlen b <> 0 ->
  exists b', v_write_body p b =
             Ok (Nat.min (v_tlen b) (length p),
                 if v_tlen b <? length p then Some EPartial else None) b'
             /\ wf b' /\ absq b' = q_append (absq b) (take (v_tlen b) p).
Proof.
  intros Hwf Ht. destruct (s_from_wr b Hwf) as (dst & Ed & Ld).
  unfold v_write_body. rewrite Ed, Ld.
  replace (v_tlen b `min` (v_tlen b `min` length p)) with (v_tlen b `min` length p) by lia.
  assert (El : take (v_tlen b `min` length p) p = take (v_tlen b) p).
  { destruct (Nat.le_gt_cases (v_tlen b) (length p)) as [G|G].
    - f_equal. lia.
    - rewrite !take_ge by lia. done. }
  assert (Ll : length (take (v_tlen b) p) = v_tlen b `min` length p) by apply take_length.
  destruct (append_spec b (take (v_tlen b) p) Hwf ltac:(rewrite take_length; lia)) as [W A].
  rewrite Ll in W, A. rewrite El.
  eexists; split; [|split; [exact W|exact A]].
  f_equal. f_equal.
  destruct (v_tlen b `min` length p <? length p) eqn:E1, (v_tlen b <? length p) eqn:E2; cleq; try done; lia.
Qed.

Lemma v_writeU_sim b o w v : wf b -> wbytes w <= v_tlen b ->
  exists b', v_write (enc o w v) b = Ok (wbytes w, None) b'
             /\ wf b' /\ absq b' = q_append (absq b) (enc o w v).
Proof.
  intros Hwf Ht. unfold v_write.
  assert (wbytes w > 0) by (destruct w; simpl; lia).
  destruct (v_tlen b =? 0) eqn:E; cleq; [lia|].
  destruct (v_write_sim b (enc o w v) Hwf ltac:(lia)) as (b' & E1 & W & A).
  rewrite enc_length in E1. exists b'.
  rewrite take_ge in A by (rewrite enc_length; lia). split; [|done].
  rewrite E1. f_equal. f_equal; [lia|].
  destruct (v_tlen b <? wbytes w) eqn:E2; cleq; [lia|done].
Qed.

(** The state in which writeHead calls [fn]: the write cursor sits in the head
    room, so this is not a well-formed buffer; only these two facts are used. *)
Lemma v_head_core b (l : list byte) :
  wf b -> length l <= v_rd b ->
  let b1 := set_wr b (v_rd b - length l) in
  v_tlen b1 = v_cap b - (v_rd b - length l) /\
  exists dst, s_from (v_st b1) (v_wr b1) = Some dst /\ length l <= length dst.
Proof.
  intros (H1 & H2 & H3 & H4) Hl b1. split; [done|].
  unfold s_from, b1; simpl. rewrite H4. unfold v_cap in *.
  destruct (v_rd b - length l <=? scap (v_st b)) eqn:E; cleq; [|lia].
  eexists; split; [done|]. rewrite take_length, drop_length. unfold scap in *. lia.
Qed.

Lemma v_head_write b (l : list byte) :
  wf b -> length l <= v_rd b -> v_tlen (set_wr b (v_rd b - length l)) <> 0 ->
  v_write l (set_wr b (v_rd b - length l)) =
  Ok (length l, None)
     (VB (v_res b) (v_rd b) (v_rd b - length l + length l)
         (Store (splice (arr (v_st b)) (v_rd b - length l) l) (blen (v_st b)))).
Proof.
  intros Hwf Hl Ht. pose proof Hwf as (H1 & H2 & H3 & H4).
  destruct (v_head_core b l Hwf Hl) as (T & dst & Ed & Ld).
  unfold v_write. destruct (v_tlen (set_wr b (v_rd b - length l)) =? 0) eqn:E; cleq; [lia|].
  unfold v_write_body. rewrite Ed, T.
  replace (length dst `min` ((v_cap b - (v_rd b - length l)) `min` length l)) with (length l) by lia.
  rewrite Nat.ltb_irrefl, firstn_all. done.
Qed.

Lemma v_head_sim b l fn :
  wf b -> length l <= v_rd b ->
  fn (set_wr b (v_rd b - length l)) =
    Ok None (VB (v_res b) (v_rd b) (v_rd b - length l + length l)
               (Store (splice (arr (v_st b)) (v_rd b - length l) l) (blen (v_st b)))) ->
  exists b', v_writehead (length l) fn b = Ok None b' /\ wf b' /\ absq b' = q_prepend (absq b) l.
Proof.
  intros Hwf Hl Hfn. unfold v_writehead.
  destruct (v_rd b <? length l) eqn:E; cleq; [lia|].
  rewrite Hfn. simpl.
  destruct (prepend_spec b l Hwf Hl) as [W A].
  eexists; split; [reflexivity|]. unfold set_wr, set_rd. simpl. split; [exact W|exact A].
Qed.

Lemma v_readfull_enough b n fuel acc : wf b -> 0 < n -> n <= v_rlen b -> 0 < fuel ->
  v_readfull fuel n acc b = Some (Ok (acc ++ take n (readable b), false) (set_rd b (v_rd b + n))).
Proof.
  intros Hwf Hn Hr Hf. destruct fuel as [|f]; [lia|].
  cbn [v_readfull]. destruct (n =? 0) eqn:E; cleq; [lia|].
  unfold v_read. destruct (v_rlen b =? 0) eqn:E1; cleq; [lia|].
  rewrite (s_from_rd b Hwf). replace (v_rlen b `min` n) with n by lia.
  pose proof (readable_length b Hwf) as Lr.
  rewrite take_app_le by lia.
  assert (length (take n (readable b)) = n) as L by (rewrite take_length; lia).
  rewrite L, Nat.eqb_refl. done.
Qed.

Theorem v_step_refines o b :
  wf b -> op_ok o ->
  exists b', v_step o b = Ok (fst (q_step o (absq b))) b' /\ wf b' /\ absq b' = snd (q_step o (absq b)).
Proof.
  intros Hwf Hok. pose proof Hwf as (H1 & H2 & H3 & H4).
  pose proof (readable_length b Hwf) as Lr.
  destruct o as [c|p|o w v|wr| |n|o w|r|n| |o w|c|p|o w v| |]; simpl.
  - (* WriteByte *)
    unfold v_writebyte. destruct (v_tlen b =? 0) eqn:E; cleq; simpl; [by exists b|].
    unfold v_writebyte_body, s_set. rewrite H4.
    destruct (v_wr b <? v_cap b) eqn:E1; cleq; [|unfold v_tlen in *; lia].
    simpl. destruct (append_spec b [c] Hwf ltac:(simpl; lia)) as [W A].
    eexists; split; [reflexivity|]. rewrite <- H4. split; [exact W|exact A].
  - (* Write *)
    unfold v_write. destruct (v_tlen b =? 0) eqn:E; cleq; simpl; [by exists b|].
    destruct (v_write_sim b p Hwf E) as (b' & E1 & W & A). rewrite E1. simpl.
    destruct (length p <=? v_tlen b) eqn:E2; cleq; simpl.
    + exists b'. rewrite take_ge in A by lia. split; [|done].
      f_equal. destruct (v_tlen b <? length p) eqn:E3; cleq; [lia|]. f_equal. lia.
    + exists b'. split; [|done].
      f_equal. destruct (v_tlen b <? length p) eqn:E3; cleq; [|lia]. f_equal. lia.
  - (* WriteU *)
    unfold v_writeU. destruct (v_tlen b <? wbytes w) eqn:E; cleq; simpl; [by exists b|].
    destruct (v_writeU_sim b o w v Hwf E) as (b' & E1 & W & A). rewrite E1. simpl. by exists b'.
  - (* WriteTo *)
    unfold v_writeto. rewrite (q_empty_len b Hwf).
    destruct (v_rlen b =? 0) eqn:E; cleq; simpl; [by exists b|].
    rewrite (s_range_rdwr b Hwf). specialize (Hok (readable b)). simpl in Hok.
    destruct (wr (readable b)) as [n failed]. simpl in Hok. destruct failed; simpl; [by exists b|].
    destruct (pop_spec b n Hwf ltac:(lia)) as [W A]. by eexists.
  - (* ReadByte *)
    unfold v_readbyte. destruct (readable b) as [|x l] eqn:El; simpl in Lr.
    + rewrite <- Lr. simpl. by exists b.
    + rewrite <- Lr. simpl. rewrite (s_get_rd b x l Hwf El). simpl.
      destruct (pop_spec b 1 Hwf ltac:(lia)) as [W A]. by eexists.
  - (* Read *)
    unfold v_read. rewrite (q_empty_len b Hwf).
    destruct (v_rlen b =? 0) eqn:E; cleq; simpl; [by exists b|].
    rewrite (s_from_rd b Hwf).
    rewrite take_app_le by lia.
    destruct (n <=? length (readable b)) eqn:E1; cleq; simpl.
    + replace (v_rlen b `min` n) with n by lia.
      assert (length (take n (readable b)) = n) as L by (rewrite take_length; lia).
      rewrite L, Nat.ltb_irrefl. simpl.
      destruct (pop_spec b n Hwf ltac:(lia)) as [W A]. by eexists.
    + replace (v_rlen b `min` n) with (length (readable b)) by lia.
      rewrite firstn_all. destruct (length (readable b) <? n) eqn:E2; cleq; [|lia]. simpl.
      destruct (pop_spec b (length (readable b)) Hwf ltac:(lia)) as [W A]. by eexists.
  - (* ReadU *)
    unfold v_readU. rewrite Lr. destruct (v_rlen b <? wbytes w) eqn:E; cleq; [simpl; by exists b|].
    rewrite (v_readfull_enough b (wbytes w) 1 []) by (try done; destruct w; simpl; lia).
    simpl. destruct (pop_spec b (wbytes w) Hwf ltac:(lia)) as [W A]. by eexists.
  - (* ReadFrom *)
    unfold v_readfrom. destruct (v_tlen b =? 0) eqn:E; cleq; simpl; [by exists b|].
    unfold v_readfrom_body. destruct (s_from_wr b Hwf) as (dst & Ed & Ld). rewrite Ed, Ld.
    specialize (Hok (v_tlen b)). destruct (r (v_tlen b)) as [l failed]. simpl in Hok.
    destruct (append_spec b l Hwf Hok) as [W A].
    destruct failed; simpl.
    + eexists; split; [reflexivity|].
      (* the bytes changed are outside the readable part *)
      destruct (split_arr b Hwf) as (hd & tl & Ea & Lh & Lt).
      assert (Ew : v_wr b = length hd + length (readable b)) by (unfold v_rlen in *; lia).
      set (st' := Store (splice (arr (v_st b)) (v_wr b) l) (blen (v_st b))).
      assert (Hc : scap st' = v_cap b).
      { unfold st', scap; simpl. rewrite splice_length; [done|]. unfold v_tlen, v_cap, scap in *. lia. }
      split.
      * unfold wf, set_st, v_cap; simpl. rewrite Hc. unfold st'; simpl. lia.
      * unfold absq, set_st; simpl. f_equal.
        -- unfold st'. apply (readable_eq _ _ _ _ _ hd _ (l ++ drop (length l) tl)).
           ++ rewrite Ea at 1. rewrite Ew, splice_app by lia. done.
           ++ lia.
           ++ lia.
        -- unfold v_tlen, v_cap; simpl. by rewrite Hc.
    + eexists; split; [reflexivity|]. split; [exact W|exact A].
  - (* Peek *)
    unfold v_peek. rewrite (q_empty_len b Hwf).
    destruct (v_rlen b =? 0) eqn:E; cleq; simpl; [by exists b|].
    rewrite (s_from_rd b Hwf). rewrite take_app_le by lia.
    destruct (n <=? length (readable b)) eqn:E1; cleq; simpl.
    + replace (v_rlen b `min` n) with n by lia.
      assert (length (take n (readable b)) = n) as L by (rewrite take_length; lia).
      rewrite L, Nat.ltb_irrefl. by exists b.
    + replace (v_rlen b `min` n) with (length (readable b)) by lia.
      rewrite firstn_all. destruct (length (readable b) <? n) eqn:E2; cleq; [|lia]. by exists b.
  - (* PeekByte *)
    unfold v_peekbyte. destruct (readable b) as [|x l] eqn:El; simpl in Lr.
    + rewrite <- Lr. simpl. by exists b.
    + rewrite <- Lr. simpl. rewrite (s_get_rd b x l Hwf El). by exists b.
  - (* PeekU *)
    unfold v_peekU. rewrite Lr. destruct (v_rlen b <? wbytes w) eqn:E; cleq; simpl; [by exists b|].
    rewrite (s_range_prefix b (wbytes w) Hwf E). by exists b.
  - (* HeadByte *)
    unfold v_headbyte. destruct (v_rd b <? 1) eqn:E; cleq; simpl.
    + unfold v_writehead. destruct (v_rd b <? 1) eqn:E1; cleq; [|lia]. by exists b.
    + destruct (v_head_sim b [c] (v_writebyte c) Hwf ltac:(simpl; lia)) as (b' & E1 & W & A).
      * simpl. unfold v_writebyte, v_tlen, set_wr; simpl.
        unfold v_cap at 1; simpl. fold (v_cap b).
        destruct (v_cap b - (v_rd b - 1) =? 0) eqn:E2; cleq; [lia|].
        unfold v_writebyte_body, s_set; simpl. rewrite H4.
        destruct (v_rd b - 1 <? v_cap b) eqn:E3; cleq; [|lia]. done.
      * simpl in E1. rewrite E1. by exists b'.
  - (* HeadBytes *)
    unfold v_headbytes. destruct (v_rd b <? length p) eqn:E; cleq; simpl.
    + unfold v_writehead. destruct (v_rd b <? length p) eqn:E1; cleq; [|lia]. by exists b.
    + destruct ((length p =? 0) && q_empty (absq b) && (v_tlen b =? 0)) eqn:E0; simpl.
      * apply andb_prop in E0 as [E0 Et]. apply andb_prop in E0 as [Ep Ee]. cleq.
        rewrite (q_empty_len b Hwf) in Ee. cleq.
        apply nil_length_inv in Ep as ->. unfold v_writehead; simpl.
        destruct (v_rd b <? 0) eqn:E1; cleq; [lia|].
        rewrite Nat.sub_0_r. unfold v_write_err, v_write, v_tlen, set_wr; simpl.
        unfold v_cap at 1; simpl. fold (v_cap b). unfold v_tlen, v_rlen in *.
        destruct (v_cap b - v_rd b =? 0) eqn:E2; cleq; [|lia]. simpl.
        exists b. split; [|done]. f_equal. by destruct b.
      * assert (Ht : v_tlen (set_wr b (v_rd b - length p)) <> 0).
        { unfold v_tlen, set_wr; simpl. unfold v_cap; simpl. fold (v_cap b).
          rewrite !andb_false_iff in E0. destruct E0 as [[E0|E0]|E0].
          - cleq. lia.
          - rewrite (q_empty_len b Hwf) in E0. cleq. unfold v_rlen in *. lia.
          - cleq. unfold v_tlen in *. lia. }
        destruct (v_head_sim b p (v_write_err p) Hwf E) as (b' & E1 & W & A).
        -- unfold v_write_err. by rewrite (v_head_write b p Hwf E Ht).
        -- rewrite E1. by exists b'.
  - (* HeadU *)
    unfold v_headU. destruct (v_rd b <? wbytes w) eqn:E; cleq; simpl.
    + unfold v_writehead. destruct (v_rd b <? wbytes w) eqn:E1; cleq; [|lia]. by exists b.
    + pose proof (enc_length o w v) as Le.
      assert (wbytes w > 0) by (destruct w; simpl; lia).
      destruct (v_head_sim b (enc o w v) (v_writeU o w v) Hwf ltac:(lia)) as (b' & E1 & W & A).
      * assert (Ht : v_tlen (set_wr b (v_rd b - length (enc o w v))) <> 0).
        { unfold v_tlen, set_wr; simpl. unfold v_cap; simpl. fold (v_cap b). lia. }
        unfold v_writeU.
        destruct (v_tlen (set_wr b (v_rd b - length (enc o w v))) <? wbytes w) eqn:E2; cleq.
        { unfold v_tlen, set_wr in E2; simpl in E2. unfold v_cap in E2; simpl in E2. fold (v_cap b) in E2. lia. }
        by rewrite (v_head_write b (enc o w v) Hwf ltac:(lia) Ht).
      * rewrite Le in E1. rewrite E1. by exists b'.
  - (* Reset *)
    eexists; split; [reflexivity|]. unfold v_reset. split.
    + unfold wf, v_cap in *; simpl. lia.
    + unfold absq; simpl. f_equal.
      * unfold readable, v_rlen; simpl. by rewrite Nat.sub_diag.
      * unfold q_cap; simpl. unfold v_tlen, v_cap in *; simpl. unfold v_rlen in Lr. lia.
  - (* Lens *)
    exists b. split; [|done]. f_equal. unfold q_cap; simpl. f_equal; try done.
    unfold v_tlen, v_rlen in *. lia.
Qed.

(** ** Lifting to sequences of calls *)
Theorem v_run_refines ops b :
  wf b -> Forall op_ok ops ->
  exists b', v_run ops b = (Some <$> fst (q_run ops (absq b)), b')
             /\ wf b' /\ absq b' = snd (q_run ops (absq b)).
Proof.
  revert b. induction ops as [|o ops IH]; intros b Hwf Hok; simpl.
  - by exists b.
  - inversion Hok as [|? ? Ho Hops]; subst.
    destruct (v_step_refines o b Hwf Ho) as (b1 & E1 & W1 & A1). rewrite E1.
    destruct (IH b1 W1 Hops) as (b2 & E2 & W2 & A2). rewrite E2.
    rewrite A1 in *. destruct (q_step o (absq b)) as [x q1]. simpl in *.
    destruct (q_run ops q1) as [xs q2]. simpl in *. by exists b2.
Qed.

Lemma alloc_wf c r b : v_alloc c r = Some b -> wf b /\ absq b = q_new (Z.to_nat c) (Z.to_nat r)
                                             /\ (0 < c /\ 0 <= r <= c)%Z.
Proof.
  unfold v_alloc. destruct ((c <=? 0) || (r <? 0) || (r >? c))%Z eqn:E; [done|].
  apply orb_false_iff in E as [E E3]. apply orb_false_iff in E as [E1 E2].
  apply Z.leb_gt in E1. apply Z.ltb_ge in E2. rewrite Z.gtb_ltb in E3. apply Z.ltb_ge in E3.
  intros [= <-].
  assert (Hc : forall a b' c', v_cap (VB a b' c' (make_store (Z.to_nat c))) = Z.to_nat c).
  { intros. unfold v_cap, scap; simpl. apply replicate_length. }
  split; [|split; [|lia]].
  - unfold wf. rewrite Hc. simpl. lia.
  - unfold absq, q_new, v_tlen. rewrite Hc. simpl. f_equal.
    unfold readable, v_rlen; simpl. by rewrite Nat.sub_diag.
Qed.

Lemma alloc_some c r : (0 < c /\ 0 <= r <= c)%Z -> exists b, v_alloc c r = Some b.
Proof.
  intros H. unfold v_alloc.
  destruct ((c <=? 0) || (r <? 0) || (r >? c))%Z eqn:E; [|by eexists].
  exfalso. rewrite !orb_true_iff in E. rewrite Z.leb_le, Z.ltb_lt, Z.gtb_lt in E. lia.
Qed.
