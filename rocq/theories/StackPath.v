(** * A byte message on its way down and up a chain of processors *)
From stdpp Require Import sets.
From Verif Require Import GoBase UBufModel UBufSpec UBufProofs UBufFacts FrameModel FrameSpec FrameProofs
  StackModel StackSpec StackProofs.
Arguments frame : simpl never.
Arguments digits : simpl never.

Lemma set_buf_same x b : cx_buf x = Some b -> set_buf x (Some b) = x.
Proof. destruct x; simpl. by intros ->. Qed.

(** Only fields of processor [i] differ, and no cache does. *)
Definition same_caches (i : nat) (s s' : st) : Prop :=
  (forall j, cache_of s' j = cache_of s j) /\ (forall j, j <> i -> s_ps s' !! j = s_ps s !! j).
Lemma same_refl i s : same_caches i s s.
Proof. done. Qed.
Lemma same_inc_tx i s : same_caches i s (inc_tx s i).
Proof.
  split; [intros j; apply cache_inc_tx|]. intros j Hj. unfold inc_tx. destruct (s_ps s !! i); [|done].
  simpl. by rewrite list_lookup_insert_ne.
Qed.
Lemma same_inc_rx i s : same_caches i s (inc_rx s i).
Proof.
  split; [intros j; apply cache_inc_rx|]. intros j Hj. unfold inc_rx. destruct (s_ps s !! i); [|done].
  simpl. by rewrite list_lookup_insert_ne.
Qed.
Lemma ps_set_cache s i c j : j <> i -> s_ps (set_cache s i c) !! j = s_ps s !! j.
Proof. intros Hj. unfold set_cache. destruct (s_ps s !! i); [|done]. simpl. by rewrite list_lookup_insert_ne. Qed.

Lemma put_length sess p l : length l <= length (put sess p l).
Proof.
  unfold put. destruct (p_kind p); try destruct (p_enable p); rewrite ?frame_length, ?app_length; simpl; lia.
Qed.
Lemma put_nonempty sess p l : l <> [] -> put sess p l <> [].
Proof. intros H E. pose proof (put_length sess p l) as L. rewrite E in L. destruct l; simpl in *; [done|lia]. Qed.
Lemma wire_of_length sess ps l : length l <= length (wire_of sess ps l).
Proof.
  unfold wire_of. revert l. induction ps as [|p ps IH]; intros l; simpl; [done|].
  etrans; [apply (put_length sess p)|apply IH].
Qed.
Lemma wire_of_cons sess p ps l : wire_of sess (p :: ps) l = wire_of sess ps (put sess p l).
Proof. done. Qed.
Lemma wire_of_app sess ps ps' l : wire_of sess (ps ++ ps') l = wire_of sess ps' (wire_of sess ps l).
Proof. unfold wire_of. apply foldl_app. Qed.
Lemma wire_of_rev sess ps l : wire_of sess ps l = foldr (put sess) l (rev ps).
Proof.
  revert l. induction ps as [|p ps IH]; intros l; [done|]. rewrite wire_of_cons, IH. simpl rev.
  by rewrite foldr_app.
Qed.
Lemma unwire_length sess rs l : length l <= length (foldr (put sess) l rs).
Proof. induction rs as [|p rs IH]; simpl; [done|]. etrans; [exact IH|apply put_length]. Qed.
Lemma unwire_nonempty sess rs l : l <> [] -> foldr (put sess) l rs <> [].
Proof. intros H. induction rs as [|p rs IH]; simpl; [done|]. by apply put_nonempty. Qed.
Lemma overhead_nonneg k : (0 <= header_len k)%Z.
Proof. by destruct k. Qed.
Lemma room_nonneg ps : (0 <= room ps)%Z.
Proof. induction ps as [|p ps IH]; simpl; [done|]. pose proof (overhead_nonneg (p_kind p)). lia. Qed.
Lemma room_app ps ps' : room (ps ++ ps') = (room ps + room ps')%Z.
Proof. induction ps as [|p ps IH]; simpl; lia. Qed.

(** Header bytes really written by a processor. *)
Definition hdr (p : proc) : nat :=
  match p_kind p with
  | KFrame _ | KSession => if p_enable p then 4 else 0
  | KHeartbeat | KStat | KLoadBalancer => 1
  | _ => 0
  end.
Definition hdrs (ps : list proc) : nat := foldr (fun p n => hdr p + n) 0 ps.
Lemma hdr_overhead p : (Z.of_nat (hdr p) <= header_len (p_kind p))%Z.
Proof. destruct p as [k en]. unfold hdr. destruct k; simpl; try destruct en; lia. Qed.
Lemma hdrs_room ps : (Z.of_nat (hdrs ps) <= room ps)%Z.
Proof. induction ps as [|p ps IH]; simpl; [lia|]. pose proof (hdr_overhead p). lia. Qed.
Lemma put_hdr sess p l : length (put sess p l) = hdr p + length l.
Proof.
  unfold put, hdr. destruct (p_kind p); try done; destruct (p_enable p); try done.
Qed.
Lemma wire_of_hdrs sess ps l : length (wire_of sess ps l) = hdrs ps + length l.
Proof.
  revert l. induction ps as [|p ps IH]; intros l; [done|]. rewrite wire_of_cons, IH, put_hdr. simpl. lia.
Qed.

(** ** One processor on the way down *)
Lemma sends_step E i p x s c b sess :
  sends_on p = true -> cx_conn x = Some c -> e_isref E c = false -> cx_buf x = Some b -> wf b ->
  hdr p <= v_hlen b -> (Z.of_nat (v_rlen b) < 2^32)%Z ->
  option_int (cx_session x) 0 = sess ->
  exists b' s1, (forall d u w, on_upper E i (p_enable p) d u w (p_kind p) x s = d (set_buf x (Some b')) s1) /\
    wf b' /\ readable b' = put sess p (readable b) /\ v_hlen b' = v_hlen b - hdr p /\
    s_out s1 = s_out s /\ s_visits s1 = s_visits s /\ same_caches i s s1.
Proof.
  intros Hs Hc Hr Hb W Ho Hl Hsess.
  assert (Hid : put sess p (readable b) = readable b ->
    (forall d u w, on_upper E i (p_enable p) d u w (p_kind p) x s = d x s) ->
    exists b' s1, (forall d u w, on_upper E i (p_enable p) d u w (p_kind p) x s = d (set_buf x (Some b')) s1) /\
    wf b' /\ readable b' = put sess p (readable b) /\ v_hlen b' = v_hlen b - hdr p /\
    s_out s1 = s_out s /\ s_visits s1 = s_visits s /\ same_caches i s s1).
  { intros Hl0 Hon. exists b, s. rewrite (set_buf_same _ _ Hb).
    pose proof (put_hdr sess p (readable b)) as Lh. rewrite Hl0 in *. split_and!; try done; lia. }
  assert (Hin : forall b' s1, (forall d u w, on_upper E i (p_enable p) d u w (p_kind p) x s = d (set_buf x (Some b')) s1) ->
    wf b' -> readable b' = put sess p (readable b) -> v_hlen b' = v_hlen b - hdr p ->
    s_out s1 = s_out s -> s_visits s1 = s_visits s -> same_caches i s s1 ->
    exists b' s1, (forall d u w, on_upper E i (p_enable p) d u w (p_kind p) x s = d (set_buf x (Some b')) s1) /\
    wf b' /\ readable b' = put sess p (readable b) /\ v_hlen b' = v_hlen b - hdr p /\
    s_out s1 = s_out s /\ s_visits s1 = s_visits s /\ same_caches i s s1).
  { intros b' s1 ? ? ? ? ? ? ?. by exists b', s1. }
  destruct p as [k en]. unfold sends_on in Hs. unfold hdr in Ho. cbn [p_kind p_enable] in *.
  destruct k; cbn [p_kind p_enable] in *; try done;
    try (apply Hid; [done|]; destruct en; done).
  - (* frame *)
    destruct en.
    + destruct (headU_ok (Z.of_nat (v_rlen b)) b W ltac:(lia)) as (b' & E' & W' & R' & H').
      apply (Hin b' s); try done.
      * intros d u w. unfold on_upper, by_reference, with_buf, head_ignore. rewrite Hc, Hr, Hb.
        rewrite Z.mod_small by lia. by rewrite E'.
      * rewrite R'. unfold put. simpl. unfold frame. by rewrite (readable_length b W).
    + apply Hid; [done|]. intros d u w. unfold on_upper, by_reference. by rewrite Hc, Hr.
  - (* heartbeat *)
    destruct (headbyte_ok 0%Z b W ltac:(lia)) as (b' & E' & W' & R' & H').
    apply (Hin b' s); try done. intros d u w. unfold on_upper, by_reference, with_buf, head_ignore.
    by rewrite Hc, Hr, Hb, E'.
  - (* load balancer *)
    destruct (headbyte_ok (if en then 17 else 0)%Z b W ltac:(lia)) as (b' & E' & W' & R' & H').
    apply (Hin b' s); try done. intros d u w. unfold on_upper, by_reference, with_buf, head_ignore.
    by rewrite Hc, Hr, Hb, E'.
  - (* session *)
    destruct en; [|by apply Hid].
    destruct (headU_ok (sess mod 2^32)%Z b W ltac:(lia)) as (b' & E' & W' & R' & H').
    apply (Hin b' s); try done. intros d u w. unfold on_upper, with_buf. by rewrite Hb, Hsess, E'.
  - (* stat *)
    destruct (headbyte_ok 0%Z b W ltac:(lia)) as (b' & E' & W' & R' & H').
    apply (Hin b' (if en then inc_tx s i else s)); try done.
    + intros d u w. unfold on_upper, by_reference, with_buf, head_ignore. by rewrite Hc, Hr, Hb, E'.
    + destruct en; [apply out_inc_tx|done].
    + destruct en; [apply visits_inc_tx|done].
    + destruct en; [apply same_inc_tx|apply same_refl].
Qed.

Lemma lower_send_offered E x s c b : cx_conn x = Some c -> e_isref E c = false -> cx_buf x = Some b -> wf b ->
  exists x' s', lower_send E x s = Done x' s' /\ s_out s' = s_out s ++ offered E (s_out s) c (readable b) /\
    s_visits s' = s_visits s /\ s_ps s' = s_ps s /\ cx_conn x' = cx_conn x /\ cx_session x' = cx_session x.
Proof.
  intros Hc Hr Hb W. unfold lower_send. rewrite Hc, Hr, Hb.
  destruct (decide (readable b = [])) as [He|He].
  { rewrite (writeto_empty _ b W He). eexists _, _. split; [done|]. rewrite He. simpl.
    rewrite app_nil_r. by rewrite Hc. }
  destruct (writeto_some (e_write E (s_out s) c) b W He) as (b' & ->).
  unfold offered. destruct (readable b) as [|a l] eqn:R; [done|].
  destruct (e_write E (s_out s) c (a :: l)) as [n f]. cbn [fst snd].
  destruct f; eexists _, _; (split; [done|]); simpl; rewrite ?Hc; split_and!; try done.
  by rewrite <- app_assoc.
Qed.

Lemma cache_of_visit s i d x j : cache_of (visit s i d x) j = cache_of s j.
Proof. done. Qed.

(** ** All the way down *)
Lemma down_prefix E q is ps rest x s c b sess :
  below E q is (ps ++ rest) -> Forall (fun p => sends_on p = true) ps ->
  cx_conn x = Some c -> e_isref E c = false -> cx_buf x = Some b -> wf b ->
  hdrs ps <= v_hlen b -> (Z.of_nat (length (wire_of sess ps (readable b))) < 2^32)%Z ->
  option_int (cx_session x) 0 = sess ->
  exists is1 is2 q' b' s', is = is1 ++ is2 /\ length is1 = length ps /\ below E q' is2 rest /\
    (forall f, exec (length ps + f) E Down (Some q) x s = exec f E Down (Some q') (set_buf x (Some b')) s') /\
    wf b' /\ readable b' = wire_of sess ps (readable b) /\ v_hlen b' = v_hlen b - hdrs ps /\
    s_out s' = s_out s /\ (forall j, cache_of s' j = cache_of s j) /\
    (forall j, j ∉ is1 -> s_ps s' !! j = s_ps s !! j) /\
    fst <$> s_visits s' = (fst <$> s_visits s) ++ ((fun i => (i, Down)) <$> is1).
Proof.
  revert q is x s b. induction ps as [|p ps IH]; intros q is x s b Hb Hs Hc Hr Hx W Hroom Hlen Hsess.
  - exists [], is, q, b, s. simpl. rewrite (set_buf_same _ _ Hx), Nat.sub_0_r, app_nil_r. done.
  - inversion Hs as [|? ? Hsp Hss]; subst. inversion Hb as [|i is' p' ps' q1 Hp Hlow Hb']; subst.
    simpl hdrs in Hroom. rewrite wire_of_cons in *.
    assert (Hlb : (Z.of_nat (v_rlen b) < 2^32)%Z).
    { pose proof (put_length (option_int (cx_session x) 0) p (readable b)) as L1. rewrite (readable_length b W) in L1.
      pose proof (wire_of_length (option_int (cx_session x) 0) ps (put (option_int (cx_session x) 0) p (readable b))) as L2. lia. }
    destruct (sends_step E i p x (visit s i Down x) c b (option_int (cx_session x) 0))
      as (b1 & s1 & Hst & W1 & R1 & H1 & O1 & V1 & C1 & C1'); try done; [lia|].
    destruct (IH q1 is' (set_buf x (Some b1)) s1 b1) as (is1 & is2 & q' & b' & s' & -> & L1 & B1 & X1 & W' & R' & H' & O' & C' & P' & V');
      try done; [lia|by rewrite R1|].
    exists (i :: is1), is2, q', b', s'. split_and!; try done.
    + simpl. by rewrite L1.
    + intros f. simpl plus. cbn [exec]. rewrite Hp, Hlow. rewrite Hst, X1. done.
    + by rewrite R', R1.
    + rewrite H', H1. simpl. lia.
    + by rewrite O', O1.
    + intros j. rewrite C'. apply C1.
    + intros j Hj. rewrite P' by set_solver. apply C1'. set_solver.
    + rewrite V', V1. simpl. rewrite fmap_app. simpl. by rewrite <- app_assoc.
Qed.

Lemma down_exec E q is ps x s c b sess f :
  below E q is ps -> Forall (fun p => sends_on p = true) ps ->
  cx_conn x = Some c -> e_isref E c = false -> cx_buf x = Some b -> wf b ->
  hdrs ps <= v_hlen b -> (Z.of_nat (length (wire_of sess ps (readable b))) < 2^32)%Z ->
  option_int (cx_session x) 0 = sess -> length ps < f ->
  exists x' s', exec f E Down (Some q) x s = Some (Done x' s') /\
    s_out s' = s_out s ++ offered E (s_out s) c (wire_of sess ps (readable b)) /\
    (forall j, cache_of s' j = cache_of s j) /\ (forall j, j ∉ is -> s_ps s' !! j = s_ps s !! j) /\
    fst <$> s_visits s' = (fst <$> s_visits s) ++ ((fun i => (i, Down)) <$> is) /\
    cx_conn x' = Some c /\ cx_session x' = cx_session x.
Proof.
  intros Hb Hs Hc Hr Hx W Hroom Hlen Hsess Hf.
  rewrite <- (app_nil_r ps) in Hb.
  destruct (down_prefix E q is ps [] x s c b sess) as (is1 & is2 & q' & b' & s1 & -> & L1 & B1 & X1 & W' & R' & H' & O' & C' & P' & V'); try done.
  inversion B1; subst. rewrite app_nil_r in *.
  destruct f as [|f]; [lia|]. replace (S f) with (length ps + S (f - length ps)) by lia. rewrite X1. cbn [exec].
  destruct (lower_send_offered E (set_buf x (Some b')) s1 c b' Hc Hr eq_refl W')
    as (x' & s' & -> & H1 & H2 & H3 & H4 & H5).
  exists x', s'. rewrite H1, R', O', H2, V', H3. split_and!; try done.
  - intros j. rewrite <- C'. unfold cache_of. by rewrite H3.
  - by rewrite H4.
Qed.

(** ** The way up *)

(** The frame decoders among [fr] have an empty cache. *)
Definition idle_in (E : env) (fr : list nat) (s : st) : Prop :=
  forall i cap en, i ∈ fr -> e_procs E !! i = Some (Proc (KFrame cap) en) ->
    exists k c, 0 < k /\ cache_of s i = Some c /\ idle k c.
Lemma caches_idle_in E s fr : caches_idle E s -> idle_in E fr s.
Proof. intros H i cap en _ Hp. eauto. Qed.

(** The call [call], given the bytes [l] received on [c], returns normally,
    shows [outs] and visits [vs]; only caches of frame decoders in [fr] are
    used, and they are empty again afterwards; [K] is kept. *)
Definition handles (E : env) (call : callfn) (c : conn) (l : list byte) (so so' : option oval)
  (outs : list out -> list out) (vs : list (nat * dir)) (fr : list nat) (K : st -> Prop) : Prop :=
  forall x s b, cx_conn x = Some c -> cx_buf x = Some b -> wf b -> readable b = l -> cx_session x = so ->
    idle_in E fr s -> K s ->
    exists x' s', call x s = Some (Done x' s') /\ cx_conn x' = Some c /\ cx_session x' = so' /\
      s_out s' = s_out s ++ outs (s_out s) /\ fst <$> s_visits s' = (fst <$> s_visits s) ++ vs /\
      idle_in E fr s' /\ K s' /\ (forall j, j ∉ fr -> cache_of s' j = cache_of s j).

(** [K] does not depend on processor [i]. *)
Definition stable_at (i : nat) (K : st -> Prop) : Prop :=
  forall s s', (forall j, j <> i -> s_ps s' !! j = s_ps s !! j) -> K s -> K s'.

Definition oseq (o1 o2 : list out -> list out) (h : list out) : list out := o1 h ++ o2 (h ++ o1 h).

Inductive hseq (E : env) (call : callfn) (c : conn) (fr : list nat) (K : st -> Prop)
  : list (list byte) -> option oval -> option oval -> (list out -> list out) -> list (nat * dir) -> Prop :=
| hseq_nil so : hseq E call c fr K [] so so (fun _ => []) []
| hseq_cons p ps so so1 so2 o1 o2 v1 v2 : payload_ok p ->
    handles E call c p so so1 o1 v1 fr K -> hseq E call c fr K ps so1 so2 o2 v2 ->
    hseq E call c fr K (p :: ps) so so2 (oseq o1 o2) (v1 ++ v2).

Lemma frame_cur_handles E i up c fr K ps so so' o vs n x s u cap en :
  hseq E up c fr K ps so so' o vs -> i ∉ fr -> e_procs E !! i = Some (Proc (KFrame cap) en) ->
  cx_conn x = Some c -> cx_session x = so -> wf u -> readable u = frames ps ->
  (Z.of_nat (v_rlen u) < 2^32)%Z -> v_rlen u < n -> idle_in E (i :: fr) s -> K s -> stable_at i K ->
  exists x' s', frame_cur n i up x s u = Some (Done x' s') /\ cx_conn x' = Some c /\ cx_session x' = so' /\
    s_out s' = s_out s ++ o (s_out s) /\ fst <$> s_visits s' = (fst <$> s_visits s) ++ vs /\
    idle_in E (i :: fr) s' /\ K s' /\ (forall j, j ∉ i :: fr -> cache_of s' j = cache_of s j).
Proof.
  intros Hseq Hi Hp. revert n x s u.
  induction Hseq as [so|p ps so so1 so2 o1 o2 v1 v2 Hpay Hh Hs IH]; intros n x s u Hc Hso W R Hlen Hn Hidle HK Hst;
    destruct n as [|n]; try lia; cbn [frame_cur];
    destruct (Hidle i cap en) as (k & cc & Hk & Ecc & Ik); try done; try set_solver; rewrite Ecc;
    destruct (idle_wf k cc Ik) as (Wc & Rc & Tc);
    pose proof (cur_step_spec cc u Wc W Hlen) as S; cbv zeta in S; rewrite R in S.
  - unfold frames in S. simpl in S. destruct S as (c' & u' & -> & W' & S1 & S2 & S3 & S4).
    rewrite Rc in S4. simpl in S4. assert (readable c' = []) as R'.
    { rewrite S4. unfold accepted. rewrite Tc. cbn [length]. destruct (k <=? 0) eqn:Ek; cleq; [lia|done]. }
    eexists _, _. split; [done|]. rewrite out_set_cache, visits_set_cache.
    split_and!; try done; rewrite ?app_nil_r; try done.
    + intros j cap' en' Hj Hj'. apply elem_of_cons in Hj as [->|Hj].
      * exists k, c'. rewrite (cache_set_same _ _ _ cc) by done. split_and!; try done.
        destruct Ik as (I1 & I2 & I3 & I4 & I5). rewrite <- I4, <- S3. apply wf_idle; congruence.
      * rewrite cache_set_other by (intros ->; done). apply (Hidle j cap' en'); set_solver.
    + eapply Hst; [|exact HK]. intros j Hj. by apply ps_set_cache.
    + intros j Hj. rewrite cache_set_other; [done|]. set_solver.
  - rewrite frames_cons in S. destruct Hpay as [Hp1 Hp2]. rewrite frame_announced in S by done.
    rewrite app_length, frame_length in S.
    assert (Hlp : 0 < length p) by (destruct p; simpl; [done|lia]).
    destruct ((4 + length p + length (frames ps) <? 4) ||
      (Z.of_nat (4 + length p + length (frames ps)) <? Z.of_nat (length p))%Z) eqn:E1.
    { apply orb_true_iff in E1 as [E1|E1]; [cleq; lia|]. apply Z.ltb_lt in E1. lia. }
    destruct (Z.of_nat (length p) =? Z.of_nat (4 + length p + length (frames ps)))%Z eqn:E2; [apply Z.eqb_eq in E2; lia|].
    destruct (Z.of_nat (length p) <=? 0)%Z eqn:E3; [apply Z.leb_le in E3; lia|].
    destruct (4 + Z.of_nat (length p) <=? Z.of_nat (4 + length p + length (frames ps)))%Z eqn:E4;
      [|apply Z.leb_gt in E4; lia].
    destruct S as (nb & u' & -> & Wn & Wu' & Rn & Ru'). rewrite Nat2Z.id in Rn, Ru'.
    rewrite frame_payload in Rn. rewrite frame_rest in Ru'.
    assert (Hset : idle_in E fr (set_cache s i cc)).
    { intros j cap' en' Hj Hj'. rewrite cache_set_other by (intros ->; done). apply (Hidle j cap' en'); set_solver. }
    destruct (Hh (set_buf x (Some nb)) (set_cache s i cc) nb) as (x1 & s1 & -> & Hc1 & Hso1 & O1 & V1 & Id1 & K1 & C1); try done.
    { eapply Hst; [|exact HK]. intros j Hj. by apply ps_set_cache. }
    pose proof (readable_length u W) as Lu. rewrite R, frames_cons, app_length, frame_length in Lu.
    pose proof (readable_length u' Wu') as Lu'. rewrite Ru' in Lu'.
    destruct (IH n x1 s1 u') as (x2 & s2 & E2' & Hc2 & Hso2 & O2 & V2 & Id2 & K2 & C2); try done; try lia.
    { intros j cap' en' Hj Hj'. apply elem_of_cons in Hj as [->|Hj]; [|by apply (Id1 j cap' en')].
      exists k, cc. rewrite C1 by done. by rewrite (cache_set_same _ _ _ cc). }
    exists x2, s2. rewrite out_set_cache in O1. rewrite visits_set_cache in V1. split_and!; try done.
    + rewrite O2, O1. unfold oseq. by rewrite <- app_assoc.
    + rewrite V2, V1. by rewrite <- app_assoc.
    + intros j Hj. rewrite C2 by done. rewrite C1 by set_solver. rewrite cache_set_other; [done|]. set_solver.
Qed.

Lemma frame_cached_idle i up k cc n x s : 0 < n -> cache_of s i = Some cc -> idle k cc ->
  exists c', frame_cached n i up x s = Some (Done x (set_cache s i c')) /\ idle k c'.
Proof.
  intros Hn Hc Hi. destruct n as [|n]; [lia|]. cbn [frame_cached]. rewrite Hc.
  destruct (idle_wf k cc Hi) as (W & R & _). pose proof (cached_step_spec cc W) as S. cbv zeta in S.
  rewrite R in S. simpl in S. rewrite S. exists (v_reset cc). split; [done|].
  destruct Hi as (I1 & I2 & I3 & I4 & I5). rewrite <- I4. by apply reset_idle.
Qed.

Lemma frame_handles E i up c fr K ps so so' o vs cap en :
  hseq E up c fr K ps so so' o vs -> i ∉ fr -> e_procs E !! i = Some (Proc (KFrame cap) en) ->
  (Z.of_nat (length (frames ps)) < 2^32)%Z -> stable_at i K ->
  handles E (fun x s => match cx_buf x with Some ub => frame_recv i up x s ub | None => None end)
    c (frames ps) so so' o vs (i :: fr) K.
Proof.
  intros Hseq Hi Hp Hlen Hst x s b Hc Hb W R Hso Hidle HK. rewrite Hb. unfold frame_recv.
  destruct (Hidle i cap en) as (k & cc & Hk & Ecc & Ik); [set_solver|done|]. rewrite Ecc.
  destruct (idle_wf k cc Ik) as (Wc & Rc & Tc). pose proof (readable_length cc Wc) as Lc. rewrite Rc in Lc.
  simpl in Lc. rewrite <- Lc. cbn [Nat.ltb Nat.leb].
  pose proof (readable_length b W) as Lb. rewrite R in Lb.
  destruct (frame_cur_handles E i up c fr K ps so so' o vs (S (v_rlen b)) x s b cap en)
    as (x' & s' & -> & Hc' & Hso' & O & V & Id & K' & C); try done; try lia.
  destruct (Id i cap en) as (k' & cc' & Hk' & Ecc' & Ik'); [set_solver|done|].
  destruct (frame_cached_idle i up k' cc' (S (match cache_of s' i with Some c0 => v_rlen c0 | None => 0 end)) x' s')
    as (c2 & -> & I2); [lia|done|done|].
  eexists _, _. split; [done|]. rewrite out_set_cache, visits_set_cache. split_and!; try done.
  - intros j cap' en' Hj Hj'. destruct (decide (i = j)) as [->|Hne].
    + exists k', c2. by rewrite (cache_set_same _ _ _ cc').
    + rewrite cache_set_other by done. by apply (Id j cap' en').
  - eapply Hst; [|exact K']. intros j Hj. by apply ps_set_cache.
  - intros j Hj. rewrite cache_set_other by set_solver. by apply C.
Qed.

(** Session seen after the processors [rs], lowest first. *)
Definition sess_after (rs : list proc) (sess : Z) (so : option oval) : option oval :=
  if existsb resolves rs then Some (OInt (sess mod 2^32)%Z) else so.
Lemma sess_after_cons p rs sess so :
  sess_after (p :: rs) sess so = sess_after rs sess (if resolves p then Some (OInt (sess mod 2^32)%Z) else so).
Proof. unfold sess_after. simpl. destruct (resolves p), (existsb resolves rs); done. Qed.

Definition is_frame (p : proc) : bool :=
  match p_kind p with KFrame _ => p_enable p | _ => false end.

Lemma carries_step E i p x s c b sess l :
  carries p = true -> is_frame p = false -> cx_conn x = Some c -> e_isref E c = false ->
  cx_buf x = Some b -> wf b -> readable b = put sess p l ->
  exists b' s1 so', (forall d u, on_lower E i (p_enable p) d u (p_kind p) x s = u (set_session (set_buf x (Some b')) so') s1) /\
    wf b' /\ readable b' = l /\ so' = (if resolves p then Some (OInt (sess mod 2^32)%Z) else cx_session x) /\
    v_hlen b' = v_hlen b + hdr p /\
    s_out s1 = s_out s /\ s_visits s1 = s_visits s /\ same_caches i s s1.
Proof.
  intros Hca Hfr Hc Hr Hb W R.
  assert (Hin : forall b' s1 so', (forall d u, on_lower E i (p_enable p) d u (p_kind p) x s = u (set_session (set_buf x (Some b')) so') s1) ->
    wf b' -> readable b' = l -> so' = (if resolves p then Some (OInt (sess mod 2^32)%Z) else cx_session x) ->
    v_hlen b' = v_hlen b + hdr p -> s_out s1 = s_out s -> s_visits s1 = s_visits s -> same_caches i s s1 ->
    exists b' s1 so', (forall d u, on_lower E i (p_enable p) d u (p_kind p) x s = u (set_session (set_buf x (Some b')) so') s1) /\
    wf b' /\ readable b' = l /\ so' = (if resolves p then Some (OInt (sess mod 2^32)%Z) else cx_session x) /\
    v_hlen b' = v_hlen b + hdr p /\ s_out s1 = s_out s /\ s_visits s1 = s_visits s /\ same_caches i s s1).
  { intros b' s1 so' ? ? ? ? ? ? ? ?. by exists b', s1, so'. }
  assert (Hx : set_session (set_buf x (Some b)) (cx_session x) = x).
  { destruct x; simpl in *. by rewrite Hb. }
  assert (Hid : put sess p l = l -> resolves p = false ->
    (forall d u, on_lower E i (p_enable p) d u (p_kind p) x s = u x s) ->
    exists b' s1 so', (forall d u, on_lower E i (p_enable p) d u (p_kind p) x s = u (set_session (set_buf x (Some b')) so') s1) /\
    wf b' /\ readable b' = l /\ so' = (if resolves p then Some (OInt (sess mod 2^32)%Z) else cx_session x) /\
    v_hlen b' = v_hlen b + hdr p /\ s_out s1 = s_out s /\ s_visits s1 = s_visits s /\ same_caches i s s1).
  { intros Hl Hres Hon. apply (Hin b s (cx_session x)); rewrite ?Hx, ?Hres; try done; [congruence|].
    pose proof (put_hdr sess p l) as Lh. rewrite Hl in Lh. lia. }
  destruct p as [k en]. unfold carries, sends_on in Hca. unfold is_frame in Hfr. unfold resolves, hdr in *.
  unfold put in R. cbn [p_kind p_enable] in *.
  destruct k; cbn [p_kind p_enable] in *; try done;
    try (destruct en; [done|]; by apply Hid); try (by apply Hid).
  - (* frame, disabled *)
    subst en. apply Hid; [done|done|]. intros d u. unfold on_lower, by_reference, with_buf. by rewrite Hc, Hr, Hb.
  - (* heartbeat *)
    destruct (readbyte_ok 0%Z l b W R) as (b' & E' & W' & R' & H').
    apply (Hin b' s (cx_session x)); try done. intros d u. unfold on_lower, by_reference, with_buf.
    rewrite Hc, Hr, Hb, E'. done.
  - (* load balancer *)
    destruct en; [done|]. destruct (readbyte_ok 0%Z l b W R) as (b' & E' & W' & R' & H').
    apply (Hin b' s (cx_session x)); try done. intros d u. unfold on_lower, by_reference, with_buf.
    rewrite Hc, Hr, Hb, E'. done.
  - (* session *)
    destruct en; [|by apply Hid].
    destruct (readU_ok (sess mod 2^32)%Z l b W R) as (b' & E' & W' & R' & H'); [apply Z.mod_pos_bound; lia|].
    apply (Hin b' s (Some (OInt (sess mod 2^32)%Z))); try done. intros d u. unfold on_lower, with_buf.
    by rewrite Hb, E'.
  - (* stat *)
    destruct (readbyte_ok 0%Z l b W R) as (b' & E' & W' & R' & H').
    apply (Hin b' (if en then inc_rx s i else s) (cx_session x)); try done.
    + intros d u. unfold on_lower, by_reference, with_buf. rewrite Hc, Hr, Hb, E'. simpl. by destruct en.
    + destruct en; [apply out_inc_rx|done].
    + destruct en; [apply visits_inc_rx|done].
    + destruct en; [apply same_inc_rx|apply same_refl].
Qed.

Lemma idle_in_ext E fr s s' : (forall j, cache_of s' j = cache_of s j) -> idle_in E fr s -> idle_in E fr s'.
Proof. intros H Hi i cap en Hin Hp. rewrite H. by apply (Hi i cap en). Qed.

(** One processor on the way up. *)
Lemma up_one E i p q f c l so so' o vs fr K sess :
  e_procs E !! i = Some p -> l_upper (e_links E) (PProc i) = Some q ->
  carries p = true -> e_isref E c = false -> l <> [] -> i ∉ fr -> stable_at i K ->
  (Z.of_nat (length (put sess p l)) < 2^32)%Z ->
  handles E (exec f E Up (Some q)) c l (if resolves p then Some (OInt (sess mod 2^32)%Z) else so) so' o vs fr K ->
  handles E (exec (S f) E Up (Some (PProc i))) c (put sess p l) so so' o ((i, Up) :: vs) (i :: fr) K.
Proof.
  intros Hp Hup Hca Hr Hl Hi Hst Hlen Hh x s b Hc Hb W R Hso Hidle HK. cbn [exec]. rewrite Hp, Hup.
  assert (Hi1 : idle_in E fr s) by (intros j ? ? ? ?; eapply Hidle; [set_solver|done]).
  destruct (is_frame p) eqn:Hf.
  - destruct p as [k en]. unfold is_frame in Hf. cbn [p_kind p_enable] in *.
    destruct k as [ | | | | | | | | | | |cap| | | | | ]; try done. subst en. unfold put in *. cbn [p_kind p_enable resolves] in *.
    unfold on_lower, by_reference, with_buf. rewrite Hc, Hr, Hb.
    assert (Hfs : frame l = frames [l]) by (unfold frames; simpl; by rewrite app_nil_r).
    assert (Hpay : payload_ok l).
    { split; [done|]. rewrite frame_length in Hlen. lia. }
    rewrite Hfs in *.
    destruct (frame_handles E i (exec f E Up (Some q)) c fr K [l] so so' (oseq o (fun _ => [])) (vs ++ []) cap true)
      with (x := x) (s := visit s i Up x) (b := b) as (x' & s' & E' & Hc' & Hso' & O & V & Id & K' & C); try done.
    { econstructor; [done|exact Hh|constructor]. }
    { eapply Hst; [|exact HK]. done. }
    rewrite Hb in E'. exists x', s'. split_and!; try done.
    + rewrite O. unfold oseq. simpl. by rewrite app_nil_r.
    + rewrite V. simpl. rewrite fmap_app. simpl. by rewrite app_nil_r, <- app_assoc.
  - destruct (carries_step E i p x (visit s i Up x) c b sess l)
      as (b' & s1 & so1 & Hon & W' & R' & -> & _ & O1 & V1 & C1 & C1'); try done. rewrite Hon.
    rewrite Hso.
    destruct (Hh (set_session (set_buf x (Some b')) (if resolves p then Some (OInt (sess mod 2^32)%Z) else so)) s1 b')
      as (x' & s' & E' & Hc' & Hso' & O & V & Id & K' & C); try done.
    { eapply idle_in_ext; [|exact Hi1]. intros j. by rewrite C1. }
    { eapply Hst; [|exact HK]. done. }
    exists x', s'. split_and!; try done.
    + rewrite O, O1. done.
    + rewrite V, V1. simpl. rewrite fmap_app. simpl. by rewrite <- app_assoc.
    + intros j cap en Hj Hj'. apply elem_of_cons in Hj as [->|Hj]; [|by apply (Id j cap en)].
      rewrite C by done. rewrite C1. apply (Hidle i cap en); set_solver.
    + intros j Hj. rewrite C by set_solver. by rewrite C1.
Qed.

Lemma up_path E t q is rs f c l so so' o vs fr K sess :
  path_up E t q is rs -> Forall (fun p => carries p = true) rs -> e_isref E c = false -> l <> [] ->
  NoDup (is ++ fr) -> (forall i, i ∈ is -> stable_at i K) -> (Z.of_nat (length (foldr (put sess) l rs)) < 2^32)%Z ->
  handles E (exec f E Up (Some t)) c l (sess_after rs sess so) so' o vs fr K ->
  handles E (exec (length is + f) E Up (Some q)) c (foldr (put sess) l rs) so so' o
    (((fun i => (i, Up)) <$> is) ++ vs) (is ++ fr) K.
Proof.
  intros Hp. revert so. induction Hp as [|i is p rs q Hpi Hup Hp IH]; intros so Hca Hr Hl Hn HK Hlen Hh; [done|].
  inversion Hca as [|? ? Hc1 Hc2]; subst. simpl in Hn. apply NoDup_cons in Hn as [Hn1 Hn2].
  simpl in Hlen. pose proof (put_length sess p (foldr (put sess) l rs)) as Lp.
  rewrite sess_after_cons in Hh. simpl.
  apply (up_one E i p q (length is + f) c (foldr (put sess) l rs) so so' o _ (is ++ fr) K sess); try done.
  - by apply unwire_nonempty.
  - apply HK. set_solver.
  - apply IH; try done; [|lia]. intros j Hj. apply HK. set_solver.
Qed.
