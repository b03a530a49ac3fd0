(** * Proofs about goroutines inside the processors at the same time *)
From Verif Require Import GoBase UBufModel UBufSpec FrameModel FrameSpec StackModel StackSpec UBufProofs StackProofs StackPath StackFacts StackEnd NetModel NetSpec NetProofs SwapModel SwapSpec SwapProofs GrainModel GrainSpec.

Lemma calls_fun E i x s x1 s1 x2 s2 : calls_lower E i x s x1 s1 -> calls_lower E i x s x2 s2 -> x1 = x2 /\ s1 = s2.
Proof.
  intros (p & Hp & H1) (p' & Hp' & H2). assert (p' = p) as -> by congruence.
  specialize (H1 (fun x s => Some (Done x s)) (fun x s => None) (fun x s => None)).
  specialize (H2 (fun x s => Some (Done x s)) (fun x s => None) (fun x s => None)). rewrite H1 in H2. by injection H2.
Qed.
Lemma calls_back E i x s x1 s1 x2 s2 : calls_lower E i x s x1 s1 -> comes_back E i x s x2 s2 -> False.
Proof.
  intros (p & Hp & H1) (p' & Hp' & H2). assert (p' = p) as -> by congruence.
  specialize (H1 (fun x s => None) (fun x s => None) (fun x s => None)).
  specialize (H2 (fun x s => None) (fun x s => None) (fun x s => None)). by rewrite H1 in H2.
Qed.
Lemma alike_hdr p q : alike p q -> hdr p = hdr q.
Proof. destruct p as [k e], q as [k' e']. intros [H1 H2]. simpl in *. subst k'. unfold hdr. simpl. destruct k; simpl in *; destruct H2 as [H2|H2]; try done; by subst. Qed.
Lemma alike_hdrs ps qs : Forall2 alike ps qs -> hdrs ps = hdrs qs.
Proof. induction 1 as [|p q ps qs H _ IH]; [done|]. simpl. by rewrite (alike_hdr _ _ H), IH. Qed.

(** ** The way of one message *)
Section way.
Context (L : layout) (N : net) (R : ready L N).
Notation ids := (lo_a L).
Notation k := (lo_codec L).
Notation SA := (stack_of (na N) (lo_a L)).
Notation psb0 := (SwapSpec.below (nb N) (lo_b L) (lo_above_b L)).
Definition pid_at (n : nat) : pid := match ids !! n with Some i => PProc i | None => PLower end.
Lemma below_pid E p is ps : StackProofs.below E p is ps -> p = match is with i :: _ => PProc i | [] => PLower end.
Proof. by destruct 1. Qed.
Lemma lower_at n : n <= length ids ->
  l_lower (e_links (na N)) (match n with 0 => PUpper | S m => pid_at m end) = Some (pid_at n).
Proof.
  intros Hn. destruct R as [(W & _) _]. set (ps := above (na N) ids (lo_above_a L) ++ Proc k true :: SwapSpec.below (na N) ids (lo_above_a L)) in *.
  assert (length ps = length ids) as Hl by (destruct W as (_ & _ & _ & F); symmetry; by eapply Forall2_length).
  destruct (wired_from (na N) ids (take n ps) (drop n ps) (take n ids) (drop n ids)) as (q & H1 & H2).
  - by rewrite take_drop.
  - by rewrite take_drop.
  - rewrite !take_length. lia.
  - apply below_pid in H2. assert (q = pid_at n) as ->.
    { rewrite H2. unfold pid_at. destruct (ids !! n) as [i|] eqn:Ei.
      - by rewrite (drop_S _ _ _ Ei).
      - rewrite drop_ge; [done|]. by apply lookup_ge_None. }
    rewrite <- H1. f_equal. destruct n as [|m]; [done|]. unfold pid_at. destruct (lookup_lt_is_Some_2 ids m) as [i Hi]; [lia|]. rewrite Hi.
    rewrite (take_S_r _ _ _ Hi), fmap_app. cbn [fmap list_fmap]. by rewrite list_last_snoc.
Qed.
Lemma codec_at : SA !! lo_above_a L = Some (Proc k true).
Proof. destruct R as [F _]. by destruct (fit_stack _ _ _ _ _ F). Qed.
Lemma stack_len : length SA = length ids.
Proof. destruct R as [F _]. destruct (fit_stack _ _ _ _ _ F) as [_ F2]. symmetry. by eapply Forall2_length. Qed.
Lemma codec_lt : lo_above_a L < length ids.
Proof. rewrite <- stack_len. eapply lookup_lt_Some, codec_at. Qed.

Notation zof e x := (dest_of (nsess N e) (ml_dest x)).
(** The message [x] of endpoint [e] has passed [n] processors. *)
Definition passed (e : nat) (x : mail) (n : nat) (cx : ctx) : Prop :=
  n <= length ids /\ exists l, sendable_as N k psb0 e x l /\
    ((n <= lo_above_a L -> cx = start_ctx N e x) /\
     (lo_above_a L < n -> exists b, cx = set_buf (start_ctx N e x) (Some b) /\ wf b /\
        wire_of (zof e x) (drop n SA) (readable b) = wire_of (zof e x) (SwapSpec.below (na N) ids (lo_above_a L)) l /\
        hdrs (drop n SA) <= v_hlen b)).

Lemma passed_start e x : sendable N k psb0 e x -> passed e x 0 (start_ctx N e x).
Proof. intros (l & Hl). split; [lia|]. exists l. split; [done|]. split; [done|lia]. Qed.

Lemma mtu_ok e x l : sendable_as N k psb0 e x l -> (0 < e_mtu (na N))%Z /\ (0 <= e_overhead (na N))%Z /\
  (Z.of_nat (hdrs (SwapSpec.below (na N) ids (lo_above_a L))) <= e_overhead (na N))%Z.
Proof.
  intros (He & _ & Hl & Hf & _). destruct R as [(W & _) _]. pose proof (wired_overhead _ _ _ W) as Ho.
  set (pre := above (na N) ids (lo_above_a L)) in *. set (ps := SwapSpec.below (na N) ids (lo_above_a L)) in *.
  pose proof (hdrs_room ps) as Hr. pose proof (room_nonneg pre) as Hp. pose proof (room_nonneg ps) as Hq.
  rewrite room_app in Ho. simpl in Ho. pose proof (room_nonneg [Proc k true]) as Hk. simpl in Hk.
  assert (0 < length l) by (destruct l; simpl; [done|lia]). lia.
Qed.

Lemma hop_on on e x n cx a i : quiet N on -> passed e x n cx -> ids !! n = Some i ->
  exists cx' a', calls_lower (flagged (na N) (on SideA)) i cx a cx' a' /\ passed e x (S n) cx' /\ s_out a' = s_out a.
Proof.
  intros Q (Hn & l & Hs & H1 & H2) Hi. pose proof R as ((W & P & C & Rf & Mt) & Ac & FB & Al).
  destruct (fit_stack (na N) k ids (lo_above_a L) (nca N)) as [_ F2]; [by split_and!|].
  destruct (Forall2_lookup_l _ _ _ _ _ F2 Hi) as (p0 & Hp0 & Ep0).
  assert (exists p, e_procs (flagged (na N) (on SideA)) !! i = Some p /\ alike p0 p) as (p & Ep & Hal).
  { rewrite flagged_at, Ep0. exists (Proc (p_kind p0) (on SideA i)). split; [done|]. split; [done|]. simpl.
    destruct Q as [Q _]. destruct (Q i p0 Ep0) as [?|E]; [by left|right]. rewrite <- E. unfold as_made. by rewrite Ep0. }
  pose proof (lookup_lt_Some _ _ _ Hi) as Hlt.
  destruct (lt_eq_lt_dec n (lo_above_a L)) as [[Hlo|Heq]|Hhi].
  - (* above the codec *)
    assert (passes_message p = true) as Hp.
    { assert (Forall2 alike [p0] [p]) as A1 by (constructor; [done|constructor]). apply alike_passes in A1; [by inversion A1|].
      constructor; [|done]. apply (Forall_lookup_1 _ _ n p0 P). unfold above. rewrite lookup_take by done. exact Hp0. }
    exists cx, (visit a i Down cx). split.
    { exists p. split; [done|]. intros d u w. by apply passes_down. }
    split; [|done]. split; [lia|]. exists l. split; [done|]. split; [intros _; apply H1; lia|lia].
  - (* the codec *)
    subst n. rewrite codec_at in Hp0. injection Hp0 as <-.
    assert (p = Proc k true) as ->.
    { destruct Hal as [E1 E2]. simpl in *. destruct Hs as (He & _). rewrite (codec_seen _ _ _ He) in E2. destruct E2 as [|E2]; [done|].
      destruct p. simpl in *. congruence. }
    destruct (mtu_ok e x l Hs) as (M1 & M2 & M3). pose proof Hs as (He & _ & Hl & Hf & _).
    destruct (encode_step (flagged (na N) (on SideA)) k (ml_msg x) l) as (b' & Wb & Rb & Hb & Hst); try done.
    specialize (H1 (le_n _)). subst cx.
    exists (set_buf (start_ctx N e x) (Some b')), (visit a i Down (start_ctx N e x)). split.
    { exists (Proc k true). split; [done|]. intros d u w. by apply Hst. }
    split; [|done]. split; [lia|]. exists l. split; [done|]. split; [lia|]. intros _. exists b'. split; [done|]. split; [done|].
    rewrite Rb. split; [done|]. rewrite Hb. simpl. unfold SwapSpec.below in M3. lia.
  - (* below the codec *)
    destruct (H2 Hhi) as (b & -> & Wb & Hw & Hh). rewrite (drop_S _ _ _ Hp0) in Hw, Hh. rewrite wire_of_cons in Hw. simpl in Hh.
    assert (carries p = true) as Hc.
    { assert (Forall2 alike [p0] [p]) as A1 by (constructor; [done|constructor]). apply alike_carries in A1; [by inversion A1|].
      constructor; [|done]. apply (Forall_lookup_1 _ _ (n - S (lo_above_a L)) p0 C). unfold SwapSpec.below. rewrite lookup_drop.
      replace (S (lo_above_a L) + (n - S (lo_above_a L))) with n by lia. exact Hp0. }
    assert (Z.of_nat (v_rlen b) < 2^32)%Z as Hsz.
    { pose proof (f_equal length Hw) as Lw. rewrite !wire_of_hdrs, put_hdr in Lw. destruct (mtu_ok e x l Hs) as (M1 & M2 & M3).
      assert (length (readable b) = v_rlen b) as Lr by (by apply readable_length). destruct Hs as (_ & _ & _ & Hf & _). lia. }
    destruct (sends_step (flagged (na N) (on SideA)) i p (set_buf (start_ctx N e x) (Some b)) (visit a i Down (set_buf (start_ctx N e x) (Some b))) (nca N) b
      (zof e x)) as (b' & s1 & H3 & Wb' & Rb' & Hb' & Ho & _); try done.
    { unfold carries in Hc. by apply andb_true_iff in Hc as [? _]. }
    { rewrite <- (alike_hdr _ _ Hal). lia. }
    exists (set_buf (start_ctx N e x) (Some b')), s1. split; [by exists p|]. split; [|done]. split; [lia|]. exists l. split; [done|].
    split; [lia|]. intros _. exists b'. split; [done|]. split; [done|]. rewrite Rb', Hb', <- (alike_put _ _ _ _ Hal), <- (alike_hdr _ _ Hal). split; [done|lia].
Qed.

Lemma write_on on e x n cx a : passed e x n cx -> pid_at n = PLower ->
  exists cx' a' l, lower_send (flagged (na N) (on SideA)) cx a = Done cx' a' /\ sendable_as N k psb0 e x l /\
    s_out a' = s_out a ++ [OWire (nca N) (wire_of (zof e x) (SwapSpec.below (na N) ids (lo_above_a L)) l)].
Proof.
  intros (Hn & l & Hs & H1 & H2) Hp. pose proof R as ((W & P & C & Rf & Mt) & Ac & FB & Al).
  assert (n = length ids) as ->.
  { unfold pid_at in Hp. destruct (ids !! n) eqn:E; [done|]. apply lookup_ge_None in E. lia. }
  destruct (H2 codec_lt) as (b & -> & Wb & Hw & Hh). rewrite drop_ge in Hw by (rewrite stack_len; lia). cbn in Hw.
  destruct (lower_send_offered (flagged (na N) (on SideA)) (set_buf (start_ctx N e x) (Some b)) a (nca N) b) as (x' & s' & H3 & H4 & _); try done.
  exists x', s', l. split; [done|]. split; [done|]. rewrite H4. f_equal. rewrite Hw. apply offered_accepts; [done|]. apply wire_nonempty, Hs.
Qed.

(** ** All of them at once *)
Definition inside (s : gst) : Prop :=
  forall e, match n_hand (g_net s) e with
  | None => g_at s e = None
  | Some x => exists n cx, g_at s e = Some (pid_at n, cx) /\ passed e x n cx
  end.
Lemma same_refl s : same_outside s s.
Proof. by repeat split. Qed.
Lemma same_step M s t l s' : elsewhere l -> same_outside s t -> nstep M s l s' -> exists t', nstep M t l t' /\ same_outside s' t'.
Proof.
  intros He (E1 & E2 & E3 & E4 & E5 & E6 & E7 & E8 & E9) H. destruct t as [tx0 hd0 a0 w0 b0 up0 rx0 sn0 ws0 g0].
  destruct H; try done; simpl in *; subst.
  - eexists. split; [by constructor|]. by repeat split.
  - eexists. split; [by econstructor|]. by repeat split.
  - eexists. split; [by constructor|]. by repeat split.
  - eexists. split; [by econstructor|]. by repeat split.
Qed.
Lemma hand_kept M s l s' : elsewhere l -> nstep M s l s' -> n_hand s' = n_hand s.
Proof. intros He H. by destruct H. Qed.

Lemma grain_seen a b ls s : caches_idle (nb N) b -> grun N (gently L N) (new_grain N a b) ls s ->
  all_sendable N k psb0 (net_labels (outside ls)) ->
  exists t, wrun N (discreet L N) (new_swap N a b) (outside ls) t /\ same_outside (g_net s) (w_net t) /\ g_on s = w_on t /\ inside s.
Proof.
  intros Hi H. induction H as [|ls s1 l s2 _ IH Hok Hst]; intros Hs.
  { exists (new_swap N a b). split; [constructor|]. split; [apply same_refl|]. split; [done|]. intros e. done. }
  assert (outside (ls ++ [l]) = outside ls ++ match seen_as l with Some l => [l] | None => [] end) as Eo.
  { unfold outside. rewrite omap_app. simpl. by destruct (seen_as l). }
  destruct IH as (t & Rt & So & Eon & Iv).
  { intros e x Hx. apply (Hs e x). rewrite Eo. unfold net_labels in *. rewrite omap_app. apply elem_of_app. by left. }
  destruct (discreet_careful L N a b (outside ls) t R Hi Rt) as (_ & Q & Cs).
  { intros e x Hx. apply (Hs e x). rewrite Eo. unfold net_labels in *. rewrite omap_app. apply elem_of_app. by left. }
  destruct t as [t ont]. simpl in *. rewrite Eo. rewrite <- Eon in Q.
  destruct Hst as [s at_ on l s' He Hst|tx hd aa w bb up rx sn ws g at_ on e x q p Hh Htx Hp
    |tx hd aa w bb up rx sn ws g at_ on e i x x' a' p Hat Hc Hp|tx hd aa w bb up rx sn ws g at_ on e i x x' a' Hat Hc
    |tx hd aa w bb up rx sn ws g at_ on e x x' a' outs Hat Hl Ho|s at_ on d i b']; simpl in *; subst ont.
  - destruct (same_step _ _ _ _ _ He So Hst) as (t' & Ht & So'). exists (Wst t' on). split.
    { eapply wr_snoc; [exact Rt| |by constructor]. simpl. destruct So as (_ & _ & _ & _ & _ & _ & _ & E8 & E9).
      destruct l; try done. simpl in *. by rewrite <- E8, <- E9. }
    split; [done|]. split; [done|]. intros e. simpl. rewrite (hand_kept _ _ _ _ He Hst). apply (Iv e).
  - destruct t as [tx0 hd0 a0 w0 b0 up0 rx0 sn0 ws0 g0]. destruct So as (E1 & E2 & E3 & E4 & E5 & E6 & E7 & E8 & E9). simpl in *. subst.
    eexists. split; [eapply wr_snoc; [exact Rt|done|constructor; by apply nk_take]|]. split; [by repeat split|]. split; [done|].
    intros y. simpl. destruct (decide (y = e)) as [->|Hy].
    + rewrite !fn_lookup_insert. exists 0, (start_ctx N e x). split.
      * pose proof (lower_at 0 ltac:(lia)) as E. simpl in E. congruence.
      * apply passed_start, (Cs e x). unfold unsent. simpl. rewrite Htx. apply elem_of_app. right. by left.
    + rewrite !fn_lookup_insert_ne by done. apply (Iv y).
  - exists (Wst t on). rewrite app_nil_r. split; [done|]. split; [exact So|]. split; [done|]. intros y. simpl.
    destruct (decide (y = e)) as [->|Hy]; [|rewrite fn_lookup_insert_ne by done; apply (Iv y)].
    rewrite fn_lookup_insert. specialize (Iv e). simpl in Iv. destruct (hd e) as [mx|]; [|congruence].
    destruct Iv as (n & cx & Ea & Hpas). rewrite Hat in Ea. injection Ea as Epid <-.
    assert (ids !! n = Some i) as Hni by (unfold pid_at in Epid; destruct (ids !! n); congruence).
    destruct (hop_on on e mx n x aa i Q Hpas Hni) as (cx' & a2 & H1 & H2 & _).
    destruct (calls_fun _ _ _ _ _ _ _ _ Hc H1) as [-> ->]. exists (S n), cx'. split; [|done].
    pose proof (lower_at (S n) ltac:(by apply lookup_lt_Some in Hni)) as E. simpl in E. rewrite <- Epid in E. congruence.
  - exfalso. specialize (Iv e). simpl in Iv. destruct (hd e) as [mx|]; [|congruence].
    destruct Iv as (n & cx & Ea & Hpas). rewrite Hat in Ea. injection Ea as Epid <-.
    assert (ids !! n = Some i) as Hni by (unfold pid_at in Epid; destruct (ids !! n); congruence).
    destruct (hop_on on e mx n x aa i Q Hpas Hni) as (cx' & a2 & H1 & H2 & _). by eapply calls_back.
  - pose proof (Iv e) as Ive. simpl in Ive. destruct (hd e) as [mx|] eqn:Eh; [|congruence].
    destruct Ive as (n & cx & Ea & Hpas). rewrite Hat in Ea. injection Ea as Epid <-.
    destruct (write_on on e mx n x aa Hpas (eq_sym Epid)) as (cx' & a2 & l & H1 & Hsl & H2).
    rewrite Hl in H1. injection H1 as <- <-. rewrite Ho in H2. apply app_inv_head in H2. subst outs.
    destruct t as [tx0 hd0 a0 w0 b0 up0 rx0 sn0 ws0 g0]. destruct So as (E1 & E2 & E3 & E4 & E5 & E6 & E7 & E8 & E9). simpl in *. subst.
    pose proof Hsl as (He & _ & Hl0 & Hfit & _).
    assert (ready L (now N on)) as ((WA & PA & CA & RA & MA) & Ac & FB & Al) by (apply quiet_ready; [by eapply codec_seen|done|done]).
    destruct (send_fits (na (now N on)) ids (above (na (now N on)) ids (lo_above_a L)) k (SwapSpec.below (na (now N on)) ids (lo_above_a L))
      (nsess N e) (ml_dest mx) (nca N) (ml_msg mx) l a0) as (a3 & Hf & _); try done; [by apply carries_sends|].
    rewrite offered_accepts in Hf; [|done|by apply wire_nonempty].
    assert (Forall2 alike (SwapSpec.below (na (now N on)) ids (lo_above_a L)) (SwapSpec.below (na N) ids (lo_above_a L))) as Hal.
    { simpl. rewrite <- (flagged_made (na N)) at 2. apply below_alike, same_sym, Q. }
    rewrite (alike_wire _ _ _ _ Hal) in Hf.
    pose proof (nk_pass (now N on) tx0 hd0 a0 w0 b0 up0 rx0 sn0 ws0 g0 e mx _ a3 Eh Hf) as Hn.
    eexists. split; [eapply wr_snoc; [exact Rt|done|apply wk_net; exact Hn]|].
    split; [by repeat split|]. split; [done|]. intros y. simpl. destruct (decide (y = e)) as [->|Hy].
    + by rewrite !fn_lookup_insert.
    + rewrite !fn_lookup_insert_ne by done. apply (Iv y).
  - exists (Wst t (<[d:=<[i:=b']> (on d)]> on)). split; [eapply wr_snoc; [exact Rt|done|constructor]|]. done.
Qed.

Lemma grain_in_order a b ls s : caches_idle (nb N) b -> grun N (gently L N) (new_grain N a b) ls s ->
  all_sendable N k psb0 (net_labels (outside ls)) ->
  exists o, (forall e, mails_of e o ++ unsent e (g_net s) = given e (net_labels (outside ls))) /\
    forall z, exists rest, heard z (g_net s) ++ rest = mails_for N z o /\ (settled (g_net s) -> rest = []).
Proof.
  intros Hi H Hs. destruct (grain_seen _ _ _ _ Hi H Hs) as (t & Rt & So & _). destruct (discreet_in_order L N a b _ _ R Hi Rt Hs) as (o & H1 & H2).
  destruct So as (E1 & E2 & E3 & E4 & E5 & E6 & E7 & E8 & E9). exists o. split.
  - intros e. rewrite <- H1. unfold unsent. by rewrite E1, E2.
  - intros z. destruct (H2 z) as (rest & H3 & H4). exists rest. unfold heard, settled in *. rewrite E7, E3, E5, E6. done.
Qed.
(** The goroutines stop only when everything has been heard. *)
Lemma grain_stops a b ls s : 0 < nrxcap N -> unseen k = false -> caches_idle (nb N) b -> grun N (gently L N) (new_grain N a b) ls s ->
  all_sendable N k psb0 (net_labels (outside ls)) ->
  (forall l s', at_work l -> gently L N s l -> ~ gstep N s l s') -> settled (g_net s) /\ all_sent (g_net s).
Proof.
  intros Hc Hk Hi H Hs Hno. destruct (grain_seen _ _ _ _ Hi H Hs) as (t & Rt & So & Eon & Iv).
  destruct (discreet_finishes L N a b _ _ R Hc Hi Rt Hs Hk) as [_ Hst].
  destruct (discreet_careful L N a b _ t R Hi Rt Hs) as (_ & Q & _).
  assert (settled (w_net t) /\ all_sent (w_net t)) as [S1 S2].
  { apply Hst. intros l t' Hin Hd Hw. inversion Hw as [t0 on l0 t0' Hn|]; subst. simpl in *. destruct s as [s at_ on']. simpl in *. subst on'.
    destruct l as [e x|e|e|n| |z]; try done.
    - destruct s as [tx0 hd0 a0 w0 b0 up0 rx0 sn0 ws0 g0]. inversion Hn; subst. destruct So as (E1 & E2 & E3 & E4 & E5 & E6 & E7 & E8 & E9). simpl in *. subst.
      eapply (Hno (GTake e)); [done|done|]. eapply gk_take; [done|done|]. apply (lower_at 0). lia.
    - assert (exists x, n_hand s e = Some x) as [x Hx].
      { destruct So as (E1 & E2 & E3 & E4 & E5 & E6 & E7 & E8 & E9). inversion Hn; subst. simpl in *. rewrite E2. eauto. }
      pose proof (Iv e) as Ive. simpl in Ive. rewrite Hx in Ive. destruct Ive as (n & cx & Ea & Hp).
      destruct s as [tx0 hd0 a0 w0 b0 up0 rx0 sn0 ws0 g0]. destruct (pid_at n) as [| |j] eqn:Ep.
      + unfold pid_at in Ep. by destruct (ids !! n).
      + destruct (write_on on e x n cx a0 Hp Ep) as (cx' & a2 & l & H1 & _ & H2).
        eapply (Hno (GWrite e)); [done|done|]. by eapply gk_write.
      + assert (ids !! n = Some j) as Hj by (unfold pid_at in Ep; destruct (ids !! n); congruence).
        destruct (hop_on on e x n cx a0 j Q Hp Hj) as (cx' & a2 & H1 & _).
        eapply (Hno (GHop e)); [done|done|]. eapply gk_hop; [done|exact H1|].
        pose proof (lower_at (S n) ltac:(by apply lookup_lt_Some in Hj)) as E. simpl in E. by rewrite Ep in E.
    - assert (same_outside t0 s) as So' by (destruct So as (?&?&?&?&?&?&?&?&?); by repeat split).
      destruct (same_step _ _ _ (NRead n) _ ltac:(done) So' Hn) as (s' & Hs' & _). eapply (Hno (GNet (NRead n))); [done| |by constructor].
      destruct So as (?&?&?&?&?&?&?&E8&E9). simpl in *. by rewrite E8, E9.
    - assert (same_outside t0 s) as So' by (destruct So as (?&?&?&?&?&?&?&?&?); by repeat split).
      destruct (same_step _ _ _ NDeliver _ ltac:(done) So' Hn) as (s' & Hs' & _). by eapply (Hno (GNet NDeliver)); [done| |by constructor].
    - assert (same_outside t0 s) as So' by (destruct So as (?&?&?&?&?&?&?&?&?); by repeat split).
      destruct (same_step _ _ _ (NListen z) _ ltac:(done) So' Hn) as (s' & Hs' & _). by eapply (Hno (GNet (NListen z))); [done| |by constructor]. }
  destruct So as (E1 & E2 & E3 & E4 & E5 & E6 & E7 & E8 & E9). unfold settled, all_sent, unsent in *. by rewrite E1, E2, E3, E5, E6.
Qed.
End way.
