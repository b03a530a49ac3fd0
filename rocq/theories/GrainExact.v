(** * Proofs about messages between processors that are being switched *)
From Coq Require Import Lia.
From Verif Require Import GoBase UBufModel UBufSpec FrameModel FrameSpec StackModel StackSpec UBufProofs StackProofs StackPath StackFacts StackEnd NetModel NetSpec NetProofs SwapModel SwapSpec SwapProofs GrainModel GrainSpec GrainProofs.
From stdpp Require Import sets list.

Section exact.
Context (L : layout) (N : net) (R : ready L N).
Notation ids := (lo_a L).
Notation k := (lo_codec L).
Notation na_ := (lo_above_a L).
Notation SA := (stack_of (na N) (lo_a L)).
Notation zof e x := (dest_of (nsess N e) (ml_dest x)).
Notation sw p b := (Proc (p_kind p) b).

(** The switches that can be. *)
Definition free (on : nat -> bool) : Prop :=
  (forall n i p, ids !! n = Some i -> SA !! n = Some p -> n <= na_ -> on i = p_enable p) /\
  (forall n i p, ids !! n = Some i -> SA !! n = Some p -> na_ < n -> sends_on (sw p (on i)) = true).
Definition on_way (e : nat) (x : mail) (l : list byte) (met : list bool) (cx : ctx) : Prop :=
  length met <= length ids /\ (length met <= na_ -> cx = start_ctx N e x) /\
  (na_ < length met -> exists b, cx = set_buf (start_ctx N e x) (Some b) /\ wf b /\
     readable b = wire_of (zof e x) (zip_with (fun p b => sw p b) (drop (S na_) SA) (drop (S na_) met)) l /\
     (room (drop (length met) SA) <= Z.of_nat (v_hlen b))%Z /\
     (Z.of_nat (length (readable b)) + room (drop (length met) SA) <= e_mtu (na N))%Z).

Lemma stack_at n i : ids !! n = Some i -> exists p, SA !! n = Some p /\ e_procs (na N) !! i = Some p.
Proof.
  intros Hi. destruct R as [F _]. destruct (fit_stack _ _ _ _ _ F) as [_ F2].
  destruct (Forall2_lookup_l _ _ _ _ _ F2 Hi) as (p & ? & ?). eauto.
Qed.
Lemma room_drop n p : SA !! n = Some p -> room (drop n SA) = (header_len (p_kind p) + room (drop (S n) SA))%Z.
Proof. intros H. by rewrite (drop_S _ _ _ H). Qed.
Lemma room_suffix n : (room (drop n SA) <= room SA)%Z.
Proof. rewrite <- (take_drop n SA) at 2. rewrite room_app. pose proof (room_nonneg (take n SA)). lia. Qed.
Lemma stack_room : e_overhead (na N) = room SA /\ (e_mtu (na N) < 2^32)%Z /\ e_isref (na N) (nca N) = false.
Proof.
  destruct R as [(W & P & C & Rf & Mt) _]. split; [|done]. rewrite (wired_overhead _ _ _ W).
  pose proof (codec_at L N R) as Hk. unfold above, SwapSpec.below. f_equal. by apply take_drop_middle.
Qed.

Lemma free_hop on e x l met cx a i : free on -> encoded L N x l -> on_way e x l met cx -> ids !! length met = Some i ->
  exists cx' a', calls_lower (flagged (na N) on) i cx a cx' a' /\
    on_way e x l (met ++ [on i]) cx'.
Proof.
  intros [F1 F2] (He & Hl & Hf) (Hn & H1 & H2) Hi.
  destruct (stack_at _ _ Hi) as (p0 & Hp0 & Ep0). set (n := length met) in *.
  assert (e_procs (flagged (na N) on) !! i = Some (sw p0 (on i))) as Ep by (by rewrite flagged_at, Ep0).
  pose proof R as ((W & P & C & Rf & Mt) & Ac & FB & Al). destruct stack_room as (So & Sm & Sr).
  pose proof (lookup_lt_Some _ _ _ Hi) as Hlt. pose proof (room_nonneg (drop n SA)) as Rn. pose proof (room_nonneg (drop (S n) SA)) as Rn'.
  assert (length (met ++ [on i]) = S n) as Lm by (rewrite app_length; simpl; unfold n; lia).
  destruct (lt_eq_lt_dec n na_) as [[Hlo|Heq]|Hhi].
  - assert (sw p0 (on i) = p0) as Es. { rewrite (F1 n i p0) by (done || lia). by destruct p0. }
    assert (passes_message p0 = true) as Hp.
    { apply (Forall_lookup_1 _ _ n p0 P). unfold above. by rewrite lookup_take by done. }
    exists cx, (visit a i Down cx). split.
    { exists p0. rewrite Ep, Es. split; [done|]. intros d u w. by apply passes_down. }
    split; [lia|]. split; [intros _; apply H1; lia|lia].
  - assert (p0 = Proc k true) as ->. { pose proof (codec_at L N R) as Hk. rewrite Heq in Hp0. congruence. }
    assert (on i = true) as Eo by (apply (F1 n i (Proc k true)); (done || lia)).
    assert (0 < length l) by (destruct l; simpl; [done|lia]). pose proof (room_nonneg SA).
    destruct (encode_step (flagged (na N) on) k (ml_msg x) l) as (b' & Wb & Rb & Hb & Hst); try done; simpl; try lia.
    specialize (H1 ltac:(lia)). subst cx.
    exists (set_buf (start_ctx N e x) (Some b')), (visit a i Down (start_ctx N e x)). split.
    { exists (Proc k true). rewrite Ep, Eo. split; [done|]. intros d u w. by apply Hst. }
    split; [lia|]. split; [lia|]. intros _. exists b'. split; [done|]. split; [done|]. rewrite Lm.
    rewrite (drop_ge (met ++ [on i])) by lia. rewrite zip_with_nil_r. simpl. rewrite Rb. split; [done|].
    pose proof (room_suffix (S n)). simpl in Hb. split; [rewrite Hb; lia|lia].
  - destruct (H2 Hhi) as (b & -> & Wb & Hw & Hh & Hz). rewrite (room_drop n p0 Hp0) in Hh, Hz.
    pose proof (hdr_overhead (sw p0 (on i))) as Ho. simpl in Ho.
    assert (length (readable b) = v_rlen b) as Lr by (by apply readable_length).
    pose proof (header_overhead (p_kind p0)) as Hoh. pose proof (overhead_nonneg (p_kind p0)) as Hon.
    destruct (sends_step (flagged (na N) on) i (sw p0 (on i)) (set_buf (start_ctx N e x) (Some b))
      (visit a i Down (set_buf (start_ctx N e x) (Some b))) (nca N) b (zof e x)) as (b' & s1 & H3 & Wb' & Rb' & Hb' & _); try done; try lia.
    { by apply (F2 n i p0). }
    exists (set_buf (start_ctx N e x) (Some b')), s1. split; [by exists (sw p0 (on i))|].
    split; [lia|]. split; [lia|]. intros _. exists b'. split; [done|]. split; [done|]. rewrite Lm, Rb', Hb', put_hdr. split; [|lia].
    rewrite Hw. rewrite drop_app_le by (fold n; lia). rewrite <- (take_drop_middle (drop (S na_) SA) (n - S na_) p0) at 2.
    2: { rewrite lookup_drop. replace (S na_ + (n - S na_)) with n by lia. done. }
    assert (length (drop (S na_) met) = length (take (n - S na_) (drop (S na_) SA))) as Ld.
    { rewrite take_length, !drop_length. pose proof (lookup_lt_Some _ _ _ Hp0). fold n. lia. }
    rewrite zip_with_app by done. simpl. rewrite zip_with_nil_r.
    rewrite <- (take_drop (n - S na_) (drop (S na_) SA)) at 1. unfold wire_of. rewrite foldl_app. simpl. f_equal.
    rewrite <- (app_nil_r (drop (S na_) met)) at 1. rewrite zip_with_app by done. by rewrite zip_with_nil_r, app_nil_r.
Qed.

Lemma free_write on e x l met cx a : encoded L N x l -> on_way e x l met cx -> length met = length ids ->
  exists cx' a', lower_send (flagged (na N) on) cx a = Done cx' a' /\
    s_out a' = s_out a ++ [OWire (nca N) (wire_of (zof e x) (zip_with (fun p b => sw p b) (drop (S na_) SA) (drop (S na_) met)) l)].
Proof.
  intros (He & Hl & Hf) (Hn & H1 & H2) Hm. pose proof R as ((W & P & C & Rf & Mt) & Ac & FB & Al).
  destruct (H2 ltac:(rewrite Hm; by apply (codec_lt L N))) as (b & -> & Wb & Hw & _).
  destruct (lower_send_offered (flagged (na N) on) (set_buf (start_ctx N e x) (Some b)) a (nca N) b) as (x' & s' & H3 & H4 & _); try done.
  exists x', s'. split; [done|]. rewrite H4. f_equal. rewrite Hw. apply offered_accepts; [done|]. by apply wire_nonempty.
Qed.

Lemma ids_nodup : NoDup ids.
Proof. destruct R as [(W & _) _]. by eapply wired_nodup. Qed.
Lemma free_made : free (as_made (na N)).
Proof.
  split; intros n i p Hi Hp Hn; destruct (stack_at _ _ Hi) as (p' & Hp' & Ep); assert (p' = p) as -> by congruence; unfold as_made; rewrite Ep; [done|].
  destruct R as [(_ & _ & C & _) _]. assert (carries p = true) as Hc.
  { apply (Forall_lookup_1 _ _ (n - S na_) p C). unfold SwapSpec.below. rewrite lookup_drop. by replace (S na_ + (n - S na_)) with n by lia. }
  unfold carries in Hc. apply andb_true_iff in Hc as [Hc _]. by destruct p.
Qed.
Lemma free_set on i b : free on -> i ∈ drop (S na_) ids -> (forall p b, e_procs (na N) !! i = Some p -> sends_on (sw p b) = true) ->
  free (<[i := b]> on).
Proof.
  intros [F1 F2] Hi Hs. split; intros n j p Hj Hp Hn; destruct (stack_at _ _ Hj) as (p' & Hp' & Ep); assert (p' = p) as -> by congruence.
  - destruct (decide (j = i)) as [->|Hne]; [|rewrite fn_lookup_insert_ne by done; by eapply F1]. exfalso.
    apply elem_of_list_lookup in Hi as (m & Hm). rewrite lookup_drop in Hm. pose proof (NoDup_lookup _ _ _ _ ids_nodup Hj Hm). lia.
  - destruct (decide (j = i)) as [->|Hne]; [rewrite fn_lookup_insert; by apply Hs|rewrite fn_lookup_insert_ne by done; by eapply F2].
Qed.

Definition tracked (ls : list glab) (s : gst) : Prop :=
  g_on s SideA = wa_on (watched L N ls) /\ free (g_on s SideA) /\
  forall e x l, n_hand (g_net s) e = Some x -> encoded L N x l ->
    exists cx, g_at s e = Some (pid_at L (length (wa_met (watched L N ls) e)), cx) /\ on_way e x l (wa_met (watched L N ls) e) cx.

Lemma watched_snoc ls l : watched L N (ls ++ [l]) = watch_step L (watched L N ls) l.
Proof. unfold watched. by rewrite foldl_app. Qed.
Lemma pid_proc n i : pid_at L n = PProc i -> ids !! n = Some i.
Proof. unfold pid_at. destruct (ids !! n); congruence. Qed.
Lemma pid_low n : n <= length ids -> pid_at L n = PLower -> n = length ids.
Proof. unfold pid_at. intros Hn. destruct (ids !! n) eqn:E; [done|]. apply lookup_ge_None in E. lia. Qed.

Lemma tracked_run a b ls s : grun N (lower_switches L N) (new_grain N a b) ls s -> tracked ls s.
Proof.
  induction 1 as [|ls s1 l s2 _ IH Hok Hst].
  { split; [done|]. split; [apply free_made|]. intros e x l He. done. }
  destruct IH as (Eon & Fr & Iv). unfold tracked. rewrite watched_snoc.
  destruct Hst as [s at_ on l s' He Hst|tx hd aa w bb up rx sn ws g at_ on e x q p Hh Htx Hp
    |tx hd aa w bb up rx sn ws g at_ on e i x x' a' p Hat Hc Hp|tx hd aa w bb up rx sn ws g at_ on e i x x' a' Hat Hc
    |tx hd aa w bb up rx sn ws g at_ on e x x' a' outs Hat Hl Ho|s at_ on d i b']; simpl in *.
  - split; [done|]. split; [done|]. by rewrite (hand_kept _ _ _ _ He Hst).
  - split; [done|]. split; [done|]. intros y m l. destruct (decide (y = e)) as [->|Hy].
    + rewrite !fn_lookup_insert. intros [= <-] Hel. simpl. eexists. split.
      { f_equal. f_equal. pose proof (lower_at L N R 0 ltac:(lia)) as E. simpl in E. congruence. }
      split; [simpl; lia|]. split; [done|simpl; lia].
    + rewrite !fn_lookup_insert_ne by done. apply Iv.
  - split; [done|]. split; [done|]. intros y m l. destruct (decide (y = e)) as [->|Hy].
    2: { rewrite !fn_lookup_insert_ne by done. apply Iv. }
    rewrite !fn_lookup_insert. intros Hm Hel. destruct (Iv e m l Hm Hel) as (cx & Ea & Hw). rewrite Hat in Ea. injection Ea as Epid <-.
    pose proof (pid_proc _ _ (eq_sym Epid)) as Hni.
    destruct (free_hop (on SideA) e m l _ x aa i Fr Hel Hw Hni) as (cx' & a2 & H1 & H2).
    destruct (calls_fun _ _ _ _ _ _ _ _ Hc H1) as [-> ->]. exists cx'. rewrite Hni, <- Eon. split; [|done]. rewrite app_length. simpl.
    pose proof (lower_at L N R (S (length (wa_met (watched L N ls) e))) ltac:(by apply lookup_lt_Some in Hni)) as E. simpl in E. rewrite <- Epid in E.
    rewrite Nat.add_1_r. congruence.
  - split; [done|]. split; [done|]. intros y m l. destruct (decide (y = e)) as [->|Hy]; [by rewrite fn_lookup_insert|].
    rewrite !fn_lookup_insert_ne by done. apply Iv.
  - split; [done|]. split; [done|]. intros y m l. destruct (decide (y = e)) as [->|Hy]; [by rewrite fn_lookup_insert|].
    rewrite !fn_lookup_insert_ne by done. apply Iv.
  - destruct d; simpl in *.
    + rewrite fn_lookup_insert, <- Eon. split; [done|]. split; [apply free_set; tauto|done].
    + rewrite fn_lookup_insert_ne by done. done.
Qed.

Lemma exact_write a b ls s e x l s' : grun N (lower_switches L N) (new_grain N a b) ls s ->
  n_hand (g_net s) e = Some x -> encoded L N x l -> gstep N s (GWrite e) s' ->
  length (wa_met (watched L N ls) e) = length ids /\
  n_writes (g_net s') = n_writes (g_net s) ++ [wire_of (zof e x) (as_met L N e ls) l] /\
  n_wire (g_net s') = n_wire (g_net s) ++ wire_of (zof e x) (as_met L N e ls) l.
Proof.
  intros H Hh Hel Hst. destruct (tracked_run a b ls s H) as (_ & _ & Iv). destruct (Iv e x l Hh Hel) as (cx & Ea & Hw).
  inversion Hst as [| | | |tx hd aa w bb up rx sn ws g at_ on e' x0 x' a' outs Hat Hl Ho|]; subst. simpl in *. rewrite Hat in Ea.
  injection Ea as Epid <-. pose proof Hw as (Hn & _). pose proof (pid_low _ Hn (eq_sym Epid)) as Hlen. split; [done|].
  destruct (free_write (on SideA) e x l _ x0 aa Hel Hw Hlen) as (cx' & a2 & H1 & H2). rewrite Hl in H1. injection H1 as <- <-.
  rewrite Ho in H2. apply app_inv_head in H2. subst outs. unfold written. simpl. rewrite decide_True by done. simpl. by rewrite app_nil_r.
Qed.
Lemma exact_goes_on a b ls s e x l : grun N (lower_switches L N) (new_grain N a b) ls s ->
  n_hand (g_net s) e = Some x -> encoded L N x l ->
  (forall s', ~ gstep N s (GBack e) s') /\ exists lb s', (lb = GHop e \/ lb = GWrite e) /\ gstep N s lb s'.
Proof.
  intros H Hh Hel. destruct (tracked_run a b ls s H) as (_ & Fr & Iv). destruct (Iv e x l Hh Hel) as (cx & Ea & Hw).
  destruct s as [[tx hd aa w bb up rx sn ws g] at_ on]. simpl in *. pose proof Hw as (Hn & _).
  set (n := length (wa_met (watched L N ls) e)) in *. destruct (pid_at L n) as [| |j] eqn:Ep.
  - unfold pid_at in Ep. by destruct (ids !! n).
  - split.
    + intros s' Hst. inversion Hst; subst. congruence.
    + destruct (free_write (on SideA) e x l _ cx aa Hel Hw (pid_low _ Hn Ep)) as (cx' & a2 & H1 & H2).
      exists (GWrite e). eexists. split; [by right|]. by eapply gk_write.
  - pose proof (pid_proc _ _ Ep) as Hj. destruct (free_hop (on SideA) e x l _ cx aa j Fr Hel Hw Hj) as (cx' & a2 & H1 & _). split.
    + intros s' Hst. inversion Hst; subst. assert (i = j) as -> by congruence. assert (x0 = cx) as -> by congruence. by eapply calls_back.
    + exists (GHop e). eexists. split; [by left|]. eapply gk_hop; [done|exact H1|].
      pose proof (lower_at L N R (S n) ltac:(by apply lookup_lt_Some in Hj)) as E. simpl in E. by rewrite Ep in E.
Qed.

(** ** A switch used between two processors *)
Lemma hops a b e x l j : encoded L N x l -> forall ls s, grun N (lower_switches L N) (new_grain N a b) ls s ->
  n_hand (g_net s) e = Some x -> length (wa_met (watched L N ls) e) + j <= length ids ->
  exists s', grun N (lower_switches L N) (new_grain N a b) (ls ++ replicate j (GHop e)) s' /\
    n_hand (g_net s') e = Some x /\ n_writes (g_net s') = n_writes (g_net s) /\ g_on s' = g_on s /\
    wa_on (watched L N (ls ++ replicate j (GHop e))) = wa_on (watched L N ls) /\
    wa_met (watched L N (ls ++ replicate j (GHop e))) e =
      wa_met (watched L N ls) e ++ (wa_on (watched L N ls) <$> take j (drop (length (wa_met (watched L N ls) e)) ids)).
Proof.
  intros Hel. induction j as [|j IH]; intros ls s H Hh Hj.
  { exists s. simpl. by rewrite !app_nil_r. }
  set (n := length (wa_met (watched L N ls) e)) in *.
  destruct (exact_goes_on a b ls s e x l H Hh Hel) as (_ & lb & s1 & Hlb & Hst).
  destruct (tracked_run a b ls s H) as (_ & _ & Iv). destruct (Iv e x l Hh Hel) as (cx & Ea & _). fold n in Ea.
  destruct (lookup_lt_is_Some_2 ids n) as [i Hi]; [lia|].
  assert (pid_at L n = PProc i) as Ep by (unfold pid_at; by rewrite Hi).
  assert (lb = GHop e) as ->.
  { destruct Hlb as [-> | ->]; [done|]. inversion Hst; subst. simpl in *. congruence. }
  assert (n_hand (g_net s1) e = Some x /\ n_writes (g_net s1) = n_writes (g_net s) /\ g_on s1 = g_on s) as (Hh1 & Hw1 & Ho1).
  { inversion Hst; subst. done. }
  assert (wa_on (watched L N (ls ++ [GHop e])) = wa_on (watched L N ls) /\
    wa_met (watched L N (ls ++ [GHop e])) e = wa_met (watched L N ls) e ++ [wa_on (watched L N ls) i]) as [Eo Em].
  { rewrite watched_snoc. simpl. rewrite fn_lookup_insert. fold n. by rewrite Hi. }
  assert (length (wa_met (watched L N (ls ++ [GHop e])) e) = S n) as El by (rewrite Em, app_length; simpl; unfold n; lia).
  destruct (IH (ls ++ [GHop e]) s1) as (s' & H1 & H2 & H3 & H4 & H5 & H6); [|done|lia|].
  { eapply gr_snoc; [exact H|done|exact Hst]. }
  rewrite <- app_assoc in *. simpl in *. exists s'. split; [exact H1|]. split; [done|]. split; [congruence|]. split; [congruence|].
  split; [congruence|]. rewrite H6, El, Em, Eo, <- app_assoc. f_equal. by rewrite (drop_S _ _ _ Hi).
Qed.

Lemma met_off n i kd met on : ids !! n = Some i -> e_procs (na N) !! i = Some (Proc kd true) -> na_ < n ->
  met = ((as_made (na N) <$> take n ids) ++ [false]) ++ (on <$> take (length ids - S n) (drop (S n) ids)) ->
  (forall j, j <> i -> on j = as_made (na N) j) ->
  zip_with (fun p b => sw p b) (SwapSpec.below (na N) ids na_) (drop (S na_) met) = <[n - S na_ := Proc kd false]> (SwapSpec.below (na N) ids na_).
Proof.
  intros Hi Hp Hn Em Hon. pose proof (lookup_lt_Some _ _ _ Hi) as Hlt. pose proof ids_nodup as Nd. pose proof (stack_len L N R) as Ls.
  assert (length (as_made (na N) <$> take n ids) = n) as Lt by (rewrite fmap_length, take_length; lia).
  assert (forall m j, ids !! m = Some j -> met !! m = Some (if decide (m = n) then false else as_made (na N) j)) as Hm.
  { intros m j Hj. rewrite Em, <- app_assoc. destruct (decide (m = n)) as [->|Hne].
    - rewrite lookup_app_r by lia. by rewrite Lt, Nat.sub_diag.
    - destruct (decide (m < n)).
      + rewrite lookup_app_l by lia. rewrite list_lookup_fmap, lookup_take by lia. by rewrite Hj.
      + rewrite lookup_app_r by lia. rewrite Lt. destruct (m - n) as [|d] eqn:Ed; [lia|]. simpl.
        pose proof (lookup_lt_Some _ _ _ Hj). rewrite list_lookup_fmap, lookup_take, lookup_drop by lia. replace (S n + d) with m by lia.
        rewrite Hj. simpl. f_equal. apply Hon. intros ->. apply Hne. by eapply NoDup_lookup. }
  apply list_eq. intros m. rewrite lookup_zip_with, lookup_drop. unfold SwapSpec.below. rewrite lookup_drop.
  destruct (SA !! (S na_ + m)) as [p|] eqn:Es; simpl.
  - pose proof (lookup_lt_Some _ _ _ Es) as Hl. destruct (lookup_lt_is_Some_2 ids (S na_ + m)) as [j Hj]; [lia|].
    destruct (stack_at _ _ Hj) as (p' & Hp' & Ep'). simpl in Hp', Hj, Es. assert (p' = p) as -> by congruence.
    pose proof (Hm _ _ Hj) as Hmm. simpl in Hmm. rewrite Hmm. simpl.
    destruct (decide (S (na_ + m) = n)) as [En|En].
    + replace (n - S na_) with m by lia. rewrite list_lookup_insert by (rewrite drop_length; simpl in Hl; lia).
      rewrite En in Hj. assert (j = i) as -> by congruence. assert (p = Proc kd true) as -> by congruence. done.
    + rewrite list_lookup_insert_ne by lia. rewrite lookup_drop. simpl. rewrite Es. unfold as_made. rewrite Ep'. by destruct p.
  - symmetry. apply lookup_ge_None. rewrite insert_length, drop_length. apply lookup_ge_None in Es. lia.
Qed.
Lemma hop_where s e s' : gstep N s (GHop e) s' -> exists i x, g_at s e = Some (PProc i, x).
Proof. intros H. inversion H; subst. simpl. eauto. Qed.
Lemma write_keeps s e s' : gstep N s (GWrite e) s' -> g_on s' = g_on s.
Proof. intros H. by inversion H. Qed.
Lemma between a b e x l n i kd : encoded L N x l -> na_ < n -> ids !! n = Some i -> e_procs (na N) !! i = Some (Proc kd true) ->
  (forall o, sends_on (Proc kd o) = true) -> 0 < ntxcap N ->
  exists s, grun N (lower_switches L N) (new_grain N a b) (between_labels L e x i n) s /\ (forall j, g_on s SideA j = as_made (na N) j) /\
    n_writes (g_net s) = [wire_of (zof e x) (<[n - S na_ := Proc kd false]> (SwapSpec.below (na N) ids na_)) l].
Proof.
  intros Hel Hn Hi Hp Hs Hc. pose proof (lookup_lt_Some _ _ _ Hi) as Hlt. pose proof ids_nodup as Nd.
  destruct (stack_at n i Hi) as (p' & Hsa & Hp'). assert (p' = Proc kd true) as -> by congruence.
  assert (i ∈ drop (S na_) ids) as Hin.
  { apply elem_of_list_lookup. exists (n - S na_). rewrite lookup_drop. by replace (S na_ + (n - S na_)) with n by lia. }
  set (s1 := Gst (Nst (<[e := [x]]> (fun _ => [])) (fun _ => None) a [] b [] (fun _ => []) [] [] 0) (fun _ => None) (w_on (new_swap N a b))).
  assert (grun N (lower_switches L N) (new_grain N a b) [GNet (NPut e x)] s1) as H1.
  { apply (gr_snoc N _ _ [] (new_grain N a b) (GNet (NPut e x))); [constructor|done|]. apply gk_net; [done|]. apply nk_put. done. }
  set (s2 := Gst (Nst (<[e := []]> (<[e := [x]]> (fun _ => []))) (<[e := Some x]> (fun _ => None)) a [] b [] (fun _ => []) [] [] 0)
    (<[e := Some (pid_at L 0, start_ctx N e x)]> (fun _ => None)) (w_on (new_swap N a b))).
  assert (grun N (lower_switches L N) (new_grain N a b) [GNet (NPut e x); GTake e] s2) as H2.
  { apply (gr_snoc N _ _ [GNet (NPut e x)] s1 (GTake e)); [done|done|]. apply gk_take; [done| |].
    - by rewrite fn_lookup_insert.
    - apply (lower_at L N R 0). lia. }
  assert (wa_met (watched L N [GNet (NPut e x); GTake e]) e = []) as M2.
  { unfold watched. simpl. by rewrite fn_lookup_insert. }
  assert (wa_on (watched L N [GNet (NPut e x); GTake e]) = as_made (na N)) as O2 by done.
  destruct (hops a b e x l n Hel _ s2 H2) as (s3 & H3 & Hh3 & Hw3 & Ho3 & O3 & M3).
  { simpl. by rewrite fn_lookup_insert. } { rewrite M2. simpl. lia. }
  rewrite M2, O2 in M3. cbn [length] in M3. rewrite drop_0 in M3. rewrite app_nil_l in M3. rewrite O2 in O3.
  set (l3 := [GNet (NPut e x); GTake e] ++ replicate n (GHop e)) in *.
  destruct s3 as [nt3 at3 on3]. simpl in Hh3, Hw3, Ho3.
  set (s4 := Gst nt3 at3 (<[SideA := <[i := false]> (on3 SideA)]> on3)).
  assert (forall o, lower_switches L N s4 (GSet SideA i o)) as Hlow.
  { intros o. split; [done|]. intros q o' Hq. rewrite Hp in Hq. injection Hq as <-. apply Hs. }
  assert (grun N (lower_switches L N) (new_grain N a b) (l3 ++ [GSet SideA i false]) s4) as H4.
  { eapply gr_snoc; [exact H3|apply (Hlow false)|constructor]. }
  assert (length (wa_met (watched L N (l3 ++ [GSet SideA i false])) e) = n) as M4.
  { rewrite watched_snoc. cbn [watch_step wa_met]. rewrite M3, fmap_length, take_length. lia. }
  destruct (hops a b e x l 1 Hel _ s4 H4) as (s5 & H5 & Hh5 & Hw5 & Ho5 & O5 & M5); [done|lia|].
  rewrite M4, (drop_S _ _ _ Hi), firstn_cons, take_0, (watched_snoc l3) in M5. rewrite (watched_snoc l3) in O5.
  cbn [watch_step wa_met wa_on fmap list_fmap] in M5, O5.
  rewrite M3, O3, fn_lookup_insert in M5. rewrite O3 in O5. simpl in Hw5, Ho5.
  set (l5 := (l3 ++ [GSet SideA i false]) ++ replicate 1 (GHop e)) in *. simpl replicate in *.
  destruct s5 as [nt5 at5 on5]. simpl in Hh5, Hw5, Ho5.
  set (s6 := Gst nt5 at5 (<[SideA := <[i := true]> (on5 SideA)]> on5)).
  assert (grun N (lower_switches L N) (new_grain N a b) (l5 ++ [GSet SideA i true]) s6) as H6.
  { eapply gr_snoc; [exact H5|apply (Hlow true)|constructor]. }
  assert (wa_met (watched L N (l5 ++ [GSet SideA i true])) e = (as_made (na N) <$> take n ids) ++ [false]) as M6.
  { rewrite watched_snoc. simpl. exact M5. }
  assert (length (wa_met (watched L N (l5 ++ [GSet SideA i true])) e) = S n) as L6.
  { rewrite M6, app_length, fmap_length, take_length. simpl. lia. }
  destruct (hops a b e x l (length ids - S n) Hel _ s6 H6) as (s7 & H7 & Hh7 & Hw7 & Ho7 & O7 & M7); [done|lia|].
  rewrite L6 in M7. set (l7 := (l5 ++ [GSet SideA i true]) ++ replicate (length ids - S n) (GHop e)) in *.
  destruct (exact_goes_on a b l7 s7 e x l H7 Hh7 Hel) as (_ & lb & s8 & Hlb & Hst).
  assert (length (wa_met (watched L N l7) e) = length ids) as L7.
  { rewrite M7, app_length, L6, fmap_length, take_length, drop_length. lia. }
  destruct (tracked_run a b l7 s7 H7) as (_ & _ & Iv). destruct (Iv e x l Hh7 Hel) as (cx & Ea & _). rewrite L7 in Ea.
  assert (pid_at L (length ids) = PLower) as Epl. { unfold pid_at. by rewrite lookup_ge_None_2. }
  rewrite Epl in Ea.
  assert (lb = GWrite e) as ->. { destruct Hlb as [-> | ->]; [|done]. destruct (hop_where _ _ _ Hst) as (j & y & Hjy). congruence. }
  destruct (exact_write a b l7 s7 e x l s8 H7 Hh7 Hel Hst) as (_ & Hw8 & _).
  assert (as_met L N e l7 = <[n - S na_ := Proc kd false]> (SwapSpec.below (na N) ids na_)) as Eam.
  { assert (forall j, j <> i -> wa_on (watched L N (l5 ++ [GSet SideA i true])) j = as_made (na N) j) as Hon.
    { intros j Hj. rewrite (watched_snoc l5). cbn [watch_step wa_on]. by rewrite fn_lookup_insert_ne, O5, fn_lookup_insert_ne. }
    unfold as_met. revert M7 L7 M6 Hon. generalize (wa_met (watched L N l7) e) as met. generalize (watched L N (l5 ++ [GSet SideA i true])) as w7.
    intros w7 met M7 L7 M6 Hon. rewrite M6 in M7. exact (met_off n i kd met (wa_on w7) Hi Hp Hn M7 Hon). }
  exists s8. split_and!.
  - assert (between_labels L e x i n = l7 ++ [GWrite e]) as ->.
    { unfold between_labels, l7, l5, l3. simpl. repeat (rewrite <- app_assoc; simpl). done. }
    eapply gr_snoc; [exact H7|done|exact Hst].
  - intros j. rewrite (write_keeps _ _ _ Hst). rewrite Ho7. simpl. rewrite fn_lookup_insert, Ho5.
    rewrite fn_lookup_insert, Ho3. simpl. destruct (decide (j = i)) as [->|Hj].
    + rewrite fn_lookup_insert. unfold as_made. by rewrite Hp.
    + by rewrite !fn_lookup_insert_ne by done.
  - rewrite Hw8, Hw7. simpl. rewrite Hw5, Hw3. simpl. by rewrite Eam.
Qed.
End exact.
