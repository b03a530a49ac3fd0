(** * A switch used at the wrong moment *)
From Verif Require Import GoBase UBufModel UBufSpec FrameModel FrameSpec StackModel StackSpec StackFacts StackEnd NetModel NetSpec NetProofs SwapModel SwapSpec SwapProofs.

Lemma stack_lookup E ids j : Forall2 (fun i p => e_procs E !! i = Some p) ids (stack_of E ids) ->
  stack_of E ids !! j = match ids !! j with Some i => e_procs E !! i | None => None end.
Proof.
  intros H. destruct (ids !! j) as [i|] eqn:Ei.
  - destruct (Forall2_lookup_l _ _ _ _ _ H Ei) as (p & -> & Hp). by rewrite Hp.
  - apply lookup_ge_None in Ei. apply lookup_ge_None. by rewrite <- (Forall2_length _ _ _ H).
Qed.
Lemma switched_off E k ids n c i kd b : fit E k ids n c -> ids !! S n = Some i -> below E ids n = Proc kd true :: b -> visible_header kd ->
  let E' := flagged E (<[i := false]> (as_made E)) in
  fit E' k ids n c /\ below E' ids n = Proc kd false :: b.
Proof.
  intros F Hi Hb Hk E'. destruct (fit_stack _ _ _ _ _ F) as [H1 H2]. destruct F as ((W1 & W2 & W3 & W4) & F1 & F2 & R & Mt).
  pose proof (proj2 (split_at _ _ _) H1) as E1. fold (above E ids n) in E1. unfold below in Hb. rewrite Hb in E1. fold (below E ids n) in Hb.
  assert (length (above E ids n) = n) as Ln.
  { unfold above. rewrite take_length. apply lookup_lt_Some in H1. lia. }
  assert (Forall2 (fun i p => e_procs E' !! i = Some p) ids (stack_of E' ids)) as H2'.
  { apply stack_there. intros y Hy. destruct (Forall2_elem_l _ _ _ _ H2 Hy) as (q & _ & Hq). eauto. }
  assert (stack_of E' ids = above E ids n ++ Proc k true :: Proc kd false :: b) as E2.
  { apply list_eq. intros j. rewrite stack_lookup by done. destruct (ids !! j) as [y|] eqn:Ej.
    - unfold E'. rewrite flagged_at. pose proof (stack_lookup _ _ j H2) as Hj. rewrite Ej in Hj. rewrite <- Hj.
      destruct (decide (j = S n)) as [->|Hn].
      + assert (y = i) as -> by congruence. rewrite fn_lookup_insert. rewrite E1.
        rewrite !lookup_app_r by lia. rewrite Ln. replace (S n - n) with 1 by lia. done.
      + assert (y <> i) as Hy. { intros ->. apply Hn. by eapply NoDup_lookup. }
        rewrite fn_lookup_insert_ne by done. unfold as_made.
        assert (forall q : option proc, e_procs E !! y = q -> (fun p => Proc (p_kind p) (match q with Some p => p_enable p | None => false end)) <$> q = q) as Hq.
        { intros [[kk en]|] _; done. }
        rewrite Hj. rewrite (Hq (e_procs E !! y) eq_refl), <- Hj, E1.
        destruct (decide (j < n)) as [Hlt|Hge]; [by rewrite !lookup_app_l by lia|].
        rewrite !lookup_app_r by lia. rewrite Ln. destruct (j - n) as [|[|x]] eqn:Ex; [done|lia|done].
    - symmetry. apply lookup_ge_None. apply lookup_ge_None in Ej. pose proof (Forall2_length _ _ _ H2) as L2. rewrite E1 in L2.
      rewrite app_length in *. simpl in *. lia. }
  assert (above E' ids n = above E ids n) as Ea. { unfold above at 1. rewrite E2. by rewrite take_app_alt. }
  assert (below E' ids n = Proc kd false :: b) as Eb.
  { unfold below. rewrite E2. change (Proc k true :: Proc kd false :: b) with ([Proc k true] ++ Proc kd false :: b). rewrite app_assoc.
    rewrite drop_app_alt; [done|]. rewrite app_length, Ln. simpl. lia. }
  split; [|done]. unfold fit. rewrite Ea, Eb. split; [|split; [done|split; [|done]]].
  - split; [done|]. split; [done|]. split.
    + simpl. rewrite W3, Hb. rewrite !fmap_app. done.
    + by rewrite E2 in H2'.
  - rewrite Hb in F2. inversion F2; subst. constructor; [|done]. by destruct Hk as [->|[cap ->]].
Qed.

(** What a first message meets. *)
Lemma first_message N on1 on2 (idsB : list nat) nB preA psA e x l w z m a b :
  fit (nb (now N on2)) KBytes idsB nB (ncb N) -> caches_idle (nb N) b ->
  (exists ids, wired (na (now N on1)) ids (preA ++ Proc KBytes true :: psA) /\ Forall (fun p => passes_message p = true) preA /\
     Forall (fun p => carries p = true) psA /\ e_isref (na N) (nca N) = false /\ (e_mtu (na N) < 2^32)%Z) -> accepts (na N) (nca N) ->
  ml_msg x = MBytes l -> l <> [] -> (Z.of_nat (length l) <= e_mtu (na N) - e_overhead (na N))%Z ->
  w = wire_of (dest_of (nsess N e) (ml_dest x)) psA l ->
  (Z.of_nat (length w) <= e_mtu (nb N))%Z -> m <> [] -> rx_session (below (nb (now N on2)) idsB nB) z ∈ e_sessions (nb N) ->
  w = wire_of z (below (nb (now N on2)) idsB nB) m -> 0 < ntxcap N -> 0 < nrxcap N ->
  exists s1 s2, nrun (now N on1) (whole_read false) (new_net a b) [NPut e x; NTake e; NPass e] s1 /\
    nrun (now N on2) (whole_read false) s1 [NRead (length w); NDeliver; NListen (rx_session (below (nb (now N on2)) idsB nB) z)] s2 /\
    heard (rx_session (below (nb (now N on2)) idsB nB) z) s2 = [MBytes m].
Proof.
  intros (W & P & C & R & Mt) Hid (ids & WA & PA & CA & RA & MA) Ac Ex Hl Hfit Ew Hm Hne Hz Ew2 Ht Hr.
  set (ps := below (nb (now N on2)) idsB nB) in *. set (zz := rx_session ps z) in *.
  destruct (send_fits (na (now N on1)) ids preA KBytes psA (nsess N e) (ml_dest x) (nca N) (ml_msg x) l a) as (a2 & Hf2 & _); try done; [by apply carries_sends|].
  rewrite <- Ew in Hf2.
  assert (w <> []) as Hw by (rewrite Ew; by apply wire_nonempty). rewrite offered_accepts in Hf2 by done.
  rewrite <- (idle_flagged _ (on2 SideB)) in Hid.
  destruct (receive_wire (nb (now N on2)) idsB (above (nb (now N on2)) idsB nB) KBytes ps z (ncb N) (MBytes m) m b) as (b2 & Hg2 & _ & _); try done.
  { rewrite <- Ew2. done. }
  rewrite <- Ew2 in Hg2. fold zz in Hg2. unfold shown in Hg2. rewrite decide_True in Hg2 by done.
  assert (written (nca N) [OWire (nca N) w] = [w]) as Ewr. { unfold written. simpl. by rewrite decide_True. }
  assert (0 < length w) as Hpos by (destruct w; simpl; [done|lia]).
  eexists _, _. split; [|split].
  - eapply nrun_cons; [done|apply nk_put; simpl; lia|].
    eapply nrun_cons; [done|eapply nk_take; [done|simpl; rewrite fn_lookup_insert; reflexivity]|].
    apply nrun_one; [done|]. eapply nk_pass; [simpl; by rewrite fn_lookup_insert|exact Hf2].
  - cbn [nca now]. rewrite Ewr. cbn [concat app]. rewrite app_nil_r.
    eapply nrun_cons; [exists 0, 1; simpl; by rewrite app_nil_r|eapply nk_read; [done|done|done|rewrite firstn_all; exact Hg2]|].
    eapply nrun_cons; [done|apply nk_deliver; simpl; lia|].
    apply nrun_one; [done|]. apply nk_listen. simpl. by rewrite fn_lookup_insert.
  - unfold heard. simpl. by rewrite decide_True.
Qed.
Lemma lift_one N on s ms s' : nrun (now N on) (whole_read false) s ms s' -> wrun N one_by_one (Wst s on) (WNet <$> ms) (Wst s' on).
Proof.
  induction 1 as [|ms s1 l s2 _ IH Hok Hs]; [constructor|]. rewrite fmap_app. eapply wr_snoc; [done|exact Hok|by constructor].
Qed.
Lemma sent_by_a N on k ids n c : fit (na (now N on)) k ids n c ->
  exists ids', wired (na (now N on)) ids' (above (na (now N on)) ids n ++ Proc k true :: below (na (now N on)) ids n) /\
    Forall (fun p => passes_message p = true) (above (na (now N on)) ids n) /\
    Forall (fun p => carries p = true) (below (na (now N on)) ids n) /\ e_isref (na N) c = false /\ (e_mtu (na N) < 2^32)%Z.
Proof. intros (W & P & C & R & Mt). by exists ids. Qed.

Definition made (N : net) : side -> nat -> bool := fun d => match d with SideA => as_made (na N) | SideB => as_made (nb N) end.
Lemma now_is N : now N (made N) = N.
Proof. destruct N. unfold now, made. simpl. by rewrite !flagged_made. Qed.
Lemma wire_off z kd b l : visible_header kd -> wire_of z (Proc kd true :: b) l = wire_of z (Proc kd false :: b) (StackSpec.put z (Proc kd true) l).
Proof. intros [->|[cap ->]]; done. Qed.

Lemma off_at_b L N e x l i kd bs a b : ready L N -> lo_codec L = KBytes -> caches_idle (nb N) b -> 0 < ntxcap N -> 0 < nrxcap N ->
  lo_b L !! S (lo_above_b L) = Some i -> below (nb N) (lo_b L) (lo_above_b L) = Proc kd true :: bs -> visible_header kd -> existsb resolves bs = false ->
  sendable_as N KBytes (Proc kd true :: bs) e x l -> 0%Z ∈ e_sessions (nb N) ->
  let z := dest_of (nsess N e) (ml_dest x) in
  exists n s, wrun N one_by_one (new_swap N a b)
    [WNet (NPut e x); WNet (NTake e); WNet (NPass e); WSet SideB i false; WNet (NRead n); WNet NDeliver; WNet (NListen 0)] s /\
    heard 0 (w_net s) = [MBytes (StackSpec.put z (Proc kd true) l)].
Proof.
  intros (FA & Ac & FB & Al) Ek Hid Ht Hr Hi Hb Hk Hres Hs Hz z. rewrite Ek in *.
  destruct Hs as (He & Hd & Hl & Hfit & Hroom & Hrange & _ & _). simpl in He.
  destruct (switched_off _ _ _ _ _ _ _ _ FB Hi Hb Hk) as [FB' Eb'].
  set (on2 := <[SideB := <[i := false]> (made N SideB)]> (made N)).
  assert (nb (now N on2) = flagged (nb N) (<[i := false]> (as_made (nb N)))) as Enb by (unfold now, on2; simpl; by rewrite fn_lookup_insert).
  assert (rx_session (Proc kd false :: bs) z = 0%Z) as Erx.
  { unfold rx_session. simpl. rewrite Hres. by destruct Hk as [->|[cap ->]]. }
  rewrite Hb in Al.
  destruct (first_message N (made N) on2 (lo_b L) (lo_above_b L) (above (na N) (lo_a L) (lo_above_a L)) (below (na N) (lo_a L) (lo_above_a L)) e x l
    (wire_of z (Proc kd true :: bs) l) z (StackSpec.put z (Proc kd true) l) a b) as (s1 & s2 & R1 & R2 & H2); try done.
  - pose proof (sent_by_a N (made N) KBytes (lo_a L) (lo_above_a L) (nca N)) as Hs. rewrite now_is in Hs. rewrite now_is. by apply Hs.
  - fold z. symmetry. by apply alike_wire.
  - by apply wire_length_room.
  - destruct Hk as [->|[cap ->]]; simpl; [|done]. destruct l; [done|]. intros E. by apply app_eq_nil in E as [_ ?].
  - rewrite Enb, Eb', Erx. done.
  - rewrite Enb, Eb'. by apply wire_off.
  - rewrite Enb, Eb', Erx in R2, H2. exists (length (wire_of z (Proc kd true :: bs) l)), (Wst s2 on2). split; [|done].
    apply lift_one in R1, R2. change (Wst (new_net a b) (made N)) with (new_swap N a b) in R1.
    apply (wrun_app _ _ _ [_; _; _] _ _ _ R1). eapply wrun_cons; [done|apply wk_set|]. exact R2.
Qed.
Lemma wire_unresolved z z' bs l : existsb resolves bs = false -> wire_of z bs l = wire_of z' bs l.
Proof.
  revert l. induction bs as [|[kd en] bs IH]; intros l H; [done|]. simpl in H. apply orb_false_iff in H as [H1 H2]. unfold wire_of in *. simpl.
  rewrite (IH _ H2). assert (StackSpec.put z (Proc kd en) l = StackSpec.put z' (Proc kd en) l) as ->; [|done].
  unfold StackSpec.put. destruct kd; try done. cbn in *. by rewrite H1.
Qed.
Lemma off_at_a L N e x i z r bs cs a b : ready L N -> lo_codec L = KBytes -> caches_idle (nb N) b -> 0 < ntxcap N -> 0 < nrxcap N ->
  lo_a L !! S (lo_above_a L) = Some i -> below (na N) (lo_a L) (lo_above_a L) = Proc KSession true :: cs ->
  below (nb N) (lo_b L) (lo_above_b L) = Proc KSession true :: bs ->
  existsb resolves bs = false -> (0 <= z < 2^32)%Z -> r <> [] -> z ∈ e_sessions (nb N) -> sendable_as N KBytes (Proc KSession true :: bs) e x (digits BE W32 z ++ r) ->
  exists n s, wrun N one_by_one (new_swap N a b)
    [WSet SideA i false; WNet (NPut e x); WNet (NTake e); WNet (NPass e); WNet (NRead n); WNet NDeliver; WNet (NListen z)] s /\
    heard z (w_net s) = [MBytes r].
Proof.
  intros (FA & Ac & FB & Al) Ek Hid Ht Hr Hi Ha Hb Hres Hz Hne Hzs Hs. rewrite Ek in *. set (l := digits BE W32 z ++ r) in *.
  destruct Hs as (He & Hd & Hl & Hfit & Hroom & _). simpl in He.
  destruct (switched_off _ _ _ _ _ _ _ _ FA Hi Ha (or_introl eq_refl)) as [FA' Ea'].
  set (on1 := <[SideA := <[i := false]> (made N SideA)]> (made N)).
  assert (na (now N on1) = flagged (na N) (<[i := false]> (as_made (na N)))) as Ena by (unfold now, on1; simpl; by rewrite fn_lookup_insert).
  assert (nb (now N on1) = nb N) as Enb by (unfold now, on1; simpl; rewrite fn_lookup_insert_ne by done; apply flagged_made).
  assert (rx_session (Proc KSession true :: bs) z = z) as Erx. { apply rx_session_same; [done|by left]. }
  rewrite Ha, Hb in Al. inversion Al as [|? ? ? ? _ Al']; subst.
  set (w := wire_of z (Proc KSession true :: bs) r).
  assert (forall z', wire_of z' (Proc KSession false :: cs) l = wire_of z' bs l) as Ew by (intros z'; exact (alike_wire z' cs bs l Al')).
  assert (Z.of_nat (length w) <= e_mtu (nb N))%Z as Hw.
  { unfold w. apply wire_length_room. unfold l in Hroom. rewrite app_length in Hroom. lia. }
  assert (wire_of (dest_of (nsess N e) (ml_dest x)) (Proc KSession false :: cs) l = w) as Ew2.
  { rewrite Ew. rewrite (wire_unresolved _ z) by done. 
    assert (StackSpec.put z (Proc KSession true) r = l) as Ep by (unfold StackSpec.put, l; cbn [p_kind p_enable]; by rewrite Z.mod_small).
    unfold w. change (wire_of z (Proc KSession true :: bs) r) with (wire_of z bs (StackSpec.put z (Proc KSession true) r)). by rewrite Ep. }
  destruct (first_message N on1 on1 (lo_b L) (lo_above_b L) (above (na (now N on1)) (lo_a L) (lo_above_a L)) (below (na (now N on1)) (lo_a L) (lo_above_a L)) e x l
    w z r a b) as (s1 & s2 & R1 & R2 & H2); try done.
  - by rewrite Enb.
  - apply sent_by_a. by rewrite Ena.
  - rewrite Ena, Ea'. done.
  - rewrite Enb, Hb, Erx. done.
  - rewrite Enb, Hb. done.
  - rewrite Enb, Hb, Erx in R2, H2. exists (length w), (Wst s2 on1). split; [|done].
    apply lift_one in R1, R2. eapply wrun_cons; [done|apply (wk_set _ _ (made N))|]. apply (wrun_app _ _ _ [_; _; _] _ _ _ R1 R2).
Qed.

(** ** A codec switched off *)
Definition okp (p : proc) : bool := passes_message p || carries p.
Lemma nothing_down E q is ps c x s : StackProofs.below E q is ps -> Forall (fun p => okp p = true) ps ->
  cx_buf x = None -> cx_conn x = Some c -> e_isref E c = false ->
  exists x' s', exec (S (length ps)) E Down (Some q) x s = Some (Done x' s') /\ s_out s' = s_out s.
Proof.
  intros Hb Hf Hx Hc Hr. revert s. induction Hb as [|i is p ps q Hi Hlow Hb IH]; intros s.
  - exists x, s. split; [|done]. cbn. unfold lower_send. by rewrite Hc, Hr, Hx.
  - inversion Hf as [|? ? Hp Hf']; subst. destruct (IH Hf' (visit s i Down x)) as (x' & s' & H1 & H2).
    assert (forall d u w s0, on_upper E i (p_enable p) d u w (p_kind p) x s0 = d x s0 \/
      on_upper E i (p_enable p) d u w (p_kind p) x s0 = Some (Done x s0)) as Hon.
    { intros d u w s0. unfold okp, passes_message, carries, sends_on in Hp. destruct p as [kd en]. simpl in *.
      unfold on_upper, by_reference, with_buf. rewrite Hc, Hr, Hx. destruct kd, en; simpl in *; try done; eauto. }
    cbn [length]. cbn [exec] in H1 |- *. rewrite Hi, Hlow.
    edestruct Hon as [-> | ->]; [exists x', s'; split; [exact H1|exact H2]|]. eexists _, _. split; [done|done].
Qed.
Lemma ok_switched E k ids n c i m l : fit E k ids n c -> encodes k m l -> ids !! n = Some i ->
  let E' := flagged E (<[i := false]> (as_made E)) in
  Forall2 (fun i p => e_procs E' !! i = Some p) ids (stack_of E' ids) /\ Forall (fun p => okp p = true) (stack_of E' ids) /\
  p_kind <$> stack_of E' ids = p_kind <$> stack_of E ids.
Proof.
  intros F He Hi E'. destruct (fit_stack _ _ _ _ _ F) as [H1 H2]. destruct F as ((W1 & W2 & W3 & W4) & F1 & F2 & R & Mt).
  assert (Forall2 (fun i p => e_procs E' !! i = Some p) ids (stack_of E' ids)) as H2'.
  { apply stack_there. intros y Hy. destruct (Forall2_elem_l _ _ _ _ H2 Hy) as (q & _ & Hq). eauto. }
  split; [done|].
  assert (forall j y p, ids !! j = Some y -> e_procs E !! y = Some p -> okp (Proc (p_kind p) ((<[i := false]> (as_made E)) y)) = true) as Hok.
  { intros j y p Ej Ep. pose proof (stack_lookup _ _ j H2) as Hj. rewrite Ej, Ep in Hj. destruct (decide (y = i)) as [->|Hne].
    - rewrite fn_lookup_insert. assert (j = n) as -> by (by eapply NoDup_lookup). rewrite Hj in H1. injection H1 as ->. simpl in *.
      unfold okp, passes_message. simpl. by destruct k.
    - rewrite fn_lookup_insert_ne by done. unfold as_made. rewrite Ep.
      assert (Proc (p_kind p) (p_enable p) = p) as -> by (by destruct p). unfold okp.
      destruct (decide (j < n)).
      + assert (p ∈ above E ids n) as Hin. { apply elem_of_list_lookup. exists j. unfold above. by rewrite lookup_take. }
        rewrite stdpp.list.Forall_forall in F1. by rewrite (F1 p Hin).
      + assert (j <> n) by congruence. assert (p ∈ below E ids n) as Hin.
        { apply elem_of_list_lookup. exists (j - S n). unfold below. rewrite lookup_drop. by replace (S n + (j - S n)) with j by lia. }
        rewrite stdpp.list.Forall_forall in F2. rewrite (F2 p Hin). by rewrite orb_true_r. }
  split.
  - apply Forall_lookup. intros j p Hp. rewrite stack_lookup in Hp by done. destruct (ids !! j) as [y|] eqn:Ej; [|done].
    unfold E' in Hp. rewrite flagged_at in Hp. apply fmap_Some in Hp as (p0 & Hp0 & ->). by eapply Hok.
  - apply list_eq. intros j. rewrite !list_lookup_fmap, !stack_lookup by done. destruct (ids !! j) as [y|]; [|done].
    unfold E'. rewrite flagged_at. by destruct (e_procs E !! y).
Qed.
Lemma codec_off L N e x l i a b : ready L N -> encodes (lo_codec L) (ml_msg x) l -> 0 < ntxcap N -> lo_a L !! lo_above_a L = Some i ->
  exists s, wrun N one_by_one (new_swap N a b) [WSet SideA i false; WNet (NPut e x); WNet (NTake e); WNet (NPass e)] s /\
    settled (w_net s) /\ all_sent (w_net s) /\ n_writes (w_net s) = [] /\ forall z, heard z (w_net s) = [].
Proof.
  intros (FA & Ac & FB & Al) He Ht Hi. destruct (ok_switched _ _ _ _ _ _ _ _ FA He Hi) as (G1 & G2 & G3).
  set (on1 := <[SideA := <[i := false]> (made N SideA)]> (made N)).
  assert (na (now N on1) = flagged (na N) (<[i := false]> (as_made (na N)))) as Ena by (unfold now, on1; simpl; by rewrite fn_lookup_insert).
  destruct (fit_stack _ _ _ _ _ FA) as [H1 H2]. destruct FA as ((W1 & W2 & W3 & W4) & F1 & F2 & R & Mt).
  pose proof (proj2 (split_at _ _ _) H1) as E1. fold (above (na N) (lo_a L) (lo_above_a L)) (below (na N) (lo_a L) (lo_above_a L)) in E1.
  assert (wired (na (now N on1)) (lo_a L) ([] ++ stack_of (na (now N on1)) (lo_a L))) as W.
  { rewrite Ena. split; [done|]. split; [done|]. split; [|done]. simpl app. rewrite G3, E1. done. }
  destruct (wired_from _ _ [] _ [] (lo_a L) W eq_refl eq_refl) as (q & Hq & Hb). simpl in Hq.
  rewrite <- Ena in G2.
  set (cx := Ctx (Some (nca N)) None (Some (ml_msg x)) (Some (OInt (dest_of (nsess N e) (ml_dest x))))).
  destruct (nothing_down (na (now N on1)) q _ _ (nca N) cx a Hb G2 eq_refl eq_refl R) as (x' & a' & Ex & Oa).
  assert (finishes (fun f => send f (na (now N on1)) (nsess N e) (ml_dest x) (Some (nca N)) (Some (ml_msg x)) a) a [] a') as Hf.
  { unfold send. change (l_lower (e_links (na (now N on1))) PUpper) with (l_lower (e_links (na N)) PUpper). rewrite Hq.
    eapply finishes_exec; [exact Ex|]. by rewrite app_nil_r. }
  eexists. split; [|].
  { eapply wrun_cons; [done|apply (wk_set _ _ (made N))|]. fold on1.
    eapply wrun_cons; [done|apply wk_net; apply nk_put; simpl; lia|].
    eapply wrun_cons; [done|apply wk_net; eapply nk_take; [done|simpl; rewrite fn_lookup_insert; reflexivity]|].
    apply wrun_one; [done|]. apply wk_net. eapply nk_pass; [simpl; by rewrite fn_lookup_insert|exact Hf]. }
  split; [done|]. split; [|done]. intros e'. cbn. unfold fn_insert, insert. repeat case_decide; done.
Qed.

(** ** A discarder switched on *)
Lemma discarded L N e x i ids0 a b : ready L N -> sendable N (lo_codec L) (below (nb N) (lo_b L) (lo_above_b L)) e x ->
  lo_b L = ids0 ++ [i] -> e_procs (nb N) !! i = Some (Proc KDiscarder false) -> 0 < ntxcap N ->
  exists n s, wrun N one_by_one (new_swap N a b) [WNet (NPut e x); WNet (NTake e); WNet (NPass e); WSet SideB i true; WNet (NRead n)] s /\
    0 < n /\ settled (w_net s) /\ all_sent (w_net s) /\ forall z, heard z (w_net s) = [].
Proof.
  intros (FA & Ac & FB & Al) [l Hs] Hids Hi Ht. destruct Hs as (He & Hd & Hl & Hfit & Hroom & Hrange & _ & _).
  set (on2 := <[SideB := <[i := true]> (made N SideB)]> (made N)).
  assert (nb (now N on2) = flagged (nb N) (<[i := true]> (as_made (nb N)))) as Enb by (unfold now, on2; simpl; by rewrite fn_lookup_insert).
  destruct (fit_stack _ _ _ _ _ FB) as [H1 H2]. destruct FB as ((W1 & W2 & W3 & W4) & F1 & F2 & R & Mt).
  pose proof (proj2 (split_at _ _ _) H1) as E1. fold (above (nb N) (lo_b L) (lo_above_b L)) (below (nb N) (lo_b L) (lo_above_b L)) in E1.
  set (psB := below (nb N) (lo_b L) (lo_above_b L)) in *.
  assert (l_upper (e_links (nb N)) PLower = Some (PProc i)) as Hup.
  { rewrite <- E1 in W4. rewrite Hids in W4. apply Forall2_app_inv_l in W4 as (pa & pb & Wa & Wb & Es). inversion Wb as [|? p ? ? Hp Hn]; subst. inversion Hn; subst.
    destruct (wired_up_to (nb N) ids0 i [] pa p []) as (q & Hq & Hpath).
    - rewrite <- Hids. rewrite <- Hids in Es. split; [done|]. split; [done|]. rewrite <- Es. split; [by rewrite W3, <- E1|done].
    - exact (Forall2_length _ _ _ Wa).
    - inversion Hpath; subst. done. }
  destruct FA as (WA & PA & CA & RA & MA).
  set (w := wire_of (dest_of (nsess N e) (ml_dest x)) (below (na N) (lo_a L) (lo_above_a L)) l).
  destruct (send_fits (na N) (lo_a L) (above (na N) (lo_a L) (lo_above_a L)) (lo_codec L) (below (na N) (lo_a L) (lo_above_a L)) (nsess N e) (ml_dest x) (nca N) (ml_msg x) l a) as (a2 & Hf2 & _); try done; [by apply carries_sends|].
  fold w in Hf2. assert (w <> []) as Hw by (by apply wire_nonempty). rewrite offered_accepts in Hf2 by done.
  assert (0 < length w) as Hpos by (destruct w; simpl; [done|lia]).
  assert (Z.of_nat (length w) <= e_mtu (nb N))%Z as Hlen.
  { unfold w. rewrite (alike_wire _ _ _ _ Al). by apply wire_length_room. }
  assert (written (nca N) [OWire (nca N) w] = [w]) as Ewr. { unfold written. simpl. by rewrite decide_True. }
  assert (exists b', finishes (fun f => receive f (nb (now N on2)) (ncb N) w b) b [] b') as (b' & Hg).
  { eexists. unfold receive. change (l_upper (e_links (nb (now N on2))) PLower) with (l_upper (e_links (nb N)) PLower). rewrite Hup.
    eapply (finishes_exec _ _ _ _ _ _ _ _ 1); [|].
    - cbn [exec]. rewrite Enb, flagged_at, Hi. cbn. rewrite fn_lookup_insert. done.
    - cbn. by rewrite app_nil_r. }
  eexists (length w), _. split; [|split; [done|]].
  - eapply wrun_cons; [done|apply (wk_net _ _ (made N)), nk_put; simpl; lia|].
    eapply wrun_cons; [done|apply wk_net; eapply nk_take; [done|simpl; rewrite fn_lookup_insert; reflexivity]|].
    eapply wrun_cons; [done|apply wk_net; eapply nk_pass; [simpl; by rewrite fn_lookup_insert|rewrite now_is; exact Hf2]|].
    eapply wrun_cons; [done|apply wk_set|]. fold on2. cbn [nca now]. rewrite Ewr. cbn [concat app]. rewrite app_nil_r.
    apply wrun_one; [exists 0, 1; simpl; by rewrite app_nil_r|]. apply wk_net. eapply nk_read; [done|done|done|rewrite firstn_all; exact Hg].
  - split; [|split; [|done]].
    + split; [|done]. simpl. apply drop_all.
    + intros e'. cbn. unfold fn_insert, insert. repeat case_decide; done.
Qed.
