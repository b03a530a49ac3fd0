(** * What deleting a transport leaves, and what a transport keeps: proofs *)
From Verif Require Import GoBase SockModel SockSpec SockProofs ConnModel ConnSpec ConnProofs LifeModel LifeSpec LifeProofs.

Lemma sumw_le {A} (w : A -> nat) n l : (forall x, w x <= n) -> sumw w l <= n * length l.
Proof. intros H. induction l as [|x l IH]; simpl; [lia|]. pose proof (H x). lia. Qed.
Lemma budget_le s : budget s <= 4 * population s.
Proof.
  unfold budget, population.
  pose proof (sumw_le gweight 4 (k_gos (l_tp s)) ltac:(intros []; simpl; lia)).
  pose proof (sumw_le uweight 4 (k_users (l_tp s)) ltac:(intros []; simpl; lia)).
  pose proof (sumw_le dweight 4 (l_deck s) ltac:(intros []; simpl; lia)).
  pose proof (sumw_le rweight 4 (l_rd s) ltac:(intros [? []]; unfold rweight; simpl; lia)). lia.
Qed.

Section proofs.
Context (uds server : bool) (maxretry : Z).
Notation kstep := (kstep uds server maxretry).
Notation krun := (krun uds server maxretry).
Notation lstep := (lstep uds server maxretry).
Notation lrun := (lrun uds server maxretry).

(** ** Deletion in a quiet state *)
Lemma cycle ls0 s0 ls s ls1 s1 : lrun new_life ls0 s0 -> at_rest s0 -> lrun s0 (LAccept :: ls) s -> LAccept ∉ ls -> up (l_tp s) -> quiet s ->
  lrun s (LDelete :: ls1) s1 -> LAccept ∉ ls1 -> LTran SIncoming ∉ ls1 ->
  exists n sd, live n s1 /\ ending s1 /\ lstep s LDelete sd /\ live n sd /\ ending sd /\
    lrun sd ls1 s1 /\ lock_weight sd <= 4 /\ lock_weight s1 + inner_steps ls1 <= 4.
Proof.
  intros R0 Hr0 R N U Q R1 N1 N2. pose proof (linv_run _ _ _ _ _ _ linv_new R0) as I0.
  apply lrun_inv in R as (sa & Ha & R). pose proof (live_start _ _ _ _ _ I0 Hr0 Ha) as Va.
  pose proof (live_run _ _ _ _ _ _ _ Va R N) as V.
  apply lrun_inv in R1 as (sd & Hd & R1). pose proof (live_step _ _ _ _ _ _ _ V Hd ltac:(done)) as Vd.
  pose proof (ending_start _ _ _ _ _ _ V U Q Hd) as Ed.
  destruct (ending_run _ _ _ _ _ _ _ Vd Ed R1 N1 N2) as (V1 & E1 & B1).
  assert (lock_weight sd <= 4) as Hw. { unfold lock_weight. destruct (k_lock (l_tp sd)) as [[[] ?]|]; lia. }
  exists (length (k_chans (l_tp s0))), sd. split_and!; try done. lia.
Qed.
Lemma deletion_returns ls0 s0 ls s ls1 s1 : lrun new_life ls0 s0 -> at_rest s0 -> lrun s0 (LAccept :: ls) s -> LAccept ∉ ls -> up (l_tp s) -> quiet s ->
  lrun s (LDelete :: ls1) s1 -> LAccept ∉ ls1 -> LTran SIncoming ∉ ls1 ->
  k_crash (l_tp s1) = None /\ inner_steps ls1 <= 4 /\ (k_running (l_tp s1) = true -> exists s', lstep s1 (LTran SInner) s').
Proof.
  intros R0 Hr0 R N U Q R1 N1 N2. destruct (cycle _ _ _ _ _ _ R0 Hr0 R N U Q R1 N1 N2) as (n & sd & V1 & E1 & _ & _ & _ & _ & _ & B).
  split_and!; [by apply E1|lia|]. intros Hr. by eapply stop_goes_on.
Qed.
Lemma no_news_run n s ls s' c : live n s -> ending s -> lrun s ls s' -> LAccept ∉ ls -> LTran SIncoming ∉ ls ->
  EvNew c ∈ l_log s' -> EvNew c ∈ l_log s.
Proof.
  intros V E. induction 1 as [|ls s1 l s2 H IH Hst]; [done|]. rewrite !not_elem_of_app. intros [N1 N2] [N3 N4] Hc. apply IH; [done|done|].
  eapply no_news; [|done|done]. by eapply ending_run.
Qed.
Lemma no_incoming n s ls s' : live n s -> ending s -> k_running (l_tp s) = false -> lrun s ls s' -> LAccept ∉ ls -> LTran SIncoming ∉ ls.
Proof.
  intros V E Hr. induction 1 as [|ls s1 l s2 H IH Hst]; [intros _; apply not_elem_of_nil|].
  rewrite !not_elem_of_app, !elem_of_list_singleton. intros [N1 N2]. split; [by apply IH|]. intros <-.
  destruct (budget_run _ _ _ _ _ _ _ V E Hr H N1) as (V1 & E1 & R1 & _).
  destruct E1 as [_ _ _ _ _ E6 E7]. inversion Hst; subst. match goal with Hs : SockModel.kstep _ _ _ _ SIncoming _ |- _ => inversion Hs; subst end.
  match goal with Hg : k_gos _ !! _ = Some _ |- _ => destruct (E6 _ _ Hg) as [?|[?|(lx & [= <-] & [[[w Hw] _]|Hw])]]; try done end.
  destruct V1 as [_ [_ (q & b & _ & _ & _ & _ & _ & B5) _ _ _]]. simpl in *. destruct B5; congruence.
Qed.
Lemma deletion_ends ls0 s0 ls s ls1 s1 ls2 s2 : lrun new_life ls0 s0 -> at_rest s0 -> lrun s0 (LAccept :: ls) s -> LAccept ∉ ls -> up (l_tp s) -> quiet s ->
  lrun s (LDelete :: ls1) s1 -> LAccept ∉ ls1 -> LTran SIncoming ∉ ls1 -> k_running (l_tp s1) = false ->
  lrun s1 ls2 s2 -> LAccept ∉ ls2 ->
  k_crash (l_tp s2) = None /\ steps_by_itself ls2 <= 4 * population s1 /\
  (forall c, EvNew c ∈ l_log s2 -> EvNew c ∈ l_log s) /\ (forall c, c ∈ k_handed (l_tp s2) -> c ∈ k_closed (l_tp s2)) /\
  (stuck uds server maxretry s2 -> at_rest s2).
Proof.
  intros R0 Hr0 R N U Q R1 N1 N2 Hd R2 N3. destruct (cycle _ _ _ _ _ _ R0 Hr0 R N U Q R1 N1 N2) as (n & sd & V1 & E1 & Ld & Vd & Ed & Rd & _ & B).
  destruct (budget_run _ _ _ _ _ _ _ V1 E1 Hd R2 N3) as (V2 & E2 & D2 & B2). pose proof (budget_le s1).
  split_and!; [by apply E2|lia| | |].
  - intros c Hc. apply (no_news_run n s1 ls2 s2 c V1 E1 R2 N3 (no_incoming n s1 ls2 s2 V1 E1 Hd R2 N3)) in Hc.
    apply (no_news_run n sd ls1 s1 c Vd Ed Rd N1 N2) in Hc. by inversion Ld; subst.
  - destruct E2 as [_ _ _ _ _ _ [(_ & _ & ?)|[p E7]]]; [done|]. destruct V2 as [_ [_ (q & b & _ & _ & _ & _ & _ & B5) _ _ _]]. destruct B5; congruence.
  - by eapply stuck_at_rest.
Qed.

(** ** Deletion while a connection waits *)
Lemma stop_life tp ls tp' ds rs lg : krun tp ls tp' -> Forall (fun l => l = SInner) ls -> lrun (Lst tp ds rs lg) (map LTran ls) (Lst tp' ds rs lg).
Proof.
  induction 1 as [|ls s1 l s2 H IH Hst]; [constructor|]. intros [F1 F2]%Forall_app. apply Forall_inv in F2 as ->. rewrite map_app.
  eapply lr_snoc; [by apply IH|]. by eapply lk_tran.
Qed.
Lemma delete_run tp ds rs lg ch q : up tp -> k_next tp = Some ch -> k_chans tp !! ch = Some (q, false) -> None ∉ k_conns tp ->
  exists ls, lrun (Lst tp ds rs lg) (LDelete :: ls) (Lst (stopped tp ch q) ds rs lg) /\ Forall (fun l => l = LTran SInner) ls.
Proof.
  intros (Hc & Hl & Hr) Hn Hq Hnil.
  destruct (inner_run uds server maxretry (set_lock (Some (PSock, None)) tp) None ch q) as (ls & F & R); [done..|].
  exists (map LTran (ls ++ [SInner])). split.
  - eapply lrun_cons; [eapply lk_delete; by apply sk_stop|]. apply stop_life; [|apply Forall_app; split; [done|by repeat constructor]].
    eapply krun_app; [exact R|]. apply krun_one. by eapply (sk_drop _ _ _ (halfway tp None ch q) None).
  - rewrite map_app. apply Forall_app. split; [|by repeat constructor]. clear R. induction F as [|x l Hx F IH]; simpl; [done|]. constructor; [by rewrite Hx|done].
Qed.
Lemma data_for_ever tp ds rs lg i c n : k_crash tp = None -> rs !! i = Some (c, PReading) -> c ∉ k_closed tp ->
  exists ls, LDelete ∉ ls /\ LAccept ∉ ls /\ lrun (Lst tp ds rs lg) ls (Lst tp ds rs (lg ++ replicate n (EvData c))).
Proof.
  intros Hc Hi Hcl. revert lg. induction n as [|n IH]; intros lg.
  { exists []. rewrite app_nil_r. split_and!; [apply not_elem_of_nil..|constructor]. }
  destruct (IH (lg ++ [EvData c])) as (ls & N1 & N2 & R). exists (LRead i c :: LDeliver i c :: ls). rewrite !not_elem_of_cons. split_and!; try done.
  eapply lrun_cons; [by eapply lk_read|]. eapply lrun_cons; [eapply (lk_deliver _ _ _ tp ds _ lg i c); [done|]; apply list_lookup_insert; by eapply lookup_lt_Some|].
  rewrite list_insert_insert, list_insert_id by done. simpl. by rewrite <- app_assoc in R.
Qed.
Lemma left_behind tp ds rs lg d j ch c q n : up tp -> None ∉ k_conns tp -> ds !! d = Some (DWait j) -> k_users tp !! j = Some (URecv ch) ->
  k_next tp = Some ch -> k_chans tp !! ch = Some (c :: q, false) -> c ∉ k_closed tp -> Some c ∉ k_conns tp ->
  exists ls1 s1 ls2 s2, lrun (Lst tp ds rs lg) (LDelete :: ls1) s1 /\ Forall (fun l => l = LTran SInner) ls1 /\
    k_lock (l_tp s1) = None /\ k_running (l_tp s1) = false /\ l_log s1 = lg /\
    lrun s1 ls2 s2 /\ LDelete ∉ ls2 /\ LAccept ∉ ls2 /\ c ∉ k_closed (l_tp s2) /\ k_running (l_tp s2) = false /\
    l_log s2 = lg ++ EvNew c :: replicate n (EvData c).
Proof.
  intros U Hnil Hd Hj Hn Hq Hc1 Hc2. destruct (delete_run tp ds rs lg ch (c :: q) U Hn Hq Hnil) as (ls1 & R1 & F1).
  set (t1 := stopped tp ch (c :: q)) in *.
  set (t2 := user j (UGot (Some c)) (set_chans (<[ch := (q, true)]> (k_chans t1)) t1)).
  assert (kstep t1 SReceive t2) as T2.
  { eapply (sk_receive _ _ _ t1 j ch c q true); [done|exact Hj|]. simpl. apply list_lookup_insert. by eapply lookup_lt_Some. }
  set (t3 := user j (UDone (Some c)) (set_conns (save uds (k_conns t2) (Some c)) (set_handed (k_handed t2 ++ [c]) t2))).
  assert (kstep t2 SReturn t3) as T3.
  { eapply (sk_return _ _ _ t2 j (Some c)); [done| |done]. simpl. apply list_lookup_insert. by eapply lookup_lt_Some. }
  assert (c ∉ k_closed t3) as Hc3.
  { simpl. rewrite not_elem_of_app. split; [done|]. rewrite elem_of_list_omap. intros (x & Hx & Ex). unfold id in Ex. by subst. }
  destruct (data_for_ever t3 (<[d := DNext]> (<[d := DHave c]> ds)) (rs ++ [(c, PReading)]) (lg ++ [EvNew c]) (length rs) c n) as (ls2 & N1 & N2 & R2);
    [done|by apply list_lookup_middle|done|].
  exists ls1, (Lst t1 ds rs lg), (LTran SReceive :: LTran SReturn :: LGot d :: LAnnounce d c :: ls2). eexists.
  split_and!; try done.
  - eapply lrun_cons; [by eapply lk_tran|]. eapply lrun_cons; [by eapply lk_tran|].
    eapply lrun_cons; [eapply (lk_got _ _ _ t3 ds rs lg d j (Some c)); [done|done|]|].
    { simpl. apply list_lookup_insert. rewrite insert_length. by eapply lookup_lt_Some. }
    eapply lrun_cons; [eapply (lk_announce _ _ _ t3 _ rs lg d c); [done|]; apply list_lookup_insert; by eapply lookup_lt_Some|]. exact R2.
  - by rewrite !not_elem_of_cons.
  - by rewrite !not_elem_of_cons.
  - exact Hc3.
  - done.
  - simpl. by rewrite <- app_assoc.
Qed.

(** ** What a transport keeps *)
Lemma kept_step s l s' : lstep s l s' -> l <> LAccept -> k_conns (l_tp s) `prefix_of` k_conns (l_tp s').
Proof.
  assert (forall k l k', kstep k l k' -> l <> SRun -> k_conns k `prefix_of` k_conns k') as H.
  { intros k l0 k' Hst Hl. inversion Hst; subst; simpl; try done. unfold save. repeat case_decide; try done. by apply prefix_app_r. }
  intros Hst Hl. inversion Hst; subst; simpl; try done; eapply H; try done. by intros ->.
Qed.
Lemma kept_run s ls s' : lrun s ls s' -> LAccept ∉ ls -> k_conns (l_tp s) `prefix_of` k_conns (l_tp s').
Proof.
  induction 1 as [|ls s1 l s2 H IH Hst]; [done|]. rewrite not_elem_of_app, elem_of_list_singleton. intros [N1 N2].
  etrans; [by apply IH|]. eapply kept_step; [done|by intros ->].
Qed.
Lemma life_reach ls s : lrun new_life ls s -> kreach uds server maxretry (l_tp s).
Proof.
  intros H. assert (linv s /\ kreach uds server maxretry (l_tp s)) as [_ ?]; [|done].
  induction H as [|ls s1 l s2 H [I [ks IH]] Hst]; [split; [apply linv_new|exists []; constructor]|]. split; [by eapply linv_step|].
  destruct Hst; simpl in *; try (by exists ks); try (by eexists; econstructor).
  eexists. econstructor; [done|]. apply (sk_closed _ _ _ tp c); [done|]. by eapply (lv_rd _ I i c).
Qed.
Lemma conns_handed s c : kreach uds server maxretry s -> Some c ∈ k_conns s -> c ∈ k_handed s.
Proof.
  intros [ls H]. revert c. induction H as [|ls s1 l s2 H IH Hst]; intros c Hc; [by apply elem_of_nil in Hc|].
  inversion Hst; subst; simpl in *; try (by apply IH); [by apply elem_of_nil in Hc|]. apply elem_of_app.
  revert Hc. unfold save. repeat case_decide; try (intros; left; by apply IH). rewrite elem_of_app, elem_of_list_singleton.
  intros [?| <-]; [left; by apply IH|right; left].
Qed.
Lemma kept_once ls s : lrun new_life ls s -> length (k_conns (l_tp s)) <= S (length (k_handed (l_tp s))).
Proof.
  intros H%life_reach. assert (NoDup (k_conns (l_tp s))) as Hn.
  { destruct H as [ks H]. induction H as [|ks s1 l s2 H IH Hst]; [constructor|]. inversion Hst; subst; simpl; try done; [constructor|].
    unfold save. repeat case_decide; try done. apply NoDup_app. split_and!; [done| |apply NoDup_singleton].
    by intros x Hx ->%elem_of_list_singleton. }
  rewrite <- (fmap_length Some (k_handed (l_tp s))).
  change (S (length (Some <$> k_handed (l_tp s)))) with (length (None :: (Some <$> k_handed (l_tp s)))).
  apply submseteq_length. apply NoDup_submseteq; [done|]. intros [c|] Hc; [|left]. right. apply elem_of_list_fmap.
  exists c. split; [done|]. by apply conns_handed.
Qed.
Lemma one_more ls0 s : server = true -> lrun new_life ls0 s -> accepting s ->
  exists ls s' c, lrun s ls s' /\ LDelete ∉ ls /\ LAccept ∉ ls /\ accepting s' /\ k_conns (l_tp s') = k_conns (l_tp s) ++ [Some c] /\
    c ∈ k_closed (l_tp s') /\ l_log s' = l_log s ++ [EvNew c; EvClosed c] /\ (forall x, x ∈ k_closed (l_tp s) -> x ∈ k_closed (l_tp s')).
Proof.
  intros Hs R0 ((U1 & U2 & U3) & Hnil & (i & l & G1 & G2 & G3) & d & j & ch & D1 & D2 & D3 & D4).
  assert (Some (k_made (l_tp s)) ∉ k_conns (l_tp s)) as Hfresh.
  { intros Hx%conns_handed; [|by eapply life_reach]. destruct (life_reach _ _ R0) as [ks K].
    apply (handed_once uds server maxretry ks) in Hx; [lia|done]. }
  destruct s as [tp ds rs lg]. simpl in *. set (c := k_made tp) in *.
  set (t1 := go i (GHave c) (set_made (S c) tp)).
  set (t2 := go i (GSend ch c) t1).
  set (t3 := go i GAccept (set_chans (<[ch := ([c], false)]> (k_chans t2)) t2)).
  set (t4 := go i (GWait l) t3).
  set (t5 := user j (UGot (Some c)) (set_chans (<[ch := ([], false)]> (k_chans t4)) t4)).
  set (t6 := user j (UDone (Some c)) (set_conns (save uds (k_conns t5) (Some c)) (set_handed (k_handed t5 ++ [c]) t5))).
  assert (i < length (k_gos tp)) as Li by (by eapply lookup_lt_Some).
  assert (j < length (k_users tp)) as Lj by (by eapply lookup_lt_Some).
  assert (ch < length (k_chans tp)) as Lch by (by eapply lookup_lt_Some).
  assert (d < length ds) as Ld by (by eapply lookup_lt_Some).
  assert (kstep tp SIncoming t1) as K1 by (by eapply sk_incoming).
  assert (kstep t1 SGo t2) as K2. { eapply sk_have; [done| |done]. simpl. by apply list_lookup_insert. }
  assert (kstep t2 SGo t3) as K3.
  { eapply kstep_eq; [eapply (sk_send _ _ _ t2 i ch c []); [done| |done|simpl; lia]|by rewrite Hs].
    simpl. apply list_lookup_insert. by rewrite insert_length. }
  assert (kstep t3 SGo t4) as K4. { eapply sk_eval; [done| |done]. simpl. apply list_lookup_insert. by rewrite !insert_length. }
  assert (kstep t4 SReceive t5) as K5. { eapply sk_receive; [done|done|]. simpl. by apply list_lookup_insert. }
  assert (kstep t5 SReturn t6) as K6. { eapply sk_return; [done| |done]. simpl. by apply list_lookup_insert. }
  set (t7 := set_users (k_users t6 ++ [URecv ch]) t6).
  assert (kstep t6 SCall t7) as K7 by (by apply sk_call).
  set (ds1 := <[d := DHave c]> ds). set (ds2 := <[d := DNext]> ds1). set (ds3 := <[d := DWait (length (k_users t6))]> ds2).
  set (rs1 := rs ++ [(c, PReading)]).
  assert (rs1 !! length rs = Some (c, PReading)) as Hrs by (by apply list_lookup_middle).
  assert (length rs < length rs1) as Lrs by (by eapply lookup_lt_Some).
  set (rs2 := <[length rs := (c, PEnding)]> rs1). set (rs3 := <[length rs := (c, PClosing)]> rs2). set (rs4 := <[length rs := (c, PEnded)]> rs3).
  set (t8 := set_closed (k_closed t7 ++ [c]) t7).
  exists [LTran SIncoming; LTran SGo; LTran SGo; LTran SGo; LTran SReceive; LTran SReturn; LGot d; LAnnounce d c; LCall d; LEnd (length rs) c; LEndClose (length rs) c; LEndPublish (length rs) c].
  exists (Lst t8 ds3 rs4 ((lg ++ [EvNew c]) ++ [EvClosed c])), c. split_and!.
  - do 6 (eapply lrun_cons; [by eapply lk_tran|]).
    eapply lrun_cons; [eapply (lk_got _ _ _ t6 ds rs lg d j (Some c)); [done|done|]|].
    { simpl. apply list_lookup_insert. by rewrite insert_length. }
    eapply lrun_cons; [eapply (lk_announce _ _ _ t6 ds1 rs lg d c); [done|]; by apply list_lookup_insert|].
    eapply lrun_cons; [eapply (lk_call _ _ _ t6 t7 ds2 rs1 _ d); [|done]; apply list_lookup_insert; by unfold ds1; rewrite insert_length|].
    eapply lrun_cons; [by eapply (lk_end _ _ _ t7)|].
    eapply lrun_cons; [eapply (lk_end_close _ _ _ t7 _ rs2); [done|]; by apply list_lookup_insert|].
    apply lrun_one. eapply (lk_end_publish _ _ _ t8 _ rs3); [done|]. apply list_lookup_insert. by unfold rs2; rewrite insert_length.
  - rewrite !not_elem_of_cons. split_and!; try done. apply not_elem_of_nil.
  - rewrite !not_elem_of_cons. split_and!; try done. apply not_elem_of_nil.
  - split; [done|]. split.
    { simpl. unfold save. repeat case_decide; try done. rewrite not_elem_of_app, elem_of_list_singleton. by split. }
    split.
    { exists i, l. split_and!; [|done|done]. simpl. apply list_lookup_insert. by rewrite !insert_length. }
    exists d, (length (k_users t6)), ch. split_and!; [|simpl; by apply list_lookup_middle|done|].
    + apply list_lookup_insert. unfold ds2, ds1. by rewrite !insert_length.
    + simpl. apply list_lookup_insert. by rewrite insert_length.
  - simpl. unfold save. rewrite decide_False by naive_solver. by rewrite decide_False.
  - simpl. apply elem_of_app. right. left.
  - simpl. by rewrite <- app_assoc.
  - intros x Hx. simpl. apply elem_of_app. by left.
Qed.
Lemma kept ls0 s n : server = true -> lrun new_life ls0 s -> accepting s ->
  exists ls s' cs, lrun s ls s' /\ LDelete ∉ ls /\ LAccept ∉ ls /\ accepting s' /\ length cs = n /\ NoDup cs /\
    k_conns (l_tp s') = k_conns (l_tp s) ++ (Some <$> cs) /\ (forall c, c ∈ cs -> c ∈ k_closed (l_tp s') /\ EvClosed c ∈ l_log s').
Proof.
  intros Hs R0 A. induction n as [|n (ls & s1 & cs & R & N1 & N2 & A1 & L & ND & E & C)].
  { exists [], s, []. split_and!; try done; [constructor|apply not_elem_of_nil..|constructor|by rewrite app_nil_r|]. by intros c ?%elem_of_nil. }
  pose proof (lrun_app _ _ _ _ _ _ _ _ R0 R) as R1.
  destruct (one_more _ _ Hs R1 A1) as (ls1 & s2 & c & R2 & N3 & N4 & A2 & E2 & C2 & Lg & Hm).
  pose proof (lrun_app _ _ _ _ _ _ _ _ R R2) as R3.
  assert (NoDup (k_conns (l_tp s2))) as Hn.
  { pose proof (lrun_app _ _ _ _ _ _ _ _ R0 R3) as [ks K]%life_reach. clear -K. induction K as [|ks s1 l s3 H IH Hst]; [constructor|]. inversion Hst; subst; simpl; try done; [constructor|].
    unfold save. repeat case_decide; try done. apply NoDup_app. split_and!; [done| |apply NoDup_singleton].
    by intros x Hx ->%elem_of_list_singleton. }
  exists (ls ++ ls1), s2, (cs ++ [c]). rewrite !not_elem_of_app, app_length, L. split_and!; try done; [simpl; lia| | |].
  - rewrite E2, E, <- app_assoc in Hn. apply NoDup_app in Hn as (_ & _ & Hn). apply (NoDup_fmap_1 Some). by rewrite fmap_app.
  - by rewrite E2, E, fmap_app, <- app_assoc.
  - intros x [Hx|Hx]%elem_of_app.
    + destruct (C x Hx). split; [by apply Hm|]. rewrite Lg. apply elem_of_app. by left.
    + apply elem_of_list_singleton in Hx as ->. split; [done|]. rewrite Lg. apply elem_of_app. right. right. left.
Qed.
End proofs.

(** ** After a crash *)
Lemma life_crash_ends uds server maxretry s ls s' : k_crash (l_tp s) <> None -> lrun uds server maxretry s ls s' -> ls = [] /\ s' = s.
Proof.
  intros Hc H. induction H as [|ls s1 l s2 H [-> ->] Hst]; [done|]. exfalso.
  destruct Hst; simpl in *; try done; match goal with K : kstep _ _ _ _ _ _ |- _ => destruct K; done end.
Qed.
