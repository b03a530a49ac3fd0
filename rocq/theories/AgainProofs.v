(** * Proofs about a stack that is run several times *)
From Verif Require Import GoBase AgainModel AgainSpec.
From stdpp Require Import sets.

Section again.
Context (σ : nat -> Z) (procs : bool).
Notation step := (gstep σ procs).
Notation run := (grun σ procs).
Notation reach := (greach σ procs).

Lemma grun_app s l1 s1 l2 s2 : run s l1 s1 -> run s1 l2 s2 -> run s (l1 ++ l2) s2.
Proof.
  intros H1 H2. induction H2 as [|ls s3 l s4 _ IH Hs]; [by rewrite app_nil_r|].
  rewrite app_assoc. by eapply gr_snoc.
Qed.
Lemma grun_one s l s' : step s l s' -> run s [l] s'.
Proof. intros. apply (gr_snoc σ procs s [] s l s'); [constructor|done]. Qed.
Lemma grun_cons s l s1 ls s2 : step s l s1 -> run s1 ls s2 -> run s (l :: ls) s2.
Proof. intros H1 H2. apply (grun_app s [l] s1); [by apply grun_one|done]. Qed.
Lemma grun_split s l1 l2 s2 : run s (l1 ++ l2) s2 -> exists s1, run s l1 s1 /\ run s1 l2 s2.
Proof.
  revert s2. induction l2 as [|l l2 IH] using rev_ind; intros s2 H.
  - rewrite app_nil_r in H. exists s2. split; [done|constructor].
  - rewrite app_assoc in H. inversion H as [E|ls s3 l' s4 H1 H2 E]; [by destruct (l1 ++ l2)|].
    apply app_inj_tail in E as [-> ->]. destruct (IH _ H1) as (s1 & Ha & Hb).
    exists s1. split; [done|]. by eapply gr_snoc.
Qed.
Lemma grun_uncons s l ls s2 : run s (l :: ls) s2 -> exists s1, step s l s1 /\ run s1 ls s2.
Proof.
  intros H. apply (grun_split s [l]) in H as (s1 & H1 & H2). exists s1. split; [|done].
  inversion H1 as [|ls' s3 l' s4 Ha Hb E]. destruct ls' as [|? [|]]; simplify_eq/=.
  inversion Ha as [E'|ls' ? ? ? ? ? E']; [by subst|by destruct ls'].
Qed.
Lemma reach_run s ls s' : reach s -> run s ls s' -> reach s'.
Proof. intros [l0 H] H'. exists (l0 ++ ls). by eapply grun_app. Qed.
Lemma reach_step s l s' : reach s -> step s l s' -> reach s'.
Proof. intros H H'. eapply reach_run; [done|by apply grun_one]. Qed.

(** ** Decks *)
Lemma admit_cases d e : admit_ep σ d e = d \/ (admit_ep σ d e = d ++ [(e, None)] /\ e ∉ d.*1).
Proof.
  unfold admit_ep. destruct (existsb _ d) eqn:E; [by left|right; split; [done|]].
  intros ([e' h] & Ee & Hin)%elem_of_list_fmap. simpl in Ee. subst e'.
  assert (existsb (fun x => (fst x =? e) || (σ (fst x) =? σ e)%Z) d = true); [|congruence].
  apply existsb_exists. exists (e, h). split; [by apply elem_of_list_In|].
  simpl. by rewrite Nat.eqb_refl.
Qed.
Lemma fresh_idle es d x : (forall y, y ∈ d -> snd y = None) -> x ∈ fold_left (admit_ep σ) es d -> snd x = None.
Proof.
  revert d. induction es as [|e es IH]; intros d Hd Hx; [by apply Hd|]. simpl in Hx.
  eapply IH; [|done]. intros y Hy. destruct (admit_cases d e) as [->|[-> _]] in Hy; [by apply Hd|].
  apply elem_of_app in Hy as [Hy|Hy]; [by apply Hd|]. apply elem_of_list_singleton in Hy. by subst.
Qed.
Lemma fresh_sub es d e : e ∈ (fold_left (admit_ep σ) es d).*1 -> e ∈ d.*1 \/ e ∈ es.
Proof.
  revert d. induction es as [|x es IH]; intros d H; [by left|]. simpl in H.
  destruct (IH _ H) as [Hd|Hd]; [|right; by right].
  destruct (admit_cases d x) as [E|[E _]]; rewrite E in Hd; [by left|].
  rewrite fmap_app in Hd. apply elem_of_app in Hd as [Hd|Hd]; [by left|].
  apply elem_of_list_singleton in Hd. subst. right. by left.
Qed.
Lemma fresh_nodup es d : NoDup (d.*1) -> NoDup ((fold_left (admit_ep σ) es d).*1).
Proof.
  revert d. induction es as [|x es IH]; intros d H; [done|]. simpl. apply IH.
  destruct (admit_cases d x) as [->|[-> Hn]]; [done|].
  rewrite fmap_app. apply NoDup_app. split; [done|]. split; [|simpl; apply NoDup_singleton].
  intros y Hy Hy'. apply elem_of_list_singleton in Hy'. by subst.
Qed.
Lemma fresh_keeps es d x : x ∈ d -> x ∈ fold_left (admit_ep σ) es d.
Proof.
  revert d. induction es as [|y es IH]; intros d H; [done|]. simpl. apply IH.
  destruct (admit_cases d y) as [->|[-> _]]; [done|]. apply elem_of_app. by left.
Qed.
Lemma fresh_first es d e : (forall x, x ∈ d.*1 -> σ x <> σ e) ->
  List.find (fun x => (σ x =? σ e)%Z) es = Some e -> (e, None) ∈ fold_left (admit_ep σ) es d.
Proof.
  revert d. induction es as [|y es IH]; intros d Hd Hf; [done|]. simpl in Hf |- *.
  destruct (Z.eqb_spec (σ y) (σ e)) as [Ey|Ny].
  - injection Hf as ->. apply fresh_keeps. unfold admit_ep.
    destruct (existsb _ d) eqn:E; [|apply elem_of_app; right; by left].
    apply existsb_exists in E as (x & Hx & Ex). apply elem_of_list_In in Hx.
    exfalso. apply (Hd (fst x)); [apply elem_of_list_fmap; by exists x|].
    apply orb_true_iff in Ex as [Ex|Ex]; [apply Nat.eqb_eq in Ex; congruence|by apply Z.eqb_eq in Ex].
  - apply IH; [|done]. intros x Hx. destruct (admit_cases d y) as [E|[E _]]; rewrite E in Hx; [by apply Hd|].
    rewrite fmap_app in Hx. apply elem_of_app in Hx as [Hx|Hx]; [by apply Hd|].
    apply elem_of_list_singleton in Hx. by subst.
Qed.

Lemma filter_fst (d : deck) e x : x ∈ List.filter (fun y => negb (fst y =? e)) d <-> x ∈ d /\ fst x <> e.
Proof.
  rewrite elem_of_list_In, filter_In, <- elem_of_list_In.
  rewrite negb_true_iff, Nat.eqb_neq. done.
Qed.
Lemma filter_list (l : list nat) e x : x ∈ List.filter (fun y => negb (y =? e)) l <-> x ∈ l /\ x <> e.
Proof. rewrite elem_of_list_In, filter_In, <- elem_of_list_In. by rewrite negb_true_iff, Nat.eqb_neq. Qed.
Lemma filter_fst_sub (d : deck) e : sublist ((List.filter (fun y => negb (fst y =? e)) d).*1) (d.*1).
Proof. induction d as [|[y h] d IH]; [done|]. simpl. case_match; simpl; by constructor. Qed.
Lemma nodup_sublist (l l' : list nat) : NoDup l -> sublist l' l -> NoDup l'.
Proof.
  intros H Hs. induction Hs as [|x l1 l2 Hs IH|x l1 l2 Hs IH]; [done| |].
  - apply NoDup_cons in H as [Hx H]. constructor; [|by apply IH]. intros Hin. apply Hx.
    eapply elem_of_submseteq; [done|]. by apply sublist_submseteq.
  - apply NoDup_cons in H as [_ H]. by apply IH.
Qed.
Lemma hand_fst (d1 : deck) e h h' d2 : (d1 ++ (e, h) :: d2).*1 = (d1 ++ (e, h') :: d2).*1.
Proof. by rewrite !fmap_app. Qed.

(** ** What always holds *)
Definition ginv (s : gst) : Prop :=
  NoDup (g_list s) /\
  (forall i d, g_decks s !! i = Some d -> NoDup (d.*1)) /\
  (forall ds d e, g_decks s = ds ++ [d] -> e ∈ d.*1 -> e ∈ g_list s) /\
  (forall c i, g_conns s !! c = Some i -> i < length (g_decks s)).

Lemma lookup_snoc_cases {A} (l : list A) x i y :
  (l ++ [x]) !! i = Some y -> (i < length l /\ l !! i = Some y) \/ (i = length l /\ y = x).
Proof.
  intros H. apply lookup_app_Some in H as [H|[Hl H]]; [left; split; [by eapply lookup_lt_Some|done]|].
  destruct (i - length l) eqn:E; simplify_eq/=. right. split; [lia|done].
Qed.

(** A goroutine's step changes what it has in hand only. *)
Lemma hand_step (ds : list deck) i d1 e h h' d2 : ds !! i = Some (d1 ++ (e, h) :: d2) ->
  (fun d : deck => d.*1) <$> <[i := d1 ++ (e, h') :: d2]> ds = (fun d : deck => d.*1) <$> ds.
Proof.
  intros H. rewrite list_fmap_insert. apply list_insert_id.
  rewrite list_lookup_fmap, H. simpl. f_equal. apply hand_fst.
Qed.
Lemma names_lookup (ds ds' : list deck) i d : (fun d : deck => d.*1) <$> ds' = (fun d : deck => d.*1) <$> ds ->
  ds' !! i = Some d -> exists d', ds !! i = Some d' /\ d'.*1 = d.*1.
Proof.
  intros E H. assert (((fun d : deck => d.*1) <$> ds) !! i = Some (d.*1)) as H'
    by (rewrite <- E, list_lookup_fmap, H; done).
  rewrite list_lookup_fmap in H'. destruct (ds !! i) eqn:Ei; simplify_eq/=. eauto.
Qed.

Lemma snoc_lookup {A} (l : list A) x : (l ++ [x]) !! length l = Some x.
Proof. rewrite lookup_app_r; [|done]. by rewrite Nat.sub_diag. Qed.

Lemma ginv_hand es ds ds' cs tx tx' out out' :
  (fun d : deck => d.*1) <$> ds' = (fun d : deck => d.*1) <$> ds ->
  ginv (Gst es ds cs tx out) -> ginv (Gst es ds' cs tx' out').
Proof.
  intros E (Hn & Hd & Hl & Hc). unfold ginv in *; simpl in *.
  assert (length ds' = length ds) as Elen by (apply (f_equal length) in E; by rewrite !fmap_length in E).
  split; [done|]. split; [|split].
  - intros i d H. destruct (names_lookup _ _ _ _ E H) as (d' & H' & <-). by eapply Hd.
  - intros l d e -> He. rewrite app_length in Elen; simpl in Elen.
    destruct (exists_last (l := ds)) as (l0 & d0 & ->); [by intros ->; simpl in Elen; lia|].
    rewrite app_length in Elen; simpl in Elen. rewrite !fmap_app in E; simpl in E.
    apply app_inj_tail in E as [_ E]. eapply Hl; [done|]. by rewrite <- E.
  - intros c i H. rewrite Elen. by eapply Hc.
Qed.

Lemma ginv_step s l s' : ginv s -> step s l s' -> ginv s'.
Proof.
  intros (Hn & Hd & Hl & Hc) H. inversion H; subst; try done; simpl in *.
  - split; [|split; [|split]]; simpl; [|done|intros ds d x E; by destruct ds|done].
    apply NoDup_app. split; [done|]. split; [|apply NoDup_singleton]. set_solver.
  - split; [|split; [|split]]; simpl.
    + apply NoDup_app. split; [done|]. split; [|apply NoDup_singleton]. set_solver.
    + intros i d' Hi. apply lookup_snoc_cases in Hi as [[Hi Hi']|[-> ->]].
      * apply (Hd i). by rewrite lookup_app_l.
      * assert (NoDup (d.*1)) as Hnd by (apply (Hd (length ds)), snoc_lookup).
        destruct (admit_cases d e) as [->|[-> Hne]]; [done|]. rewrite fmap_app.
        apply NoDup_app. split; [done|]. split; [|apply NoDup_singleton]. set_solver.
    + intros ds' d' x E Hx. apply app_inj_tail in E as [<- <-].
      destruct (admit_cases d e) as [E|[E Hne]]; rewrite E in Hx.
      * apply elem_of_app. left. by eapply Hl.
      * rewrite fmap_app in Hx. apply elem_of_app in Hx as [Hx|Hx]; apply elem_of_app; [left; by eapply Hl|by right].
    + intros c i Hi. specialize (Hc c i Hi). rewrite app_length in Hc |- *. done.
  - split; [|split; [|split]]; simpl; [|done|intros ds d x E; by destruct ds|done]. by apply NoDup_ListNoDup, List.NoDup_filter, NoDup_ListNoDup.
  - split; [|split; [|split]]; simpl.
    + by apply NoDup_ListNoDup, List.NoDup_filter, NoDup_ListNoDup.
    + intros i d' Hi. apply lookup_snoc_cases in Hi as [[Hi Hi']|[-> ->]].
      * apply (Hd i). by rewrite lookup_app_l.
      * apply (nodup_sublist (d.*1)); [|apply filter_fst_sub]. apply (Hd (length ds)), snoc_lookup.
    + intros ds' d' x E Hx. apply app_inj_tail in E as [<- <-].
      apply elem_of_list_fmap in Hx as (y & -> & Hy). apply filter_fst in Hy as [Hy Hne].
      apply filter_list. split; [|done]. eapply Hl; [done|]. apply elem_of_list_fmap. by exists y.
    + intros c i Hi. specialize (Hc c i Hi). rewrite app_length in Hc |- *. done.
  - split; [|split; [|split]]; simpl; [done| | |].
    + intros i d' Hi. apply lookup_snoc_cases in Hi as [[Hi Hi']|[-> ->]]; [by apply (Hd i)|].
      apply fresh_nodup. constructor.
    + intros ds' d' x E Hx. apply app_inj_tail in E as [<- <-].
      apply fresh_sub in Hx as [Hx|Hx]; [by apply elem_of_nil in Hx|done].
    + intros c i Hi. specialize (Hc c i Hi). rewrite app_length. lia.
  - eapply (ginv_hand es ds _ cs tx _ out); [by eapply hand_step|]. by split.
  - eapply (ginv_hand es ds _ cs tx _ out); [by eapply hand_step|]. by split.
  - split; [|split; [|split]]; simpl; [done|done|done|].
    intros c i' Hi. apply lookup_snoc_cases in Hi as [[_ Hi]|[_ ->]]; [by eapply Hc|done].
Qed.
Lemma ginv_reach s : reach s -> ginv s.
Proof.
  intros [ls H]. induction H as [|ls s1 l s2 _ IH Hs]; [|by eapply ginv_step].
  split; [constructor|]. split; [done|]. split; [intros ds; by destruct ds|done].
Qed.

(** ** Several Runs *)
Lemma tx_get f e q : put_tx f e q e = q.
Proof. unfold put_tx. by rewrite decide_True. Qed.
Lemma tx_other f e q x : x <> e -> put_tx f e q x = f x.
Proof. intros. unfold put_tx. by rewrite decide_False. Qed.

(** A goroutine can always empty the channel. *)
Lemma drain es cs i e m : forall q ds tx out d1 h d2,
  ds !! i = Some (d1 ++ (e, h) :: d2) -> tx e = q ++ [m] ->
  exists ls s', run (Gst es ds cs tx out) (ls ++ [GPass i e m]) s' /\ Forall (by_goroutine i e) ls /\
    g_list s' = es.
Proof.
  assert (forall q ds tx out d1 d2, ds !! i = Some (d1 ++ (e, None) :: d2) -> tx e = q ++ [m] ->
    exists ls s', run (Gst es ds cs tx out) (ls ++ [GPass i e m]) s' /\ Forall (by_goroutine i e) ls /\ g_list s' = es) as Hidle.
  { induction q as [|a q IH]; intros ds tx out d1 d2 Hi Hq.
    - eexists [GTake i e m], _. split; [|split; [by repeat constructor|]].
      + simpl. eapply grun_cons; [by eapply gk_take|]. apply grun_one. eapply gk_pass.
        apply list_lookup_insert. by eapply lookup_lt_Some.
      + done.
    - assert (i < length ds) as Hlt by by eapply lookup_lt_Some.
      edestruct (IH (<[i := d1 ++ (e, None) :: d2]> (<[i := d1 ++ (e, Some a) :: d2]> ds)) (put_tx tx e (q ++ [m])) (out ++ [(e, a)]))
        as (ls & s' & Hr & Hf & E).
      { apply list_lookup_insert. by rewrite insert_length. }
      { apply tx_get. }
      exists (GTake i e a :: GPass i e a :: ls), s'. split; [|split; [by repeat constructor|done]].
      simpl. eapply grun_cons; [by eapply gk_take|]. eapply grun_cons; [|exact Hr].
      eapply gk_pass. by apply list_lookup_insert. }
  intros q ds tx out d1 [a|] d2 Hi Hq; [|by eapply Hidle].
  assert (i < length ds) as Hlt by by eapply lookup_lt_Some.
  edestruct (Hidle q (<[i := d1 ++ (e, None) :: d2]> ds) tx (out ++ [(e, a)])) as (ls & s' & Hr & Hf & E).
  { by apply list_lookup_insert. }
  { done. }
  exists (GPass i e a :: ls), s'. split; [|split; [by repeat constructor|done]].
  simpl. eapply grun_cons; [|exact Hr]. by eapply gk_pass.
Qed.

Lemma served_snoc s e : is_served s e -> exists ds d, g_decks s = ds ++ [d] /\ e ∈ d.*1.
Proof.
  intros (d & E & He). apply last_Some in E as [ds E]. eauto.
Qed.

Lemma still_sends s e m : reach s -> is_served s e ->
  exists ls i s', run s (GRun :: GDel e :: GPut e m :: ls ++ [GPass i e m]) s' /\ Forall (by_goroutine i e) ls /\ e ∉ g_list s'.
Proof.
  intros Hr Hs. destruct (ginv_reach s Hr) as (Hn & Hd & Hl & Hc).
  destruct (served_snoc _ _ Hs) as (ds & d & E & He). specialize (Hl _ _ _ E He).
  destruct s as [es ds0 cs tx out]; simpl in *; subst ds0.
  apply elem_of_list_fmap in He as ([x h] & -> & Hx). simpl in *.
  apply elem_of_list_split in Hx as (d1 & d2 & ->).
  edestruct (drain (List.filter (fun y => negb (y =? x)) es) cs (length ds) x m (tx x)
    ((ds ++ [d1 ++ (x, h) :: d2]) ++ [List.filter (fun y => negb (fst y =? x)) (fresh_deck σ es)])
    (put_tx tx x (tx x ++ [m])) out) as (ls & s' & H & Hf & E').
  { rewrite lookup_app_l; [apply snoc_lookup|]. rewrite app_length. simpl. lia. }
  { apply tx_get. }
  exists ls, (length ds), s'. split; [|split; [done|]].
  - eapply grun_cons; [apply gk_run|]. eapply grun_cons.
    { apply gk_del; [done|]. intros a Ha. by apply fresh_idle in Ha; [|intros y Hy; apply elem_of_nil in Hy]. }
    eapply grun_cons; [apply gk_put|]. done.
  - rewrite E'. rewrite filter_list. by intros [_ ?].
Qed.

Lemma still_receives s e c : procs = false -> reach s -> is_served s e -> g_conns s !! c = Some (length (g_decks s) - 1) ->
  exists s', run s [GRun; GDel e; GRecv c (σ e) e] s' /\ e ∉ g_list s'.
Proof.
  intros Hp Hr Hs Hcn. destruct (ginv_reach s Hr) as (Hn & Hd & Hl & Hc).
  destruct (served_snoc _ _ Hs) as (ds & d & E & He). specialize (Hl _ _ _ E He).
  destruct s as [es ds0 cs tx out]; simpl in *; subst ds0.
  eexists. split.
  - eapply grun_cons; [apply gk_run|]. eapply grun_cons.
    { apply gk_del; [done|]. intros a Ha. by apply fresh_idle in Ha; [|intros y Hy; apply elem_of_nil in Hy]. }
    eapply grun_one. eapply gk_recv; [done| |exact He]. simpl. unfold deck_above. rewrite Hp, app_length. simpl.
    replace (length ds + 1 - 1) with (length ds) by lia.
    rewrite lookup_app_l; [apply snoc_lookup|]. rewrite app_length. simpl. lia.
  - simpl. rewrite filter_list. by intros [_ ?].
Qed.

(** Decks other than the newest keep their endpoints. *)
Lemma old_deck_step s l s' i d : step s l s' -> i + 1 < length (g_decks s) -> g_decks s !! i = Some d ->
  i + 1 < length (g_decks s') /\ exists d', g_decks s' !! i = Some d' /\ d'.*1 = d.*1.
Proof.
  intros H Hi Hd. inversion H; subst; simpl in *; try (by eauto); try (by simpl in Hi; lia).
  - rewrite app_length in *; simpl in *. split; [lia|]. exists d. split; [|done].
    rewrite lookup_app_l in Hd by lia. by rewrite lookup_app_l by lia.
  - rewrite app_length in *; simpl in *. split; [lia|]. exists d. split; [|done].
    rewrite lookup_app_l in Hd by lia. by rewrite lookup_app_l by lia.
  - rewrite app_length; simpl. split; [lia|]. exists d. split; [|done]. by rewrite lookup_app_l by lia.
  - rewrite insert_length. split; [lia|]. destruct (decide (i0 = i)) as [->|Hne].
    + rewrite list_lookup_insert by lia. eexists. split; [done|]. simplify_eq. apply hand_fst.
    + rewrite list_lookup_insert_ne by done. eauto.
  - rewrite insert_length. split; [lia|]. destruct (decide (i0 = i)) as [->|Hne].
    + rewrite list_lookup_insert by lia. eexists. split; [done|]. simplify_eq. apply hand_fst.
    + rewrite list_lookup_insert_ne by done. eauto.
Qed.
Lemma conns_step s l s' c i : step s l s' -> g_conns s !! c = Some i -> g_conns s' !! c = Some i.
Proof. intros H Hc. inversion H; subst; simpl in *; try done. by apply lookup_app_l_Some. Qed.
Lemma old_deck_run s ls s' i d : run s ls s' -> i + 1 < length (g_decks s) -> g_decks s !! i = Some d ->
  i + 1 < length (g_decks s') /\ exists d', g_decks s' !! i = Some d' /\ d'.*1 = d.*1.
Proof.
  intros H Hi Hd. induction H as [|ls s1 l s2 _ IH Hs]; [eauto|].
  destruct IH as [Hi' (d' & Hd' & E)]. destruct (old_deck_step _ _ _ _ _ Hs Hi' Hd') as [? (d2 & ? & E2)].
  split; [done|]. exists d2. split; [done|congruence].
Qed.
Lemma conns_run s ls s' c i : run s ls s' -> g_conns s !! c = Some i -> g_conns s' !! c = Some i.
Proof. intros H Hc. induction H as [|ls s1 l s2 _ IH Hs]; [done|]. by eapply conns_step. Qed.

(** Only endpoints that were added are in decks. *)
Lemma in_deck_added ls s : run new_again ls s -> forall e, (e ∈ g_list s \/ exists i d, g_decks s !! i = Some d /\ e ∈ d.*1) -> GAdd e ∈ ls.
Proof.
  intros H. induction H as [|ls s1 l s2 Hr IH Hs]; intros e He.
  { destruct He as [He|(i & d & Hd & _)]; [by apply elem_of_nil in He|done]. }
  cut (l = GAdd e \/ (e ∈ g_list s1 \/ exists i d, g_decks s1 !! i = Some d /\ e ∈ d.*1)).
  { intros [->|H']; apply elem_of_app; [right; by left|left; by apply IH]. }
  clear IH. inversion Hs; subst; simpl in *; try (by right).
  - destruct He as [[He|He]%elem_of_app|(i & d & Hd & _)]; [by right; left| |done].
    left. apply elem_of_list_singleton in He. by subst.
  - destruct He as [[He|He]%elem_of_app|(i & d' & Hd & He)]; [by right; left| |].
    { left. apply elem_of_list_singleton in He. by subst. }
    apply lookup_snoc_cases in Hd as [[Hi Hd]|[-> ->]].
    { right. right. exists i, d'. split; [by rewrite lookup_app_l|done]. }
    destruct (admit_cases d e0) as [E|[E _]]; rewrite E in He.
    { right. right. exists (length ds), d. split; [apply snoc_lookup|done]. }
    rewrite fmap_app in He. apply elem_of_app in He as [He|He].
    { right. right. exists (length ds), d. split; [apply snoc_lookup|done]. }
    left. apply elem_of_list_singleton in He. by subst.
  - destruct He as [He|(i & d & Hd & _)]; [|done]. right. left. by apply filter_list in He as [? _].
  - destruct He as [He|(i & d' & Hd & He)]; [by right; left; apply filter_list in He as [? _]|].
    right. right. apply lookup_snoc_cases in Hd as [[Hi Hd]|[-> ->]].
    { exists i, d'. split; [by rewrite lookup_app_l|done]. }
    exists (length ds), d. split; [apply snoc_lookup|].
    apply elem_of_list_fmap in He as (y & -> & Hy). apply filter_fst in Hy as [Hy _].
    apply elem_of_list_fmap. by exists y.
  - destruct He as [He|(i & d' & Hd & He)]; [by right; left|].
    apply lookup_snoc_cases in Hd as [[Hi Hd]|[-> ->]]; [right; right; by eauto|].
    right. left. by apply fresh_sub in He as [He|He]; [apply elem_of_nil in He|].
  - destruct He as [He|(j & d' & Hd & He)]; [by right; left|]. right. right.
    edestruct (names_lookup ds _ j d' (hand_step ds i d1 e0 None (Some m) d2 H) Hd) as (d0 & ? & E).
    exists j, d0. split; [done|]. by rewrite E.
  - destruct He as [He|(j & d' & Hd & He)]; [by right; left|]. right. right.
    edestruct (names_lookup ds _ j d' (hand_step ds i d1 e0 (Some m) None d2 H) Hd) as (d0 & ? & E).
    exists j, d0. split; [done|]. by rewrite E.
Qed.

Lemma never_seen l0 s c e k ls s' : procs = false -> run new_again l0 s -> GAdd e ∉ l0 -> c < length (g_conns s) ->
  run s (GRun :: ls) s' -> GRecv c k e ∉ ls.
Proof.
  intros Hp H0 Hn Hc H Hin.
  apply grun_uncons in H as (s1 & H1 & H).
  destruct (lookup_lt_is_Some_2 _ _ Hc) as [i Hi].
  assert (i < length (g_decks s)) as Hlt by (eapply ginv_reach; [by eexists|done]).
  destruct (lookup_lt_is_Some_2 _ _ Hlt) as [d Hd].
  apply elem_of_list_split in Hin as (la & lb & ->).
  apply grun_split in H as (s2 & Ha & Hb). apply grun_uncons in Hb as (s3 & Hb & _).
  assert (e ∉ d.*1) as Hne by (intros He; apply Hn; eapply in_deck_added; [done|]; right; by eauto).
  assert (i + 1 < length (g_decks s1) /\ g_decks s1 !! i = Some d) as [Hi1 Hd1].
  { inversion H1; subst; simpl in *. rewrite app_length; simpl. split; [lia|]. by rewrite lookup_app_l. }
  destruct (old_deck_run _ _ _ _ _ Ha Hi1 Hd1) as [Hi2 (d2 & Hd2 & E2)].
  assert (g_conns s2 !! c = Some i) as Hi3 by (eapply conns_run, conns_step; done).
  inversion Hb as [| | | | | | | | | | |s4 c4 i4 d4 e4 Hc4 Hd4 He4|]; subst.
  assert (i4 = i) as -> by congruence. unfold deck_above in Hd4. rewrite Hd2 in Hd4.
  injection Hd4 as <-. rewrite E2 in He4. done.
Qed.

Lemma down_app e es ds cs tx out out' : down_for e (Gst es ds cs tx (out ++ out')) =
  down_for e (Gst es ds cs tx out) ++ omap (fun p => if decide (fst p = e) then Some (snd p) else None) out'.
Proof. unfold down_for. simpl. by rewrite omap_app. Qed.

Lemma out_of_order s e d a b : reach s -> last (g_decks s) = Some d -> (e, None) ∈ d -> g_tx s e = [] ->
  first_of σ s (σ e) = Some e ->
  exists i j s', run s [GRun; GPut e a; GPut e b; GTake i e a; GTake j e b; GPass j e b; GPass i e a] s' /\
    down_for e s' = down_for e s ++ [b; a].
Proof.
  intros Hr Hl Hd Hq Hf. apply last_Some in Hl as [ds E].
  destruct s as [es ds0 cs tx out]; simpl in *; subst ds0.
  assert ((e, None) ∈ fresh_deck σ es) as Hfr by (apply fresh_first; [intros x Hx; by apply elem_of_nil in Hx|done]).
  apply elem_of_list_split in Hd as (d1 & d2 & ->).
  apply elem_of_list_split in Hfr as (f1 & f2 & Ef).
  assert (length ds < length (ds ++ [d1 ++ (e, None) :: d2])) as H1 by (rewrite app_length; simpl; lia).
  set (n := length ds) in *. set (D := ds ++ [d1 ++ (e, None) :: d2]) in *.
  assert (D !! n = Some (d1 ++ (e, None) :: d2)) as Hn by apply snoc_lookup.
  clearbody n D.
  exists n, (length D). eexists. split.
  - eapply grun_cons; [apply gk_run|]. eapply grun_cons; [apply gk_put|]. eapply grun_cons; [apply gk_put|].
    eapply grun_cons.
    { eapply gk_take; [by rewrite lookup_app_l|]. rewrite tx_get, tx_get, Hq. done. }
    eapply grun_cons.
    { eapply gk_take; [rewrite list_lookup_insert_ne by lia; rewrite snoc_lookup; by rewrite Ef|by rewrite tx_get]. }
    eapply grun_cons.
    { eapply gk_pass. apply list_lookup_insert. rewrite insert_length, app_length. simpl. lia. }
    eapply grun_one. eapply gk_pass. rewrite list_lookup_insert_ne by lia. rewrite list_lookup_insert_ne by lia.
    apply list_lookup_insert. rewrite app_length. simpl. lia.
  - rewrite !down_app, <- app_assoc. simpl. by rewrite !decide_True.
Qed.

Lemma count_fresh d e : NoDup (d.*1) -> (e, None) ∈ d ->
  length (omap (fun p => if decide (fst p = e) then Some (snd p) else None) (d : deck)) = 1.
Proof.
  intros Hn Hin. apply elem_of_list_split in Hin as (d1 & d2 & ->).
  rewrite fmap_app in Hn; simpl in Hn. apply NoDup_app in Hn as (_ & H1 & H2).
  apply NoDup_cons in H2 as [H2 _].
  assert (forall l : deck, e ∉ l.*1 -> omap (fun p => if decide (fst p = e) then Some (snd p) else None) l = []) as Hz.
  { induction l as [|[x h] l IH]; intros Hx; [done|]. simpl in *. rewrite decide_False by set_solver. apply IH. set_solver. }
  rewrite omap_app; simpl. rewrite decide_True by done. rewrite !Hz; [done|done|].
  intros Hx. apply (H1 e Hx). by left.
Qed.
Lemma goroutines_grow k s s' e : reach s -> first_of σ s (σ e) = Some e -> run s (replicate k GRun) s' ->
  length (goroutines e s') = length (goroutines e s) + k.
Proof.
  intros Hr Hf. revert s Hr Hf. induction k as [|k IH]; intros s Hr Hf H; simpl in H.
  - inversion H as [|ls ? ? ? ? ? E]; [subst; lia|by destruct ls].
  - apply grun_uncons in H as (s1 & H1 & H). rewrite (IH s1); [|by eapply reach_step| |done].
    + inversion H1; subst. unfold goroutines; simpl. rewrite concat_app, omap_app, app_length.
      simpl. rewrite app_nil_r, (count_fresh (fresh_deck σ es)); [lia| |].
      * apply fresh_nodup. constructor.
      * apply fresh_first; [intros x Hx; by apply elem_of_nil in Hx|done].
    + by inversion H1; subst.
Qed.

(** ** One Run *)
Lemma runs_app l1 l2 : runs (l1 ++ l2) = runs l1 + runs l2.
Proof. unfold runs. rewrite List.filter_app, app_length. done. Qed.
Lemma decks_runs ls s : run new_again ls s -> length (g_decks s) = runs ls.
Proof.
  intros H. induction H as [|ls s1 l s2 _ IH Hs]; [done|]. rewrite runs_app, <- IH.
  inversion Hs; subst; simpl; unfold runs; simpl; rewrite ?app_length, ?insert_length; simpl; lia.
Qed.
Lemma one_deck ls s i d : run new_again ls s -> runs ls <= 1 -> g_decks s !! i = Some d -> i = 0 /\ g_decks s = [d].
Proof.
  intros H Hle Hd. rewrite <- (decks_runs _ _ H) in Hle.
  destruct (g_decks s) as [|x [|]]; simpl in Hle; [done| |lia]. destruct i; by simplify_eq/=.
Qed.
Lemma newest_registered ls s e : run new_again ls s -> is_served s e -> e ∈ g_list s.
Proof.
  intros H Hs. destruct (served_snoc _ _ Hs) as (ds & d & E & He).
  eapply ginv_reach; [by eexists|done|done].
Qed.

Lemma receives_registered ls s c k e s' : runs ls <= 1 \/ procs = true -> run new_again ls s -> step s (GRecv c k e) s' ->
  e ∈ g_list s /\ σ e = k.
Proof.
  intros Hor H Hs. inversion Hs as [| | | | | | | | | | |s4 c4 i4 d4 e4 Hc4 Hd4 He4|]; subst. split; [|done].
  eapply newest_registered; [done|]. exists d4. split; [|done].
  destruct Hor as [Hle|Hp].
  - destruct (one_deck _ _ _ _ H Hle Hd4) as [_ E]. by rewrite E.
  - unfold deck_above in Hd4. rewrite Hp in Hd4. rewrite last_lookup.
    replace (pred (length (g_decks s'))) with (length (g_decks s') - 1) by lia. done.
Qed.

Lemma listed_added ls s e : run new_again ls s -> e ∈ g_list s -> GAdd e ∈ ls.
Proof.
  intros H. induction H as [|ls s1 l s2 _ IH Hs]; [intros He; by apply elem_of_nil in He|]. intros He.
  apply elem_of_app. inversion Hs; subst; simpl in *; try (left; by apply IH).
  - apply elem_of_app in He as [He|He]; [left; by apply IH|]. apply elem_of_list_singleton in He as ->. right. by left.
  - apply elem_of_app in He as [He|He]; [left; by apply IH|]. apply elem_of_list_singleton in He as ->. right. by left.
  - apply filter_list in He. left. apply IH. naive_solver.
  - apply filter_list in He. left. apply IH. naive_solver.
Qed.
Lemma fresh_all es d e : (forall x y, x ∈ d.*1 \/ x ∈ es -> y ∈ d.*1 \/ y ∈ es -> σ x = σ y -> x = y) ->
  e ∈ d.*1 \/ e ∈ es -> e ∈ (fold_left (admit_ep σ) es d).*1.
Proof.
  revert d. induction es as [|z es IH]; intros d Hd He; simpl.
  - destruct He as [He|He]; [done|by apply elem_of_nil in He].
  - assert (z ∈ (admit_ep σ d z).*1 /\ forall x, x ∈ d.*1 -> x ∈ (admit_ep σ d z).*1) as [Hz Hx].
    { unfold admit_ep. destruct (existsb _ d) eqn:E.
      - apply existsb_exists in E as ([y h] & Hy & E). apply elem_of_list_In in Hy. simpl in E. split; [|done].
        assert (y ∈ d.*1) as Hy1 by (apply elem_of_list_fmap; by exists (y, h)).
        apply orb_true_iff in E as [E|E].
        + apply Nat.eqb_eq in E as ->. done.
        + apply Z.eqb_eq in E. assert (y = z) as <-; [|done]. apply Hd; [by left|right; by left|done].
      - rewrite fmap_app. simpl. split; [apply elem_of_app; right; by left|]. intros x Hx. apply elem_of_app. by left. }
    apply IH.
    + assert (forall x, x ∈ (admit_ep σ d z).*1 -> x ∈ d.*1 \/ x = z) as Hsub.
      { intros x Hx'. destruct (admit_cases d z) as [E|[E _]]; rewrite E in Hx'; [by left|].
        rewrite fmap_app in Hx'. apply elem_of_app in Hx' as [?|Hx']; [by left|]. apply elem_of_list_singleton in Hx'. by right. }
      intros x y Hx' Hy'. apply Hd.
      * destruct Hx' as [Hx'|?]; [|right; by right]. destruct (Hsub _ Hx') as [?| ->]; [by left|right; by left].
      * destruct Hy' as [Hy'|?]; [|right; by right]. destruct (Hsub _ Hy') as [?| ->]; [by left|right; by left].
    + destruct He as [He|He]; [left; by apply Hx|]. apply elem_of_cons in He as [->|He]; [by left|by right].
Qed.
Lemma last_names (ds : list deck) i d0 d1 d : last (<[i := d1]> ds) = Some d -> ds !! i = Some d0 -> d1.*1 = d0.*1 ->
  exists d', last ds = Some d' /\ d.*1 = d'.*1.
Proof.
  intros Hl Hi E. rewrite last_lookup, insert_length in *. destruct (decide (i = pred (length ds))) as [->|Hn].
  - rewrite list_lookup_insert in Hl by (by eapply lookup_lt_Some). injection Hl as <-. eauto.
  - rewrite list_lookup_insert_ne in Hl by done. eauto.
Qed.
Lemma registered_served ls s d e : run new_again ls s ->
  (forall x y, GAdd x ∈ ls -> GAdd y ∈ ls -> σ x = σ y -> x = y) ->
  last (g_decks s) = Some d -> e ∈ g_list s -> e ∈ d.*1.
Proof.
  intros H. revert d e. induction H as [|ls s1 l s2 H IH Hs]; intros d e Hd Hl He; [done|].
  assert (forall x y, GAdd x ∈ ls -> GAdd y ∈ ls -> σ x = σ y -> x = y) as Hd1.
  { intros x y Hx Hy. apply Hd; apply elem_of_app; by left. }
  assert (forall x, x ∈ g_list s2 -> GAdd x ∈ ls ++ [l]) as Hadd.
  { intros x Hx. eapply listed_added; [|done]. by eapply gr_snoc. }
  specialize (fun d e => IH d e Hd1).
  inversion Hs; subst; simpl in *; try (by eapply IH).
  - rewrite last_snoc in Hl. injection Hl as <-.
    pose proof (fresh_all [e0] d0 e) as F. simpl in F. apply F.
    + assert (forall x, x ∈ d0.*1 \/ x ∈ [e0] -> x ∈ es ++ [e0]) as K.
      { intros x [Hx|Hx]; apply elem_of_app; [left|by right].
        eapply (newest_registered _ _ _ H). exists d0. cbn. split; [by rewrite last_snoc|done]. }
      intros x y Hx Hy. apply Hd; by apply Hadd, K.
    + apply elem_of_app in He as [He|He]; [left|by right]. eapply IH; [by rewrite last_snoc|done].
  - rewrite last_snoc in Hl. injection Hl as <-. apply filter_list in He as [He Hne].
    assert (e ∈ d0.*1) as Hin by (eapply IH; [by rewrite last_snoc|done]).
    apply elem_of_list_fmap in Hin as ([y h] & -> & Hin). apply elem_of_list_fmap. exists (y, h). split; [done|].
    apply elem_of_list_In, filter_In. split; [by apply elem_of_list_In|]. by apply negb_true_iff, Nat.eqb_neq.
  - rewrite last_snoc in Hl. injection Hl as <-. apply fresh_all; [|by right].
    intros x y [Hx|Hx]; [by apply elem_of_nil in Hx|]. intros [Hy|Hy]; [by apply elem_of_nil in Hy|].
    apply Hd; by apply Hadd.
  - eapply last_names in Hl as (d' & Hl & E); [|done|]; [rewrite E; by eapply IH|]. by rewrite !fmap_app.
  - eapply last_names in Hl as (d' & Hl & E); [|done|]; [rewrite E; by eapply IH|]. by rewrite !fmap_app.
Qed.
Lemma lost_nobody ls s c k s' e : runs ls <= 1 \/ procs = true -> run new_again ls s ->
  (forall x y, GAdd x ∈ ls -> GAdd y ∈ ls -> σ x = σ y -> x = y) ->
  step s (GLost c k) s' -> e ∈ g_list s -> σ e <> k.
Proof.
  intros Hor H Hd Hs He. inversion Hs as [| | | | | | | | | | | |s4 c4 i4 d4 k4 Hc4 Hd4 Hk4]; subst. apply Hk4.
  eapply registered_served; [done|done| |done].
  destruct Hor as [Hle|Hp].
  - destruct (one_deck _ _ _ _ H Hle Hd4) as [_ E]. by rewrite E.
  - unfold deck_above in Hd4. rewrite Hp in Hd4. rewrite last_lookup.
    replace (pred (length (g_decks s'))) with (length (g_decks s') - 1) by lia. done.
Qed.

Lemma passes_registered ls s i m e s' : runs ls <= 1 -> run new_again ls s -> step s (GPass i e m) s' -> e ∈ g_list s.
Proof.
  intros Hle H Hs. inversion Hs as [| | | | | | | | |es ds cs tx out i4 d1 e4 d2 m4 Hd| | |]; subst.
  eapply newest_registered; [done|]. exists (d1 ++ (e, Some m) :: d2).
  destruct (one_deck _ _ _ _ H Hle Hd) as [_ E]. split; [by rewrite E|].
  rewrite fmap_app. apply elem_of_app. right. by left.
Qed.

Lemma stays_out s ls s' e : run s ls s' -> GAdd e ∉ ls -> e ∉ g_list s -> e ∉ g_list s'.
Proof.
  intros H Hn He. induction H as [|ls s1 l s2 _ IH Hs]; [done|].
  assert (GAdd e ∉ ls) as Hls by set_solver. specialize (IH Hls).
  assert (l <> GAdd e) as Hl by set_solver. clear Hls Hn.
  inversion Hs; subst; simpl in *; try done; rewrite ?elem_of_app, ?elem_of_list_singleton, ?filter_list; naive_solver.
Qed.
Lemma deleted_out s e s' : step s (GDel e) s' -> e ∉ g_list s'.
Proof. intros H. inversion H; subst; simpl in *; [done| |]; rewrite filter_list; naive_solver. Qed.

Lemma stopped l0 e l1 s : run new_again (l0 ++ GDel e :: l1) s -> runs (l0 ++ GDel e :: l1) <= 1 -> GAdd e ∉ l1 ->
  Forall (fun l => ~ alive e l) l1.
Proof.
  intros H Hle Hn. apply Forall_forall. intros l Hl Ha.
  apply elem_of_list_split in Hl as (la & lb & ->).
  replace (l0 ++ GDel e :: la ++ l :: lb) with ((l0 ++ [GDel e]) ++ la ++ l :: lb) in * by (by rewrite <- app_assoc).
  apply grun_split in H as (s1 & H1 & H). apply grun_split in H as (s2 & H2 & H).
  apply grun_uncons in H as (s3 & H3 & _).
  apply grun_split in H1 as (s0 & H0 & Hd). apply grun_uncons in Hd as (s0' & Hd & Hd').
  assert (e ∉ g_list s2) as Hout.
  { eapply stays_out; [exact H2|set_solver|]. eapply stays_out; [exact Hd'|set_solver|]. by eapply deleted_out. }
  assert (run new_again ((l0 ++ [GDel e]) ++ la) s2) as Hr.
  { eapply grun_app; [|exact H2]. eapply grun_app; [exact H0|]. by eapply grun_cons. }
  assert (runs ((l0 ++ [GDel e]) ++ la) <= 1) as Hle'.
  { rewrite app_assoc, runs_app in Hle. lia. }
  apply Hout. destruct l; simpl in Ha; try done; subst.
  - by eapply passes_registered.
  - eapply receives_registered; [by left|done|done].
Qed.

Definition hand_of (e : nat) (s : gst) : list nat := omap id (goroutines e s).

Lemma hand_app e d1 d2 : omap (fun p : nat * option nat => if decide (fst p = e) then Some (snd p) else None) (d1 ++ d2) =
  omap (fun p : nat * option nat => if decide (fst p = e) then Some (snd p) else None) d1 ++
  omap (fun p : nat * option nat => if decide (fst p = e) then Some (snd p) else None) d2.
Proof. apply omap_app. Qed.
Lemma none_in_hand e (d : deck) : (e ∉ d.*1 \/ forall m, (e, Some m) ∉ d) ->
  omap id (omap (fun p : nat * option nat => if decide (fst p = e) then Some (snd p) else None) d) = [].
Proof.
  induction d as [|[x h] d IH]; intros H; [done|]. simpl.
  case_decide as E; [|apply IH; set_solver]. subst x. destruct h as [m|]; [|simpl; apply IH; set_solver]. exfalso.
  destruct H as [H|H]; [apply H; by left|apply (H m); by left].
Qed.
Lemma at_most_one e (d : deck) : NoDup (d.*1) ->
  length (omap id (omap (fun p : nat * option nat => if decide (fst p = e) then Some (snd p) else None) d)) <= 1.
Proof.
  induction d as [|[x h] d IH]; intros H; [simpl; lia|]. simpl in *. apply NoDup_cons in H as [Hx H].
  case_decide as E; [|by apply IH]. subst x. simpl. rewrite none_in_hand by (by left).
  destruct h; simpl; lia.
Qed.

Lemma put_app e l1 l2 : put_for e (l1 ++ l2) = put_for e l1 ++ put_for e l2.
Proof. apply omap_app. Qed.

Lemma in_order ls s e : run new_again ls s -> runs ls <= 1 ->
  exists h, length h <= 1 /\ put_for e ls = down_for e s ++ h ++ g_tx s e.
Proof.
  intros H Hle. exists (hand_of e s). split.
  { unfold hand_of, goroutines. destruct (g_decks s) as [|d ds] eqn:E; [simpl; lia|].
    destruct (one_deck ls s 0 d H Hle) as [_ E']; [by rewrite E|]. rewrite E' in E. injection E as <-.
    simpl. rewrite app_nil_r. apply at_most_one. destruct (ginv_reach s) as (_ & Hnd & _); [by eexists|]. apply (Hnd 0). by rewrite E'. }
  revert Hle. induction H as [|ls s1 l s2 Hr IH Hs]; intros Hle; [done|].
  rewrite runs_app in Hle. rewrite put_app, IH by lia. clear IH.
  assert (runs ls <= 1) as Hle1 by lia.
  unfold down_for, hand_of, goroutines in *.
  inversion Hs; subst; simpl in *; rewrite ?app_nil_r; try done.
  - assert (ds = []) as ->.
    { assert (length (ds ++ [d]) <= 1) as Hlen by (change (length (g_decks (Gst es (ds ++ [d]) cs tx out)) <= 1); rewrite (decks_runs _ _ Hr); done).
      rewrite app_length in Hlen; simpl in Hlen. destruct ds; [done|simpl in Hlen; lia]. }
    simpl. rewrite !app_nil_r. destruct (admit_cases d e0) as [->|[-> _]]; [done|].
    rewrite hand_app, omap_app. simpl. case_decide; simpl; by rewrite app_nil_r.
  - assert (ds = []) as ->.
    { assert (length (ds ++ [d]) <= 1) as Hlen by (change (length (g_decks (Gst es (ds ++ [d]) cs tx out)) <= 1); rewrite (decks_runs _ _ Hr); done).
      rewrite app_length in Hlen; simpl in Hlen. destruct ds; [done|simpl in Hlen; lia]. }
    simpl. rewrite !app_nil_r. f_equal. f_equal.
    clear -H0. induction d as [|[x h] d IH]; [done|]. simpl.
    destruct (Nat.eqb_spec x e0) as [->|Hx]; simpl.
    + rewrite <- IH by set_solver. case_decide as E; [|done]. subst e0. simpl.
      destruct h as [m|]; [|done]. exfalso. apply (H0 m). by left.
    + case_decide; [simpl; case_match; [f_equal|]|]; apply IH; set_solver.
  - assert (ds = []) as ->.
    { assert (length ds <= 0) as Hlen.
      { change (length (g_decks (Gst es ds cs tx out)) <= 0). rewrite (decks_runs _ _ Hr).
        change (runs ls + 1 <= 1) in Hle. lia. }
      destruct ds; [done|simpl in Hlen; lia]. }
    simpl. rewrite app_nil_r. rewrite (none_in_hand e (fresh_deck σ es)); [done|].
    right. intros m Hm. by apply fresh_idle in Hm; [|intros y Hy; apply elem_of_nil in Hy].
  - unfold put_tx. case_decide as E; [subst; rewrite decide_True by done; by rewrite !app_assoc|].
    rewrite decide_False by congruence. by rewrite app_nil_r.
  - destruct (one_deck _ _ _ _ Hr Hle1 H) as [-> E]. simpl in E. subst ds. simpl. rewrite !app_nil_r.
    destruct (ginv_reach _ (ex_intro _ _ Hr)) as (_ & Hnd & _). specialize (Hnd 0 _ eq_refl).
    rewrite fmap_app in Hnd. simpl in Hnd. apply NoDup_app in Hnd as (_ & Hn1 & Hn2).
    apply NoDup_cons in Hn2 as [Hn2 _].
    rewrite !hand_app, !omap_app. simpl. case_decide as E; [subst e0|].
    + simpl. rewrite (none_in_hand e d1) by (left; intros Hx; apply (Hn1 e Hx); by left).
      assert (Hd2 := none_in_hand e d2 (or_introl Hn2)).
      match type of Hd2 with ?x = _ => change (list_omap _ _ _ (list_omap _ _ _ d2)) with x end. rewrite Hd2. simpl. rewrite tx_get, H0. done.
    + rewrite tx_other by congruence. done.
  - destruct (one_deck _ _ _ _ Hr Hle1 H) as [-> E]. simpl in E. subst ds. simpl. rewrite !app_nil_r.
    destruct (ginv_reach _ (ex_intro _ _ Hr)) as (_ & Hnd & _). specialize (Hnd 0 _ eq_refl).
    rewrite fmap_app in Hnd. simpl in Hnd. apply NoDup_app in Hnd as (_ & Hn1 & Hn2).
    apply NoDup_cons in Hn2 as [Hn2 _].
    rewrite !hand_app, !omap_app. simpl. case_decide as E; [subst e0|].
    + simpl. rewrite (none_in_hand e d1) by (left; intros Hx; apply (Hn1 e Hx); by left).
      assert (Hd2 := none_in_hand e d2 (or_introl Hn2)).
      match type of Hd2 with ?x = _ => change (list_omap _ _ _ (list_omap _ _ _ d2)) with x end. rewrite Hd2. simpl. rewrite <- app_assoc. done.
    + simpl. by rewrite app_nil_r.
Qed.
End again.

(** ** Adding and deleting *)
Lemma add_registers σ procs s e s' : gstep σ procs s (GAdd e) s' -> e ∈ g_list s' /\ forall x, x <> e -> (x ∈ g_list s' <-> x ∈ g_list s).
Proof. intros H. inversion H; subst; simpl in *; split; try done; intros; rewrite elem_of_app, elem_of_list_singleton; tauto. Qed.
Lemma del_unregisters σ procs s e s' : gstep σ procs s (GDel e) s' -> e ∉ g_list s' /\ forall x, x <> e -> (x ∈ g_list s' <-> x ∈ g_list s).
Proof.
  assert (forall x es, x ∈ List.filter (fun y => negb (y =? e)) es <-> x ∈ es /\ x <> e) as Hf.
  { intros x es. rewrite !elem_of_list_In, List.filter_In. destruct (Nat.eqb_spec x e); simpl; naive_solver. }
  intros H. inversion H; subst; simpl in *; split; try done; intros; rewrite ?Hf; tauto.
Qed.

(** ** What the calls need *)
Lemma calls_possible σ procs s e :
  (exists s', gstep σ procs s (GAdd e) s') /\ (e ∈ g_list s -> forall s', gstep σ procs s (GAdd e) s' <-> s' = s) /\
  (e ∉ g_list s -> forall s', gstep σ procs s (GDel e) s' <-> s' = s) /\
  (e ∈ g_list s -> (exists s', gstep σ procs s (GDel e) s') <-> forall d m, last (g_decks s) = Some d -> (e, Some m) ∉ d).
Proof.
  destruct s as [es ds cs tx out]. simpl. split; [|split; [|split]].
  - destruct (decide (e ∈ es)) as [He|He]; [eexists; by apply gk_add_again|].
    destruct ds as [|d ds _] using rev_ind; [eexists; by apply gk_add_first|eexists; by apply gk_add].
  - intros He s'. split; [|intros ->; by apply gk_add_again]. intros H. inversion H; subst; done.
  - intros He s'. split; [|intros ->; by apply gk_del_none]. intros H. inversion H; subst; done.
  - intros He. split.
    + intros [s' H] d m Hd. inversion H; subst; simpl in *; try done. rewrite last_snoc in Hd. injection Hd as <-. done.
    + intros H. destruct ds as [|d ds _] using rev_ind; [eexists; by apply gk_del_first|]. eexists. apply gk_del; [done|].
      intros m. apply H. by rewrite last_snoc.
Qed.
Lemma conn_deck σ procs ls s : grun σ procs new_again ls s -> forall c i, g_conns s !! c = Some i -> i < length (g_decks s).
Proof.
  induction 1 as [|ls s1 l s2 _ IH H]; intros c i Hc; [done|].
  inversion H; subst; simpl in *; rewrite ?app_length, ?insert_length; simpl; try (specialize (IH _ _ Hc); rewrite ?app_length in IH; simpl in IH; lia).
  apply lookup_snoc_cases in Hc as [[_ Hc]|[_ ->]]; [by eapply IH|done].
Qed.
Lemma given_or_lost σ procs ls s c k : grun σ procs new_again ls s -> c < length (g_conns s) ->
  gstep σ procs s (GLost c k) s \/ exists e, σ e = k /\ gstep σ procs s (GRecv c k e) s.
Proof.
  intros H Hc. destruct (lookup_lt_is_Some_2 _ _ Hc) as [i Hi]. pose proof (conn_deck _ _ _ _ H _ _ Hi) as Hl.
  destruct (lookup_lt_is_Some_2 (g_decks s) (deck_above procs s i)) as [d Hd]; [unfold deck_above; destruct procs; lia|].
  destruct (decide (Exists (fun e => σ e = k) d.*1)) as [He|He].
  - right. apply Exists_exists in He as (e & He & <-). exists e. split; [done|]. by eapply gk_recv.
  - left. eapply gk_lost; [done|done|]. intros e Hed Hk. apply He, Exists_exists. by exists e.
Qed.
