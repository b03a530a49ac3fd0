(** * Proofs about features *)
From Verif Require Import GoBase FeatModel FeatSpec.
From stdpp Require Import sets list.

Lemma frun_app cs ds s : frun (cs ++ ds) s = frun ds (frun cs s).
Proof. apply fold_left_app. Qed.
Lemma frun_snoc cs c s : frun (cs ++ [c]) s = fstep (frun cs s) c.
Proof. apply frun_app. Qed.

Lemma feats_step s c : f_feats (fstep s c) = f_feats s ++ added [c].
Proof. destruct c; cbn; rewrite ?app_nil_r; repeat case_match; done. Qed.
Lemma procs_step s c : f_procs (fstep s c) = f_procs s ++ appended [c].
Proof. destruct c; cbn; rewrite ?app_nil_r; repeat case_match; done. Qed.
Lemma feats_run cs s : f_feats (frun cs s) = f_feats s ++ added cs.
Proof.
  induction cs as [|c cs IH] using rev_ind; [by rewrite app_nil_r|].
  rewrite frun_snoc, feats_step, IH, <- app_assoc. unfold added. by rewrite (omap_app _ cs).
Qed.
Lemma procs_run cs s : f_procs (frun cs s) = f_procs s ++ appended cs.
Proof.
  induction cs as [|c cs IH] using rev_ind; [by rewrite app_nil_r|].
  rewrite frun_snoc, procs_step, IH, <- app_assoc. unfold appended. by rewrite (omap_app _ cs).
Qed.

Lemma find_first s fs n o : find_feature (f_objs s) fs n = Some o <-> first_named s fs n o.
Proof.
  induction fs as [|p fs IH]; simpl.
  - split; [done|]. intros (l1 & l2 & E & _). by destruct l1.
  - assert (K : ~ named s p n -> (find_feature (f_objs s) fs n = Some o <-> first_named s (p :: fs) n o)).
    { intros N. rewrite IH. split; intros (l1 & l2 & E & A & F).
      - exists (p :: l1), l2. subst. split_and!; [done|done|]. by constructor.
      - destruct l1 as [|q l1]; simpl in E; injection E as <- E; [done|].
        exists l1, l2. apply Forall_cons in F as [_ F]. done. }
    destruct (f_objs s !! p) as [b|] eqn:E.
    + destruct (f_name b =? n) eqn:En.
      * apply Nat.eqb_eq in En. split.
        -- intros [= <-]. exists [], fs. split_and!; [done| |done]. by exists b.
        -- intros (l1 & l2 & El & A & F). destruct l1 as [|q l1]; simpl in El; injection El as <- El; [done|].
           apply Forall_cons in F as [F _]. destruct F. by exists b.
      * apply Nat.eqb_neq in En. apply K. intros (b' & ? & ?). congruence.
    + apply K. intros (b' & ? & ?). congruence.
Qed.
Lemma find_none s fs n : find_feature (f_objs s) fs n = None <-> Forall (fun o => ~ named s o n) fs.
Proof.
  induction fs as [|p fs IH]; simpl; [done|]. rewrite Forall_cons. destruct (f_objs s !! p) as [b|] eqn:E.
  - destruct (f_name b =? n) eqn:En.
    + apply Nat.eqb_eq in En. split; [done|]. intros [N _]. destruct N. by exists b.
    + apply Nat.eqb_neq in En. rewrite IH. split; [|tauto]. split; [|done]. intros (b' & ? & ?). congruence.
  - rewrite IH. split; [|tauto]. split; [|done]. intros (b' & ? & ?). congruence.
Qed.

Lemma started_run cs s : f_started (fstep (frun cs s) FRun) =
  f_started (frun cs s) ++ (PFeat <$> f_feats s ++ added cs) ++ [PUpper] ++ (PProc <$> f_procs s ++ appended cs) ++ [PLower].
Proof. simpl. by rewrite feats_run, procs_run. Qed.

Lemma publish_no_feat s o : PFeat o ∉ publish_to s.
Proof.
  unfold publish_to. rewrite !elem_of_app. intros [H|[H|[H|[H|H]]]].
  - apply elem_of_list_fmap in H as (? & ? & _). done.
  - apply elem_of_list_fmap in H as (? & ? & _). done.
  - destruct (f_decks s); set_solver.
  - apply elem_of_list_fmap in H as (? & ? & _). done.
  - destruct (f_decks s); set_solver.
Qed.
Lemma told_step s c ev o : (ev, PFeat o) ∉ f_told s -> (ev, PFeat o) ∉ f_told (fstep s c).
Proof.
  intros N.
  assert (K : forall e, (ev, PFeat o) ∉ f_told (publish e s)).
  { intros e. simpl. rewrite elem_of_app. intros [H|H]; [done|].
    apply elem_of_list_fmap in H as (p & E & H). injection E as <- <-. by apply publish_no_feat in H. }
  destruct c; cbn; repeat case_match; try done; apply K.
Qed.
Lemma told_run cs s ev o : (ev, PFeat o) ∉ f_told s -> (ev, PFeat o) ∉ f_told (frun cs s).
Proof. intros N. induction cs as [|c cs IH] using rev_ind; [done|]. rewrite frun_snoc. by apply told_step. Qed.
Lemma told_new cs ev o : (ev, PFeat o) ∉ f_told (frun cs new_fstack).
Proof. apply told_run. apply not_elem_of_nil. Qed.

Lemma stack_step s c o : c <> FSetStack o -> knows_stack (fstep s c) o -> knows_stack s o.
Proof.
  intros N (b & E & T).
  destruct c as [n|n|p n|p|p|e|p|l|ev|]; cbn in E.
  - destruct (decide (o < length (f_objs s))).
    + rewrite lookup_app_l in E by done. by exists b.
    + rewrite lookup_app_r in E by lia. destruct (o - length (f_objs s)) as [|[|]]; simpl in E; try done; injection E as <-; done.
  - destruct (decide (o < length (f_objs s))).
    + rewrite lookup_app_l in E by done. by exists b.
    + rewrite lookup_app_r in E by lia. destruct (o - length (f_objs s)) as [|]; simpl in E; try done; injection E as <-; done.
  - destruct (f_objs s !! p) as [b'|] eqn:Ep; [|by exists b]. cbn in E.
    destruct (decide (p = o)) as [->|Ne].
    + rewrite list_lookup_insert in E by (by eapply lookup_lt_Some). injection E as <-. exists b'. done.
    + rewrite list_lookup_insert_ne in E by done. by exists b.
  - destruct (f_objs s !! p) as [b'|] eqn:Ep; [|by exists b]. cbn in E.
    destruct (decide (p = o)) as [->|Ne]; [done|].
    rewrite list_lookup_insert_ne in E by done. by exists b.
  - by exists b.
  - case_bool_decide; by exists b.
  - by exists b.
  - by exists b.
  - by exists b.
  - by exists b.
Qed.
Lemma stack_run cs s o : FSetStack o ∉ cs -> knows_stack (frun cs s) o -> knows_stack s o.
Proof.
  induction cs as [|c cs IH] using rev_ind; [done|]. intros N. rewrite frun_snoc. intros K.
  apply IH; [set_solver|]. eapply stack_step; [|done]. set_solver.
Qed.
Lemma stackless cs o : FSetStack o ∉ cs -> ~ knows_stack (frun cs new_fstack) o.
Proof. intros N K. apply stack_run in K as (b & E & _); [|done]. cbn in E. by rewrite lookup_nil in E. Qed.

Lemma name_step s c o n : (forall m, c <> FSetName o m) -> named s o n -> named (fstep s c) o n.
Proof.
  intros N (b & E & T).
  destruct c as [m|m|p m|p|p|e|p|l|ev|]; cbn.
  - exists b. split; [|done]. by apply lookup_app_l_Some.
  - exists b. split; [|done]. by apply lookup_app_l_Some.
  - destruct (f_objs s !! p) as [b'|] eqn:Ep; [|by exists b].
    exists b. split; [|done]. cbn. rewrite list_lookup_insert_ne; [done|]. intros ->. by apply (N m).
  - destruct (f_objs s !! p) as [b'|] eqn:Ep; [|by exists b]. cbn. destruct (decide (p = o)) as [->|Ne].
    + eexists. split; [apply list_lookup_insert; by eapply lookup_lt_Some|]. cbn. congruence.
    + exists b. split; [|done]. cbn. by rewrite list_lookup_insert_ne.
  - by exists b.
  - case_bool_decide; by exists b.
  - by exists b.
  - by exists b.
  - by exists b.
  - by exists b.
Qed.
Lemma name_run cs s o n : (forall m, FSetName o m ∉ cs) -> named s o n -> named (frun cs s) o n.
Proof.
  intros N E. induction cs as [|c cs IH] using rev_ind; [done|]. rewrite frun_snoc. apply name_step; [|apply IH].
  - intros m ->. apply (N m). set_solver.
  - intros m H. apply (N m). set_solver.
Qed.

Lemma hidden cs f g n ds : f ∈ added cs -> g ∉ added cs -> named (frun cs new_fstack) f n ->
  (forall m, FSetName f m ∉ ds) -> get_feature (frun (cs ++ FAdd g :: ds) new_fstack) n <> Some g.
Proof.
  intros F G Nf D E. unfold get_feature in E. apply find_first in E as (l1 & l2 & E & Ng & A).
  assert (Nf' : named (frun (cs ++ FAdd g :: ds) new_fstack) f n).
  { rewrite frun_app. apply name_run; [|done]. intros m H. apply elem_of_cons in H as [?|H]; [done|]. by apply (D m). }
  rewrite feats_run in E. cbn in E. unfold added in E. rewrite omap_app in E. cbn in E.
  change (omap _ cs) with (added cs) in E.
  (* g is not among the first ones, so f is in l1 *)
  apply elem_of_list_split in F as (k1 & k2 & F). rewrite F, <- app_assoc in E. simpl in E.
  assert (f ∈ l1).
  { rewrite F in G. clear -E G. revert l1 E. induction k1 as [|x k1 IH]; intros l1 E; simpl in E.
    - destruct l1; simpl in E; injection E as -> E; [|set_solver]. simpl in G. set_solver.
    - destruct l1 as [|y l1]; simpl in E; injection E as -> E; [set_solver|].
      apply elem_of_cons. right. apply IH; [|done]. simpl in G. set_solver. }
  rewrite Forall_forall in A. by apply (A f).
Qed.

Lemma chained s m n : m <> n -> Forall (fun o => ~ named s o n) (f_feats s) ->
  (forall o, o ∈ f_feats s -> o < length (f_objs s)) ->
  exists o o', returned s (FNewBase m) = Some o /\ returned (fstep s (FNewBase m)) (FSetName o n) = Some o' /\
    get_feature (frun [FNewBase m; FSetName o n; FAdd o'] s) n = None.
Proof.
  intros Ne N L. exists (length (f_objs s) + 1), (length (f_objs s)).
  assert (E1 : (f_objs s ++ [Fobj m (length (f_objs s)) false; Fobj m (length (f_objs s)) false]) !! (length (f_objs s) + 1) =
    Some (Fobj m (length (f_objs s)) false)).
  { rewrite lookup_app_r by lia. by replace (length (f_objs s) + 1 - length (f_objs s)) with 1 by lia. }
  split_and!; [done| |].
  - simpl. by rewrite E1.
  - unfold frun, get_feature. cbn. rewrite E1. cbn.
    match goal with |- find_feature ?os ?fs n = None => set (s' := with_objs s os); change os with (f_objs s') end.
    apply find_none. apply Forall_app. split.
    + apply Forall_forall. intros o Ho (b & E & T). rewrite Forall_forall in N. apply (N o Ho). exists b. split; [|done].
      cbn in E. specialize (L o Ho). rewrite list_lookup_insert_ne in E by lia. by rewrite lookup_app_l in E.
    + apply Forall_singleton. intros (b & E & T). cbn in E. rewrite list_lookup_insert_ne in E by lia.
      rewrite lookup_app_r in E by lia. rewrite Nat.sub_diag in E. injection E as <-. done.
Qed.

Lemma times_app {A} `{EqDecision A} (x : A) l k : times x (l ++ k) = times x l + times x k.
Proof. unfold times. by rewrite filter_app, app_length. Qed.
Lemma times_feat o l : times (PFeat o) (PFeat <$> l) = times o l.
Proof.
  unfold times. induction l as [|x l IH]; [done|]. cbn [fmap list_fmap]. rewrite !filter_cons.
  destruct (decide (PFeat x = PFeat o)) as [E|E]; destruct (decide (x = o)); try congruence; simpl; by rewrite IH.
Qed.
Lemma times_proc o l : times (PFeat o) (PProc <$> l) = 0.
Proof. unfold times. induction l as [|x l IH]; [done|]. cbn [fmap list_fmap]. rewrite filter_cons. by rewrite decide_False. Qed.
Lemma started_times cs o : times (PFeat o) (f_started (frun (cs ++ [FRun]) new_fstack)) =
  times (PFeat o) (f_started (frun cs new_fstack)) + times o (added cs).
Proof.
  rewrite frun_snoc, started_run, !times_app, times_feat, times_proc.
  assert (times (PFeat o) [PUpper] = 0) as -> by done. assert (times (PFeat o) [PLower] = 0) as -> by done.
  simpl. lia.
Qed.

Lemma found cs n : let s := frun cs new_fstack in
  (forall o, get_feature s n = Some o <-> first_named s (added cs) n o) /\
  (get_feature s n = None <-> Forall (fun o => ~ named s o n) (added cs)).
Proof.
  intros s. unfold get_feature. assert (E : f_feats s = added cs) by apply (feats_run cs new_fstack). rewrite E.
  split; [intros o; apply find_first|apply find_none].
Qed.
Lemma started cs : f_started (frun (cs ++ [FRun]) new_fstack) =
  f_started (frun cs new_fstack) ++ (PFeat <$> added cs) ++ [PUpper] ++ (PProc <$> appended cs) ++ [PLower].
Proof. rewrite frun_snoc. apply started_run. Qed.

Lemma renamed cs o n ds : o < length (f_objs (frun cs new_fstack)) -> (forall m, FSetName o m ∉ ds) ->
  named (frun (cs ++ FSetName o n :: ds) new_fstack) o n.
Proof.
  intros L N. rewrite frun_app. apply (name_run ds); [done|]. cbn [fstep].
  destruct (lookup_lt_is_Some_2 _ _ L) as [b E]. rewrite E. eexists. split; [by apply list_lookup_insert|done].
Qed.

Lemma decks_step s c : f_decks (fstep s c) = true <-> f_decks s = true \/ c = FRun.
Proof. destruct c; cbn; repeat case_match; intuition congruence. Qed.
Lemma decks_run cs : f_decks (frun cs new_fstack) = true <-> FRun ∈ cs.
Proof.
  induction cs as [|c cs IH] using rev_ind; [by rewrite elem_of_nil|].
  rewrite frun_snoc, decks_step, IH, elem_of_app, elem_of_list_singleton. intuition congruence.
Qed.
Lemma others_told cs ev p : let s := frun cs new_fstack in
  (ev, p) ∈ f_told (frun (cs ++ [FPublish ev]) new_fstack) <->
  (ev, p) ∈ f_told s \/
  match p with
  | PListener l => l ∈ f_listeners s
  | PEnd e => e ∈ f_ends s
  | PProc q => q ∈ appended cs
  | PUpper | PLower => FRun ∈ cs
  | PFeat _ => False
  end.
Proof.
  intros s. rewrite frun_snoc. fold s. cbn [fstep publish f_told]. rewrite elem_of_app.
  assert (H : (ev, p) ∈ (fun p => (ev, p)) <$> publish_to s <-> p ∈ publish_to s).
  { rewrite elem_of_list_fmap. split; [intros (q & [= ->] & ?); done|]. intros ?. by exists p. }
  rewrite H. apply or_iff_compat_l. assert (K := decks_run cs). fold s in K.
  assert (P : f_procs s = appended cs) by apply (procs_run cs new_fstack). rewrite <- P.
  unfold publish_to. rewrite !elem_of_app, !elem_of_list_fmap.
  destruct p, (f_decks s); rewrite ?elem_of_list_singleton, ?elem_of_nil; naive_solver.
Qed.
Lemma chained_run cs m n : let s := frun cs new_fstack in
  m <> n -> Forall (fun o => ~ named s o n) (added cs) -> (forall o, o ∈ added cs -> o < length (f_objs s)) ->
  exists o o', returned s (FNewBase m) = Some o /\ returned (fstep s (FNewBase m)) (FSetName o n) = Some o' /\
    get_feature (frun (cs ++ [FNewBase m; FSetName o n; FAdd o']) new_fstack) n = None.
Proof.
  intros s Ne F L. assert (E : f_feats s = added cs) by apply (feats_run cs new_fstack). rewrite <- E in F, L.
  destruct (chained s m n Ne F L) as (o & o' & A & B & C). exists o, o'. split_and!; [done|done|].
  by rewrite frun_app.
Qed.

(** ** Exactly who is told *)
Lemma lists_run cs : let s := frun cs new_fstack in
  f_listeners s = listeners cs /\ f_ends s = joined cs /\ f_decks s = was_run cs.
Proof.
  induction cs as [|c cs IH] using rev_ind; [done|]. cbn zeta in *. rewrite frun_snoc. destruct IH as (H1 & H2 & H3).
  unfold listeners, joined, was_run in *. rewrite omap_app, fold_left_app, existsb_app. cbn [fold_left existsb].
  destruct c; cbn [fstep f_listeners f_ends f_decks with_objs publish omap list_omap]; rewrite ?app_nil_r, ?orb_false_r;
    try (rewrite <- H1, <- H2, <- H3; done).
  - destruct (f_objs _ !! _); cbn [f_listeners f_ends f_decks with_objs]; done.
  - destruct (f_objs _ !! _); cbn [f_listeners f_ends f_decks with_objs]; done.
  - rewrite <- H2. destruct (bool_decide _); cbn [f_listeners f_ends f_decks publish]; done.
  - rewrite orb_true_r. done.
Qed.
Lemma parties_run cs : publish_to (frun cs new_fstack) = parties cs.
Proof.
  destruct (lists_run cs) as (H1 & H2 & H3). unfold publish_to, parties. rewrite H1, H2, H3, procs_run. done.
Qed.
Lemma told_exactly cs c : f_told (frun (cs ++ [c]) new_fstack) =
  f_told (frun cs new_fstack) ++ match published cs c with Some ev => (fun p => (ev, p)) <$> parties cs | None => [] end.
Proof.
  rewrite frun_snoc, <- parties_run. destruct (lists_run cs) as (_ & H2 & _).
  destruct c; cbn [fstep published f_told with_objs publish]; rewrite ?app_nil_r; try done.
  - by destruct (f_objs _ !! _).
  - by destruct (f_objs _ !! _).
  - rewrite <- H2. destruct (bool_decide _); cbn [f_told publish]; [by rewrite app_nil_r|done].
Qed.
Lemma knows_step s c o : knows_stack s o -> knows_stack (fstep s c) o.
Proof.
  intros (b & Hb & Hs). unfold knows_stack. destruct c; cbn [fstep f_objs with_objs publish]; try (by exists b).
  - exists b. split; [by apply lookup_app_l_Some|done].
  - exists b. split; [by apply lookup_app_l_Some|done].
  - destruct (f_objs s !! o0) as [b0|] eqn:E; cbn [f_objs with_objs]; [|by exists b]. destruct (decide (o0 = o)) as [->|Hne].
    + rewrite Hb in E. injection E as <-. eexists. rewrite list_lookup_insert by (by eapply lookup_lt_Some). done.
    + exists b. by rewrite list_lookup_insert_ne.
  - destruct (f_objs s !! o0) as [b0|] eqn:E; cbn [f_objs with_objs]; [|by exists b]. destruct (decide (o0 = o)) as [->|Hne].
    + eexists. rewrite list_lookup_insert by (by eapply lookup_lt_Some). done.
    + exists b. by rewrite list_lookup_insert_ne.
  - destruct (bool_decide _); cbn [f_objs publish]; by exists b.
Qed.
Lemma knows_run ds s o : knows_stack s o -> knows_stack (frun ds s) o.
Proof. revert s. induction ds as [|d ds IH]; intros s H; [done|]. apply IH. by apply knows_step. Qed.
Lemma stack_given cs o ds : o < length (f_objs (frun cs new_fstack)) -> knows_stack (frun (cs ++ FSetStack o :: ds) new_fstack) o.
Proof.
  intros Ho. rewrite (cons_middle _ cs ds), app_assoc, frun_app, frun_snoc. apply knows_run.
  destruct (lookup_lt_is_Some_2 _ _ Ho) as [b Hb]. unfold knows_stack. cbn [fstep]. rewrite Hb. cbn [f_objs with_objs].
  eexists. rewrite list_lookup_insert by done. done.
Qed.
