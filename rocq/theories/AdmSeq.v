(** * Calls made one at a time *)
From Verif Require Import GoBase MgmtModel MgmtSpec MgmtProofs MgmtFacts AdmModel AdmSpec AdmProofs.

Lemma orun_arun g s ls s' : orun g s ls s' -> arun g s ls s'.
Proof. induction 1; [constructor|]. by econstructor. Qed.

(** The list and what the upper deck serves, after one call. *)
Definition both_step (x : list nat * list nat) (op : setop) : list nat * list nat :=
  match op with
  | Ins e => if decide (e ∈ fst x) then x else (fst x ++ [e], accept e (snd x))
  | Rem e => match index_of e (fst x) with Some i => (drop_at i (fst x), dismiss e (snd x)) | None => x end
  end.

Definition phase_ok (x : list nat * list nat) (op : setop) (pc : apc) (s : ast) : Prop :=
  match op, pc with
  | Ins e, CAddScan e' sl i => e' = e /\ sl = a_eps s /\ (listed s, a_served s) = x /\ e ∉ take i (fst x)
  | Ins e, CAddPub e' p => e' = e /\ (listed s, a_served s) = x /\ e ∉ fst x
  | Ins e, CAddRead e' => e' = e /\ listed s = fst x /\ a_served s = accept e (snd x) /\ e ∉ fst x
  | Ins e, CAddWrite e' sl => e' = e /\ sl = a_eps s /\ listed s = fst x /\ a_served s = accept e (snd x) /\ e ∉ fst x
  | Ins e, CAddStore e' sl => e' = e /\ listed s = fst x /\ a_served s = accept e (snd x) /\ e ∉ fst x /\
      sl_ok (a_heap s) sl /\ contents (a_heap s) sl = fst x ++ [e]
  | Rem e, CDelScan e' sl i => e' = e /\ sl = a_eps s /\ (listed s, a_served s) = x /\ e ∉ take i (fst x)
  | Rem e, CDelPub e' i p => e' = e /\ (listed s, a_served s) = x /\ index_of e (fst x) = Some i
  | Rem e, CDelRead e' i => e' = e /\ listed s = fst x /\ a_served s = dismiss e (snd x) /\ index_of e (fst x) = Some i
  | Rem e, CDelWrite e' i sl => e' = e /\ sl = a_eps s /\ listed s = fst x /\ a_served s = dismiss e (snd x) /\
      index_of e (fst x) = Some i
  | Rem e, CDelStore e' sl => e' = e /\ a_served s = dismiss e (snd x) /\ sl_ok (a_heap s) sl /\
      exists i, index_of e (fst x) = Some i /\ contents (a_heap s) sl = drop_at i (fst x)
  | _, CDone => (listed s, a_served s) = both_step x op
  | _, _ => False
  end.

Definition now_ok (x : list nat * list nat) (ops : list setop) (s : ast) : Prop :=
  (ops = [] /\ all_returned s /\ (listed s, a_served s) = x) \/
  exists ops0 op cs pc, ops = ops0 ++ [op] /\ a_calls s = cs ++ [pc] /\ Forall (eq CDone) cs /\
    phase_ok (foldl both_step x ops0) op pc s.
Definition seqinv (x : list nat * list nat) (ops : list setop) (s : ast) : Prop :=
  a_panic s = false /\ sl_ok (a_heap s) (a_eps s) /\ now_ok x ops s.

Lemma returned_Forall s : all_returned s <-> Forall (eq CDone) (a_calls s).
Proof. unfold all_returned. rewrite Forall_forall. split; intros H pc Hp; symmetry; auto. Qed.
Lemma now_returned x ops s : now_ok x ops s -> all_returned s -> (listed s, a_served s) = foldl both_step x ops.
Proof.
  intros [(-> & _ & H)|(ops0 & op & cs & pc & -> & Hc & _ & Hph)] Hr; [done|].
  assert (pc = CDone) as ->. { apply Hr. rewrite Hc. apply elem_of_app. right. by left. }
  rewrite foldl_app. simpl. by destruct op.
Qed.
Lemma index_first e l i : l !! i = Some e -> e ∉ take i l -> index_of e l = Some i.
Proof.
  intros Hi Hn. rewrite <- (take_drop_middle _ _ _ Hi), index_of_split by done. f_equal.
  rewrite take_length. apply lookup_lt_Some in Hi. lia.
Qed.
Lemma not_in_S e (l : list nat) i y : l !! i = Some y -> y <> e -> e ∉ take i l -> e ∉ take (S i) l.
Proof.
  intros Hi Hy Hn. rewrite (take_S_r _ _ y) by done. rewrite not_elem_of_app, elem_of_list_singleton. naive_solver.
Qed.
Lemma not_in_all e (l : list nat) i : length l <= i -> e ∉ take i l -> e ∉ l.
Proof. intros. by rewrite take_ge in * by done. Qed.

(** Which call makes a step. *)
Lemma last_call (cs cs' : list apc) c pc pc' : Forall (eq CDone) cs' -> cs = cs' ++ [pc'] -> cs !! c = Some pc -> pc <> CDone ->
  pc = pc' /\ forall y, <[c := y]> cs = cs' ++ [y].
Proof.
  intros Hd -> Hc Hpc. apply lookup_app_Some in Hc as [Hc|[Hle Hc]].
  - exfalso. apply Hpc. symmetry. by apply (proj1 (Forall_lookup _ _) Hd c).
  - apply list_lookup_singleton_Some in Hc as [Hk ->]. split; [done|]. intros y.
    rewrite insert_app_r_alt by done. by rewrite Hk.
Qed.

Lemma seq_step g x ops s l s' : seqinv x ops s -> astep g s l s' ->
  ((exists e, l = AAdd e \/ l = ADel e) -> all_returned s) -> seqinv x (ops_after ops l) s'.
Proof.
  intros (Hpn & Hsl & Hnow) Hs Hone.
  assert (Hstart : forall op, all_returned s -> forall pc h eps sv ps lg,
     s = Ast h eps sv ps (a_calls s) lg false ->
     (forall y, (listed s, a_served s) = y -> phase_ok y op pc (Ast h eps sv ps (a_calls s ++ [pc]) lg false)) ->
     now_ok x (ops ++ [op]) (Ast h eps sv ps (a_calls s ++ [pc]) lg false)).
  { intros op Hret pc h eps sv ps lg Es Hph. right. exists ops, op, (a_calls s), pc. split_and!; [done..| |].
    - by apply returned_Forall.
    - apply Hph. by apply now_returned. }
  destruct Hs; unfold ops_after; cbn [a_op option_list a_heap a_eps a_served a_pubs a_calls a_log a_panic] in *;
    rewrite ?app_nil_r.
  - split_and!; [done..|]. apply (Hstart (Ins e)); [eauto|done|]. intros y Hy. simpl. split_and!; [done..|]. by apply not_elem_of_nil.
  - split_and!; [done..|]. apply (Hstart (Rem e)); [eauto|done|]. intros y Hy. simpl. split_and!; [done..|]. by apply not_elem_of_nil.
  - split_and!; [done..|]. destruct Hnow as [?|(ops0 & op & cs' & pc & H)]; [by left|right].
    exists ops0, op, cs', pc. exact H.
  - split_and!; [done..|]. destruct Hnow as [?|(ops0 & op & cs' & pc & Hnow)]; [by left|right].
    exists ops0, op, cs', pc. exact Hnow.
  - split_and!; [done..|]. destruct Hnow as [(_ & Hr & _)|(ops0 & op & cs' & pc & -> & Hcs & Hd & Hph)].
    { exfalso. apply elem_of_list_lookup_2, Hr in H. done. }
    right. destruct (last_call _ _ _ _ _ Hd Hcs H) as [<- Hu]; [done|]. exists ops0, op, cs'. eexists. rewrite Hu. split_and!; [done..|].
    destruct op; simpl in Hph; [|done]. destruct Hph as (<- & -> & Hx & _). simpl. rewrite <- Hx. simpl.
    rewrite decide_True; [by rewrite Hx|]. unfold listed. simpl. eapply elem_of_list_lookup_2. rewrite contents_look by done. done.
  - split_and!; [done..|]. destruct Hnow as [(_ & Hr & _)|(ops0 & op & cs' & pc & -> & Hcs & Hd & Hph)].
    { exfalso. apply elem_of_list_lookup_2, Hr in H. done. }
    right. destruct (last_call _ _ _ _ _ Hd Hcs H) as [<- Hu]; [done|]. exists ops0, op, cs'. eexists. rewrite Hu. split_and!; [done..|].
    destruct op; simpl in Hph; [|done]. destruct Hph as (<- & -> & Hx & Hn). simpl. split_and!; [done..|].
    eapply not_in_S; [|done|done]. rewrite <- Hx. unfold listed. simpl. by rewrite contents_look.
  - split_and!; [done..|]. destruct Hnow as [(_ & Hr & _)|(ops0 & op & cs' & pc & -> & Hcs & Hd & Hph)].
    { exfalso. apply elem_of_list_lookup_2, Hr in H. done. }
    right. destruct (last_call _ _ _ _ _ Hd Hcs H) as [<- Hu]; [done|]. exists ops0, op, cs'. eexists. rewrite Hu. split_and!; [done..|].
    destruct op; simpl in Hph; [|done]. destruct Hph as (<- & -> & Hx & Hn). simpl. split_and!; [done..|].
    eapply not_in_all; [|exact Hn]. rewrite <- Hx. unfold listed. simpl. by rewrite contents_length.
  - split_and!; [done..|]. destruct Hnow as [(_ & Hr & _)|(ops0 & op & cs' & pc & -> & Hcs & Hd & Hph)].
    { exfalso. apply elem_of_list_lookup_2, Hr in H. done. }
    right. destruct (last_call _ _ _ _ _ Hd Hcs H) as [<- Hu]; [done|]. exists ops0, op, cs'. eexists. rewrite Hu. split_and!; [done..|].
    destruct op; simpl in Hph; [|done]. destruct Hph as (<- & Hx & Hn). simpl. rewrite <- Hx in *. done.
  - split_and!; [done..|]. destruct Hnow as [(_ & Hr & _)|(ops0 & op & cs' & pc & -> & Hcs & Hd & Hph)].
    { exfalso. apply elem_of_list_lookup_2, Hr in H. done. }
    right. destruct (last_call _ _ _ _ _ Hd Hcs H) as [<- Hu]; [done|]. exists ops0, op, cs'. eexists. rewrite Hu. split_and!; [done..|].
    destruct op; simpl in Hph; [|done]. destruct Hph as (<- & Hx & Hn). simpl. done.
  - destruct Hnow as [(_ & Hr & _)|(ops0 & op & cs' & pc & -> & Hcs & Hd & Hph)].
    { exfalso. apply elem_of_list_lookup_2, Hr in H. done. }
    destruct (last_call _ _ _ _ _ Hd Hcs H) as [<- Hu]; [done|].
    destruct op; simpl in Hph; [|done]. destruct Hph as (<- & -> & Hx & Hv & Hn).
    destruct (append1_spec _ _ _ _ _ _ Hsl H0) as (Hok & Hcon & _ & _ & Hsame).
    destruct (Hsame eps Hsl ltac:(done)) as (Hok' & Hcon' & _).
    split_and!; [done..|]. right. exists ops0, (Ins e), cs'. eexists. rewrite Hu. split_and!; [done..|].
    simpl. unfold listed in *. simpl in *. rewrite Hcon', Hcon, Hx. done.
  - destruct Hnow as [(_ & Hr & _)|(ops0 & op & cs' & pc & -> & Hcs & Hd & Hph)].
    { exfalso. apply elem_of_list_lookup_2, Hr in H. done. }
    destruct (last_call _ _ _ _ _ Hd Hcs H) as [<- Hu]; [done|].
    destruct op; simpl in Hph; [|done]. destruct Hph as (<- & Hx & Hv & Hn & Hok & Hcon).
    split_and!; [done..|]. right. exists ops0, (Ins e), cs'. eexists. rewrite Hu. split_and!; [done..|].
    simpl. rewrite decide_False by done. unfold listed. simpl. rewrite Hcon. by rewrite <- Hv.
  - split_and!; [done..|]. destruct Hnow as [(_ & Hr & _)|(ops0 & op & cs' & pc & -> & Hcs & Hd & Hph)].
    { exfalso. apply elem_of_list_lookup_2, Hr in H. done. }
    right. destruct (last_call _ _ _ _ _ Hd Hcs H) as [<- Hu]; [done|]. exists ops0, op, cs'. eexists. rewrite Hu. split_and!; [done..|].
    destruct op; simpl in Hph; [done|]. destruct Hph as (<- & -> & Hx & Hn). simpl. split_and!; [done..|].
    eapply not_in_S; [|done|done]. rewrite <- Hx. unfold listed. simpl. by rewrite contents_look.
  - split_and!; [done..|]. destruct Hnow as [(_ & Hr & _)|(ops0 & op & cs' & pc & -> & Hcs & Hd & Hph)].
    { exfalso. apply elem_of_list_lookup_2, Hr in H. done. }
    right. destruct (last_call _ _ _ _ _ Hd Hcs H) as [<- Hu]; [done|]. exists ops0, op, cs'. eexists. rewrite Hu. split_and!; [done..|].
    destruct op; simpl in Hph; [done|]. destruct Hph as (<- & -> & Hx & Hn). simpl.
    rewrite index_of_None; [done|].
    eapply not_in_all; [|exact Hn]. rewrite <- Hx. unfold listed. simpl. by rewrite contents_length.
  - split_and!; [done..|]. destruct Hnow as [(_ & Hr & _)|(ops0 & op & cs' & pc & -> & Hcs & Hd & Hph)].
    { exfalso. apply elem_of_list_lookup_2, Hr in H. done. }
    right. destruct (last_call _ _ _ _ _ Hd Hcs H) as [<- Hu]; [done|]. exists ops0, op, cs'. eexists. rewrite Hu. split_and!; [done..|].
    destruct op; simpl in Hph; [done|]. destruct Hph as (<- & -> & Hx & Hn). simpl. split_and!; [done..|].
    apply index_first; [|done]. rewrite <- Hx. unfold listed. simpl. by rewrite contents_look.
  - split_and!; [done..|]. destruct Hnow as [(_ & Hr & _)|(ops0 & op & cs' & pc & -> & Hcs & Hd & Hph)].
    { exfalso. apply elem_of_list_lookup_2, Hr in H. done. }
    right. destruct (last_call _ _ _ _ _ Hd Hcs H) as [<- Hu]; [done|]. exists ops0, op, cs'. eexists. rewrite Hu. split_and!; [done..|].
    destruct op; simpl in Hph; [done|]. destruct Hph as (<- & Hx & Hn). simpl. rewrite <- Hx in *. done.
  - split_and!; [done..|]. destruct Hnow as [(_ & Hr & _)|(ops0 & op & cs' & pc & -> & Hcs & Hd & Hph)].
    { exfalso. apply elem_of_list_lookup_2, Hr in H. done. }
    right. destruct (last_call _ _ _ _ _ Hd Hcs H) as [<- Hu]; [done|]. exists ops0, op, cs'. eexists. rewrite Hu. split_and!; [done..|].
    destruct op; simpl in Hph; [done|]. destruct Hph as (<- & Hx & Hn). simpl. done.
  - destruct Hnow as [(_ & Hr & _)|(ops0 & op & cs' & pc & -> & Hcs & Hd & Hph)].
    { exfalso. apply elem_of_list_lookup_2, Hr in H. done. }
    destruct (last_call _ _ _ _ _ Hd Hcs H) as [<- Hu]; [done|].
    destruct op; simpl in Hph; [done|]. destruct Hph as (<- & -> & Hx & Hv & Hn).
    pose proof (index_of_spec e (fst (foldl both_step x ops0))) as Hi. rewrite Hn in Hi. destruct Hi as [Hi _].
    rewrite <- Hx in Hi. unfold listed in Hi. simpl in Hi. apply contents_Some in Hi as [Hi _].
    destruct (remove_at_spec _ _ _ Hsl Hi) as (h2 & s2 & E & Hok & _ & _ & Hcon & _ & Hok2 & _).
    rewrite H0 in E. injection E as <- <-.
    split_and!; [done..|]. right. exists ops0, (Rem e), cs'. eexists. rewrite Hu. split_and!; [done..|].
    simpl. split_and!; [done..|]. exists i. split; [done|]. rewrite Hcon. unfold listed in Hx. simpl in Hx. by rewrite Hx.
  - exfalso. destruct Hnow as [(_ & Hr & _)|(ops0 & op & cs' & pc & -> & Hcs & Hd & Hph)].
    { exfalso. apply elem_of_list_lookup_2, Hr in H. done. }
    destruct (last_call _ _ _ _ _ Hd Hcs H) as [<- Hu]; [done|].
    destruct op; simpl in Hph; [done|]. destruct Hph as (<- & -> & Hx & Hv & Hn).
    pose proof (index_of_spec e (fst (foldl both_step x ops0))) as Hi. rewrite Hn in Hi. destruct Hi as [Hi _].
    rewrite <- Hx in Hi. unfold listed in Hi. simpl in Hi. apply contents_Some in Hi as [Hi _].
    destruct (remove_at_spec _ _ _ Hsl Hi) as (h2 & s2 & E & _). congruence.
  - destruct Hnow as [(_ & Hr & _)|(ops0 & op & cs' & pc & -> & Hcs & Hd & Hph)].
    { exfalso. apply elem_of_list_lookup_2, Hr in H. done. }
    destruct (last_call _ _ _ _ _ Hd Hcs H) as [<- Hu]; [done|].
    destruct op; simpl in Hph; [done|]. destruct Hph as (<- & Hv & Hok & i & Hi & Hcon).
    split_and!; [done..|]. right. exists ops0, (Rem e), cs'. eexists. rewrite Hu. split_and!; [done..|].
    simpl. rewrite Hi. unfold listed. simpl. rewrite Hcon. by rewrite <- Hv.
Qed.

Lemma seq_run g s0 ls s : a_panic s0 = false -> sl_ok (a_heap s0) (a_eps s0) -> all_returned s0 ->
  orun g s0 ls s -> seqinv (listed s0, a_served s0) (omap a_op ls) s.
Proof.
  intros H1 H2 H3. induction 1 as [|ls s1 l s2 _ IH Hs Hone].
  - split_and!; [done..|]. by left.
  - rewrite omap_snoc. by eapply seq_step.
Qed.
Lemma seq_returned g s0 ls s : a_panic s0 = false -> sl_ok (a_heap s0) (a_eps s0) -> all_returned s0 ->
  orun g s0 ls s -> all_returned s ->
  a_panic s = false /\ (listed s, a_served s) = foldl both_step (listed s0, a_served s0) (omap a_op ls).
Proof.
  intros H1 H2 H3 Hr Hret. destruct (seq_run _ _ _ _ H1 H2 H3 Hr) as (? & _ & Hn). split; [done|]. by apply now_returned.
Qed.
Lemma both_list x ops : fst (foldl both_step x ops) = foldl set_step (fst x) ops.
Proof.
  revert x. induction ops as [|op ops IH]; intros x; [done|]. cbn [foldl]. rewrite IH. f_equal.
  destruct op as [e|e]; simpl.
  - by case_decide.
  - by destruct (index_of e (fst x)).
Qed.
Lemma both_served ops : forall y, y ∈ snd (foldl both_step ([], []) ops) <-> y ∈ fst (foldl both_step ([], []) ops).
Proof.
  induction ops as [|op ops IH] using rev_ind; intros y; [done|].
  pose proof (set_step_in_order ops) as Ho. apply in_order_nodup in Ho.
  rewrite foldl_app. simpl. pose proof (both_list ([], []) ops) as Hl. simpl in Hl. rewrite <- Hl in Ho. clear Hl.
  destruct (foldl both_step ([], []) ops) as [l sv]; simpl in *. destruct op as [e|e]; simpl.
  - case_decide as He; [done|]. simpl. rewrite elem_of_app, elem_of_list_singleton, <- IH. unfold accept.
    case_decide as Hs; [|by rewrite elem_of_app, elem_of_list_singleton]. split; [by left|]. intros [?| ->]; done.
  - pose proof (index_of_spec e l) as Hi. destruct (index_of e l) as [i|]; [|done]. simpl. destruct Hi as [Hi _].
    rewrite (drop_at_elem _ _ _ Ho Hi). unfold dismiss. rewrite elem_of_list_filter, IH. naive_solver.
Qed.
