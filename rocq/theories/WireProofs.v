(** * Proofs about sending on a connection *)
From Verif Require Import GoBase UBufModel UBufSpec FrameModel FrameSpec FrameProofs WireModel WireSpec.
From stdpp Require Import sets.

Lemma xrun_app s l1 s1 l2 s2 : xrun s l1 s1 -> xrun s1 l2 s2 -> xrun s (l1 ++ l2) s2.
Proof.
  intros H1 H2. induction H2 as [|ls s3 l s4 _ IH Hs]; [by rewrite app_nil_r|].
  rewrite app_assoc. by eapply xr_snoc.
Qed.
Lemma xrun_one s l s' : xstep s l s' -> xrun s [l] s'.
Proof. intros. apply (xr_snoc s [] s l s'); [constructor|done]. Qed.
Lemma xrun_cons s l s1 ls s2 : xstep s l s1 -> xrun s1 ls s2 -> xrun s (l :: ls) s2.
Proof. intros H1 H2. apply (xrun_app s [l] s1); [by apply xrun_one|done]. Qed.

Lemma asked_app g l1 l2 : asked g (l1 ++ l2) = asked g l1 ++ asked g l2.
Proof. apply omap_app. Qed.
Lemma of_sender_app {A} g (l1 l2 : list (nat * A)) : of_sender g (l1 ++ l2) = of_sender g l1 ++ of_sender g l2.
Proof. apply omap_app. Qed.
Lemma asked_same g m : m <> [] -> asked g [XCall g m] = [m].
Proof. intros. unfold asked. simpl. by rewrite decide_True. Qed.
Lemma asked_other g x m : x <> g -> asked g [XCall x m] = [].
Proof. intros. unfold asked. simpl. by rewrite decide_False by naive_solver. Qed.
Lemma of_same {A} g (m : A) : of_sender g [(g, m)] = [m].
Proof. unfold of_sender. simpl. by rewrite decide_True. Qed.
Lemma of_other {A} g x (m : A) : x <> g -> of_sender g [(x, m)] = [].
Proof. intros. unfold of_sender. simpl. by rewrite decide_False. Qed.

(** ** The wire *)
Definition xinv (ls : list xlab) (s : xst) (o : list (nat * list byte)) (t : list byte) : Prop :=
  x_wire s = concat (snd <$> o) ++ t /\
  (forall g, exists r, asked g ls = of_sender g o ++ r) /\
  (x_error s = false -> t = []) /\
  (t = [] \/ exists g m r, cut_off t m /\ asked g ls = of_sender g o ++ m :: r) /\
  (forall g m, x_error s = false -> x_at s g = XWriting m -> asked g ls = of_sender g o ++ [m]) /\
  (forall g, x_error s = false -> x_closed s = false -> asked g ls = of_sender g o ++ under_way g s) /\
  (forall g m, x_at s g = XChecking m \/ x_at s g = XWriting m -> m <> []).

Lemma xinv_run ls s : xrun new_wire ls s -> exists o t, xinv ls s o t.
Proof.
  intros H. induction H as [|ls s1 l s2 Hr IH Hs].
  { exists [], []. split_and!; try done; [intros g; by exists []|by left|naive_solver]. }
  destruct IH as (o & t & Hw & Hp & Ht & Hc & Hwr & Hall & Hne).
  inversion Hs; subst; simpl in *.
  - exists o, t. assert (forall x, asked x (ls ++ [XCall g []]) = asked x ls) as E.
    { intros x. rewrite asked_app. unfold asked at 2. simpl. rewrite decide_False by naive_solver. apply app_nil_r. }
    split_and!; try done; intros; rewrite ?E; eauto.
    destruct Hc as [?|(g' & m & r & ? & ?)]; [by left|right; exists g', m, r; by rewrite E].
  - exists o, t.
    assert (forall x, x <> g -> asked x (ls ++ [XCall g m]) = asked x ls) as E.
    { intros x Hx. rewrite asked_app, asked_other by done. apply app_nil_r. }
    assert (asked g (ls ++ [XCall g m]) = asked g ls ++ [m]) as E'.
    { by rewrite asked_app, asked_same. }
    split_and!; try done.
    + intros x. destruct (Hp x) as [r Hr']. destruct (decide (x = g)) as [->|].
      * exists (r ++ [m]). by rewrite E', Hr', app_assoc.
      * exists r. by rewrite E.
    + destruct Hc as [?|(g' & m' & r & ? & Hr')]; [by left|right].
      destruct (decide (g' = g)) as [->|].
      * exists g, m', (r ++ [m]). split; [done|]. by rewrite E', Hr', <- app_assoc.
      * exists g', m', r. split; [done|]. by rewrite E.
    + intros x m' He. simpl; unfold insert, fn_insert. case_decide; subst; [done|]. intros Hx. rewrite E by done. by apply Hwr.
    + intros x He Hcl. unfold under_way; simpl. simpl; unfold insert, fn_insert. case_decide; subst.
      * rewrite E'. rewrite Hall by done. unfold under_way; simpl. rewrite H. by rewrite app_nil_r.
      * rewrite E by done. by apply Hall.
    + intros x m'. simpl; unfold insert, fn_insert. case_decide; subst; [|apply Hne]. intros [Hx|Hx]; simplify_eq; done.
  - exists o, t.
    assert (forall x, asked x (ls ++ [XDrop g m]) = asked x ls) as E by (intros x; rewrite asked_app; apply app_nil_r).
    split_and!; try done; intros; rewrite ?E; eauto.
    + destruct Hc as [?|(g' & m' & r & ? & ?)]; [by left|right; exists g', m', r; by rewrite E].
    + revert H1. simpl; unfold insert, fn_insert. case_decide; subst; [done|]. intros. by apply Hwr.
    + revert H0. simpl; unfold insert, fn_insert. case_decide; subst; [naive_solver|]. apply Hne.
  - exists o, t.
    assert (forall x, asked x (ls ++ [XGo g]) = asked x ls) as E by (intros x; rewrite asked_app; apply app_nil_r).
    split_and!; try done; intros; rewrite ?E; eauto.
    + destruct Hc as [?|(g' & m' & r & ? & ?)]; [by left|right; exists g', m', r; by rewrite E].
    + revert H1. simpl; unfold insert, fn_insert. case_decide; subst; [|intros; by apply Hwr]. intros; simplify_eq.
      rewrite Hall by done. unfold under_way; simpl. by rewrite H.
    + unfold under_way; simpl. simpl; unfold insert, fn_insert. case_decide; subst; [|by apply Hall].
      rewrite Hall by done. unfold under_way; simpl. by rewrite H.
    + revert H0. simpl; unfold insert, fn_insert. case_decide; subst; [|apply Hne]. intros [?|?]; simplify_eq. eapply Hne. by left.
  - exists (o ++ [(g, m)]), []. rewrite (Ht eq_refl), app_nil_r in Hw.
    assert (forall x, asked x (ls ++ [XWrite g m]) = asked x ls) as E by (intros x; rewrite asked_app; apply app_nil_r).
    assert (asked g ls = of_sender g o ++ [m]) as Eg by by apply Hwr.
    assert (forall x, x <> g -> of_sender x (o ++ [(g, m)]) = of_sender x o) as Eo.
    { intros x Hx. rewrite of_sender_app, of_other by done. apply app_nil_r. }
    split_and!; try done.
    + rewrite Hw, fmap_app, concat_app. simpl. by rewrite !app_nil_r.
    + intros x. rewrite E. destruct (decide (x = g)) as [->|].
      * exists []. by rewrite of_sender_app, of_same, app_nil_r.
      * rewrite Eo by done. apply Hp.
    + by left.
    + intros x m' _. simpl; unfold insert, fn_insert. case_decide; subst; [done|]. intros Hx. rewrite E, Eo by done. by apply Hwr.
    + intros x _ Hcl. rewrite E. unfold under_way; simpl. simpl; unfold insert, fn_insert. case_decide; subst.
      * by rewrite of_sender_app, of_same, app_nil_r.
      * rewrite Eo by done. by apply Hall.
    + intros x m'. simpl; unfold insert, fn_insert. case_decide; subst; [naive_solver|]. apply Hne.
  - assert (forall x, asked x (ls ++ [XFail g m k]) = asked x ls) as E by (intros x; rewrite asked_app; apply app_nil_r).
    assert (forall x m', <[g:=XFailed]> at_ x = XChecking m' \/ <[g:=XFailed]> at_ x = XWriting m' -> m' <> []) as Hne'.
    { intros x m'. simpl; unfold insert, fn_insert. case_decide; subst; [naive_solver|]. apply Hne. }
    destruct (decide (er = true)) as [->|Her].
    + assert (k = 0) as -> by (apply H1; by rewrite orb_true_r). exists o, t. split_and!; simpl; try done.
      * by rewrite app_nil_r.
      * intros x. rewrite E. apply Hp.
      * destruct Hc as [?|(g' & m' & r & ? & ?)]; [by left|right; exists g', m', r; by rewrite E].
    + apply not_true_is_false in Her. subst er. rewrite (Ht eq_refl), app_nil_r in Hw.
      exists o, (take k m). split_and!; simpl; try done.
      * by rewrite Hw.
      * intros x. rewrite E. apply Hp.
      * right. exists g, m, []. split; [by exists k|]. rewrite E. by apply Hwr.
  - exists o, t.
    assert (forall x, asked x (ls ++ [XMark g]) = asked x ls) as E by (intros x; rewrite asked_app; apply app_nil_r).
    split_and!; try done; intros; rewrite ?E; eauto.
    + destruct Hc as [?|(g' & m' & r & ? & ?)]; [by left|right; exists g', m', r; by rewrite E].
    + revert H1. simpl; unfold insert, fn_insert. case_decide; subst; [done|]. intros. by apply Hwr.
    + revert H0. simpl; unfold insert, fn_insert. case_decide; subst; [naive_solver|]. apply Hne.
  - exists o, t.
    assert (forall x, asked x (ls ++ [XShutdown g]) = asked x ls) as E by (intros x; rewrite asked_app; apply app_nil_r).
    split_and!; try done; intros; rewrite ?E; eauto.
    + destruct Hc as [?|(g' & m' & r & ? & ?)]; [by left|right; exists g', m', r; by rewrite E].
    + revert H1. simpl; unfold insert, fn_insert. case_decide; subst; [done|]. intros. by apply Hwr.
    + unfold under_way; simpl. simpl; unfold insert, fn_insert. case_decide; subst; [|by apply Hall].
      rewrite Hall by done. unfold under_way; simpl. by rewrite H.
    + revert H0. simpl; unfold insert, fn_insert. case_decide; subst; [naive_solver|]. apply Hne.
  - exists o, t.
    assert (forall x, asked x (ls ++ [XPublish g]) = asked x ls) as E by (intros x; rewrite asked_app; apply app_nil_r).
    split_and!; try done; intros; rewrite ?E; eauto.
    + destruct Hc as [?|(g' & m' & r & ? & ?)]; [by left|right; exists g', m', r; by rewrite E].
    + revert H1. simpl; unfold insert, fn_insert. case_decide; subst; [done|]. intros. by apply Hwr.
    + unfold under_way; simpl. simpl; unfold insert, fn_insert. case_decide; subst; [|by apply Hall].
      rewrite Hall by done. unfold under_way; simpl. by rewrite H.
    + revert H0. simpl; unfold insert, fn_insert. case_decide; subst; [naive_solver|]. apply Hne.
  - exists o, t.
    assert (forall x, asked x (ls ++ [XClose]) = asked x ls) as E by (intros x; rewrite asked_app; apply app_nil_r).
    split_and!; try done; intros; rewrite ?E; eauto.
    destruct Hc as [?|(g' & m' & r & ? & ?)]; [by left|right; exists g', m', r; by rewrite E].
  - exists o, t.
    assert (forall x, asked x (ls ++ [XCloseConn]) = asked x ls) as E by (intros x; rewrite asked_app; apply app_nil_r).
    split_and!; try done; intros; rewrite ?E; eauto.
    destruct Hc as [?|(g' & m' & r & ? & ?)]; [by left|right; exists g', m', r; by rewrite E].
Qed.

Lemma whole_in_order ls s : xrun new_wire ls s -> exists o t, x_wire s = concat (snd <$> o) ++ t /\
  (forall g, of_sender g o `prefix_of` asked g ls) /\
  (t = [] \/ exists g m, cut_off t m /\ of_sender g o ++ [m] `prefix_of` asked g ls).
Proof.
  intros H. destruct (xinv_run _ _ H) as (o & t & Hw & Hp & _ & Hc & _). exists o, t. split; [done|]. split.
  - intros g. destruct (Hp g) as [r E]. by exists r.
  - destruct Hc as [?|(g & m & r & ? & E)]; [by left|right]. exists g, m. split; [done|]. exists r.
    rewrite <- app_assoc. done.
Qed.

(** ** Nothing fails *)
Lemma quiet_state ls s : xrun new_wire ls s -> Forall quiet ls ->
  x_closed s = false /\ x_down s = false /\ x_error s = false /\
  (forall g, x_at s g <> XFailed /\ x_at s g <> XMarked /\ x_at s g <> XShut).
Proof.
  intros H Hq. induction H as [|ls s1 l s2 Hr IH Hs]; [done|].
  apply Forall_app in Hq as [Hq Hl]. apply Forall_inv in Hl.
  destruct (IH Hq) as (H1 & H2 & H3 & H4). clear IH.
  inversion Hs; subst; simpl in *; try done; split_and!; try done;
    try (intros x; simpl; unfold insert, fn_insert; case_decide; [split_and!; done|apply H4]).
  all: exfalso; match goal with H : ?f ?x = _ |- _ => destruct (H4 x) as (? & ? & ?); congruence end.
Qed.
Lemma quiet_sent ls s : xrun new_wire ls s -> Forall quiet ls ->
  exists o, x_wire s = concat (snd <$> o) /\ x_events s = [] /\ forall g, asked g ls = of_sender g o ++ under_way g s.
Proof.
  intros H Hq. destruct (quiet_state _ _ H Hq) as (H1 & H2 & H3 & H4).
  destruct (xinv_run _ _ H) as (o & t & Hw & Hp & Ht & Hc & Hwr & Hall & _).
  exists o. split; [by rewrite Hw, Ht, app_nil_r|]. split; [|intros g; by apply Hall].
  clear -H Hq. induction H as [|ls s1 l s2 Hr IH Hs]; [done|].
  apply Forall_app in Hq as [Hq Hl]. destruct (quiet_state _ _ Hr Hq) as (_ & _ & _ & H4).
  specialize (IH Hq). inversion Hs; subst; simpl in *; try done. exfalso. destruct (H4 g) as (_ & _ & H5). done.
Qed.

(** ** Failures are reported *)
Lemma reported ls s g : xrun new_wire ls s -> failures g ls = reports g s + reporting g s.
Proof.
  intros H. induction H as [|ls s1 l s2 Hr IH Hs]; [done|].
  unfold failures in *. rewrite omap_app, app_length, IH. clear IH.
  unfold reports, reporting. inversion Hs; subst; simpl in *; rewrite ?Nat.add_0_r; try done;
    simpl; unfold insert, fn_insert;
    try (case_decide as E; [subst; rewrite ?H; simpl; lia|done]).
  rewrite omap_app, app_length. simpl. case_decide as E; [subst; rewrite H; simpl; lia|simpl; lia].
Qed.
Lemma report_comes s g : xreach s -> reporting g s = 1 ->
  exists ls s', xrun s ls s' /\ Forall (fun l => l = XMark g \/ l = XShutdown g \/ l = XPublish g) ls /\
    reports g s' = reports g s + 1 /\ reporting g s' = 0.
Proof.
  intros _ H. unfold reporting in H. destruct s as [cl dn er at_ w ev]; simpl in *.
  assert (forall cl dn at_, at_ g = XShut -> exists s', xrun (Xst cl dn er at_ w ev) [XPublish g] s' /\
    reports g s' = reports g (Xst cl dn er at_ w ev) + 1 /\ reporting g s' = 0) as H3.
  { intros cl' dn' at' Hg. eexists. split; [apply xrun_one; by apply xk_publish|]. split.
    - unfold reports; simpl. rewrite omap_app, app_length. simpl. by rewrite decide_True.
    - unfold reporting; simpl. by rewrite fn_lookup_insert. }
  assert (forall cl dn at_, at_ g = XMarked -> exists s', xrun (Xst cl dn er at_ w ev) [XShutdown g; XPublish g] s' /\
    reports g s' = reports g (Xst cl dn er at_ w ev) + 1 /\ reporting g s' = 0) as H2.
  { intros cl' dn' at' Hg. edestruct (H3 cl' true (<[g:=XShut]> at')) as (s' & Hr & Ha & Hb); [by rewrite fn_lookup_insert|].
    exists s'. split; [eapply xrun_cons; [by apply xk_shut|done]|done]. }
  destruct (at_ g) eqn:Eg; try done.
  - edestruct (H2 true dn (<[g:=XMarked]> at_)) as (s' & Hr & Ha & Hb); [by rewrite fn_lookup_insert|].
    exists [XMark g; XShutdown g; XPublish g], s'. split; [eapply xrun_cons; [by apply xk_mark|done]|]. split; [|done].
    rewrite !Forall_cons, Forall_nil. naive_solver.
  - destruct (H2 cl dn at_ Eg) as (s' & Hr & Ha & Hb). exists [XShutdown g; XPublish g], s'. split; [done|]. split; [|done].
    rewrite !Forall_cons, Forall_nil. naive_solver.
  - destruct (H3 cl dn at_ Eg) as (s' & Hr & Ha & Hb). exists [XPublish g], s'. split; [done|]. split; [|done].
    rewrite !Forall_cons, Forall_nil. naive_solver.
Qed.

(** ** After the connection was closed *)
Lemma lost_silently s ls s' : x_closed s = true -> (forall g, x_at s g = XIdle) -> xrun s ls s' ->
  x_wire s' = x_wire s /\ x_events s' = x_events s.
Proof.
  intros Hc Hi H.
  assert (x_closed s' = true /\ (forall g, x_at s' g = XIdle \/ exists m, x_at s' g = XChecking m) /\
    x_wire s' = x_wire s /\ x_events s' = x_events s) as (_ & _ & ? & ?); [|done].
  induction H as [|ls s1 l s2 Hr IH Hs]; [by eauto 10|].
  destruct IH as (H1 & H2 & H3 & H4).
  assert (forall g, x_at s1 g <> XFailed /\ x_at s1 g <> XMarked /\ x_at s1 g <> XShut /\ forall m, x_at s1 g <> XWriting m) as H5.
  { intros g. destruct (H2 g) as [E|[m E]]; rewrite E; done. }
  inversion Hs; subst; simpl in *; try done; split_and!; try done;
    try (intros x; simpl; unfold insert, fn_insert; case_decide; eauto);
    exfalso; destruct (H5 g) as (? & ? & ? & Hm); try congruence; by eapply Hm.
Qed.
Lemma dropped s g m : x_closed s = true -> x_at s g = XIdle -> m <> [] ->
  exists s', xrun s [XCall g m; XDrop g m] s' /\ x_at s' g = XIdle /\ x_wire s' = x_wire s /\ x_events s' = x_events s.
Proof.
  intros Hc Hi Hm. destruct s as [cl dn er at_ w ev]; simpl in *; subst cl. eexists. split.
  - eapply xrun_cons; [by apply xk_call|]. apply xrun_one. apply xk_drop. by rewrite fn_lookup_insert.
  - simpl. by rewrite fn_lookup_insert.
Qed.

(** ** Frames on the wire *)
Lemma frames_cons p ps : frames (p :: ps) = frame p ++ frames ps.
Proof. done. Qed.
Lemma frame_front p q x y : (Z.of_nat (length p) < 2^32)%Z -> (Z.of_nat (length q) < 2^32)%Z ->
  frame p ++ x = frame q ++ y -> p = q /\ x = y.
Proof.
  intros Hp Hq E. assert (length p = length q) as El.
  { apply Nat2Z.inj. rewrite <- (frame_announced p x Hp), <- (frame_announced q y Hq). by rewrite E. }
  assert (p = q) as ->.
  { rewrite <- (frame_payload p x), <- (frame_payload q y), El, E. done. }
  split; [done|]. by eapply app_inv_head.
Qed.
Lemma frames_prefix ps : Forall payload_ok ps -> forall qs t, Forall payload_ok qs ->
  (t = [] \/ exists q, payload_ok q /\ cut_off t (frame q)) ->
  frames ps `prefix_of` frames qs ++ t -> ps `prefix_of` qs.
Proof.
  induction 1 as [|p ps [Hp Hp'] _ IH]; intros qs t Hqs Ht [x Hx]; [apply prefix_nil|].
  rewrite frames_cons, <- app_assoc in Hx.
  destruct qs as [|q qs]; [change (frames [] ++ t) with t in Hx|rewrite frames_cons in Hx].
  - exfalso. destruct Ht as [->|(q & [Hq Hq'] & k & Hk & ->)].
    + apply (f_equal length) in Hx. rewrite app_length, frame_length in Hx. simpl in Hx. lia.
    + assert (length (take k (frame q)) = length (frame p ++ frames ps ++ x)) as El by (by rewrite Hx).
      rewrite app_length, frame_length, take_length_le in El by lia.
      assert (frame q ++ [] = frame p ++ (frames ps ++ x) ++ drop k (frame q)) as E.
      { rewrite app_nil_r, app_assoc, <- Hx. by rewrite take_drop. }
      apply frame_front in E as [-> _]; [|done|done]. rewrite frame_length in Hk. lia.
  - apply Forall_cons in Hqs as [[Hq Hq'] Hqs].
    rewrite <- app_assoc in Hx. apply frame_front in Hx as [<- Hx]; [|done|done].
    apply prefix_cons. apply (IH qs t Hqs Ht). by exists x.
Qed.

Lemma elem_of_sender {A} g (o : list (nat * A)) m : (g, m) ∈ o -> m ∈ of_sender g o.
Proof.
  intros H. unfold of_sender. apply elem_of_list_omap. exists (g, m). split; [done|]. simpl. by rewrite decide_True.
Qed.
Lemma unframe (o : list (nat * list byte)) : (forall g m, (g, m) ∈ o -> exists p, payload_ok p /\ m = frame p) ->
  exists o', o = (fun x => (fst x, frame (snd x))) <$> o' /\ Forall payload_ok (snd <$> o').
Proof.
  induction o as [|[g m] o IH]; intros H; [exists []; split; [done|constructor]|].
  destruct IH as (o' & -> & Hf); [intros x m' Hx; apply (H x); by right|].
  destruct (H g m) as (p & Hp & ->); [by left|]. exists ((g, p) :: o'). split; [done|]. simpl. by constructor.
Qed.
Lemma of_sender_fmap {A B} (f : A -> B) g (o : list (nat * A)) :
  of_sender g ((fun x => (fst x, f (snd x))) <$> o) = f <$> of_sender g o.
Proof.
  unfold of_sender. induction o as [|[x a] o IH]; [done|]. simpl. case_decide; simpl; [f_equal|]; apply IH.
Qed.
Lemma of_sender_prefix {A} g (o o' : list (nat * A)) : o `prefix_of` o' -> of_sender g o `prefix_of` of_sender g o'.
Proof. intros [r ->]. rewrite of_sender_app. by eexists. Qed.

Lemma handed_up fuel k mtu c pss ls s : xrun new_wire ls s ->
  (forall g m, m ∈ asked g ls -> exists p, payload_ok p /\ m = frame p) ->
  idle k c -> 0 < k -> Forall (Forall payload_ok) pss ->
  Forall (fun ps => length (frames ps) <= mtu /\ (Z.of_nat (length (frames ps)) < 2^32)%Z /\
                    length (frames ps) < fuel) pss ->
  concat (frames <$> pss) `prefix_of` x_wire s ->
  exists c' o, fd_feed fuel mtu c (frames <$> pss) = Some (pss, c', false) /\ idle k c' /\
    concat pss = snd <$> o /\ forall g, frame <$> of_sender g o `prefix_of` asked g ls.
Proof.
  intros H Hm Hi Hk Hps Hsz Hpre.
  destruct (feed_frames fuel k mtu c pss Hi Hk Hps Hsz) as (c' & Hfeed & Hi').
  destruct (whole_in_order _ _ H) as (o0 & t & Hw & Hp & Ht).
  destruct (unframe o0) as (o & -> & Hok).
  { intros g m Hin. apply (Hm g). destruct (Hp g) as [r ->]. apply elem_of_app. left. by apply elem_of_sender. }
  assert (frames (concat pss) `prefix_of` frames (snd <$> o) ++ t) as Hpre'.
  { replace (frames (concat pss)) with (concat (frames <$> pss)).
    - rewrite Hw in Hpre. unfold frames at 2. rewrite <- list_fmap_compose. rewrite <- list_fmap_compose in Hpre. exact Hpre.
    - clear. induction pss as [|ps pss IH]; [done|]. 
      change (concat (frames <$> ps :: pss)) with (frames ps ++ concat (frames <$> pss)). rewrite IH.
      change (concat (ps :: pss)) with (ps ++ concat pss). unfold frames. by rewrite fmap_app, concat_app. }
  apply frames_prefix in Hpre'; [|by apply Forall_concat|done|].
  2:{ destruct Ht as [->|(g & m & Hcut & r & E)]; [by left|right].
      destruct (Hm g m) as (q & Hq & ->); [rewrite E; set_solver|]. by exists q. }
  exists c', (take (length (concat pss)) o). split; [done|]. split; [done|]. split.
  - rewrite fmap_take. destruct Hpre' as [r ->]. by rewrite take_app.
  - intros g. etrans; [|apply (Hp g)]. rewrite of_sender_fmap.
    destruct (of_sender_prefix g (take (length (concat pss)) o) o) as [r E].
    + exists (drop (length (concat pss)) o). by rewrite take_drop.
    + rewrite E, fmap_app. by eexists.
Qed.

(** ** Sending goes on, and ends *)
Lemma quiet_sends ls s g : xrun new_wire ls s -> Forall quiet ls -> forall m, m <> [] -> x_at s g = XIdle ->
  exists s', xrun s [XCall g m; XGo g; XWrite g m] s' /\ x_wire s' = x_wire s ++ m /\ x_at s' g = XIdle.
Proof.
  intros H Hq m Hm Hi. destruct (quiet_state _ _ H Hq) as (H1 & H2 & H3 & _). destruct s as [cl dn er a w ev]. simpl in *. subst.
  eexists. split.
  - eapply xrun_cons; [by apply xk_call|]. eapply xrun_cons; [apply xk_go; by rewrite fn_lookup_insert|].
    apply xrun_one. apply xk_write. by rewrite fn_lookup_insert.
  - simpl. by rewrite fn_lookup_insert.
Qed.
Lemma quiet_finishes ls s g : xrun new_wire ls s -> Forall quiet ls -> forall m, under_way g s = [m] ->
  exists ms s', xrun s ms s' /\ ms `suffix_of` [XGo g; XWrite g m] /\ x_wire s' = x_wire s ++ m /\ under_way g s' = [].
Proof.
  intros H Hq m Hu. destruct (quiet_state _ _ H Hq) as (H1 & H2 & H3 & _). destruct s as [cl dn er a w ev]. simpl in *. subst.
  unfold under_way in Hu. simpl in Hu. destruct (a g) as [|m'|m'| | |] eqn:E; try done; injection Hu as ->.
  - eexists [XGo g; XWrite g m], _. split_and!; [|done| |].
    + eapply xrun_cons; [by apply xk_go|]. apply xrun_one. apply xk_write. by rewrite fn_lookup_insert.
    + done.
    + unfold under_way. simpl. by rewrite fn_lookup_insert.
  - eexists [XWrite g m], _. split_and!; [|by exists [XGo g]| |].
    + apply xrun_one. by apply xk_write.
    + done.
    + unfold under_way. simpl. by rewrite fn_lookup_insert.
Qed.
Lemma xrun_split s l1 l2 s2 : xrun s (l1 ++ l2) s2 -> exists s1, xrun s l1 s1 /\ xrun s1 l2 s2.
Proof.
  revert s2. induction l2 as [|l l2 IH] using rev_ind; intros s2 H.
  - rewrite app_nil_r in H. exists s2. split; [done|constructor].
  - rewrite app_assoc in H. inversion H as [E|ls s1 l' s2' H1 H2 E]; [by destruct (l1 ++ l2)|].
    apply app_inj_tail in E as [-> ->]. subst. destruct (IH _ H1) as (s0 & R0 & R1). exists s0. split; [done|]. by econstructor.
Qed.
Lemma down_final s ls s' : xrun s ls s' -> x_down s = true \/ x_error s = true ->
  x_wire s' = x_wire s /\ (forall g m, XWrite g m ∉ ls) /\ (x_down s' = true \/ x_error s' = true).
Proof.
  intros H Hd. induction H as [|ls s1 l s2 H IH Hs]; [by split_and!; try done; intros; apply not_elem_of_nil|].
  destruct IH as (E & Hn & Hd1).
  assert (x_wire s2 = x_wire s1 /\ (forall g m, l <> XWrite g m) /\ (x_down s2 = true \/ x_error s2 = true)) as (E2 & Hn2 & Hd2).
  { destruct Hs as [| | | | |cl dn er at_ w ev g m k H1 H2 H3| | | | |]; simpl in *; try (by destruct Hd1); try (split_and!; try done; by auto).
    rewrite H3 by (by destruct Hd1 as [-> | ->]; rewrite ?orb_true_r). split_and!; try done; [by rewrite app_nil_r|by right]. }
  split_and!; try done; [congruence|]. intros g m [?|?%elem_of_list_singleton]%elem_of_app; [by eapply Hn|by eapply Hn2].
Qed.
Lemma after_end l1 l l2 s : xrun new_wire (l1 ++ l :: l2) s -> l = XCloseConn \/ (exists g, l = XShutdown g) \/ (exists g m k, l = XFail g m k) ->
  (forall g m, XWrite g m ∉ l2) /\ exists s1, xrun new_wire (l1 ++ [l]) s1 /\ x_wire s1 = x_wire s.
Proof.
  intros H Hl. change (l1 ++ l :: l2) with (l1 ++ [l] ++ l2) in H. rewrite app_assoc in H.
  destruct (xrun_split _ _ _ _ H) as (s1 & R1 & R2).
  assert (x_down s1 = true \/ x_error s1 = true) as Hd.
  { inversion R1 as [E|ls s0 l' s1' H0 H1 E]; [by destruct l1|]. apply app_inj_tail in E as [-> ->]. subst.
    destruct Hl as [-> |[[g ->]|(g & m & k & ->)]]; inversion H1; subst; simpl; auto. }
  destruct (down_final _ _ _ R2 Hd) as (E & Hn & _). split; [done|]. by exists s1.
Qed.

(** ** Every schedule ends *)
Definition moves_left (p : xpc) : nat :=
  match p with XIdle => 0 | XChecking _ => 5 | XWriting _ => 4 | XFailed => 3 | XMarked => 2 | XShut => 1 end.
Lemma own_moves_app g l1 l2 : own_moves g (l1 ++ l2) = own_moves g l1 + own_moves g l2.
Proof. unfold own_moves. by rewrite List.filter_app, app_length. Qed.
Lemma wire_steps ls s g : xrun new_wire ls s -> own_moves g ls + moves_left (x_at s g) <= 5 * length (asked g ls).
Proof.
  induction 1 as [|ls s1 l s2 _ IH Hs]; [unfold own_moves; simpl; lia|].
  rewrite own_moves_app, asked_app, app_length.
  assert (own_moves g [l] + moves_left (x_at s2 g) <= moves_left (x_at s1 g) + 5 * length (asked g [l])); [|lia].
  clear IH. unfold own_moves. destruct Hs; simpl; try lia.
  all: destruct (Nat.eqb_spec g0 g) as [->|Hne]; simpl;
    [rewrite fn_lookup_insert|rewrite fn_lookup_insert_ne by done; lia]; rewrite ?H; simpl; try lia.
  unfold asked. simpl. rewrite decide_True by done. simpl. lia.
Qed.
Lemma writing_nonempty ls s : xrun new_wire ls s -> forall g m, x_at s g = XChecking m \/ x_at s g = XWriting m -> m <> [].
Proof.
  induction 1 as [|ls s1 l s2 _ IH Hs]; intros g' m'; simpl; [naive_solver|].
  destruct Hs; cbn [x_at] in *; try (by apply IH).
  all: destruct (decide (g' = g)) as [->|Hne]; [rewrite fn_lookup_insert|rewrite fn_lookup_insert_ne by done; by apply IH].
  all: intros [E|E]; try discriminate E; injection E as <-; eauto.
Qed.
Lemma wire_ends ls s g : xrun new_wire ls s -> (forall l s', own_move g l = true -> ~ xstep s l s') ->
  x_at s g = XIdle /\ failures g ls = reports g s /\ under_way g s = [].
Proof.
  intros Hr Hno. assert (x_at s g = XIdle) as Hi.
  { pose proof (writing_nonempty _ _ Hr g) as Hm. destruct s as [cl dn er at_ w ev]. cbn [x_at] in *.
    destruct (at_ g) as [|m|m| | |] eqn:E; [done|exfalso..].
    - destruct cl; [eapply (Hno (XDrop g m))|eapply (Hno (XGo g))]; simpl; try apply Nat.eqb_refl; [by apply xk_drop|by eapply xk_go].
    - specialize (Hm m (or_intror eq_refl)).
      eapply (Hno (XFail g m 0)); [apply Nat.eqb_refl|]. apply xk_fail; [done| |done]. destruct m; [done|simpl; lia].
    - eapply (Hno (XMark g)); [apply Nat.eqb_refl|]. by apply xk_mark.
    - eapply (Hno (XShutdown g)); [apply Nat.eqb_refl|]. by apply xk_shut.
    - eapply (Hno (XPublish g)); [apply Nat.eqb_refl|]. by apply xk_publish. }
  split; [done|]. split; [|unfold under_way; by rewrite Hi].
  rewrite (reported _ _ g Hr). unfold reporting. rewrite Hi. lia.
Qed.
