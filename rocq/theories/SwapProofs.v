(** * Proofs about stacks whose processors are switched on and off *)
From Verif Require Import GoBase UBufModel UBufSpec FrameModel FrameSpec StackModel StackSpec StackFacts StackEnd NetModel NetSpec NetProofs SwapModel SwapSpec.

Lemma wrun_app N ok s ls s1 ms s2 : wrun N ok s ls s1 -> wrun N ok s1 ms s2 -> wrun N ok s (ls ++ ms) s2.
Proof.
  intros H1 H2. induction H2 as [|ms s2 l s3 _ IH Hok Hs]; [by rewrite app_nil_r|]. rewrite app_assoc. by eapply wr_snoc.
Qed.
Lemma wrun_one N (ok : wst -> wlab -> Prop) s l s' : ok s l -> wstep N s l s' -> wrun N ok s [l] s'.
Proof. intros H1 H2. apply (wr_snoc N ok s [] s l s'); [constructor|done|done]. Qed.
Lemma wrun_cons N (ok : wst -> wlab -> Prop) s l s1 ls s2 : ok s l -> wstep N s l s1 -> wrun N ok s1 ls s2 -> wrun N ok s (l :: ls) s2.
Proof. intros H1 H2 H3. apply (wrun_app N ok s [l] s1 ls s2); [by apply wrun_one|done]. Qed.

(** ** Switches *)
Lemma flagged_at E on i : e_procs (flagged E on) !! i = (fun p => Proc (p_kind p) (on i)) <$> e_procs E !! i.
Proof. simpl. apply list_lookup_imap. Qed.
Lemma flagged_made E : flagged E (as_made E) = E.
Proof.
  destruct E as [a ps c d e f g h j]. unfold flagged. simpl. f_equal. apply list_eq. intros i. rewrite list_lookup_imap. unfold as_made. simpl.
  destruct (ps !! i) as [[k en]|]; done.
Qed.
Lemma now_made N a b : now N (w_on (new_swap N a b)) = N.
Proof. destruct N. unfold now. simpl. by rewrite !flagged_made. Qed.

Definition same_at (E : env) (on on' : nat -> bool) : Prop :=
  forall i p, e_procs E !! i = Some p -> unseen (p_kind p) = true \/ on i = on' i.
Lemma same_sym E on on' : same_at E on on' -> same_at E on' on.
Proof. intros H i p Hp. destruct (H i p Hp); auto. Qed.
Lemma stack_alike E on on' ids : same_at E on on' -> Forall2 alike (stack_of (flagged E on) ids) (stack_of (flagged E on') ids).
Proof.
  intros H. induction ids as [|i ids IH]; [constructor|]. unfold stack_of in *. cbn [omap list_omap]. rewrite !flagged_at.
  destruct (e_procs E !! i) as [p|] eqn:Ep; simpl; [|done]. constructor; [|done]. split; [done|]. exact (H i p Ep).
Qed.
Lemma stack_is E ids ps : Forall2 (fun i p => e_procs E !! i = Some p) ids ps -> stack_of E ids = ps.
Proof. induction 1 as [|i p ids ps Hi _ IH]; [done|]. unfold stack_of in *. cbn [omap list_omap]. rewrite Hi. by f_equal. Qed.
Lemma alike_refl ps : Forall2 alike ps ps.
Proof. induction ps; constructor; [|done]. split; auto. Qed.
Lemma alike_sym ps qs : Forall2 alike ps qs -> Forall2 alike qs ps.
Proof. induction 1 as [|p q ps qs [H1 H2]]; constructor; [|done]. split; [done|]. rewrite <- H1. destruct H2; auto. Qed.
Lemma alike_trans ps qs rs : Forall2 alike ps qs -> Forall2 alike qs rs -> Forall2 alike ps rs.
Proof.
  intros H. revert rs. induction H as [|p q ps qs [H1 H2] _ IH]; intros rs Hr; inversion Hr as [|? r ? ? [H3 H4]]; subst; constructor; [|by apply IH].
  split; [congruence|]. destruct H2 as [?|H2]; [by left|]. destruct H4 as [H4|H4]; [left; congruence|right; congruence].
Qed.
Lemma alike_put z p q l : alike p q -> StackSpec.put z p l = StackSpec.put z q l.
Proof. destruct p as [k e], q as [k' e']. intros [H1 H2]. simpl in *. subst k'. unfold StackSpec.put. simpl. destruct k; simpl in *; destruct H2 as [H2|H2]; try done; by subst. Qed.
Lemma alike_wire z ps qs l : Forall2 alike ps qs -> wire_of z ps l = wire_of z qs l.
Proof. intros H. revert l. induction H as [|p q ps qs Hp _ IH]; intros l; [done|]. unfold wire_of in *. simpl. by rewrite (alike_put _ _ _ _ Hp), IH. Qed.
Lemma alike_kinds ps qs : Forall2 alike ps qs -> p_kind <$> ps = p_kind <$> qs.
Proof. induction 1 as [|p q ps qs [H _] _ IH]; [done|]. rewrite !fmap_cons. by rewrite H, IH. Qed.
Lemma alike_room ps qs : Forall2 alike ps qs -> room ps = room qs.
Proof. induction 1 as [|p q ps qs [H _] _ IH]; [done|]. simpl. by rewrite H, IH. Qed.
Lemma alike_carries ps qs : Forall2 alike ps qs -> Forall (fun p => carries p = true) ps -> Forall (fun p => carries p = true) qs.
Proof.
  induction 1 as [|[k e] [k' e'] ps qs [H1 H2] _ IH]; intros F; [done|]. inversion F as [|? ? F1 F2]; subst. constructor; [|by apply IH].
  simpl in *. subst k'. destruct k; simpl in *; try (destruct H2 as [H2|H2]; [done|by subst]); done.
Qed.
Lemma alike_passes ps qs : Forall2 alike ps qs -> Forall (fun p => passes_message p = true) ps -> Forall (fun p => passes_message p = true) qs.
Proof.
  induction 1 as [|[k e] [k' e'] ps qs [H1 H2] _ IH]; intros F; [done|]. inversion F as [|? ? F1 F2]; subst. constructor; [|by apply IH].
  simpl in *. subst k'. destruct k; simpl in *; try (destruct H2 as [H2|H2]; [done|by subst]); done.
Qed.
Lemma alike_resolves ps qs : Forall2 alike ps qs -> existsb resolves ps = existsb resolves qs.
Proof.
  induction 1 as [|[k e] [k' e'] ps qs [H1 H2] _ IH]; [done|]. simpl in *. subst k'. rewrite IH. f_equal.
  destruct k; simpl in *; try done. destruct H2 as [H2|H2]; [done|by subst].
Qed.
Lemma alike_framing p q : alike p q -> framing p = framing q.
Proof. destruct p as [k e], q as [k' e']. intros [H1 H2]. simpl in *. subst k'. destruct k; simpl in *; try done. destruct H2 as [H2|H2]; [done|by subst]. Qed.
Lemma alike_framed ps qs : Forall2 alike ps qs -> framed ps = framed qs.
Proof.
  intros H. unfold framed. assert (Forall2 alike (rev ps) (rev qs)) as Hr.
  { induction H as [|p q ps qs Hp _ IH]; [constructor|]. simpl. apply Forall2_app; [done|constructor; [done|constructor]]. }
  destruct Hr as [|p q]; [done|]. by apply alike_framing.
Qed.
Lemma below_alike E on on' ids n : same_at E on on' -> Forall2 alike (below (flagged E on) ids n) (below (flagged E on') ids n).
Proof. intros H. apply Forall2_drop. by apply stack_alike. Qed.

Lemma split_at {A} (l : list A) n x : l = take n l ++ x :: drop (S n) l <-> l !! n = Some x.
Proof.
  split.
  - intros H. assert (length (take n l) = n) as Hn.
    { rewrite take_length. pose proof (f_equal length H) as L. rewrite app_length, take_length in L. simpl in L. rewrite drop_length in L. lia. }
    rewrite H. rewrite lookup_app_r by lia. rewrite Hn, Nat.sub_diag. done.
  - intros H. by rewrite take_drop_middle.
Qed.
Lemma fit_stack E k ids n c : fit E k ids n c -> stack_of E ids !! n = Some (Proc k true) /\
  Forall2 (fun i p => e_procs E !! i = Some p) ids (stack_of E ids).
Proof.
  intros ((W1 & W2 & W3 & W4) & _). pose proof (stack_is _ _ _ W4) as E1. split; [|by rewrite E1].
  apply split_at. exact E1.
Qed.
Lemma stack_there E on ids : (forall i, i ∈ ids -> exists p, e_procs E !! i = Some p) ->
  Forall2 (fun i p => e_procs (flagged E on) !! i = Some p) ids (stack_of (flagged E on) ids).
Proof.
  induction ids as [|i ids IH]; intros H; [constructor|]. destruct (H i) as [p Hp]; [by left|]. unfold stack_of in *. cbn [omap list_omap].
  rewrite flagged_at, Hp. cbn. constructor; [exact (eq_trans (flagged_at E on i) (f_equal (fmap _) Hp))|]. apply IH. intros y Hy. apply H. by right.
Qed.
Lemma Forall2_elem_l {A B} (R : A -> B -> Prop) l m x : Forall2 R l m -> x ∈ l -> exists y, y ∈ m /\ R x y.
Proof.
  induction 1 as [|a b l m Hr _ IH]; intros Hx; [by apply elem_of_nil in Hx|]. apply elem_of_cons in Hx as [->|Hx].
  - exists b. split; [by left|done].
  - destruct (IH Hx) as (y & Hy & Hr'). exists y. split; [by right|done].
Qed.
Lemma fit_same E on on' k ids n c : unseen k = false -> same_at E on on' -> fit (flagged E on) k ids n c -> fit (flagged E on') k ids n c.
Proof.
  intros Hk Hs Hf. destruct (fit_stack _ _ _ _ _ Hf) as [H1 H2]. destruct Hf as ((W1 & W2 & W3 & W4) & F1 & F2 & R & Mt).
  pose proof (stack_alike E on on' ids Hs) as Ha.
  assert (stack_of (flagged E on') ids !! n = Some (Proc k true)) as H1'.
  { destruct (Forall2_lookup_l _ _ _ _ _ Ha H1) as ([k' e'] & -> & [E1 E2]). simpl in *. subst k'. destruct E2 as [E2|E2]; congruence. }
  pose proof (proj2 (split_at _ _ _) H1') as E'. pose proof (proj2 (split_at _ _ _) H1) as E1.
  split; [|split; [|split; [|done]]].
  - unfold above, below. rewrite <- E'. split; [done|]. split; [done|]. split.
    + simpl in *. rewrite <- (alike_kinds _ _ Ha). unfold above, below in W3. by rewrite <- E1 in W3.
    + apply stack_there. intros y Hy. destruct (Forall2_elem_l _ _ _ _ H2 Hy) as (q & _ & Hq). rewrite flagged_at in Hq.
      destruct (e_procs E !! y) as [p|]; [eauto|done].
  - eapply alike_passes; [|exact F1]. by apply Forall2_take.
  - eapply alike_carries; [|exact F2]. by apply Forall2_drop.
Qed.
Lemma idle_flagged E on b : caches_idle (flagged E on) b <-> caches_idle E b.
Proof.
  split; intros H i cap en Hi.
  - apply (H i cap (on i)). rewrite flagged_at, Hi. done.
  - rewrite flagged_at in Hi. destruct (e_procs E !! i) as [[k e]|] eqn:Ep; simpl in Hi; [|done]. injection Hi as -> <-. by apply (H i cap e).
Qed.
Lemma codec_seen k m l : encodes k m l -> unseen k = false.
Proof. by destruct k. Qed.

(** ** Careful switching *)
Section careful.
Context (L : layout) (N : net).
Notation k := (lo_codec L).
Definition psb (on : side -> nat -> bool) : list proc := below (nb (now N on)) (lo_b L) (lo_above_b L).
Definition flying (on : side -> nat -> bool) (p : post * list byte) : Prop :=
  good (now N on) k (psb on) (fst p) /\ snd p = wirep (now N on) (psb on) (fst p).

Lemma flying_b on on' p : on SideB = on' SideB -> flying on p -> flying on' p.
Proof. unfold flying, good, wirep, psb. simpl. by intros ->. Qed.

Record winv (ls : list wlab) (s : wst) (os : list (post * list byte)) (i : nat) : Prop := Winv {
  wv_sent : forall e, mails_of e (sent_of os.*1) ++ unsent e (w_net s) = given e (net_labels ls);
  wv_some : Forall (fun p => snd p <> [] /\ zed N (fst p) ∈ e_sessions (nb N)) os;
  wv_writes : n_writes (w_net s) = os.*2;
  wv_got : n_got (w_net s) = length (concat (take i (n_writes (w_net s))));
  wv_wire : n_wire (w_net s) = concat (drop i (n_writes (w_net s)));
  wv_heard : forall z, heard z (w_net s) ++ n_rx (w_net s) z ++ upz z (n_up (w_net s)) = forz N z (take i os.*1);
  wv_idle : caches_idle (nb N) (n_b (w_net s));
  wv_le : i <= length os;
  wv_fly : drop i os = [] \/ fit (nb (now N (w_on s))) k (lo_b L) (lo_above_b L) (ncb N) /\ Forall (flying (w_on s)) (drop i os) }.

Lemma receive_fit on os b : fit (nb (now N on)) k (lo_b L) (lo_above_b L) (ncb N) ->
  Forall (good (now N on) k (psb on)) os -> caches_idle (nb N) b ->
  (framed (psb on) = false -> length os = 1) -> (Z.of_nat (length (concat (wirep (now N on) (psb on) <$> os))) <= e_mtu (nb N))%Z ->
  exists b', finishes (fun f => receive f (nb (now N on)) (ncb N) (concat (wirep (now N on) (psb on) <$> os)) b) b
    ((fun p => ODeliver (zed N p) (Some (ncb N)) (ml_msg (po_mail p))) <$> os) b' /\ caches_idle (nb N) b'.
Proof.
  intros (W & P & C & R & Mt) Hg Hid Hj Hlen. fold (psb on) in W, C. rewrite <- (idle_flagged _ (on SideB)) in Hid.
  pose proof (shown_good (now N on) k (psb on) os Hg) as Hsh.
  change ((fun p => ODeliver (zed (now N on) p) (Some (ncb (now N on))) (ml_msg (po_mail p))) <$> os) with
    ((fun p => ODeliver (zed N p) (Some (ncb N)) (ml_msg (po_mail p))) <$> os) in Hsh.
  destruct (framed (psb on)) eqn:Hf.
  - unfold framed in Hf. destruct (rev (psb on)) as [|p rs] eqn:Hrev; [done|].
    assert (psb on = rev rs ++ [p]) as Eps by (rewrite <- (rev_involutive (psb on)), Hrev; done).
    unfold framing in Hf. destruct p as [kk en]. simpl in Hf. destruct kk; try done. subst en.
    destruct (receive_group (nb (now N on)) (lo_b L) (above (nb (now N on)) (lo_b L) (lo_above_b L)) k (rev rs) capacity (ncb N)
      (letter_of (now N on) <$> os) b) as (b' & H & Hid'); try done.
    + by rewrite <- Eps.
    + rewrite Eps in C. by apply Forall_app in C as [? _].
    + apply Forall_fmap. eapply stdpp.list.Forall_impl; [exact Hg|]. intros x (?&?&?&?). simpl. auto.
    + rewrite <- Eps. rewrite <- list_fmap_compose. exact Hlen.
    + exists b'. split; [|by apply idle_flagged in Hid']. rewrite <- Hsh. rewrite <- Eps in H. rewrite <- !list_fmap_compose in *.
      assert (rx_session (psb on) = rx_session (rev rs)) as ->; [|exact H]. unfold rx_session. rewrite Eps, existsb_app. simpl.
      by rewrite !orb_false_r.
  - specialize (Hj eq_refl). destruct os as [|p [|]]; try done. inversion Hg as [|? ? Hp _]; subst.
    destruct Hp as (He & Hd & Hl & _ & _ & Hp). simpl in Hlen. rewrite app_nil_r in Hlen.
    destruct (receive_wire (nb (now N on)) (lo_b L) (above (nb (now N on)) (lo_b L) (lo_above_b L)) k (psb on) (zed N p) (ncb N)
      (ml_msg (po_mail p)) (po_bytes p) b) as (b' & H & Hid' & _); try done.
    exists b'. split; [|by apply idle_flagged in Hid']. rewrite <- Hsh. simpl. rewrite !app_nil_r. exact H.
Qed.

Lemma winv_step ls s os i l s' : winv ls s os i -> careful L N s l -> wstep N s l s' -> exists os' i', winv (ls ++ [l]) s' os' i'.
Proof.
  intros I Hok Hst. assert (forall l, net_labels (ls ++ [l]) = net_labels ls ++ match l with WNet l => [l] | _ => [] end) as Hnl.
  { intros l0. unfold net_labels. rewrite omap_app. simpl. by destruct l0. }
  destruct Hst as [s on l s' Hst|s on d j b].
  2: { exists os, i. destruct I as [I1 I2 I3 I4 I5 I6 I7 I8 I9]; simpl in *. split; try done.
       - intros e. rewrite Hnl, app_nil_r. apply I1.
       - simpl. destruct I9 as [I9|[I9 I10]]; [by left|]. destruct d.
         { right. split.
           - unfold now in *. simpl in *. by rewrite fn_lookup_insert_ne.
           - eapply stdpp.list.Forall_impl; [exact I10|]. intros p. apply flying_b. by rewrite fn_lookup_insert_ne. }
         assert (drop i os <> [] -> unseen_at N SideB j) as Hu.
         { intros Hd. destruct Hok as [?|Hw]; [done|]. exfalso. rewrite Hw, I3 in I5. symmetry in I5. rewrite <- fmap_drop in I5.
           apply (Forall_drop _ i) in I2. destruct (drop i os) as [|[p w] q]; [done|]. simpl in I5. apply app_eq_nil in I5 as [E _].
           by inversion I2 as [|? ? [? _]]. }
         destruct (drop i os) as [|p q] eqn:Ed; [by left|]. right. specialize (Hu ltac:(done)).
         assert (same_at (nb N) (on SideB) (<[j := b]> (on SideB))) as Hsame.
         { intros y py Hy. destruct (decide (y = j)) as [->|Hn]; [left; by apply Hu|]. right. by rewrite fn_lookup_insert_ne. }
         assert (unseen k = false) as Hk.
         { inversion I10 as [|? ? [(He & _) _]]; subst. by eapply codec_seen. }
         pose proof (below_alike _ _ _ (lo_b L) (lo_above_b L) Hsame) as Ha.
         split.
         + unfold now in *. simpl in *. rewrite fn_lookup_insert. by eapply fit_same.
         + eapply stdpp.list.Forall_impl; [exact I10|]. intros [p' w] [(G1&G2&G3&G4&G5&G6&G7&G8) Hw]. unfold flying, psb, now in *. simpl in *.
           rewrite fn_lookup_insert. split.
           * split_and!; try done; simpl in *; [by rewrite <- (alike_room _ _ Ha)|apply G6..|by rewrite <- (alike_resolves _ _ Ha)].
           * rewrite Hw. unfold wirep. by rewrite (alike_wire _ _ _ _ Ha). }
  destruct Hst as [tx hd a w b up rx sn ws g e x Hlt|tx hd a w b up rx sn ws g e x q Hh Htx
    |tx hd a w b up rx sn ws g e x outs a' Hh Hf|tx hd a w b rx sn ws g n outs b' H0 Hn Hm Hf
    |tx hd a w b z m up rx sn ws g Hlt|tx hd a w b up rx sn ws g z m q Hrx];
    destruct I as [I1 I2 I3 I4 I5 I6 I7 I8 I9]; simpl in *.
  - exists os, i. split; try done.
    intros y. rewrite Hnl, given_app, <- I1. unfold unsent. simpl. rewrite <- !app_assoc. f_equal. f_equal.
    destruct (decide (y = e)) as [->|Hy].
    + rewrite fn_lookup_insert, decide_True by done. done.
    + rewrite fn_lookup_insert_ne, decide_False by done. by rewrite app_nil_r.
  - exists os, i. split; try done. intros y. rewrite Hnl, given_app, <- I1, app_nil_r. f_equal. unfold unsent. simpl.
    destruct (decide (y = e)) as [->|Hy].
    + rewrite !fn_lookup_insert, Hh, Htx. done.
    + by rewrite !fn_lookup_insert_ne.
  - destruct Hok as [((WA & PA & CA & RA & MA) & Ac & FB & Al) Hsend]. destruct (Hsend x Hh) as (l & Hl).
    set (p := Post e x l). assert (good (now N on) k (psb on) p) as Hg by exact Hl.
    destruct Hl as (He & _ & Hl0 & Hfit & _).
    destruct (send_fits (na (now N on)) (lo_a L) (above (na (now N on)) (lo_a L) (lo_above_a L)) k (below (na (now N on)) (lo_a L) (lo_above_a L))
      (nsess N e) (ml_dest x) (nca N) (ml_msg x) l a) as (a2 & Hf2 & _); try done; [by apply carries_sends|].
    rewrite (alike_wire _ _ _ _ Al) in Hf2. fold (psb on) in Hf2. change (wire_of (dest_of (nsess N e) (ml_dest x)) (psb on) l) with (wirep (now N on) (psb on) p) in Hf2.
    pose proof (good_nonempty _ _ _ p Hg) as Hne. rewrite offered_accepts in Hf2 by done.
    destruct (finishes_unique _ _ _ _ _ _ Hf Hf2) as [-> ->].
    assert (written (nca N) [OWire (nca N) (wirep (now N on) (psb on) p)] = [wirep (now N on) (psb on) p]) as Ew.
    { unfold written. simpl. by rewrite decide_True. }
    rewrite Ew. cbn [concat]. rewrite app_nil_r.
    exists (os ++ [(p, wirep (now N on) (psb on) p)]), i. split.
    + intros y. rewrite Hnl, given_app, <- I1, app_nil_r. rewrite fmap_app. unfold sent_of. rewrite fmap_app. unfold mails_of. rewrite omap_app.
      rewrite <- app_assoc. f_equal. unfold unsent. simpl. destruct (decide (y = e)) as [->|Hy].
      * rewrite decide_True, fn_lookup_insert, Hh by done. done.
      * rewrite decide_False, fn_lookup_insert_ne by done. done.
    + apply Forall_app. split; [done|]. constructor; [|done]. split; [done|]. apply Hg.
    + simpl. by rewrite I3, fmap_app.
    + simpl. rewrite I4. rewrite take_app_le; [done|]. by rewrite I3, fmap_length.
    + simpl. rewrite I5. rewrite drop_app_le by (by rewrite I3, fmap_length). rewrite concat_app. simpl. by rewrite app_nil_r.
    + simpl. intros z. rewrite fmap_app, take_app_le by (by rewrite fmap_length). apply I6.
    + done.
    + rewrite app_length. lia.
    + right. simpl. split; [done|]. rewrite drop_app_le by done. apply Forall_app. split.
      * destruct I9 as [I9|[_ I9]]; [by rewrite I9|done].
      * constructor; [|done]. by split.
  - destruct Hok as (i' & j & Hi & Hj & Hj1). simpl in Hi, Hj. fold (psb on) in Hj1.
    assert (Forall (fun w => w <> []) ws) as Hne.
    { rewrite I3. apply Forall_fmap. eapply stdpp.list.Forall_impl; [exact I2|]. by intros ? [? _]. }
    assert (take i' ws = take i ws) as Et by (apply boundary; [done|congruence]).
    assert (drop i' ws = drop i ws) as Ed.
    { pose proof (take_drop i ws) as E1. pose proof (take_drop i' ws) as E2. rewrite Et in E2.
      apply (app_inv_head (take i ws)). congruence. }
    rewrite Ed in Hj. destruct (take_concat j (drop i ws)) as [T1 T2]. rewrite <- Hj, <- I5 in T1, T2.
    destruct I9 as [I9|[FB Hfl]].
    { exfalso. rewrite I3, <- fmap_drop, I9 in I5. rewrite I5 in Hn. simpl in Hn. lia. }
    set (os' := take j (drop i os)).
    assert (Forall (flying on) os') as Hfl' by (by apply Forall_take).
    assert (take j (drop i ws) = wirep (now N on) (psb on) <$> os'.*1) as El.
    { rewrite I3, <- fmap_drop, <- fmap_take. fold os'. clear -Hfl'. induction Hfl' as [|p q [_ Hp] _ IH]; [done|]. rewrite !fmap_cons. by rewrite IH, Hp. }
    assert (Forall (good (now N on) k (psb on)) os'.*1) as Hgl.
    { apply Forall_fmap. eapply stdpp.list.Forall_impl; [exact Hfl'|]. by intros p [? _]. }
    assert (0 < length os') as Hpos.
    { destruct os' eqn:E; [|simpl; lia]. rewrite El in Hj. simpl in Hj. lia. }
    destruct (receive_fit on os'.*1 b FB Hgl I7) as (b2 & Hf2 & Hid2).
    { intros Hfr. specialize (Hj1 Hfr). subst j. rewrite fmap_length. unfold os' in *. rewrite take_length in *. lia. }
    { rewrite <- El, <- Hj. done. }
    rewrite T1, El in Hf. destruct (finishes_unique _ _ _ _ _ _ Hf Hf2) as [-> ->].
    exists os, (i + length os'). rewrite deliver_posts.
    assert (take (length os') (drop i os) = os') as Etl.
    { unfold os'. rewrite take_length. destruct (decide (j <= length (drop i os))).
      - by rewrite Nat.min_l.
      - rewrite Nat.min_r by lia. rewrite !take_ge by lia. done. }
    assert (drop (length os') (drop i ws) = drop j (drop i ws) /\ take (length os') (drop i ws) = take j (drop i ws)) as [Ed' Et'].
    { unfold os'. rewrite take_length. assert (length (drop i ws) = length (drop i os)) as Ll by (by rewrite !drop_length, I3, fmap_length).
      destruct (decide (j <= length (drop i os))).
      - by rewrite Nat.min_l.
      - rewrite Nat.min_r by lia. rewrite !drop_ge by lia. by rewrite !take_ge by lia. }
    split; try done; simpl.
    + intros y. rewrite Hnl, given_app, <- I1. by rewrite app_nil_r.
    + rewrite I4, Hj. rewrite <- take_take_drop, concat_app, app_length. by rewrite Et'.
    + rewrite <- drop_drop, Ed'. done.
    + intros z. rewrite upz_posts. rewrite <- take_take_drop, forz_app.
      assert (take (length os') (drop i os.*1) = os'.*1) as -> by (rewrite <- fmap_drop, <- fmap_take; by rewrite Etl). rewrite <- I6. simpl. rewrite app_nil_r. by rewrite app_assoc.
    + pose proof (take_length (drop i os) (length os')) as Len. rewrite Etl in Len. rewrite drop_length in Len. lia.
    + right. split; [done|]. rewrite <- drop_drop. by apply Forall_drop.
  - exists os, i. split; try done; simpl.
    + intros y. rewrite Hnl, given_app, <- I1. by rewrite app_nil_r.
    + intros y. rewrite <- I6. f_equal. unfold upz. simpl. destruct (decide (z = y)) as [->|Hy].
      * rewrite fn_lookup_insert, <- app_assoc. done.
      * by rewrite fn_lookup_insert_ne.
  - exists os, i. split; try done; simpl.
    + intros y. rewrite Hnl, given_app, <- I1. by rewrite app_nil_r.
    + intros y. rewrite <- I6. unfold heard. simpl. rewrite omap_app. simpl. destruct (decide (z = y)) as [->|Hy].
      * rewrite fn_lookup_insert, Hrx, <- app_assoc. done.
      * rewrite fn_lookup_insert_ne by done. by rewrite app_nil_r.
Qed.

Lemma winv_reach a b ls s : caches_idle (nb N) b -> wrun N (careful L N) (new_swap N a b) ls s -> exists os i, winv ls s os i.
Proof.
  intros Hi H. induction H as [|ls s1 l s2 _ (os & i & IH) Hok Hst]; [|by eapply winv_step].
  exists [], 0. split; try done. by left.
Qed.
Lemma careful_in_order a b ls s : caches_idle (nb N) b -> wrun N (careful L N) (new_swap N a b) ls s ->
  exists o, (forall e, mails_of e o ++ unsent e (w_net s) = given e (net_labels ls)) /\
    forall z, exists rest, heard z (w_net s) ++ rest = mails_for N z o /\ (settled (w_net s) -> rest = []).
Proof.
  intros H1 H2. destruct (winv_reach _ _ _ _ H1 H2) as (os & i & I). exists (sent_of os.*1).
  split; [apply I|]. intros z. destruct I as [I1 I2 I3 I4 I5 I6 I7 I8 I9].
  exists (n_rx (w_net s) z ++ upz z (n_up (w_net s)) ++ forz N z (drop i os.*1)). split.
  - fold (forz N z os.*1). rewrite <- (take_drop i os.*1) at 2. rewrite forz_app, <- I6. by rewrite <- !app_assoc.
  - intros (Hw & Hu & Hr). rewrite Hr, Hu. simpl. rewrite Hw in I5. rewrite <- fmap_drop.
    assert (drop i os = []) as ->; [|done]. destruct (drop i os) as [|p l] eqn:E; [done|].
    rewrite I3, <- fmap_drop, E in I5. simpl in I5. symmetry in I5. apply app_eq_nil in I5 as [I5 _].
    exfalso. apply (Forall_drop _ i) in I2. rewrite E in I2. by inversion I2 as [|? ? [? _]].
Qed.

(** ** It can always go on *)
Section go_on.
Context (on : side -> nat -> bool) (R : ready L (now N on)).
Notation run := (nrun (now N on) (whole_read (framed (psb on)))).
Definition can_send (s : nst) : Prop := forall e x, x ∈ unsent e s -> sendable (now N on) k (psb on) e x.
Lemma inner_unsent s l s' e x : inner l -> nstep (now N on) s l s' -> x ∈ unsent e s' -> x ∈ unsent e s.
Proof.
  intros Hi Hs. destruct Hs as [tx hd a w b up rx sn ws g e0 x0 Hlt|tx hd a w b up rx sn ws g e0 x0 q Hh Htx
    |tx hd a w b up rx sn ws g e0 x0 outs a' Hh Hf|tx hd a w b rx sn ws g n outs b' H0 Hn Hm Hf
    |tx hd a w b z m up rx sn ws g Hlt|tx hd a w b up rx sn ws g z m q Hrx]; try done; unfold unsent; simpl.
  - destruct (decide (e = e0)) as [->|He].
    + rewrite !fn_lookup_insert, Hh, Htx. done.
    + by rewrite !fn_lookup_insert_ne.
  - destruct (decide (e = e0)) as [->|He].
    + rewrite fn_lookup_insert. intros Hx. apply elem_of_app. by right.
    + by rewrite fn_lookup_insert_ne.
Qed.
Lemma careful_now s l s' : can_send s -> inner l -> whole_read (framed (psb on)) s l -> nstep (now N on) s l s' ->
  careful L N (Wst s on) (WNet l) /\ wstep N (Wst s on) (WNet l) (Wst s' on) /\ can_send s'.
Proof.
  intros Hc Hi Hw Hs. split; [|split; [by constructor|]].
  - destruct l; try done. simpl. split; [done|]. intros x Hx. apply Hc. unfold unsent. rewrite Hx. by left.
  - intros e x Hx. apply Hc. by eapply inner_unsent.
Qed.
Lemma lift s ms s' : can_send s -> run s ms s' -> Forall inner ms -> wrun N (careful L N) (Wst s on) (WNet <$> ms) (Wst s' on) /\ can_send s'.
Proof.
  intros Hc H. induction H as [|ms s1 l s2 _ IH Hok Hs]; intros F; [split; [constructor|done]|].
  apply Forall_app in F as [F1 F2]. inversion F2 as [|? ? Fl _]; subst. destruct (IH F1) as [IH1 IH2]. rewrite fmap_app.
  destruct (careful_now _ _ _ IH2 Fl Hok Hs) as (H1 & H2 & H3). split; [|done]. by eapply wr_snoc.
Qed.
Lemma winv_more ls s os i ms s' : winv ls s os i -> wrun N (careful L N) s ms s' -> exists os' i', winv (ls ++ ms) s' os' i'.
Proof.
  intros I H. induction H as [|ms s1 l s2 _ (os1 & i1 & IH) Hok Hst]; [rewrite app_nil_r; eauto|]. rewrite app_assoc. by eapply winv_step.
Qed.
Lemma winv_lift ls s os i ms s' : winv ls (Wst s on) os i -> can_send s -> run s ms s' -> Forall inner ms ->
  (exists os' i', winv (ls ++ (WNet <$> ms)) (Wst s' on) os' i') /\ can_send s'.
Proof. intros I Hc H F. destruct (lift _ _ _ Hc H F) as [H1 H2]. split; [by eapply winv_more|done]. Qed.

Lemma wread_all n ls s os i : 0 < nrxcap N -> winv ls (Wst s on) os i -> can_send s -> length (n_wire s) <= n ->
  exists ms s', run s ms s' /\ Forall inner ms /\ n_wire s' = [] /\ n_up s' = [] /\ n_tx s' = n_tx s /\ n_hand s' = n_hand s.
Proof.
  intros Hc. revert ls s os i. induction n as [|n IH]; intros ls s os i I Cs Hn.
  all: destruct (deliver_all (now N on) (psb on) s Hc) as (ms1 & s1 & R1 & F1 & U1 & W1 & T1 & D1).
  { exists ms1, s1. split_and!; try done. rewrite W1. by destruct (n_wire s); simpl in Hn; [|lia]. }
  destruct (n_wire s) as [|w0 wr] eqn:Ew; [exists ms1, s1; by split_and!|].
  destruct (winv_lift _ _ _ _ _ _ I Cs R1 F1) as [(os1 & i1 & I1) Cs1]. pose proof I1 as [J1 J2 J3 J4 J5 J6 J7 J8 J9]. simpl in *.
  destruct J9 as [J9|[FB Hfl]].
  { rewrite W1, J3, <- fmap_drop, J9 in J5. done. }
  destruct (drop i1 os1) as [|[p w] l] eqn:E.
  { rewrite W1, J3, <- fmap_drop, E in J5. done. }
  inversion Hfl as [|? ? [Hp Hw] Hfl']; subst. simpl in Hp, Hw. subst w. set (wp := wirep (now N on) (psb on) p) in *.
  assert (drop i1 (n_writes s1) = wp :: l.*2) as Ed by (by rewrite J3, <- fmap_drop, E).
  pose proof (good_nonempty _ _ _ p Hp) as Hne. fold wp in Hne.
  assert (Z.of_nat (length wp) <= e_mtu (nb N))%Z as Hm by (apply wire_length_room; apply Hp).
  destruct (receive_fit on [p] (n_b s1)) as (b' & Hf & Hid); [done|by constructor|done|done|simpl; by rewrite app_nil_r|].
  simpl in Hf. rewrite app_nil_r in Hf. fold wp in Hf.
  assert (n_wire s1 = wp ++ concat l.*2) as Ew1 by (rewrite J5, Ed; done).
  assert (0 < length wp) as Hpos by (destruct wp; simpl; [done|lia]).
  assert (whole_read (framed (psb on)) s1 (NRead (length wp))) as Hok.
  { exists i1, 1. split; [done|]. split; [|done]. rewrite Ed. simpl. by rewrite app_nil_r. }
  destruct s1 as [tx hd a w b up rx sn ws g]. simpl in *. subst up.
  assert (nstep (now N on) (Nst tx hd a w b [] rx sn ws g) (NRead (length wp))
    (Nst tx hd a (drop (length wp) w) b' (delivered [ODeliver (zed N p) (Some (ncb N)) (ml_msg (po_mail p))]) rx sn ws (g + length wp))) as Hst.
  { apply nk_read; [done|rewrite Ew1, app_length; lia|done|]. rewrite Ew1, take_app. done. }
  assert (run (Nst tx hd a w b [] rx sn ws g) [NRead (length wp)]
    (Nst tx hd a (drop (length wp) w) b' (delivered [ODeliver (zed N p) (Some (ncb N)) (ml_msg (po_mail p))]) rx sn ws (g + length wp))) as Hr1.
  { apply nrun_one; [exact Hok|exact Hst]. }
  destruct (winv_lift _ _ _ _ [NRead (length wp)] _ I1 Cs1 Hr1 ltac:(by repeat constructor)) as [(os2 & i2 & I2) Cs2].
  destruct (IH _ _ _ _ I2 Cs2) as (ms2 & s2 & R2 & F2 & W2 & U2 & T2 & D2).
  { simpl. rewrite drop_length, W1. cbn [length]. lia. }
  exists (ms1 ++ NRead (length wp) :: ms2), s2. split; [eapply nrun_app; [done|]; by eapply nrun_cons|].
  split; [apply Forall_app; split; [done|by constructor]|]. split; [done|]. split; [done|]. simpl in *. split; congruence.
Qed.
Lemma wsend_all n e s : can_send s -> length (unsent e s) <= n ->
  exists ms s', run s ms s' /\ Forall inner ms /\ unsent e s' = [] /\ forall y, y <> e -> unsent y s' = unsent y s.
Proof.
  revert s. induction n as [|n IH]; intros s Cs Hn.
  { exists [], s. split; [constructor|]. split; [constructor|]. split; [|done]. by destruct (unsent e s); simpl in Hn; [|lia]. }
  destruct (unsent e s) as [|x q] eqn:Eu.
  { exists [], s. split; [constructor|]. by split; [constructor|]. }
  assert (exists ms s1, run s ms s1 /\ Forall inner ms /\ n_hand s1 e = Some x /\ n_tx s1 e = q /\
    forall y, y <> e -> unsent y s1 = unsent y s) as (ms1 & s1 & R1 & F1 & H1 & T1 & K1).
  { destruct s as [tx hd a w b up rx sn ws g]. unfold unsent in *. simpl in *. destruct (hd e) as [x'|] eqn:Eh.
    - simpl in Eu. injection Eu as -> <-. eexists [], _. split; [constructor|]. split; [constructor|]. by simpl.
    - eexists [NTake e], _. split; [apply nrun_one; [done|by apply nk_take]|]. split; [by repeat constructor|].
      simpl. rewrite !fn_lookup_insert. split; [done|]. split; [done|]. intros y Hy. by rewrite !fn_lookup_insert_ne. }
  destruct (lift _ _ _ Cs R1 F1) as [_ Cs1].
  destruct (Cs1 e x) as (l & Hl); [unfold unsent; rewrite H1; by left|].
  destruct s1 as [tx hd a w b up rx sn ws g]. simpl in H1, T1.
  assert (exists outs a', finishes (fun f => send f (na (now N on)) (nsess N e) (ml_dest x) (Some (nca N)) (Some (ml_msg x)) a) a outs a') as (outs & a2 & Hf2).
  { destruct R as ((WA & PA & CA & RA & MA) & Ac & FB & Al). destruct Hl as (He & _ & Hl0 & Hfit & _).
    destruct (send_fits (na (now N on)) (lo_a L) (above (na (now N on)) (lo_a L) (lo_above_a L)) k (below (na (now N on)) (lo_a L) (lo_above_a L))
      (nsess N e) (ml_dest x) (nca N) (ml_msg x) l a) as (a2 & Hf2 & _); try done; [by apply carries_sends|]. eauto. }
  pose proof (nk_pass (now N on) tx hd a w b up rx sn ws g e x _ a2 H1 Hf2) as Hst.
  destruct (careful_now _ (NPass e) _ Cs1 ltac:(done) ltac:(done) Hst) as (_ & _ & Cs2).
  destruct (IH _ Cs2) as (ms2 & s2 & R2 & F2 & U2 & K2).
  { unfold unsent. simpl. rewrite fn_lookup_insert, T1. simpl in *. lia. }
  exists (ms1 ++ NPass e :: ms2), s2. split; [eapply nrun_app; [done|]; by eapply nrun_cons|].
  split; [apply Forall_app; split; [done|by constructor]|]. split; [done|].
  intros y Hy. rewrite K2, <- K1 by done. unfold unsent. simpl. by rewrite fn_lookup_insert_ne.
Qed.
Lemma wsend_everybody (es : list nat) s : can_send s ->
  exists ms s', run s ms s' /\ Forall inner ms /\ forall y, y ∈ es \/ unsent y s = [] -> unsent y s' = [].
Proof.
  revert s. induction es as [|e es IH]; intros s Cs.
  - exists [], s. split; [constructor|]. split; [constructor|]. intros y [Hy|Hy]; [by apply elem_of_nil in Hy|done].
  - destruct (wsend_all _ e _ Cs (le_n _)) as (ms1 & s1 & R1 & F1 & U1 & K1).
    destruct (lift _ _ _ Cs R1 F1) as [_ Cs1].
    destruct (IH _ Cs1) as (ms2 & s2 & R2 & F2 & U2).
    exists (ms1 ++ ms2), s2. split; [by eapply nrun_app|]. split; [by apply Forall_app|].
    intros y Hy. apply U2. destruct (decide (y = e)) as [->|Hn]; [by right|]. rewrite K1 by done.
    destruct Hy as [Hy|Hy]; [|by right]. apply elem_of_cons in Hy as [->|Hy]; [done|by left].
Qed.
Lemma wnobody z os : Forall (fun p : post * list byte => snd p <> [] /\ zed N (fst p) ∈ e_sessions (nb N)) os -> z ∉ e_sessions (nb N) -> forz N z os.*1 = [].
Proof.
  induction 1 as [|p os [_ Hp] _ IH]; intros Hz; [done|]. unfold forz, mails_for, sent_of in *. simpl. fold (zed N (fst p)).
  rewrite decide_False; [by apply IH|]. by intros <-.
Qed.
Lemma wfinishes ls s os i : 0 < nrxcap N -> winv ls (Wst s on) os i -> can_send s ->
  exists ms s', run s ms s' /\ Forall inner ms /\ settled s' /\ all_sent s'.
Proof.
  intros Hc I Cs.
  set (es := omap (fun l => match l with NPut e _ => Some e | _ => None end) (net_labels ls)).
  destruct (wsend_everybody es _ Cs) as (ms1 & s1 & R1 & F1 & U1).
  destruct (winv_lift _ _ _ _ _ _ I Cs R1 F1) as [(os1 & i1 & I1) Cs1].
  destruct (wread_all _ _ _ _ _ Hc I1 Cs1 (le_n _)) as (ms2 & s2 & R2 & F2 & W2 & P2 & T2 & D2).
  destruct (winv_lift _ _ _ _ _ _ I1 Cs1 R2 F2) as [(os2 & i2 & I2) Cs2].
  destruct (listen_everybody (now N on) (psb on) (e_sessions (nb N)) s2) as (ms3 & s3 & R3 & F3 & K3 & P3 & W3 & T3 & D3).
  exists (ms1 ++ ms2 ++ ms3), s3. split; [eapply nrun_app; [done|by eapply nrun_app]|].
  split; [apply Forall_app; split; [done|by apply Forall_app]|]. split.
  - split; [congruence|]. split; [congruence|]. intros z. apply K3. destruct (decide (z ∈ e_sessions (nb N))) as [Hz|Hz]; [by left|right].
    pose proof (wv_heard _ _ _ _ I2 z) as E. rewrite <- fmap_take, wnobody in E; [|apply Forall_take, I2|done].
    apply app_eq_nil in E as [_ E]. by apply app_eq_nil in E as [E _].
  - intros e. assert (unsent e s1 = []) as E; [|unfold unsent in *; by rewrite D3, D2, T3, T2].
    apply U1. destruct (decide (e ∈ es)) as [He|He]; [by left|right].
    pose proof (wv_sent _ _ _ _ I e) as E. assert (given e (net_labels ls) = []) as E'; [|rewrite E' in E; by apply app_eq_nil in E as [_ E]].
    apply elem_of_nil_inv. intros x Hx. apply He. unfold given in Hx. apply elem_of_list_omap in Hx as (l & Hl & Ex).
    apply elem_of_list_omap. exists l. split; [done|]. destruct l; try done. case_decide; congruence.
Qed.
End go_on.
Lemma careful_finishes a b ls s : 0 < nrxcap N -> caches_idle (nb N) b -> wrun N (careful L N) (new_swap N a b) ls s ->
  ready L (now N (w_on s)) -> (forall e x, x ∈ unsent e (w_net s) -> sendable (now N (w_on s)) k (psb (w_on s)) e x) ->
  (exists ms s', wrun N (careful L N) s (WNet <$> ms) s' /\ Forall inner ms /\ settled (w_net s') /\ all_sent (w_net s')) /\
  ((forall l s', inner l -> careful L N s (WNet l) -> ~ wstep N s (WNet l) s') -> settled (w_net s) /\ all_sent (w_net s)).
Proof.
  intros Hc Hi H R Cs. destruct (winv_reach _ _ _ _ Hi H) as (os & i & I). destruct s as [s on]. simpl in *.
  destruct (wfinishes on R _ _ _ _ Hc I Cs) as (ms & s' & H1 & H2 & H3 & H4). split.
  - exists ms, (Wst s' on). split; [by apply (lift on R)|done].
  - intros Hno. assert (ms = [] /\ s' = s \/ exists l s1, inner l /\ whole_read (framed (psb on)) s l /\ nstep (now N on) s l s1) as [[-> ->]|(l & s1 & Hl & Hw & Hs)]; [|done|].
    + clear -H1 H2. induction H1 as [|ms s1 l s2 _ IH Hok Hs]; [by left|]. apply Forall_app in H2 as [F1 F2]. inversion F2; subst.
      right. destruct (IH F1) as [[-> ->]|?]; [|done]. eauto.
    + destruct (careful_now on R _ _ _ Cs Hl Hw Hs) as (C1 & C2 & _). by destruct (Hno l (Wst s1 on)).
Qed.

(** ** Switches the peer does not notice *)
Definition quiet (on : side -> nat -> bool) : Prop := same_at (na N) (as_made (na N)) (on SideA) /\ same_at (nb N) (as_made (nb N)) (on SideB).
Lemma quiet_b on : quiet on -> Forall2 alike (below (nb N) (lo_b L) (lo_above_b L)) (psb on).
Proof. intros [_ H]. rewrite <- (flagged_made (nb N)) at 1. by apply below_alike. Qed.
Lemma quiet_ready on : unseen k = false -> quiet on -> ready L N -> ready L (now N on).
Proof.
  intros Hk [Q1 Q2] (FA & Ac & FB & Al). split; [|split; [done|split]].
  - simpl. rewrite <- (flagged_made (na N)) in FA. by eapply fit_same.
  - simpl. rewrite <- (flagged_made (nb N)) in FB. by eapply fit_same.
  - simpl. rewrite <- (flagged_made (na N)), <- (flagged_made (nb N)) in Al.
    eapply alike_trans; [apply alike_sym, below_alike; exact Q1|]. eapply alike_trans; [exact Al|]. by apply below_alike.
Qed.
Lemma quiet_sendable on e x : quiet on -> sendable N k (below (nb N) (lo_b L) (lo_above_b L)) e x -> sendable (now N on) k (psb on) e x.
Proof.
  intros Q (l & G1 & G2 & G3 & G4 & G5 & G6 & G7 & G8). pose proof (quiet_b _ Q) as Ha. exists l. split_and!; try done; simpl in *.
  - by rewrite <- (alike_room _ _ Ha).
  - apply G6.
  - apply G6.
  - by rewrite <- (alike_resolves _ _ Ha).
Qed.
Lemma discreet_careful a b ls s : ready L N -> caches_idle (nb N) b -> wrun N (discreet L N) (new_swap N a b) ls s ->
  all_sendable N k (below (nb N) (lo_b L) (lo_above_b L)) (net_labels ls) ->
  wrun N (careful L N) (new_swap N a b) ls s /\ quiet (w_on s) /\
  forall e x, x ∈ unsent e (w_net s) -> sendable N k (below (nb N) (lo_b L) (lo_above_b L)) e x.
Proof.
  intros R Hi H. induction H as [|ls s1 l s2 _ IH Hok Hst]; intros Hs.
  { split; [constructor|]. split; [split; intros i p _; by right|]. intros e x Hx. by apply elem_of_nil in Hx. }
  destruct IH as (IH1 & IH2 & IH3).
  { intros e x Hx. apply (Hs e x). unfold net_labels in *. rewrite omap_app. apply elem_of_app. by left. }
  assert (careful L N s1 l) as Hc.
  { destruct l as [l|d i on'].
    - simpl in Hok. rewrite (alike_framed _ _ (quiet_b _ IH2)) in Hok. destruct l; try done. simpl. split.
      + inversion Hst as [s0 on l0 s0' Hst'|]; subst; simpl in *. apply quiet_ready; [|done|done].
        inversion Hst'; subst. match goal with Hh : _ e = Some ?x |- _ => destruct (IH3 e x) as (l & Hl & _); [unfold unsent; simpl; rewrite Hh; by left|] end.
        by eapply codec_seen.
      + intros x Hx. apply quiet_sendable; [done|]. apply IH3. unfold unsent. rewrite Hx. by left.
    - destruct d; simpl; [done|by left]. }
  assert (wrun N (careful L N) (new_swap N a b) (ls ++ [l]) s2) as Hrun by (by eapply wr_snoc).
  split; [done|]. split.
  - destruct Hst as [|s on d i b']; [done|]. simpl in *. destruct IH2 as [Q1 Q2]. destruct d; split; intros j p Hp; simpl.
    + rewrite fn_lookup_insert. destruct (decide (j = i)) as [->|Hn]; [left; by apply Hok|]. rewrite fn_lookup_insert_ne by done. by apply Q1.
    + rewrite fn_lookup_insert_ne by done. by apply Q2.
    + rewrite fn_lookup_insert_ne by done. by apply Q1.
    + rewrite fn_lookup_insert. destruct (decide (j = i)) as [->|Hn]; [left; by apply Hok|]. rewrite fn_lookup_insert_ne by done. by apply Q2.
  - intros e x Hx. destruct (winv_reach _ _ _ _ Hi Hrun) as (os & i & I). pose proof (wv_sent _ _ _ _ I e) as E.
    assert (x ∈ given e (net_labels (ls ++ [l]))) as Hg by (rewrite <- E; apply elem_of_app; by right).
    apply (Hs e x). unfold given in Hg. apply elem_of_list_omap in Hg as (l' & Hl' & Ex). destruct l'; try done. case_decide; [|done]. by simplify_eq.
Qed.
Lemma discreet_in_order a b ls s : ready L N -> caches_idle (nb N) b -> wrun N (discreet L N) (new_swap N a b) ls s ->
  all_sendable N k (below (nb N) (lo_b L) (lo_above_b L)) (net_labels ls) ->
  exists o, (forall e, mails_of e o ++ unsent e (w_net s) = given e (net_labels ls)) /\
    forall z, exists rest, heard z (w_net s) ++ rest = mails_for N z o /\ (settled (w_net s) -> rest = []).
Proof. intros R Hi H Hs. destruct (discreet_careful _ _ _ _ R Hi H Hs) as (H1 & _). by eapply careful_in_order. Qed.
Lemma discreet_finishes a b ls s : ready L N -> 0 < nrxcap N -> caches_idle (nb N) b -> wrun N (discreet L N) (new_swap N a b) ls s ->
  all_sendable N k (below (nb N) (lo_b L) (lo_above_b L)) (net_labels ls) -> unseen k = false ->
  (exists ms s', wrun N (discreet L N) s (WNet <$> ms) s' /\ Forall inner ms /\ settled (w_net s') /\ all_sent (w_net s')) /\
  ((forall l s', inner l -> discreet L N s (WNet l) -> ~ wstep N s (WNet l) s') -> settled (w_net s) /\ all_sent (w_net s)).
Proof.
  intros R Hc Hi H Hs Hk. destruct (discreet_careful _ _ _ _ R Hi H Hs) as (H1 & Q & Cs). destruct (winv_reach _ _ _ _ Hi H1) as (os & i & I).
  destruct s as [s on]. simpl in *. pose proof (alike_framed _ _ (quiet_b _ Q)) as Hfr.
  assert (can_send on s) as Cs' by (intros e x Hx; by apply quiet_sendable, Cs). pose proof (quiet_ready _ Hk Q R) as R'.
  destruct (wfinishes on R' _ _ _ _ Hc I Cs') as (ms & s' & H2 & H3 & H4 & H5). split.
  - exists ms, (Wst s' on). split; [|done]. clear -H2 Hfr. induction H2 as [|ms s1 l s2 _ IH Hok Hs]; [constructor|].
    rewrite fmap_app. eapply wr_snoc; [done| |by constructor]. simpl. by rewrite Hfr.
  - intros Hno. assert (ms = [] /\ s' = s \/ exists l s1, inner l /\ whole_read (framed (psb on)) s l /\ nstep (now N on) s l s1) as [[-> ->]|(l & s1 & Hl & Hw & Hs1)]; [|done|].
    + clear -H2 H3. induction H2 as [|ms s1 l s2 _ IH Hok Hs]; [by left|]. apply Forall_app in H3 as [F1 F2]. inversion F2; subst.
      right. destruct (IH F1) as [[-> ->]|?]; [|done]. eauto.
    + destruct (Hno l (Wst s1 on)); [done| |by constructor]. simpl. by rewrite Hfr.
Qed.
End careful.
Lemma switch_does N s d i b s' : wstep N s (WSet d i b) s' <-> w_net s' = w_net s /\ (w_on s' = <[d := <[i := b]> (w_on s d)]> (w_on s)).
Proof.
  split; [by inversion 1|]. destruct s as [n on], s' as [n' on']. simpl. intros [-> ->]. constructor.
Qed.
