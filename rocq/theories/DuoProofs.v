(** * Proofs about two stacks that talk in both directions *)
From Coq Require Import ZArith Lia.
From Verif Require Import GoBase UBufModel UBufSpec UBufProofs UBufFacts FrameModel FrameSpec FrameProofs
  StackModel StackSpec StackProofs StackPath StackFacts StackEffects StackSpecial StackCount StackEnd StatSpec StatProofs
  NetModel NetSpec NetProofs DuoModel DuoSpec DuoPath DuoItems.
From stdpp Require Import sets list.

Lemma drun_app D ok s ls s1 ms s2 : drun D ok s ls s1 -> drun D ok s1 ms s2 -> drun D ok s (ls ++ ms) s2.
Proof.
  intros H1 H2. induction H2 as [|ms s3 l s4 _ IH Hok Hst]; [by rewrite app_nil_r|]. rewrite app_assoc. by econstructor.
Qed.
Lemma drun_one D (ok : dst -> dlab -> Prop) s l s' : ok s l -> dstep D s l s' -> drun D ok s [l] s'.
Proof. intros. apply (dr_snoc _ _ _ [] s); [constructor|done|done]. Qed.
Lemma drun_cons D (ok : dst -> dlab -> Prop) s l s1 ls s2 : ok s l -> dstep D s l s1 -> drun D ok s1 ls s2 -> drun D ok s (l :: ls) s2.
Proof. intros H1 H2 H3. apply (drun_app _ _ _ [l] s1); [by apply drun_one|done]. Qed.

Lemma last_in {A} (d x : A) l : List.last (x :: l) d ∈ x :: l.
Proof. revert x. induction l as [|y l IH]; intros x; [left|right; apply (IH y)]. Qed.

(** ** Lists of items *)
Definition posts (its : list item) : list post := omap (fun it => match it with ILetter p => Some p | _ => None end) its.
Definition cnt {X} (f : X -> bool) (l : list X) : nat := length (List.filter f l).
Definition wt (its : list item) : nat := length its + cnt isreq its.
Definition beats_out (o : out) : bool := match o with ORefresh _ _ => true | _ => false end.
Definition shows_out (o : out) : bool := match o with OShow _ _ _ _ => true | _ => false end.
Lemma cnt_app {X} (f : X -> bool) l1 l2 : cnt f (l1 ++ l2) = cnt f l1 + cnt f l2.
Proof. unfold cnt. by rewrite List.filter_app, app_length. Qed.
Lemma cnt_cons {X} (f : X -> bool) x l : cnt f (x :: l) = (if f x then 1 else 0) + cnt f l.
Proof. unfold cnt. simpl. by destruct (f x). Qed.
Lemma posts_app l1 l2 : posts (l1 ++ l2) = posts l1 ++ posts l2.
Proof. apply omap_app. Qed.
Lemma wt_app l1 l2 : wt (l1 ++ l2) = wt l1 + wt l2.
Proof. unfold wt. rewrite app_length, cnt_app. lia. Qed.
Lemma delivered_app o1 o2 : delivered (o1 ++ o2) = delivered o1 ++ delivered o2.
Proof. apply omap_app. Qed.
Lemma written_app c o1 o2 : written c (o1 ++ o2) = written c o1 ++ written c o2.
Proof. apply omap_app. Qed.

Section both.
Context (D : duo) (k : kind) (ps : list proc) (P : paired D k ps).

Lemma eff_outs w its os : Forall (goodi (one_way D w) k ps) its -> Forall2 (eff (one_way D w)) its os ->
  delivered (concat os) = (fun p => (zed (one_way D w) p, ml_msg (po_mail p))) <$> posts its /\
  (exists rs, Forall (goodi (one_way D (negb w)) k ps) rs /\ written (du_conn D (negb w)) (concat os) = wirei (one_way D (negb w)) ps <$> rs /\
    posts rs = [] /\ cnt isbeat rs = 0 /\ cnt isreq rs = 0 /\ cnt isres rs = cnt isreq its /\ length rs = cnt isreq its) /\
  cnt beats_out (concat os) = cnt isbeat its /\ cnt shows_out (concat os) = cnt isres its.
Proof.
  intros Hg H. induction H as [|it o its os He H IH]; [split_and!; try done; exists []; by split_and!|].
  apply Forall_cons in Hg as [Hg1 Hg2]. destruct (IH Hg2) as (I1 & (rs & R1 & R2 & R3 & R4 & R5 & R6 & R7) & I3 & I4).
  cbn [concat]. rewrite delivered_app, written_app, !cnt_app, !cnt_cons, I1, I3, I4.
  destruct He as [p|q pb z i Hk|pb z z' r Hr|pb z r i nm t x].
  - split_and!; try done. exists rs. by split_and!.
  - simpl. rewrite Hk. split_and!; try done. exists rs. by split_and!.
  - split_and!; try done. exists (IOwn (Proc KStat true) pb z' (35%Z :: r) :: rs). rewrite !cnt_cons. simpl. split_and!; try done.
    + constructor; [|done]. destruct Hg1 as (Hpa & _ & _). split; [done|]. split; [constructor|exact Hr].
    + unfold written. simpl. rewrite decide_True by done. by f_equal.
    + by rewrite R6.
    + by rewrite R7.
  - split_and!; try done. exists rs. by split_and!.
Qed.

(** ** One step of each side *)
Lemma receive_items_to w its s : Forall (goodi (one_way D w) k ps) its -> caches_idle (du_env D (negb w)) s ->
  length (s_ps s) = length (e_procs (du_env D (negb w))) ->
  (framed ps = false -> length its = 1) -> (Z.of_nat (length (concat (wirei (one_way D w) ps <$> its))) <= e_mtu (du_env D (negb w)))%Z ->
  exists s' os, finishes (fun f => receive f (du_env D (negb w)) (du_conn D (negb w)) (concat (wirei (one_way D w) ps <$> its)) s) s (concat os) s' /\
    Forall2 (eff (one_way D w)) its os /\ caches_idle (du_env D (negb w)) s' /\ length (s_ps s') = length (e_procs (du_env D (negb w))).
Proof.
  intros Hg Hid Hsz Hj Hlen. destruct P as [P1 _].
  destruct (P1 w) as [(idsA & idsB & preA & preB & WA & WB & PA & PB & Hc & RA & Ac & MA & RB & MB) _].
  destruct (P1 (negb w)) as [(_ & _ & _ & _ & _ & _ & _ & _ & _ & _ & AB & _) HoB]. simpl in AB, RB, MB, WB.
  assert (exists q, l_upper (e_links (du_env D (negb w))) PLower = Some q) as (q & Hq).
  { destruct (wired_split1 _ _ _ _ _ WB) as (a & i & b & -> & La & Lb).
    destruct (wired_up_to _ _ _ _ _ _ _ WB La) as (q & Hq & _). eauto. }
  destruct (framed ps) eqn:Hf.
  - assert (exists qs cap, ps = qs ++ [Proc (KFrame cap) true]) as (qs & cap & Eps).
    { unfold framed in Hf. destruct (rev ps) as [|[kk en] rs] eqn:Hrev; [done|]. unfold framing in Hf. simpl in Hf.
      destruct kk; try done. subst en. eexists (rev rs), _. rewrite <- (rev_involutive ps), Hrev. done. }
    assert (exists n q2, q = PProc n /\ e_procs (du_env D (negb w)) !! n = Some (Proc (KFrame cap) true) /\
      l_upper (e_links (du_env D (negb w))) (PProc n) = Some q2) as (n & q2 & -> & Hn & Hq2).
    { destruct (wired_split1 _ _ _ _ _ WB) as (a & i & b & -> & La & Lb).
      destruct (wired_up_to _ _ _ _ _ _ _ WB La) as (q1 & Hq1 & Hp). assert (q1 = q) as -> by congruence.
      rewrite Eps, rev_unit in Hp. inversion Hp; subst. eauto. }
    destruct (items_group (one_way D w) k ps idsB preB WB PB Hc RB AB ltac:(simpl; lia) (PProc n) Hq n cap eq_refl Hn q2 Hq2 its Hf Hg
      ltac:(lia)) as (f & Ht).
    destruct (receive_takes _ _ _ _ s _ _ _ Hq Ht) as (s' & outs & so' & Hfin & (os & -> & Hos) & Hid' & Hsz'); try done.
    exists s', os. done.
  - specialize (Hj eq_refl). destruct its as [|it [|]]; try done. rewrite fmap_cons in *. cbn [concat fmap list_fmap] in *.
    rewrite app_nil_r in *. apply Forall_cons in Hg as [Hg _].
    destruct (item_alone (one_way D w) k ps idsB preB WB PB Hc RB AB ltac:(simpl; lia) q Hq it Hg ltac:(lia)) as (f & fr & Ht).
    destruct (receive_takes _ _ _ _ s _ _ _ Hq Ht) as (s' & outs & so' & Hfin & (_ & Ho) & Hid' & Hsz'); try done.
    exists s', [outs]. cbn [concat]. rewrite app_nil_r. split_and!; try done. by constructor.
Qed.
Lemma receive_items b its s : Forall (goodi (one_way D (negb b)) k ps) its -> caches_idle (du_env D b) s ->
  length (s_ps s) = length (e_procs (du_env D b)) ->
  (framed ps = false -> length its = 1) -> (Z.of_nat (length (concat (wirei (one_way D (negb b)) ps <$> its))) <= e_mtu (du_env D b))%Z ->
  exists s' os, finishes (fun f => receive f (du_env D b) (du_conn D b) (concat (wirei (one_way D (negb b)) ps <$> its)) s) s (concat os) s' /\
    Forall2 (eff (one_way D (negb b))) its os /\ caches_idle (du_env D b) s' /\ length (s_ps s') = length (e_procs (du_env D b)).
Proof. destruct b; apply receive_items_to. Qed.

Lemma written_own c l : written c [OWire c l] = [l].
Proof. unfold written. simpl. by rewrite decide_True. Qed.
Lemma send_letter b p s : good (one_way D b) k ps p ->
  exists s', finishes (fun f => send f (du_env D b) (du_sess D b (po_from p)) (ml_dest (po_mail p)) (Some (du_conn D b))
      (Some (ml_msg (po_mail p))) s) s [OWire (du_conn D b) (wirep (one_way D b) ps p)] s' /\
    (forall j, cache_of s' j = cache_of s j) /\ length (s_ps s') = length (s_ps s).
Proof.
  intros Hp. pose proof (good_nonempty _ _ _ p Hp) as Hne. destruct Hp as (He & _ & Hl & Hfit & _).
  destruct P as [P1 _]. destruct (P1 b) as [(idsA & idsB & preA & preB & WA & WB & PA & PB & Hc & RA & Ac & MA & RB & MB) _].
  destruct (send_fits (du_env D b) idsA preA k ps (du_sess D b (po_from p)) (ml_dest (po_mail p)) (du_conn D b) (ml_msg (po_mail p)) (po_bytes p) s)
    as (s' & H & Hca & _); try done; [by apply carries_sends|].
  exists s'. rewrite offered_accepts in H by done. split; [done|]. split; [done|].
  destruct H as [(f0 & x' & H) _]. specialize (H f0 (le_n _)). unfold send in H. by apply sized_exec in H.
Qed.
Lemma send_own b i p tag s : e_procs (du_env D b) !! i = Some p -> l_lower (e_links (du_env D b)) (PProc i) <> None ->
  self_tag (p_kind p) = Some tag ->
  exists pb s', goodi (one_way D b) k ps (IOwn p pb 0 [tag]) /\
    finishes (fun f => self_message f (du_env D b) i tag (du_conn D b) s) s [OWire (du_conn D b) (wire_of 0 pb [tag])] s' /\
    (forall j, cache_of s' j = cache_of s j) /\ length (s_ps s') = length (s_ps s).
Proof.
  intros Hp Hlow Htag. destruct P as [P1 P2].
  destruct (P1 b) as [(ids & _ & pre & _ & W & _ & PA & _ & Hc & RA & Ac & MA & _) Ho]. simpl in W, RA, Ac, MA.
  assert (i ∈ ids) as Hi.
  { destruct W as (El & _). rewrite El in Hlow. unfold build_links in Hlow. destruct ids as [|i0 ids]; [done|].
    cbn [l_lower set_lower set_upper] in Hlow. destruct (decide (PProc i = PProc (List.last (i0 :: ids) i0))) as [E|E].
    { injection E as ->. apply (last_in i0 i0 ids). }
    apply link_pairs_lower in Hlow as [|Hl]; [done|]. simpl in Hl. done. }
  apply elem_of_list_split in Hi as (a & b' & ->).
  assert (exists pa pb, pre ++ Proc k true :: ps = pa ++ p :: pb /\ length a = length pa) as (pa & pb & Eps & La).
  { destruct W as (_ & _ & _ & H2). apply Forall2_app_inv_l in H2 as (pa & l2 & Ha & Hb & E). inversion Hb as [|? q ? pb Hq Hb']; subst.
    assert (q = p) as -> by congruence. exists pa, pb. split; [done|]. by eapply Forall2_length. }
  rewrite Eps in W.
  assert (exists pa', pa' ++ p :: pb = Proc k true :: ps) as Hsuf.
  { destruct (decide (length pre <= length pa)) as [Hle|Hle].
    - exists (drop (length pre) pa). apply (f_equal (drop (length pre))) in Eps. rewrite drop_app in Eps.
      by rewrite drop_app_le in Eps.
    - exfalso. apply (f_equal (lookup (length pa))) in Eps. rewrite (list_lookup_middle pa pb) in Eps by done.
      rewrite lookup_app_l in Eps by lia. rewrite Forall_lookup in PA. specialize (PA _ _ Eps). unfold passes_message in PA.
      destruct (p_kind p); done. }
  assert (ownmsg p [tag]) as Hown.
  { destruct p as [kk en]. simpl in Htag. destruct kk; try done; injection Htag as <-; [by constructor|].
    assert (en = true) as ->; [|constructor]. destruct Hsuf as (pa' & Hs).
    destruct pa' as [|p0 pa']; simpl in Hs; injection Hs as H1 H2.
    - done.
    - rewrite Forall_forall in P2. specialize (P2 (Proc KStat en)). simpl in P2. apply P2. rewrite <- H2. apply elem_of_app. right. left. }
  assert (Forall (fun p => carries p = true) pb) as Hcb.
  { destruct Hsuf as (pa' & Hs). by destruct (suffix_carries _ _ _ _ _ Hc Hs) as (? & _). }
  destruct (self_asks (du_env D b) a i b' pa p pb tag (du_conn D b) s) as (s' & H & Hca & _); try done; [by apply carries_sends|].
  rewrite offered_accepts in H; [|done|by apply wire_nonempty].
  exists pb, s'. split; [split; [done|]; split; [done|simpl; lia]|]. split; [done|]. split; [done|].
  destruct H as [(f0 & x' & H) _]. specialize (H f0 (le_n _)). unfold self_message in H.
  repeat case_match; try done. by apply sized_exec in H.
Qed.

(** ** One direction *)
Notation W w := (one_way D w).
Record dirinv (w : bool) (un gv : nat -> list mail) (ws : list (list byte)) (g : nat) (wi : list byte) (hd : Z -> list msg)
  (nbeat nreq nnote nshow : nat) (os : list item) (i : nat) : Prop := Dirinv {
  dv_good : Forall (goodi (W w) k ps) os;
  dv_sent : forall e, mails_of e (sent_of (posts os)) ++ un e = gv e;
  dv_puts : forall e x, x ∈ un e -> sendable (W w) k ps e x;
  dv_writes : ws = wirei (W w) ps <$> os;
  dv_got : g = length (concat (take i ws));
  dv_wire : wi = concat (drop i ws);
  dv_heard : forall z, hd z = forz (W w) z (posts (take i os));
  dv_le : i <= length os;
  dv_beats : cnt isbeat os = nbeat;
  dv_reqs : cnt isreq os = nreq;
  dv_noted : nnote = cnt isbeat (take i os);
  dv_showed : nshow = cnt isres (take i os) }.

Lemma dir_same w un gv ws g wi hd nb nq nn nsh os i un' gv' hd' :
  dirinv w un gv ws g wi hd nb nq nn nsh os i -> (forall e, un' e = un e) -> (forall e, gv' e = gv e) -> (forall z, hd' z = hd z) ->
  dirinv w un' gv' ws g wi hd' nb nq nn nsh os i.
Proof.
  intros [] H1 H2 H3. split; try done.
  - intros e. by rewrite H1, H2.
  - intros e x. rewrite H1. auto.
  - intros z. by rewrite H3.
Qed.
Lemma dir_put w un gv ws g wi hd nb nq nn nsh os i un' gv' e x :
  dirinv w un gv ws g wi hd nb nq nn nsh os i -> sendable (W w) k ps e x ->
  un' e = un e ++ [x] -> gv' e = gv e ++ [x] -> (forall y, y <> e -> un' y = un y /\ gv' y = gv y) ->
  dirinv w un' gv' ws g wi hd nb nq nn nsh os i.
Proof.
  intros [] Hx H1 H2 H3. split; try done.
  - intros y. destruct (decide (y = e)) as [->|Hy].
    + by rewrite H1, H2, app_assoc, dv_sent0.
    + destruct (H3 y Hy) as [-> ->]. done.
  - intros y v Hv. destruct (decide (y = e)) as [->|Hy].
    + rewrite H1 in Hv. apply elem_of_app in Hv as [Hv|Hv]; [auto|]. by apply elem_of_list_singleton in Hv as ->.
    + destruct (H3 y Hy) as [E _]. rewrite E in Hv. auto.
Qed.
Lemma dir_add w un gv ws g wi hd nb nq nn nsh os i un' rs :
  dirinv w un gv ws g wi hd nb nq nn nsh os i -> Forall (goodi (W w) k ps) rs ->
  (forall e, mails_of e (sent_of (posts rs)) ++ un' e = un e) ->
  dirinv w un' gv (ws ++ (wirei (W w) ps <$> rs)) g (wi ++ concat (wirei (W w) ps <$> rs)) hd
    (nb + cnt isbeat rs) (nq + cnt isreq rs) nn nsh (os ++ rs) i.
Proof.
  intros [] Hr Hu. assert (i <= length ws) as Hle by (by rewrite dv_writes0, fmap_length).
  split; try done.
  - by apply Forall_app.
  - intros e. rewrite <- dv_sent0, <- (Hu e). unfold sent_of, mails_of. rewrite posts_app, fmap_app, omap_app. by rewrite <- app_assoc.
  - intros e x Hx. apply dv_puts0. rewrite <- Hu. apply elem_of_app. by right.
  - by rewrite fmap_app, dv_writes0.
  - by rewrite take_app_le.
  - by rewrite drop_app_le, concat_app, dv_wire0.
  - intros z. by rewrite take_app_le.
  - rewrite app_length. lia.
  - by rewrite cnt_app, dv_beats0.
  - by rewrite cnt_app, dv_reqs0.
  - by rewrite take_app_le.
  - by rewrite take_app_le.
Qed.
Lemma take_more {X} i j (l : list X) : take (i + length (take j (drop i l))) l = take i l ++ take j (drop i l).
Proof.
  rewrite <- take_take_drop. f_equal. destruct (decide (j <= length (drop i l))) as [H|H].
  - by rewrite take_length_le.
  - rewrite !(take_ge (drop i l)); [done|lia|]. rewrite take_ge by lia. done.
Qed.
Lemma drop_more {X} i j (l : list X) : drop (i + length (take j (drop i l))) l = drop j (drop i l).
Proof.
  rewrite <- drop_drop. destruct (decide (j <= length (drop i l))) as [H|H].
  - by rewrite take_length_le.
  - rewrite !drop_ge; [done|lia|]. rewrite take_ge by lia. done.
Qed.
Lemma dir_read w un gv ws g wi hd nb nq nn nsh os i j hd' :
  dirinv w un gv ws g wi hd nb nq nn nsh os i -> let its := take j (drop i os) in
  (forall z, hd' z = hd z ++ forz (W w) z (posts its)) ->
  dirinv w un gv ws (g + length (concat (take j (drop i ws)))) (concat (drop j (drop i ws))) hd' nb nq
    (nn + cnt isbeat its) (nsh + cnt isres its) os (i + length its).
Proof.
  intros [] its Hh. unfold its in *.
  assert (length (take j (drop i ws)) = length (take j (drop i os))) as El by (by rewrite dv_writes0, <- fmap_drop, <- fmap_take, fmap_length).
  split; try done.
  - rewrite <- El, take_more, concat_app, app_length. by rewrite dv_got0.
  - by rewrite <- El, drop_more.
  - intros z. by rewrite Hh, dv_heard0, take_more, posts_app, forz_app.
  - rewrite take_length, drop_length. lia.
  - by rewrite take_more, cnt_app, dv_noted0.
  - by rewrite take_more, cnt_app, dv_showed0.
Qed.

(** ** Both directions *)
Definition heards (v : bool) (s : dst) (z : Z) : list msg := dheard v z s ++ d_rx s (v, z) ++ upz z (d_up s v).
Definition dir_of (w : bool) (ls : list dlab) (s : dst) : list item -> nat -> Prop :=
  dirinv w (fun e => dunsent (w, e) s) (fun e => dgiven (w, e) ls) (d_writes s w) (d_got s w) (d_wire s w) (heards (negb w) s)
    (selfs w 131%Z ls) (selfs w 16%Z ls) (noted (negb w) s) (showed (negb w) s).
Record dinv (ls : list dlab) (s : dst) (os : bool -> list item) (i : bool -> nat) : Prop := Dinv {
  dn_dir : forall w, dir_of w ls s (os w) (i w);
  dn_idle : forall w, caches_idle (du_env D w) (d_st s w);
  dn_size : forall w, length (s_ps (d_st s w)) = length (e_procs (du_env D w));
  dn_ress : forall w, cnt isres (os (negb w)) = cnt isreq (take (i w) (os w)) }.
(** What is still to be read: an unread request is followed by an answer. *)
Definition todo (os : bool -> list item) (i : bool -> nat) : nat := wt (drop (i true) (os true)) + wt (drop (i false) (os false)).

Lemma dgiven_snoc e ls l : dgiven e (ls ++ [l]) = dgiven e ls ++ match l with DPut x m => if decide (x = e) then [m] else [] | _ => [] end.
Proof. unfold dgiven. rewrite omap_app. f_equal. simpl. destruct l; try done. by case_decide. Qed.
Lemma selfs_snoc b t ls l : selfs b t (ls ++ [l]) = selfs b t ls + match l with DSelf b' _ t' => if Bool.eqb b' b && (t' =? t)%Z then 1 else 0 | _ => 0 end.
Proof. unfold selfs. rewrite List.filter_app, app_length. f_equal. simpl. destruct l; try done. by destruct (_ && _). Qed.
Lemma noted_cnt b s : noted b s = cnt beats_out (s_out (d_st s b)).
Proof. done. Qed.
Lemma showed_cnt b s : showed b s = cnt shows_out (s_out (d_st s b)).
Proof. done. Qed.

Lemma dir_conv w un gv ws g wi hd nb nq nn nsh os i un' gv' ws' g' wi' hd' nb' nq' nn' nsh' os' i' :
  dirinv w un gv ws g wi hd nb nq nn nsh os i -> (forall e, un' e = un e) -> (forall e, gv' e = gv e) -> (forall z, hd' z = hd z) ->
  ws' = ws -> g' = g -> wi' = wi -> nb' = nb -> nq' = nq -> nn' = nn -> nsh' = nsh -> os' = os -> i' = i ->
  dirinv w un' gv' ws' g' wi' hd' nb' nq' nn' nsh' os' i'.
Proof. intros H H1 H2 H3 -> -> -> -> -> -> -> -> ->. by eapply dir_same. Qed.
Lemma idle_same E s s' : (forall j, cache_of s' j = cache_of s j) -> caches_idle E s -> caches_idle E s'.
Proof. apply idle_kept. Qed.
Lemma other (w b : bool) : w <> b -> w = negb b.
Proof. by destruct w, b. Qed.
Lemma negb_ne (b : bool) : b <> negb b.
Proof. by destruct b. Qed.
Lemma fin_out run s outs s' : finishes run s outs s' -> s_out s' = s_out s ++ outs.
Proof. by intros [_ H]. Qed.

Lemma dinv_put ls s os i e x s' : dinv ls s os i -> (forall b y, e = (b, y) -> sendable (W b) k ps y x) -> dstep D s (DPut e x) s' ->
  dinv (ls ++ [DPut e x]) s' os i.
Proof.
  intros [I1 I2 I3 I4] Hx Hst. inversion Hst as [tx hd ss w up rx sn ws g ? ? Hlt| | | | | | ]; subst. destruct e as [b e].
  split; try done. intros v. specialize (I1 v). unfold dir_of in *. destruct (decide (v = b)) as [->|Hv].
  - eapply dir_conv; [eapply (dir_put _ _ _ _ _ _ _ _ _ _ _ _ _ (fun y => dunsent (b, y) (Dst tx hd ss w up rx sn ws g) ++ if decide (y = e) then [x] else [])
      (fun y => dgiven (b, y) ls ++ if decide (y = e) then [x] else []) e x); [exact I1|by apply Hx| | |]|..]; try done.
    + by rewrite decide_True.
    + by rewrite decide_True.
    + intros y Hy. by rewrite decide_False, !app_nil_r.
    + intros y. unfold dunsent. simpl. rewrite <- app_assoc. f_equal. destruct (decide (y = e)) as [->|Hy].
      * by rewrite fn_lookup_insert.
      * rewrite fn_lookup_insert_ne by congruence. by rewrite app_nil_r.
    + intros y. rewrite dgiven_snoc. f_equal. destruct (decide (y = e)) as [->|Hy]; [by rewrite decide_True|].
      rewrite decide_False by congruence. done.
    + rewrite selfs_snoc. lia.
    + rewrite selfs_snoc. lia.
  - eapply dir_conv; [exact I1|..]; try done.
    + intros y. unfold dunsent. simpl. by rewrite fn_lookup_insert_ne by congruence.
    + intros y. rewrite dgiven_snoc, decide_False by congruence. by rewrite app_nil_r.
    + rewrite selfs_snoc. lia.
    + rewrite selfs_snoc. lia.
Qed.
(** Steps that change neither what was written nor what was read. *)
Lemma dinv_quiet ls s os i l s' : dinv ls s os i -> dstep D s l s' ->
  match l with DTake _ | DDeliver _ | DListen _ _ => True | _ => False end -> dinv (ls ++ [l]) s' os i.
Proof.
  intros [I1 I2 I3 I4] Hst Hl.
  assert (forall e, dgiven e (ls ++ [l]) = dgiven e ls) as Hg by (intros e; rewrite dgiven_snoc; destruct l; try done; by rewrite app_nil_r).
  assert (forall b t, selfs b t (ls ++ [l]) = selfs b t ls) as Hs by (intros b t; rewrite selfs_snoc; destruct l; done || lia).
  destruct Hst as [|tx hd ss w up rx sn ws g e x q Hh Htx| | | |tx hd ss w up rx sn ws g b z m q Hup Hlt|tx hd ss w up rx sn ws g b z m q Hrx]; try done;
    (split; try done); intros v; specialize (I1 v); unfold dir_of in *; (eapply dir_conv; [exact I1|..]); try done; try (intros y; apply Hg).
  - intros y. unfold dunsent. simpl. destruct (decide (e = (v, y))) as [->|Hy].
    + by rewrite !fn_lookup_insert, Hh, Htx.
    + by rewrite !fn_lookup_insert_ne.
  - intros y. unfold heards. f_equal. simpl. destruct (decide (negb v = b)) as [->|Hb].
    + rewrite fn_lookup_insert, Hup. unfold upz. simpl. destruct (decide (z = y)) as [->|Hy].
      * rewrite fn_lookup_insert. by rewrite <- app_assoc.
      * rewrite fn_lookup_insert_ne by congruence. done.
    + rewrite !fn_lookup_insert_ne by congruence. done.
  - intros y. unfold heards, dheard. simpl. rewrite omap_app. simpl. rewrite <- app_assoc. f_equal.
    destruct (decide (b = negb v /\ z = y)) as [[-> ->]|Hn].
    + by rewrite fn_lookup_insert, Hrx.
    + by rewrite fn_lookup_insert_ne by (intros [= -> ->]; tauto).
Qed.
(** Side [b] writes the messages [rs]. *)
Lemma dinv_send ls s os i l s' b rs st' tx hd :
  dinv ls s os i -> Forall (goodi (W b) k ps) rs -> cnt isres rs = 0 ->
  s_out st' = s_out (d_st s b) ++ (OWire (du_conn D b) <$> (wirei (W b) ps <$> rs)) ->
  (forall j, cache_of st' j = cache_of (d_st s b) j) -> length (s_ps st') = length (s_ps (d_st s b)) ->
  s' = Dst tx hd (<[b := st']> (d_st s)) (<[b := d_wire s b ++ concat (wirei (W b) ps <$> rs)]> (d_wire s)) (d_up s) (d_rx s) (d_seen s)
         (<[b := d_writes s b ++ (wirei (W b) ps <$> rs)]> (d_writes s)) (d_got s) ->
  (forall e, mails_of e (sent_of (posts rs)) ++ dunsent (b, e) s' = dunsent (b, e) s) ->
  (forall e, dunsent (negb b, e) s' = dunsent (negb b, e) s) ->
  (forall e, dgiven e (ls ++ [l]) = dgiven e ls) ->
  (forall v, selfs v 131%Z (ls ++ [l]) = selfs v 131%Z ls + if decide (v = b) then cnt isbeat rs else 0) ->
  (forall v, selfs v 16%Z (ls ++ [l]) = selfs v 16%Z ls + if decide (v = b) then cnt isreq rs else 0) ->
  dinv (ls ++ [l]) s' (<[b := os b ++ rs]> os) i.
Proof.
  intros [I1 I2 I3 I4] Hr Hres Hout Hca Hsz -> Hu Hu' Hg Hs1 Hs2.
  assert (forall f v, (f = beats_out \/ f = shows_out) -> cnt f (s_out ((<[b := st']> (d_st s)) v)) = cnt f (s_out (d_st s v))) as Hcnt.
  { intros f v Hf. destruct (decide (v = b)) as [->|Hv]; [|by rewrite fn_lookup_insert_ne].
    rewrite fn_lookup_insert, Hout, cnt_app. clear -Hf. induction (wirei (W b) ps <$> rs) as [|x l IH]; [simpl; unfold cnt; simpl; lia|].
    rewrite fmap_cons, cnt_cons. destruct Hf as [->| ->]; simpl; lia. }
  split.
  - intros v. specialize (I1 v). unfold dir_of in *. unfold noted, showed in *. fold (cnt (X:=out)) in *. simpl.
    destruct (decide (v = b)) as [->|Hv].
    + eapply dir_conv; [eapply (dir_add _ _ _ _ _ _ _ _ _ _ _ _ _ (fun e => dunsent (b, e) _) rs); [exact I1|exact Hr|exact Hu]|..]; try done; try (intros y; apply Hg).
      * by rewrite fn_lookup_insert.
      * by rewrite fn_lookup_insert.
      * by rewrite Hs1, decide_True.
      * by rewrite Hs2, decide_True.
      * apply Hcnt. by left.
      * apply Hcnt. by right.
      * by rewrite fn_lookup_insert.
    + pose proof (other _ _ Hv) as ->. eapply dir_conv; [exact I1|..]; try done; try (intros y; apply Hg).
      * by rewrite fn_lookup_insert_ne.
      * by rewrite fn_lookup_insert_ne.
      * by rewrite Hs1, decide_False.
      * by rewrite Hs2, decide_False.
      * apply Hcnt. by left.
      * apply Hcnt. by right.
      * by rewrite fn_lookup_insert_ne.
  - intros v. simpl. destruct (decide (v = b)) as [->|Hv]; [rewrite fn_lookup_insert; by eapply idle_same|by rewrite fn_lookup_insert_ne].
  - intros v. simpl. destruct (decide (v = b)) as [->|Hv]; [rewrite fn_lookup_insert; congruence|by rewrite fn_lookup_insert_ne].
  - intros v. destruct (decide (v = b)) as [->|Hv].
    + rewrite fn_lookup_insert, fn_lookup_insert_ne by apply negb_ne. rewrite take_app_le by apply I1. apply I4.
    + pose proof (other _ _ Hv) as ->. rewrite negb_involutive, fn_lookup_insert, fn_lookup_insert_ne by done.
      rewrite cnt_app, Hres, <- I4, negb_involutive. lia.
Qed.
Lemma todo_at b os i : todo os i = wt (drop (i b) (os b)) + wt (drop (i (negb b)) (os (negb b))).
Proof. unfold todo. destruct b; simpl; lia. Qed.
(** Side [b] reads [n] bytes. *)
Lemma dinv_read ls s os i b n s' : dinv ls s os i -> whole_reads (framed ps) s (DRead b n) -> dstep D s (DRead b n) s' ->
  exists os' i', dinv (ls ++ [DRead b n]) s' os' i' /\ todo os' i' < todo os i.
Proof.
  intros I Hok Hst. pose proof I as [I1 I2 I3 I4].
  inversion Hst as [| | | |tx hd ss w up rx sn ws g ? ? outs st' Hup H0 Hn Hm Hf| | ]; subst.
  assert (forall e, dgiven e (ls ++ [DRead b n]) = dgiven e ls) as Hgv by (intros e; rewrite dgiven_snoc; by rewrite app_nil_r).
  assert (forall v t, selfs v t (ls ++ [DRead b n]) = selfs v t ls) as Hsv by (intros v t; rewrite selfs_snoc; lia).
  destruct Hok as (i' & j & Hi & Hj & Hj1). simpl in Hi, Hj.
  pose proof (I1 (negb b)) as J. pose proof J as [J1 J2 J3 J4 J5 J6 J7 J8 J9 J10 J11 J12]. simpl in J4, J5, J6.
  assert (Forall (fun w => w <> []) (ws (negb b))) as Hne.
  { rewrite J4. apply Forall_fmap. eapply Forall_impl; [exact J1|]. intros p. apply goodi_nonempty. }
  assert (take i' (ws (negb b)) = take (i (negb b)) (ws (negb b))) as Et by (apply boundary; [done|congruence]).
  assert (drop i' (ws (negb b)) = drop (i (negb b)) (ws (negb b))) as Ed.
  { pose proof (take_drop (i (negb b)) (ws (negb b))) as E1. pose proof (take_drop i' (ws (negb b))) as E2. rewrite Et in E2.
    apply (app_inv_head (take (i (negb b)) (ws (negb b)))). congruence. }
  rewrite Ed in Hj. destruct (take_concat j (drop (i (negb b)) (ws (negb b)))) as [T1 T2]. rewrite <- Hj, <- J6 in T1, T2.
  set (its := take j (drop (i (negb b)) (os (negb b)))).
  assert (take j (drop (i (negb b)) (ws (negb b))) = wirei (W (negb b)) ps <$> its) as El
    by (unfold its; by rewrite J4, <- fmap_drop, <- fmap_take).
  assert (Forall (goodi (W (negb b)) k ps) its) as Hgl by (unfold its; by apply Forall_take, Forall_drop).
  assert (0 < length its) as Hpos.
  { destruct its eqn:E; [|simpl; lia]. rewrite El in Hj. simpl in Hj. lia. }
  destruct (receive_items b its (ss b) Hgl (I2 b) (I3 b)) as (b2 & oss & Hf2 & Heff & Hid2 & Hsz2).
  { intros Hfr. specialize (Hj1 Hfr). subst j. unfold its in *. rewrite take_length in *. lia. }
  { rewrite <- El, <- Hj. done. }
  rewrite T1, El in Hf. destruct (finishes_unique _ _ _ _ _ _ Hf Hf2) as [-> ->].
  destruct (eff_outs (negb b) its oss Hgl Heff) as (Edel & (rs & R1 & R2 & R3 & R4 & R5 & R6 & R7) & Ebeat & Eshow).
  rewrite negb_involutive in R1, R2. rewrite R2, Edel. pose proof (fin_out _ _ _ _ Hf2) as Hout.
  exists (<[b := os b ++ rs]> os), (<[negb b := i (negb b) + length its]> i). split; [split|].
  - intros v. destruct (decide (v = b)) as [->|Hv].
    + specialize (I1 b). unfold dir_of in *. unfold noted, showed in *. simpl in *.
      eapply dir_conv; [eapply (dir_add _ _ _ _ _ _ _ _ _ _ _ _ _ _ rs); [exact I1|exact R1|intros e; rewrite R3; done]|..]; try done;
        try (intros y; apply Hgv); rewrite ?Hsv, ?R4, ?R5; try lia;
        rewrite ?fn_lookup_insert; rewrite ?fn_lookup_insert_ne by (try apply negb_ne; by apply not_eq_sym, negb_ne); try done.
      intros z. unfold heards. simpl. by rewrite fn_lookup_insert_ne by apply negb_ne.
    + pose proof (other _ _ Hv) as ->. unfold dir_of in *. unfold noted, showed in *. simpl in *.
      eapply dir_conv; [eapply (dir_read _ _ _ _ _ _ _ _ _ _ _ _ _ j
        (fun z => heards (negb (negb b)) (Dst tx hd ss w up rx sn ws g) z ++ forz (W (negb b)) z (posts its))); [exact J|done]|..]; try done;
        try (intros y; apply Hgv); rewrite ?Hsv; try done;
        rewrite ?fn_lookup_insert; rewrite ?fn_lookup_insert_ne by (try apply negb_ne; by apply not_eq_sym, negb_ne);
        rewrite ?fn_lookup_insert; try done.
      * intros z. unfold heards. simpl. rewrite negb_involutive, fn_lookup_insert, Hup, upz_posts. simpl. by rewrite app_nil_r, <- app_assoc.
      * by rewrite Hj.
      * rewrite negb_involutive, fn_lookup_insert, Hout. transitivity (cnt beats_out (s_out (ss b) ++ concat oss)); [done|].
        rewrite cnt_app, Ebeat. done.
      * rewrite negb_involutive, fn_lookup_insert, Hout. transitivity (cnt shows_out (s_out (ss b) ++ concat oss)); [done|].
        rewrite cnt_app, Eshow. done.
  - intros v. simpl. destruct (decide (v = b)) as [->|Hv]; [by rewrite fn_lookup_insert|rewrite fn_lookup_insert_ne by done; apply I2].
  - intros v. simpl. destruct (decide (v = b)) as [->|Hv]; [by rewrite fn_lookup_insert|rewrite fn_lookup_insert_ne by done; apply I3].
  - intros v. destruct (decide (v = b)) as [->|Hv].
    + rewrite fn_lookup_insert, !fn_lookup_insert_ne by (try apply negb_ne; by apply not_eq_sym, negb_ne).
      rewrite take_app_le by apply I1. apply I4.
    + pose proof (other _ _ Hv) as ->. rewrite negb_involutive, !fn_lookup_insert, fn_lookup_insert_ne by done.
      rewrite cnt_app, R6. unfold its. rewrite take_more, cnt_app. f_equal. rewrite <- I4. by rewrite negb_involutive.
  - rewrite !(todo_at b). rewrite !fn_lookup_insert, !fn_lookup_insert_ne by (try apply negb_ne; by apply not_eq_sym, negb_ne).
    rewrite drop_app_le by apply I1. unfold its. rewrite drop_more. fold its. rewrite wt_app.
    assert (wt (drop (i (negb b)) (os (negb b))) = wt its + wt (drop j (drop (i (negb b)) (os (negb b))))) as ->.
    { rewrite <- wt_app. unfold its. by rewrite take_drop. }
    unfold wt at 2 5. rewrite R5, R7. lia.
Qed.

Lemma dinv_step ls s os i l s' : dinv ls s os i -> whole_reads (framed ps) s l ->
  (forall b e x, l = DPut (b, e) x -> sendable (W b) k ps e x) -> dstep D s l s' ->
  exists os' i', dinv (ls ++ [l]) s' os' i' /\
    match l with
    | DRead _ _ => todo os' i' < todo os i
    | DPass _ => todo os' i' = todo os i + 1
    | DSelf _ _ t => todo os' i' = todo os i + (if (t =? 16)%Z then 2 else 1)
    | _ => todo os' i' = todo os i
    end.
Proof.
  assert (forall b os i rs, i b <= length (os b) -> todo (<[b := os b ++ rs]> os) i = todo os i + wt rs) as Hmore.
  { intros b os' i' rs Hi. rewrite (todo_at b), (todo_at b os'), fn_lookup_insert, fn_lookup_insert_ne by apply negb_ne.
    rewrite drop_app_le, wt_app by done. lia. }
  intros I Hok Hput Hst. destruct l as [e x|e|e|b j tag|b n|b|b z].
  - exists os, i. split; [|done]. eapply dinv_put; [done| |done]. intros b y ->. by apply Hput.
  - exists os, i. split; [|done]. by eapply dinv_quiet.
  - inversion Hst as [| |tx hd ss w up rx sn ws g b e0 x outs st' Hh Hf| | | | ]; subst.
    pose proof I as [I1 I2 I3 I4].
    destruct (dv_puts _ _ _ _ _ _ _ _ _ _ _ _ _ (I1 b) e0 x) as (l & Hl); [unfold dunsent; simpl; rewrite Hh; by left|].
    set (p := Post e0 x l). assert (good (W b) k ps p) as Hg by exact Hl.
    destruct (send_letter b p (ss b) Hg) as (s2 & Hf2 & Hca & Hsz). destruct (finishes_unique _ _ _ _ _ _ Hf Hf2) as [-> ->].
    pose proof (fin_out _ _ _ _ Hf2) as Hout. rewrite written_own.
    exists (<[b := os b ++ [ILetter p]]> os), i. split; [|rewrite Hmore by apply I1; done]. eapply (dinv_send _ _ _ _ _ _ b [ILetter p]); [exact I|by constructor|done|exact Hout|exact Hca|exact Hsz|done| | | | |].
    + intros y. unfold mails_of, dunsent. simpl. destruct (decide (e0 = y)) as [->|Hy].
      * rewrite fn_lookup_insert, Hh. done.
      * by rewrite fn_lookup_insert_ne by congruence.
    + intros y. unfold dunsent. simpl. rewrite fn_lookup_insert_ne; [done|]. intros [= E _]. by apply (negb_ne b).
    + intros y. rewrite dgiven_snoc. by rewrite app_nil_r.
    + intros v. rewrite selfs_snoc. case_decide; done.
    + intros v. rewrite selfs_snoc. case_decide; done.
  - inversion Hst as [| | |tx hd ss w up rx sn ws g ? ? p ? outs st' Hp Hlow Htag Hf| | | ]; subst.
    pose proof I as [I1 I2 I3 I4].
    destruct (send_own b j p tag (ss b) Hp Hlow Htag) as (pb & s2 & Hg & Hf2 & Hca & Hsz).
    destruct (finishes_unique _ _ _ _ _ _ Hf Hf2) as [-> ->].
    pose proof (fin_out _ _ _ _ Hf2) as Hout. rewrite written_own.
    exists (<[b := os b ++ [IOwn p pb 0 [tag]]]> os), i. split.
    2: { rewrite Hmore by apply I1. f_equal. unfold wt. rewrite cnt_cons. simpl. destruct (p_kind p); try done; injection Htag as <-; done. }
    eapply (dinv_send _ _ _ _ _ _ b [IOwn p pb 0 [tag]]); [exact I|by constructor| |exact Hout|exact Hca|exact Hsz|done| | | | |].
    + rewrite cnt_cons. simpl. destruct (p_kind p); try done; injection Htag as <-; done.
    + done.
    + done.
    + intros y. rewrite dgiven_snoc. by rewrite app_nil_r.
    + intros v. rewrite selfs_snoc, cnt_cons. f_equal. simpl. destruct (decide (v = b)) as [->|Hv].
      * rewrite eqb_reflx. destruct (p_kind p); try done; injection Htag as <-; done.
      * destruct (Bool.eqb b v) eqn:E; [|done]. apply eqb_prop in E. congruence.
    + intros v. rewrite selfs_snoc, cnt_cons. f_equal. simpl. destruct (decide (v = b)) as [->|Hv].
      * rewrite eqb_reflx. destruct (p_kind p); try done; injection Htag as <-; done.
      * destruct (Bool.eqb b v) eqn:E; [|done]. apply eqb_prop in E. congruence.
  - by eapply dinv_read.
  - exists os, i. split; [|done]. by eapply dinv_quiet.
  - exists os, i. split; [|done]. by eapply dinv_quiet.
Qed.

Lemma init_size E s : init_st E = Some s -> length (s_ps s) = length (e_procs E) /\ s_out s = [].
Proof.
  unfold init_st. destruct (mapM _ _) as [l|] eqn:Em; [|done]. intros [= <-]. simpl. split; [|done].
  apply mapM_Some_1, Forall2_length in Em. done.
Qed.
Lemma dinv_start ss : (forall b, init_st (du_env D b) = Some (ss b)) -> dinv [] (new_duo ss) (fun _ => []) (fun _ => 0).
Proof.
  intros H. split; try done.
  - intros w. unfold dir_of. split; try done.
    + intros e x Hx. by apply elem_of_nil in Hx.
    + unfold noted. simpl. by rewrite (proj2 (init_size _ _ (H (negb w)))).
    + unfold showed. simpl. by rewrite (proj2 (init_size _ _ (H (negb w)))).
  - intros w. simpl. apply init_idle, H.
  - intros w. simpl. apply init_size, H.
Qed.
Notation run := (drun D (whole_reads (framed ps))).
Lemma dinv_run ls0 s os i ls s' : dinv ls0 s os i -> run s ls s' -> dall_sendable D k ps ls ->
  exists os' i', dinv (ls0 ++ ls) s' os' i'.
Proof.
  intros I H. induction H as [|ls s1 l s2 H IH Hok Hst]; intros Hs; [rewrite app_nil_r; eauto|].
  destruct IH as (os1 & i1 & I1); [intros b e x Hx; eapply Hs, elem_of_app; by left|].
  rewrite app_assoc. destruct (dinv_step _ _ _ _ l s2 I1 Hok) as (os2 & i2 & I2 & _); [|done|eauto].
  intros b e x ->. apply Hs, elem_of_app. right. by left.
Qed.
Lemma dinv_reach ss ls s : (forall b, init_st (du_env D b) = Some (ss b)) -> run (new_duo ss) ls s -> dall_sendable D k ps ls ->
  exists os i, dinv ls s os i.
Proof. intros H1 H2 H3. destruct (dinv_run [] _ _ _ _ _ (dinv_start ss H1) H2 H3) as (os & i & I). eauto. Qed.
Lemma settled_all ls s os i w : dinv ls s os i -> d_wire s w = [] -> drop (i w) (os w) = [] /\ take (i w) (os w) = os w.
Proof.
  intros I Hw. pose proof (dn_dir _ _ _ _ I w) as [J1 J2 J3 J4 J5 J6 J7 J8 J9 J10 J11 J12]. rewrite Hw in J6.
  assert (drop (i w) (os w) = []) as E.
  { destruct (drop (i w) (os w)) as [|p l] eqn:E; [done|].
    rewrite J4, <- fmap_drop, E in J6. simpl in J6. symmetry in J6. apply app_eq_nil in J6 as [J6 _].
    exfalso. apply (goodi_nonempty (W w) k ps p); [|done]. apply (Forall_drop _ (i w)) in J1. rewrite E in J1. by inversion J1. }
  split; [done|]. rewrite <- (take_drop (i w) (os w)) at 2. by rewrite E, app_nil_r.
Qed.
Lemma duo_in_order ss ls s : (forall b, init_st (du_env D b) = Some (ss b)) -> run (new_duo ss) ls s -> dall_sendable D k ps ls ->
  forall b, exists o, (forall e, mails_of e o ++ dunsent (b, e) s = dgiven (b, e) ls) /\
    forall z, exists rest, dheard (negb b) z s ++ rest = mails_for (one_way D b) z o /\ (dsettled s -> rest = []).
Proof.
  intros H1 H2 H3 b. destruct (dinv_reach _ _ _ H1 H2 H3) as (os & i & I).
  pose proof (dn_dir _ _ _ _ I b) as [J1 J2 J3 J4 J5 J6 J7 J8 J9 J10 J11 J12].
  exists (sent_of (posts (os b))). split; [done|]. intros z.
  exists (d_rx s (negb b, z) ++ upz z (d_up s (negb b)) ++ forz (W b) z (posts (drop (i b) (os b)))). split.
  - specialize (J7 z). unfold heards in J7. fold (forz (W b) z (posts (os b))). rewrite <- (take_drop (i b) (os b)) at 2.
    rewrite posts_app, forz_app, <- J7. by rewrite <- !app_assoc.
  - intros [Hs Hr]. rewrite Hr. destruct (Hs (negb b)) as [_ ->]. destruct (settled_all _ _ _ _ b I (proj1 (Hs b))) as [-> _]. done.
Qed.
Lemma cnt_take {X} (f : X -> bool) j l : cnt f (take j l) <= cnt f l.
Proof. rewrite <- (take_drop j l) at 2. rewrite cnt_app. lia. Qed.
Lemma duo_own ss ls s : (forall b, init_st (du_env D b) = Some (ss b)) -> run (new_duo ss) ls s -> dall_sendable D k ps ls ->
  forall b, noted (negb b) s <= selfs b 131%Z ls /\ showed b s <= selfs b 16%Z ls /\
    (dsettled s -> noted (negb b) s = selfs b 131%Z ls /\ showed b s = selfs b 16%Z ls).
Proof.
  intros H1 H2 H3 b. destruct (dinv_reach _ _ _ H1 H2 H3) as (os & i & I).
  pose proof (dn_dir _ _ _ _ I b) as [J1 J2 J3 J4 J5 J6 J7 J8 J9 J10 J11 J12].
  pose proof (dv_showed _ _ _ _ _ _ _ _ _ _ _ _ _ (dn_dir _ _ _ _ I (negb b))) as K12. rewrite negb_involutive in K12.
  pose proof (dn_ress _ _ _ _ I b) as K. pose proof (cnt_take isbeat (i b) (os b)). pose proof (cnt_take isreq (i b) (os b)).
  pose proof (cnt_take isres (i (negb b)) (os (negb b))). split_and!; [lia|lia|]. intros [Hs _].
  destruct (settled_all _ _ _ _ b I (proj1 (Hs b))) as [_ E1]. destruct (settled_all _ _ _ _ (negb b) I (proj1 (Hs (negb b)))) as [_ E2].
  rewrite E1 in J11, K. rewrite E2 in K12. lia.
Qed.

(** ** It can always go on *)
Definition kept (s s' : dst) : Prop := d_wire s' = d_wire s /\ d_tx s' = d_tx s /\ d_hand s' = d_hand s.
Lemma kept_trans s1 s2 s3 : kept s1 s2 -> kept s2 s3 -> kept s1 s3.
Proof. intros (?&?&?) (?&?&?). unfold kept. split_and!; congruence. Qed.
Lemma dlisten_all s e : exists ms s', run s ms s' /\ Forall dinner ms /\ d_rx s' e = [] /\
  (forall y, d_rx s y = [] -> d_rx s' y = []) /\ d_up s' = d_up s /\ kept s s' /\
  Forall (fun l => match l with DListen _ _ => True | _ => False end) ms.
Proof.
  remember (d_rx s e) as q eqn:E. revert s E. induction q as [|m q IH]; intros s E.
  - exists [], s. split; [constructor|]. split; [constructor|]. rewrite <- E. split_and!; done.
  - destruct s as [tx hd ss w up rx sn ws g]. simpl in E. destruct e as [b z].
    destruct (IH (Dst tx hd ss w up (<[(b, z) := q]> rx) (sn ++ [(b, (z, m))]) ws g)) as (ms & s' & H1 & H2 & H3 & H4 & H5 & H6 & H7).
    { simpl. by rewrite fn_lookup_insert. }
    exists (DListen b z :: ms), s'. split; [eapply drun_cons; [done|by apply dk_listen|done]|]. split; [by constructor|].
    split; [done|]. split; [|split; [done|split; [done|by constructor]]]. intros y Hy. apply H4. simpl in *. destruct (decide (y = (b, z))) as [->|Hn]; [congruence|].
    by rewrite fn_lookup_insert_ne.
Qed.
Lemma ddeliver_all b s : 0 < du_rxcap D -> exists ms s', run s ms s' /\ Forall dinner ms /\ d_up s' b = [] /\
  (forall v, d_up s v = [] -> d_up s' v = []) /\ kept s s' /\
  Forall (fun l => match l with DListen _ _ | DDeliver _ => True | _ => False end) ms.
Proof.
  intros Hc. remember (d_up s b) as u eqn:E. revert s E. induction u as [|[z m] u IH]; intros s E.
  - exists [], s. split; [constructor|]. split; [constructor|]. split_and!; done.
  - destruct (dlisten_all s (b, z)) as (ms1 & s1 & R1 & F1 & E1 & _ & U1 & K1 & L1).
    destruct s1 as [tx hd ss w up rx sn ws g]. simpl in *. subst up. symmetry in E.
    destruct (IH (Dst tx hd ss w (<[b := u]> (d_up s)) (<[(b, z) := rx (b, z) ++ [m]]> rx) sn ws g)) as (ms2 & s2 & R2 & F2 & E2 & V2 & K2 & L2).
    { simpl. by rewrite fn_lookup_insert. }
    exists (ms1 ++ DDeliver b :: ms2), s2. split.
    { eapply drun_app; [done|]. eapply drun_cons; [done| |done]. apply dk_deliver; [done|]. rewrite E1. simpl. lia. }
    split; [apply Forall_app; split; [done|by constructor]|]. split; [done|]. split; [|split].
    + intros v Hv. apply V2. simpl. destruct (decide (b = v)) as [->|Hn]; [congruence|]. by rewrite fn_lookup_insert_ne.
    + eapply kept_trans; [done|]. exact K2.
    + apply Forall_app. split; [eapply Forall_impl; [exact L1|]; by intros []|by constructor].
Qed.
Lemma dput_free ms : Forall dinner ms -> dall_sendable D k ps ms.
Proof. intros H b e x Hx. rewrite Forall_forall in H. by apply H in Hx. Qed.
Lemma dinv_inner ls s os i ms s' : dinv ls s os i -> run s ms s' -> Forall dinner ms -> exists os' i', dinv (ls ++ ms) s' os' i'.
Proof. intros I H F. eapply dinv_run; [done|done|by apply dput_free]. Qed.
Lemma dinv_still ls s os i ms s' : dinv ls s os i -> run s ms s' ->
  Forall (fun l => match l with DListen _ _ | DDeliver _ => True | _ => False end) ms -> dinv (ls ++ ms) s' os i.
Proof.
  intros I H. induction H as [|ms s1 l s2 H IH Hok Hst]; intros F; [by rewrite app_nil_r|]. apply Forall_app in F as [F1 F2].
  apply Forall_cons_1 in F2 as [F2 _]. rewrite app_assoc. eapply dinv_quiet; [by apply IH|exact Hst|]. by destruct l.
Qed.

Context (Hfit : answers_fit D ps) (Hcap : 0 < du_rxcap D).
Lemma item_fits w it : goodi (W w) k ps it -> (Z.of_nat (length (wirei (W w) ps it)) <= e_mtu (du_env D (negb w)))%Z.
Proof.
  destruct it as [p|q pb z l]; simpl.
  - intros (_ & _ & _ & _ & H & _). by apply wire_length_room.
  - intros ((pa & Hpa) & _ & Hl). pose proof (Hfit w) as Hw. simpl in Hl. apply wire_length_room.
    destruct P as [P1 _]. destruct (P1 w) as [(_ & _ & _ & _ & _ & _ & _ & _ & Hc & _) _].
    destruct (suffix_carries _ _ _ _ _ Hc Hpa) as (_ & _ & Hrm). lia.
Qed.
(** Read everything that is under way. *)
Lemma dread_all n ls s os i : dinv ls s os i -> todo os i <= n ->
  exists ms s', run s ms s' /\ Forall dinner ms /\ (forall b, d_wire s' b = [] /\ d_up s' b = []) /\ d_tx s' = d_tx s /\ d_hand s' = d_hand s.
Proof.
  revert ls s os i. induction n as [|n IH]; intros ls s os i I Hn.
  all: destruct (ddeliver_all true s Hcap) as (ms1 & s1 & R1 & F1 & U1 & _ & K1 & L1);
    destruct (ddeliver_all false s1 Hcap) as (ms2 & s2 & R2 & F2 & U2 & V2 & K2 & L2);
    pose proof (V2 true U1) as U1'; pose proof (dinv_still _ _ _ _ _ _ I R1 L1) as I1;
    pose proof (dinv_still _ _ _ _ _ _ I1 R2 L2) as I2; pose proof (drun_app _ _ _ _ _ _ _ R1 R2) as R12;
    assert (Forall dinner (ms1 ++ ms2)) as F12 by (by apply Forall_app);
    assert (kept s s2) as K12 by (by eapply kept_trans);
    assert (forall b, d_up s2 b = []) as U by (by intros []).
  all: destruct (decide (d_wire s2 true = [] /\ d_wire s2 false = [])) as [[W1 W2]|Hw];
    [exists (ms1 ++ ms2), s2; split; [done|]; split; [done|]; split; [by intros []|]; destruct K12 as (?&?&?); by split|].
  all: assert (exists b it l, drop (i (negb b)) (os (negb b)) = it :: l) as (b & it & l & E);
    [destruct (drop (i true) (os true)) as [|it l] eqn:Et; [|by exists false, it, l];
     destruct (drop (i false) (os false)) as [|it l] eqn:Ef; [|by exists true, it, l]; exfalso; apply Hw;
     pose proof (dn_dir _ _ _ _ I2 true) as [_ _ _ A4 _ A6 _ _ _ _ _ _]; pose proof (dn_dir _ _ _ _ I2 false) as [_ _ _ B4 _ B6 _ _ _ _ _ _];
     rewrite A6, B6, A4, B4, <- !fmap_drop, Et, Ef; done|].
  { exfalso. rewrite (todo_at b), E in Hn. unfold wt in Hn. simpl in Hn. lia. }
  pose proof (dn_dir _ _ _ _ I2 (negb b)) as [J1 J2 J3 J4 J5 J6 J7 J8 J9 J10 J11 J12].
  assert (goodi (W (negb b)) k ps it) as Hg.
  { apply (Forall_drop _ (i (negb b))) in J1. rewrite E in J1. by inversion J1. }
  set (wt0 := wirei (W (negb b)) ps it).
  assert (drop (i (negb b)) (d_writes s2 (negb b)) = wt0 :: (wirei (W (negb b)) ps <$> l)) as Ed by (by rewrite J4, <- fmap_drop, E).
  pose proof (goodi_nonempty _ _ _ it Hg) as Hne. fold wt0 in Hne.
  pose proof (item_fits _ it Hg) as Hm. rewrite negb_involutive in Hm. fold wt0 in Hm.
  destruct (receive_items b [it] (d_st s2 b)) as (st' & oss & Hf & _); [by constructor|apply I2|apply I2|done|simpl; by rewrite app_nil_r|].
  simpl in Hf. rewrite app_nil_r in Hf. fold wt0 in Hf.
  assert (d_wire s2 (negb b) = wt0 ++ concat (wirei (W (negb b)) ps <$> l)) as Ew1 by (rewrite J6, Ed; done).
  assert (0 < length wt0) as Hpos by (destruct wt0; simpl; [done|lia]).
  assert (whole_reads (framed ps) s2 (DRead b (length wt0))) as Hok.
  { exists (i (negb b)), 1. split; [done|]. split; [|done]. rewrite Ed. simpl. by rewrite app_nil_r. }
  specialize (U b). destruct s2 as [tx hd ss w up rx sn ws g]. simpl in *.
  pose proof (dk_read D tx hd ss w up rx sn ws g b (length wt0) (concat oss) st' U Hpos) as Hst. rewrite Ew1, take_app in Hst.
  specialize (Hst ltac:(rewrite app_length; lia) Hm Hf).
  destruct (dinv_step _ _ _ _ (DRead b (length wt0)) _ I2 Hok ltac:(done) Hst) as (os2 & i2 & I3 & Hlt).
  destruct (IH _ _ _ _ I3) as (ms3 & s3 & R3 & F3 & W3 & T3 & D3); [lia|].
  exists ((ms1 ++ ms2) ++ DRead b (length wt0) :: ms3), s3. split; [eapply drun_app; [done|]; by eapply drun_cons|].
  split; [apply Forall_app; split; [done|by constructor]|]. split; [done|]. destruct K12 as (?&?&?). simpl in *. split; congruence.
Qed.
Lemma dlisten_everybody (es : list (bool * Z)) s : exists ms s', run s ms s' /\ Forall dinner ms /\ (forall e, e ∈ es \/ d_rx s e = [] -> d_rx s' e = []) /\
  d_up s' = d_up s /\ kept s s'.
Proof.
  revert s. induction es as [|z zs IH]; intros s.
  - exists [], s. split; [constructor|]. split; [constructor|]. split; [|done]. intros z [Hz|Hz]; [by apply elem_of_nil in Hz|done].
  - destruct (dlisten_all s z) as (ms1 & s1 & R1 & F1 & E1 & K1 & U1 & W1 & _).
    destruct (IH s1) as (ms2 & s2 & R2 & F2 & K2 & U2 & W2).
    exists (ms1 ++ ms2), s2. split; [by eapply drun_app|]. split; [by apply Forall_app|]. split; [|split; [congruence|by eapply kept_trans]].
    intros y [Hy|Hy]; [|apply K2; right; by apply K1]. apply elem_of_cons in Hy as [->|Hy]; apply K2; [by right|by left].
Qed.
(** Send everything [e] has to send. *)
Lemma dsend_all n e ls s os i : dinv ls s os i -> length (dunsent e s) <= n ->
  exists ms s', run s ms s' /\ Forall dinner ms /\ dunsent e s' = [] /\ forall y, y <> e -> dunsent y s' = dunsent y s.
Proof.
  revert ls s os i. induction n as [|n IH]; intros ls s os i I Hn.
  { exists [], s. split; [constructor|]. split; [constructor|]. split; [|done]. by destruct (dunsent e s); simpl in Hn; [|lia]. }
  destruct (dunsent e s) as [|x q] eqn:Eu.
  { exists [], s. split; [constructor|]. by split; [constructor|]. }
  assert (exists ms s1, run s ms s1 /\ Forall dinner ms /\ d_hand s1 e = Some x /\ d_tx s1 e = q /\
    forall y, y <> e -> dunsent y s1 = dunsent y s) as (ms1 & s1 & R1 & F1 & H1 & T1 & K1).
  { destruct s as [tx hd a w up rx sn ws g]. unfold dunsent in *. simpl in *. destruct (hd e) as [x'|] eqn:Eh.
    - simpl in Eu. injection Eu as -> <-. eexists [], _. split; [constructor|]. split; [constructor|]. by simpl.
    - eexists [DTake e], _. split; [apply drun_one; [done|by apply dk_take]|]. split; [by repeat constructor|].
      simpl. rewrite !fn_lookup_insert. split; [done|]. split; [done|]. intros y Hy. by rewrite !fn_lookup_insert_ne. }
  destruct (dinv_inner _ _ _ _ _ _ I R1 F1) as (os1 & i1 & I1). destruct e as [b e].
  destruct (dv_puts _ _ _ _ _ _ _ _ _ _ _ _ _ (dn_dir _ _ _ _ I1 b) e x) as (l & Hl); [unfold dunsent; rewrite H1; by left|].
  set (p := Post e x l). assert (good (W b) k ps p) as Hg by exact Hl.
  destruct s1 as [tx hd a w up rx sn ws g]. simpl in H1, T1.
  destruct (send_letter b p (a b) Hg) as (a2 & Hf2 & _).
  pose proof (dk_pass D tx hd a w up rx sn ws g b e x _ a2 H1 Hf2) as Hst.
  destruct (dinv_step _ _ _ _ (DPass (b, e)) _ I1 ltac:(done) ltac:(done) Hst) as (os2 & i2 & I2 & _).
  destruct (IH _ _ _ _ I2) as (ms2 & s2 & R2 & F2 & U2 & K2).
  { unfold dunsent. simpl. rewrite fn_lookup_insert, T1. simpl in *. lia. }
  exists (ms1 ++ DPass (b, e) :: ms2), s2. split; [eapply drun_app; [done|]; by eapply drun_cons|].
  split; [apply Forall_app; split; [done|by constructor]|]. split; [done|].
  intros y Hy. rewrite K2, <- K1 by done. unfold dunsent. simpl. by rewrite fn_lookup_insert_ne.
Qed.
Lemma dsend_everybody (es : list (bool * nat)) ls s os i : dinv ls s os i ->
  exists ms s', run s ms s' /\ Forall dinner ms /\ forall y, y ∈ es \/ dunsent y s = [] -> dunsent y s' = [].
Proof.
  revert ls s os i. induction es as [|e es IH]; intros ls s os i I.
  - exists [], s. split; [constructor|]. split; [constructor|]. intros y [Hy|Hy]; [by apply elem_of_nil in Hy|done].
  - destruct (dsend_all _ e _ _ _ _ I (le_n _)) as (ms1 & s1 & R1 & F1 & U1 & K1).
    destruct (dinv_inner _ _ _ _ _ _ I R1 F1) as (os1 & i1 & I1).
    destruct (IH _ _ _ _ I1) as (ms2 & s2 & R2 & F2 & U2).
    exists (ms1 ++ ms2), s2. split; [by eapply drun_app|]. split; [by apply Forall_app|].
    intros y Hy. apply U2. destruct (decide (y = e)) as [->|Hn]; [by right|]. rewrite K1 by done.
    destruct Hy as [Hy|Hy]; [|by right]. apply elem_of_cons in Hy as [->|Hy]; [done|by left].
Qed.
Lemma dnobody_listens w z os : Forall (goodi (W w) k ps) os -> z ∉ e_sessions (du_env D (negb w)) -> forz (W w) z (posts os) = [].
Proof.
  induction 1 as [|it os Hp _ IH]; intros Hz; [done|]. destruct it as [p|q pb y l]; [|by apply IH].
  unfold forz, mails_for, sent_of in *. simpl. fold (zed (W w) p).
  rewrite decide_False; [by apply IH|]. intros <-. apply Hz, Hp.
Qed.
Lemma duo_finishes ss ls s : (forall b, init_st (du_env D b) = Some (ss b)) -> run (new_duo ss) ls s -> dall_sendable D k ps ls ->
  exists ms s', run s ms s' /\ Forall dinner ms /\ dsettled s' /\ dall_sent s'.
Proof.
  intros H1 H2 H3. destruct (dinv_reach _ _ _ H1 H2 H3) as (os & i & I).
  set (es := omap (fun l => match l with DPut e _ => Some e | _ => None end) ls).
  destruct (dsend_everybody es _ _ _ _ I) as (ms1 & s1 & R1 & F1 & U1).
  destruct (dinv_inner _ _ _ _ _ _ I R1 F1) as (os1 & i1 & I1).
  destruct (dread_all _ _ _ _ _ I1 (le_n _)) as (ms2 & s2 & R2 & F2 & W2 & T2 & D2).
  destruct (dinv_inner _ _ _ _ _ _ I1 R2 F2) as (os2 & i2 & I2).
  destruct (dlisten_everybody (((fun z => (true, z)) <$> e_sessions (du_env D true)) ++ ((fun z => (false, z)) <$> e_sessions (du_env D false))) s2)
    as (ms3 & s3 & R3 & F3 & K3 & P3 & W3 & T3 & D3).
  exists (ms1 ++ ms2 ++ ms3), s3. split; [eapply drun_app; [done|by eapply drun_app]|].
  split; [apply Forall_app; split; [done|by apply Forall_app]|]. split.
  - split; [intros b; rewrite W3, P3; apply W2|]. intros [b z]. apply K3.
    destruct (decide (z ∈ e_sessions (du_env D b))) as [Hz|Hz]; [left|right].
    + apply elem_of_app. destruct b; [left|right]; by apply (elem_of_list_fmap_1 _ _ z).
    + pose proof (dv_heard _ _ _ _ _ _ _ _ _ _ _ _ _ (dn_dir _ _ _ _ I2 (negb b)) z) as E. unfold heards in E. rewrite negb_involutive in E.
      rewrite dnobody_listens in E; [|apply Forall_take, I2|by rewrite negb_involutive].
      apply app_eq_nil in E as [_ E]. by apply app_eq_nil in E as [E _].
  - intros e. assert (dunsent e s1 = []) as E; [|unfold dunsent in *; by rewrite D3, D2, T3, T2].
    apply U1. destruct (decide (e ∈ es)) as [He|He]; [by left|right]. destruct e as [b e].
    pose proof (dv_sent _ _ _ _ _ _ _ _ _ _ _ _ _ (dn_dir _ _ _ _ I b) e) as E.
    assert (dgiven (b, e) ls = []) as E'; [|simpl in E; rewrite E' in E; by apply app_eq_nil in E as [_ E]].
    apply elem_of_nil_inv. intros x Hx. apply He. unfold dgiven in Hx. apply elem_of_list_omap in Hx as (l & Hl & Ex).
    apply elem_of_list_omap. exists l. split; [done|]. destruct l; try done. case_decide; congruence.
Qed.
End both.

(** ** A frame that is read without its last four bytes *)
Lemma duo_cut D k qs cap b e x l m ss : paired D k (qs ++ [Proc (KFrame cap) true]) ->
  Forall (fun p => framing p = false) qs -> (forall b, init_st (du_env D b) = Some (ss b)) -> 0 < du_txcap D -> 0 < du_rxcap D ->
  sendable_as (one_way D b) k (qs ++ [Proc (KFrame cap) true]) e x l -> 4 < length l -> decodes k (take (length l - 4) l) m ->
  let z := dest_of (du_sess D b e) (ml_dest x) in
  exists n s, drun D any_reads (new_duo ss) [DPut (b, e) x; DTake (b, e); DPass (b, e); DRead (negb b) n; DDeliver (negb b); DListen (negb b) z] s /\
    dheard (negb b) z s = [m].
Proof.
  intros PP Hnf Hini Ht Hr Hx Hl Hdec z.
  set (ps := qs ++ [Proc (KFrame cap) true]) in *. set (p := Post e x l).
  destruct (send_letter D k ps PP b p (ss b) Hx) as (a' & Hsend & _). set (w := wirep (one_way D b) ps p) in *.
  destruct Hx as (He & _ & Hne & Hfit & Hroom & Hz & Hres & Hses). fold z in Hz, Hres, Hses.
  destruct PP as [P1 _]. destruct (P1 b) as [(idsA & idsB & preA & preB & WA & WB & PA & PB & Hc & RA & Ac & MA & RB & MB) _].
  simpl in Hroom, Hses, WB, RB, MB.
  assert (Z.of_nat (length w) <= e_mtu (du_env D (negb b)))%Z as Lw by (by apply wire_length_room).
  apply Forall_app in Hc as [Hc _].
  destruct (receive_cut (du_env D (negb b)) idsB preB k qs cap (du_conn D (negb b)) z m l (ss (negb b))) as (b' & Hrec & _); try done.
  { by apply init_idle. }
  fold ps in Hrec. change (wire_of z ps l) with w in Hrec.
  assert (8 < length w) as Lw8.
  { assert (w = frame (wire_of z qs l)) as -> by (unfold w, wirep, ps; by rewrite wire_of_app).
    rewrite frame_length. pose proof (wire_of_length z qs l). lia. }
  assert (shown (du_env D (negb b)) (rx_session qs z) (Some (du_conn D (negb b))) m = [ODeliver z (Some (du_conn D (negb b))) m]) as Esh.
  { rewrite <- (rx_session_snoc_frame qs cap z). rewrite rx_session_same by done. unfold shown. by rewrite decide_True. }
  rewrite Esh in Hrec.
  eexists (length w - 4), _. split.
  - eapply drun_cons; [done|apply dk_put; simpl; lia|].
    eapply drun_cons; [done|apply dk_take; [done|by rewrite fn_lookup_insert]|].
    eapply drun_cons; [done|eapply dk_pass; [by rewrite fn_lookup_insert|exact Hsend]|].
    rewrite written_own. simpl. rewrite app_nil_r.
    eapply drun_cons; [done|eapply dk_read; [done|lia| | |]|].
    + rewrite negb_involutive, fn_lookup_insert. lia.
    + lia.
    + rewrite negb_involutive, fn_lookup_insert, fn_lookup_insert_ne by apply negb_ne. exact Hrec.
    + eapply drun_cons; [done|apply dk_deliver; [by rewrite fn_lookup_insert|simpl; lia]|].
      eapply drun_one; [done|apply dk_listen; by rewrite fn_lookup_insert].
  - unfold dheard. simpl. by rewrite decide_True.
Qed.

Lemma duo_bounded D ok ss ls s : drun D ok (new_duo ss) ls s ->
  (forall e, length (d_tx s e) <= du_txcap D) /\ forall z, length (d_rx s z) <= du_rxcap D.
Proof.
  induction 1 as [|ls s1 l s2 H (I1 & I2) _ Hst]; [simpl; split; lia|].
  destruct Hst; simpl in *; split; try done; apply fn_bounded; try done; try (rewrite app_length; simpl; lia); by eapply rest_bounded.
Qed.
