(** * Proofs about echo servers (C95) *)
From Coq Require Import ZArith Lia.
From Verif Require Import GoBase UBufModel UBufSpec UBufProofs UBufFacts FrameModel FrameSpec FrameProofs
  StackModel StackSpec StackProofs StackPath StackFacts StackEffects StackSpecial StackEnd
  NetModel NetSpec NetProofs DuoModel DuoSpec DuoPath DuoItems DuoProofs HushSpec HushProofs HonSpec SiftSpec SiftProofs BackSpec BackSift.
From stdpp Require Import sets list.

(** ** The server *)
Lemma mirror_writes D b s n s' : mirrors (du_env D b) (du_conn D b) -> dstep D s (DRead b n) s' ->
  n <= length (d_wire s (negb b)) /\
  s' = Dst (d_tx s) (d_hand s) (d_st s') (<[b := d_wire s b ++ take n (d_wire s (negb b))]> (<[negb b := drop n (d_wire s (negb b))]> (d_wire s)))
    (<[b := []]> (d_up s)) (d_rx s) (d_seen s) (<[b := d_writes s b ++ [take n (d_wire s (negb b))]]> (d_writes s))
    (<[negb b := d_got s (negb b) + n]> (d_got s)) /\
  d_st s' (negb b) = d_st s (negb b).
Proof.
  intros M Hst. inversion Hst as [| | | |tx hd ss w up rx sn ws g ? ? outs st' Hup H0 Hn Hm Hf| | ]; subst.
  simpl in *. assert (length (take n (w (negb b))) = n) as Hl by (rewrite take_length; lia).
  destruct (mirror_returns (du_env D b) (du_conn D b) (take n (w (negb b))) (ss b) M) as (s2 & H).
  { intros E. rewrite E in Hl. simpl in Hl. lia. } { by rewrite Hl. }
  destruct (finishes_unique _ _ _ _ _ _ Hf H) as [-> _]. rewrite written_own. cbn [concat]. rewrite app_nil_r.
  split; [done|]. split; [done|]. by rewrite fn_lookup_insert_ne by (by destruct b).
Qed.

Section server.
Context (D : duo) (c : bool) (S : echoes D c).
Notation sv := (negb c).

(** What the server has written is what it has read. *)
Lemma returned_stream ok ss ls s : drun D ok (new_duo ss) ls s -> Forall (quietly c) ls ->
  sent sv s = take (d_got s c) (sent c s) /\ d_up s sv = [] /\ (forall z, d_rx s (sv, z) = []) /\ forall z, dheard sv z s = [].
Proof.
  intros H. induction H as [|ls s1 l s2 H IH Hok Hst]; intros F; [done|].
  apply Forall_app in F as [F1 F2]. apply Forall_cons_1 in F2 as [F2 _]. destruct (IH F1) as (I1 & I2 & I3 & I4).
  destruct (wire_kept D _ _ _ _ c H) as (r & Er & Lr).
  assert (forall more, take (d_got s1 c) (sent c s1 ++ more) = take (d_got s1 c) (sent c s1)) as Hmore.
  { intros more. rewrite take_app_le; [done|]. rewrite Er, app_length. lia. }
  assert (forall b n, l = DRead b n -> b = sv -> sent sv s2 = take (d_got s2 c) (sent c s2) /\ d_up s2 sv = [] /\ (forall z, d_rx s2 (sv, z) = []) /\ forall z, dheard sv z s2 = []) as Hsv.
  { intros b n -> ->. destruct (mirror_writes _ _ _ _ _ S Hst) as (Hn & -> & _). rewrite negb_involutive in *. unfold sent in *. simpl.
    rewrite !fn_lookup_insert, fn_lookup_insert_ne by (by destruct c). split; [|by split_and!].
    rewrite concat_app, I1. simpl. rewrite app_nil_r. rewrite Er, <- Lr, take_app. rewrite <- (take_take_drop _ (length r) n), take_app, drop_app. done. }
  unfold sent in *.
  destruct Hst as [| |tx hd ss1 w up rx sn ws g b e x outs a' Hh Hf|tx hd ss1 w up rx sn ws g b i p tag outs s' H1 H2 H3 Hf|tx hd ss1 w up rx sn ws g b n outs s' H1 H2 H3 H4 Hf|tx hd ss1 w up rx sn ws g b z0 m0 q0 Hup Hcap|tx hd ss1 w up rx sn ws g b z0 m0 q0 Hrx];
    simpl in *; try done.
  - subst b. rewrite fn_lookup_insert, fn_lookup_insert_ne by (by destruct c). split; [|done]. by rewrite concat_app, Hmore.
  - subst b. rewrite fn_lookup_insert, fn_lookup_insert_ne by (by destruct c). split; [|done]. by rewrite concat_app, Hmore.
  - destruct (decide (b = sv)) as [Hb|Hb]; [by eapply Hsv|].
    assert (b = c) as -> by (destruct b, c; done).
    rewrite !fn_lookup_insert. rewrite !(fn_lookup_insert_ne _ c) by (by destruct c). rewrite fn_lookup_insert_ne by (by destruct c).
    split; [|done]. by rewrite concat_app, Hmore.
  - destruct (decide (b = sv)) as [->|Hb]; [congruence|].
    rewrite fn_lookup_insert_ne by done. split_and!; try done. intros z. rewrite fn_lookup_insert_ne by congruence. done.
  - destruct (decide (b = sv)) as [->|Hb]; [congruence|].
    split_and!; try done.
    + intros z. rewrite fn_lookup_insert_ne by congruence. done.
    + intros z. specialize (I4 z). unfold dheard in *. simpl in *. rewrite omap_app. simpl. rewrite I4. rewrite decide_False; [done|]. intros [? _]. done.
Qed.

(** The client hears pieces of what it wrote itself. *)
Lemma laid_less k n mtu str ms e j : laid k n mtu (take j str) ms e -> laid k n mtu str ms e.
Proof. intros H. rewrite <- (take_drop j str). by apply laid_str. Qed.
Lemma own_laid k ps ss ls s z : hears_by (one_way (twice D c) c) k ps -> init_st (du_env D c) = Some (ss c) ->
  drun D any_reads (new_duo ss) ls s -> Forall (quietly c) ls ->
  laid k (heads ps) (e_mtu (du_env D c)) (sent c s) (dheard c z s) (d_got s sv).
Proof.
  intros Hh Hi Hrun F. destruct (returned_stream _ _ _ _ Hrun F) as (E & _).
  apply (laid_less _ _ _ _ _ _ (d_got s c)). rewrite <- E. eapply duo_laid; [|done|done].
  unfold hears_by in *. simpl in *. by rewrite negb_involutive.
Qed.
End server.

(** ** A client whose Reads end where its Writes ended *)
Section client.
Context (D : duo) (c : bool) (k : kind) (ps : list proc) (S : echoes D c) (P : paired (twice D c) k ps).
Notation sv := (negb c).
Notation D' := (twice D c).
Notation W := (one_way D' c).
Notation dir := (dirinv D' k ps c).

Record binv (ls : list dlab) (s : dst) (os : list item) (i : nat) : Prop := Binv {
  bn_dir : dir (fun e => dunsent (c, e) s) (fun e => dgiven (c, e) ls) (d_writes s c) (d_got s sv) (d_wire s sv ++ d_wire s c)
    (heards c s) (selfs c 131%Z ls) (selfs c 16%Z ls) (noted c s) (showed c s) os i;
  bn_idle : caches_idle (du_env D c) (d_st s c);
  bn_size : length (s_ps (d_st s c)) = length (e_procs (du_env D c));
  bn_ress : cnt isres os = cnt isreq (take i os);
  bn_up : d_up s sv = [];
  bn_rx : forall z, d_rx s (sv, z) = [] }.

Lemma binv_start ss : init_st (du_env D c) = Some (ss c) -> binv [] (new_duo ss) [] 0.
Proof.
  intros H. split; try done.
  - split; try done.
    + intros e x Hx. by apply elem_of_nil in Hx.
    + unfold noted. simpl. by rewrite (proj2 (init_size _ _ H)).
    + unfold showed. simpl. by rewrite (proj2 (init_size _ _ H)).
  - simpl. apply init_idle, H.
  - simpl. apply init_size, H.
Qed.

(** The client writes the messages [rs]. *)
Lemma binv_send ls s os i l s' rs st' tx hd :
  binv ls s os i -> Forall (goodi W k ps) rs -> cnt isres rs = 0 ->
  s_out st' = s_out (d_st s c) ++ (OWire (du_conn D c) <$> (wirei W ps <$> rs)) ->
  (forall j, cache_of st' j = cache_of (d_st s c) j) -> length (s_ps st') = length (s_ps (d_st s c)) ->
  s' = Dst tx hd (<[c := st']> (d_st s)) (<[c := d_wire s c ++ concat (wirei W ps <$> rs)]> (d_wire s)) (d_up s) (d_rx s) (d_seen s)
         (<[c := d_writes s c ++ (wirei W ps <$> rs)]> (d_writes s)) (d_got s) ->
  (forall e, mails_of e (sent_of (posts rs)) ++ dunsent (c, e) s' = dunsent (c, e) s) ->
  (forall e, dgiven (c, e) (ls ++ [l]) = dgiven (c, e) ls) ->
  selfs c 131%Z (ls ++ [l]) = selfs c 131%Z ls + cnt isbeat rs ->
  selfs c 16%Z (ls ++ [l]) = selfs c 16%Z ls + cnt isreq rs ->
  binv (ls ++ [l]) s' (os ++ rs) i.
Proof.
  intros [I1 I2 I3 I4 I5 I6] Hr Hres Hout Hca Hsz -> Hu Hg Hs1 Hs2.
  assert (forall f, (f = beats_out \/ f = shows_out) -> cnt f (s_out st') = cnt f (s_out (d_st s c))) as Hcnt.
  { intros f Hf. rewrite Hout, cnt_app. clear -Hf. induction (wirei W ps <$> rs) as [|x l IH]; [simpl; unfold cnt; simpl; lia|].
    rewrite fmap_cons, cnt_cons. destruct Hf as [->| ->]; simpl; lia. }
  split; simpl; try done.
  - unfold noted, showed in *. simpl.
    eapply dir_conv; [eapply (dir_add _ _ _ _ _ _ _ _ _ _ _ _ _ _ _ _ (fun e => dunsent (c, e) _) rs); [exact I1|exact Hr|exact Hu]|..]; try done.
    + by rewrite fn_lookup_insert.
    + rewrite fn_lookup_insert, fn_lookup_insert_ne by (by destruct c). by rewrite app_assoc.
    + rewrite fn_lookup_insert. apply Hcnt. by left.
    + rewrite fn_lookup_insert. apply Hcnt. by right.
  - rewrite fn_lookup_insert. by eapply idle_same.
  - rewrite fn_lookup_insert. congruence.
  - rewrite cnt_app, Hres, I4. rewrite take_app_le by apply I1. lia.
Qed.

Lemma binv_read ls s os i n s' : binv ls s os i -> own_reads c (framed ps) s (DRead c n) -> dstep D s (DRead c n) s' ->
  exists os' i', binv (ls ++ [DRead c n]) s' os' i' /\ wt (drop i' os') < wt (drop i os).
Proof.
  intros I Hok Hst. pose proof I as [J I2 I3 I4 I5 I6].
  inversion Hst as [| | | |tx hd ss w up rx sn ws g ? ? outs st' Hup H0 Hn Hm Hf| | ]; subst.
  assert (forall e, dgiven e (ls ++ [DRead c n]) = dgiven e ls) as Hgv by (intros e; rewrite dgiven_snoc; by rewrite app_nil_r).
  assert (forall v t, selfs v t (ls ++ [DRead c n]) = selfs v t ls) as Hsv by (intros v t; rewrite selfs_snoc; lia).
  destruct (Hok eq_refl) as (i' & j & Hi & Hj & Hj1). simpl in Hi, Hj, I5, I6.
  pose proof J as [J1 J2 J3 J4 J5 J6 J7 J8 J9 J10 J11 J12]. simpl in J4, J5, J6.
  assert (Forall (fun w => w <> []) (ws c)) as Hne.
  { rewrite J4. apply Forall_fmap. eapply Forall_impl; [exact J1|]. intros p. apply goodi_nonempty. }
  assert (take i' (ws c) = take i (ws c)) as Et by (apply boundary; [done|congruence]).
  assert (drop i' (ws c) = drop i (ws c)) as Ed.
  { pose proof (take_drop i (ws c)) as E1. pose proof (take_drop i' (ws c)) as E2. rewrite Et in E2.
    apply (app_inv_head (take i (ws c))). congruence. }
  rewrite Ed in Hj. destruct (take_concat j (drop i (ws c))) as [T1 T2]. rewrite <- Hj, <- J6 in T1, T2.
  rewrite take_app_le in T1 by done. rewrite drop_app_le in T2 by done.
  set (its := take j (drop i os)).
  assert (take j (drop i (ws c)) = wirei W ps <$> its) as El by (unfold its; by rewrite J4, <- fmap_drop, <- fmap_take).
  assert (Forall (goodi W k ps) its) as Hgl by (unfold its; by apply Forall_take, Forall_drop).
  assert (0 < length its) as Hpos.
  { destruct its eqn:E; [|simpl; lia]. rewrite El in Hj. simpl in Hj. lia. }
  destruct (receive_items D' k ps P c its (ss c) Hgl I2 I3) as (b2 & oss & Hf2 & Heff & Hid2 & Hsz2).
  { intros Hfr. specialize (Hj1 Hfr). subst j. unfold its in *. rewrite take_length in *. lia. }
  { change (one_way D' (negb c)) with W. rewrite <- El, <- Hj. done. }
  change (one_way D' (negb c)) with W in Hf2, Heff. simpl in Hf2, Hid2, Hsz2.
  rewrite T1, El in Hf. destruct (finishes_unique _ _ _ _ _ _ Hf Hf2) as [-> ->].
  destruct (eff_outs D' k ps c its oss Hgl Heff) as (Edel & (rs & R1 & R2 & R3 & R4 & R5 & R6 & R7) & Ebeat & Eshow).
  change (one_way D' (negb c)) with W in R1, R2. simpl in R2. rewrite R2, Edel. pose proof (fin_out _ _ _ _ Hf2) as Hout.
  exists (os ++ rs), (i + length its). split; [split; simpl|].
  - unfold noted, showed in *. simpl in *. rewrite !fn_lookup_insert. rewrite !(fn_lookup_insert_ne _ c) by (by destruct c). rewrite fn_lookup_insert.
    rewrite Hsv, Hsv.
    eapply dir_conv; [eapply (dir_add _ _ _ _ _ _ _ _ _ _ _ _ _ _ _ _ (fun e => dunsent (c, e) (Dst tx hd ss w up rx sn ws g)) rs);
      [eapply (dir_read _ _ _ _ _ _ _ _ _ _ _ _ _ _ _ _ j
        (fun z => heards c (Dst tx hd ss w up rx sn ws g) z ++ forz W z (posts its))); [exact J|done]|exact R1|intros e; rewrite R3; done]|..]; try (by intros; apply Hgv); try (by rewrite ?R4, ?R5; lia); try done.
    + intros z. unfold heards. simpl. rewrite fn_lookup_insert, Hup.
      rewrite upz_posts. simpl. by rewrite app_nil_r, <- app_assoc.
    + rewrite <- T2. by rewrite app_assoc.
    + rewrite Hout. transitivity (cnt beats_out (s_out (ss c) ++ concat oss)); [done|]. rewrite cnt_app, Ebeat. done.
    + rewrite Hout. transitivity (cnt shows_out (s_out (ss c) ++ concat oss)); [done|]. rewrite cnt_app, Eshow. done.
  - by rewrite fn_lookup_insert.
  - by rewrite fn_lookup_insert.
  - rewrite cnt_app, R6, I4. unfold its. rewrite take_app_le by (rewrite take_length, drop_length; lia).
    rewrite take_more, cnt_app. done.
  - by rewrite fn_lookup_insert_ne by (by destruct c).
  - done.
  - unfold its. rewrite drop_app_le by (rewrite take_length, drop_length; lia). rewrite drop_more. fold its. rewrite wt_app.
    assert (wt (drop i os) = wt its + wt (drop j (drop i os))) as ->.
    { rewrite <- wt_app. unfold its. by rewrite take_drop. }
    unfold wt at 2 3. rewrite R5, R7. lia.
Qed.

(** Steps that change neither what was written nor what was read. *)
Lemma binv_quiet ls s os i l s' : binv ls s os i -> dstep D s l s' ->
  match l with DPut (v, _) _ => v = sv | DTake _ | DDeliver _ | DListen _ _ => True | _ => False end -> binv (ls ++ [l]) s' os i.
Proof.
  intros [I1 I2 I3 I4 I5 I6] Hst Hl.
  assert (forall e, dgiven (c, e) (ls ++ [l]) = dgiven (c, e) ls) as Hg.
  { intros e. rewrite dgiven_snoc. destruct l as [[v y] x| | | | | | ]; try done; try by rewrite app_nil_r.
    subst v. rewrite decide_False; [by rewrite app_nil_r|]. intros [= E]. by destruct c. }
  assert (forall t, selfs c t (ls ++ [l]) = selfs c t ls) as Hs by (intros t; rewrite selfs_snoc; destruct l; done || lia).
  destruct Hst as [tx hd ss w up rx sn ws g [v e] x Hlt|tx hd ss w up rx sn ws g [v e] x q Hh Htx| | | |tx hd ss w up rx sn ws g b z m q Hup Hlt|tx hd ss w up rx sn ws g b z m q Hrx]; try done;
    (split; simpl in *; try done).
  - subst v. eapply dir_conv; [exact I1|..]; try done. intros y. unfold dunsent. simpl. rewrite fn_lookup_insert_ne; [done|]. intros [= E]. by destruct c.
  - eapply dir_conv; [exact I1|..]; try done. intros y. unfold dunsent. simpl. destruct (decide ((v, e) = (c, y))) as [E|E].
    + injection E as -> ->. by rewrite !fn_lookup_insert, Hh, Htx.
    + by rewrite !fn_lookup_insert_ne.
  - eapply dir_conv; [exact I1|..]; try done. intros y. unfold heards. f_equal. simpl. destruct (decide (b = c)) as [->|Hb].
    + rewrite fn_lookup_insert, Hup. unfold upz. simpl. destruct (decide (z = y)) as [->|Hy].
      * rewrite fn_lookup_insert. by rewrite <- app_assoc.
      * rewrite fn_lookup_insert_ne by congruence. done.
    + rewrite !fn_lookup_insert_ne by congruence. done.
  - destruct (decide (b = sv)) as [->|Hb]; [congruence|]. by rewrite fn_lookup_insert_ne.
  - intros y. destruct (decide (b = sv)) as [->|Hb]; [congruence|]. by rewrite fn_lookup_insert_ne by congruence.
  - eapply dir_conv; [exact I1|..]; try done. intros y. unfold heards, dheard. simpl. rewrite omap_app. simpl. rewrite <- app_assoc. f_equal.
    destruct (decide (b = c /\ z = y)) as [[-> ->]|Hn].
    + by rewrite fn_lookup_insert, Hrx.
    + by rewrite fn_lookup_insert_ne by (intros [= -> ->]; tauto).
  - intros y. destruct (decide (b = sv)) as [->|Hb]; [by rewrite I6 in Hrx|]. by rewrite fn_lookup_insert_ne by congruence.
Qed.
Lemma binv_put ls s os i e x s' : binv ls s os i -> sendable W k ps e x -> dstep D s (DPut (c, e) x) s' ->
  binv (ls ++ [DPut (c, e) x]) s' os i.
Proof.
  intros [I1 I2 I3 I4 I5 I6] Hx Hst. inversion Hst as [tx hd ss w up rx sn ws g ? ? Hlt| | | | | | ]; subst.
  split; simpl in *; try done.
  eapply dir_conv; [eapply (dir_put _ _ _ _ _ _ _ _ _ _ _ _ _ _ _ _ (fun y => dunsent (c, y) (Dst tx hd ss w up rx sn ws g) ++ if decide (y = e) then [x] else [])
      (fun y => dgiven (c, y) ls ++ if decide (y = e) then [x] else []) e x); [exact I1|done| | |]|..]; try done.
  - by rewrite decide_True.
  - by rewrite decide_True.
  - intros y Hy. by rewrite decide_False, !app_nil_r.
  - intros y. unfold dunsent. simpl. rewrite <- app_assoc. f_equal. destruct (decide (y = e)) as [->|Hy].
    + by rewrite fn_lookup_insert.
    + rewrite fn_lookup_insert_ne by congruence. by rewrite app_nil_r.
  - intros y. rewrite dgiven_snoc. f_equal. destruct (decide (y = e)) as [->|Hy]; [by rewrite decide_True|].
    rewrite decide_False by congruence. done.
  - rewrite selfs_snoc. lia.
  - rewrite selfs_snoc. lia.
Qed.
(** The server reads. *)
Lemma binv_serve ls s os i n s' : binv ls s os i -> dstep D s (DRead sv n) s' -> binv (ls ++ [DRead sv n]) s' os i.
Proof.
  intros [I1 I2 I3 I4 I5 I6] Hst. destruct (mirror_writes _ _ _ _ _ S Hst) as (Hn & E & Es). rewrite negb_involutive in *.
  assert (forall e, dgiven e (ls ++ [DRead sv n]) = dgiven e ls) as Hgv by (intros e; rewrite dgiven_snoc; by rewrite app_nil_r).
  assert (forall v t, selfs v t (ls ++ [DRead sv n]) = selfs v t ls) as Hsv by (intros v t; rewrite selfs_snoc; lia).
  unfold noted, showed in *. rewrite E. split; simpl; rewrite ?Es; try done.
  - unfold noted, showed. simpl. rewrite Es. eapply dir_conv; [exact I1|..]; try done; try (intros y; apply Hgv).
    + intros z. unfold heards. simpl. by rewrite fn_lookup_insert_ne by (by destruct c).
    + by rewrite fn_lookup_insert_ne by (by destruct c).
    + by rewrite fn_lookup_insert_ne by (by destruct c).
    + rewrite fn_lookup_insert. rewrite fn_lookup_insert_ne by (by destruct c). rewrite fn_lookup_insert. by rewrite <- app_assoc, take_drop.
  - by rewrite fn_lookup_insert.
Qed.
Lemma binv_step ls s os i l s' : binv ls s os i -> own_reads c (framed ps) s l -> quietly c l ->
  (forall e x, l = DPut (c, e) x -> sendable W k ps e x) -> dstep D s l s' ->
  exists os' i', binv (ls ++ [l]) s' os' i' /\
    match l with DRead v _ => if decide (v = c) then wt (drop i' os') < wt (drop i os) else os' = os /\ i' = i | _ => True end.
Proof.
  intros I Hok Hq Hput Hst. destruct l as [[v e] x|e|[v e]|v j tag|v n|b|b z].
  - exists os, i. split; [|done]. destruct (decide (v = c)) as [->|Hv].
    + eapply binv_put; [done|by apply Hput|done].
    + eapply binv_quiet; [done|done|]. by destruct v, c.
  - exists os, i. split; [|done]. by eapply binv_quiet.
  - simpl in Hq. subst v. inversion Hst as [| |tx hd ss w up rx sn ws g ? ? x outs st' Hh Hf| | | | ]; subst.
    pose proof I as [I1 I2 I3 I4 I5 I6].
    destruct (dv_puts _ _ _ _ _ _ _ _ _ _ _ _ _ _ _ _ I1 e x) as (l & Hl); [unfold dunsent; simpl; rewrite Hh; by left|].
    set (p := Post e x l). assert (good W k ps p) as Hg by exact Hl.
    destruct (send_letter D' k ps P c p (ss c) Hg) as (s2 & Hf2 & Hca & Hsz). simpl in Hf2.
    destruct (finishes_unique _ _ _ _ _ _ Hf Hf2) as [-> ->].
    pose proof (fin_out _ _ _ _ Hf2) as Hout. rewrite written_own.
    exists (os ++ [ILetter p]), i. split; [|done].
    eapply (binv_send _ _ _ _ _ _ [ILetter p]); [exact I|by constructor|done|exact Hout|exact Hca|exact Hsz|done| | | |].
    + intros y. unfold mails_of, dunsent. simpl. destruct (decide (e = y)) as [->|Hy].
      * rewrite fn_lookup_insert, Hh. done.
      * by rewrite fn_lookup_insert_ne by congruence.
    + intros y. rewrite dgiven_snoc. by rewrite app_nil_r.
    + by rewrite selfs_snoc.
    + by rewrite selfs_snoc.
  - simpl in Hq. subst v. inversion Hst as [| | |tx hd ss w up rx sn ws g ? ? p ? outs st' Hp Hlow Htag Hf| | | ]; subst.
    destruct (send_own D' k ps P c j p tag (ss c) Hp Hlow Htag) as (pb & s2 & Hg & Hf2 & Hca & Hsz). simpl in Hf2.
    destruct (finishes_unique _ _ _ _ _ _ Hf Hf2) as [-> ->].
    pose proof (fin_out _ _ _ _ Hf2) as Hout. rewrite written_own.
    exists (os ++ [IOwn p pb 0 [tag]]), i. split; [|done].
    eapply (binv_send _ _ _ _ _ _ [IOwn p pb 0 [tag]]); [exact I|by constructor| |exact Hout|exact Hca|exact Hsz|done| | | |].
    + rewrite cnt_cons. simpl. destruct (p_kind p); try done; injection Htag as <-; done.
    + done.
    + intros y. rewrite dgiven_snoc. by rewrite app_nil_r.
    + rewrite selfs_snoc, cnt_cons. f_equal. simpl. rewrite eqb_reflx. destruct (p_kind p); try done; injection Htag as <-; done.
    + rewrite selfs_snoc, cnt_cons. f_equal. simpl. rewrite eqb_reflx. destruct (p_kind p); try done; injection Htag as <-; done.
  - destruct (decide (v = c)) as [->|Hv].
    { destruct (binv_read _ _ _ _ _ _ I Hok Hst) as (os' & i' & I' & Hw). exists os', i'. by split. }
    assert (v = sv) as -> by (by destruct v, c). exists os, i. split; [by eapply binv_serve|done].
  - exists os, i. split; [|done]. by eapply binv_quiet.
  - exists os, i. split; [|done]. by eapply binv_quiet.
Qed.
Notation run := (drun D (own_reads c (framed ps))).
Lemma binv_run ls0 s os i ls s' : binv ls0 s os i -> run s ls s' -> Forall (quietly c) ls -> cl_sendable D c k ps ls ->
  exists os' i', binv (ls0 ++ ls) s' os' i'.
Proof.
  intros I H. induction H as [|ls s1 l s2 H IH Hok Hst]; intros F Hs; [rewrite app_nil_r; eauto|].
  apply Forall_app in F as [F1 F2]. apply Forall_cons_1 in F2 as [F2 _].
  destruct (IH F1) as (os1 & i1 & I1); [intros e x Hx; eapply Hs, elem_of_app; by left|].
  rewrite app_assoc. destruct (binv_step _ _ _ _ l s2 I1 Hok F2) as (os2 & i2 & I2 & _); [|done|eauto].
  intros e x ->. apply Hs, elem_of_app. right. by left.
Qed.
Lemma binv_reach ss ls s : init_st (du_env D c) = Some (ss c) -> run (new_duo ss) ls s -> Forall (quietly c) ls -> cl_sendable D c k ps ls ->
  exists os i, binv ls s os i.
Proof. intros H1 H2 H3 H4. destruct (binv_run [] _ _ _ _ _ (binv_start ss H1) H2 H3 H4) as (os & i & I). eauto. Qed.
Lemma bsettled_all ls s os i : binv ls s os i -> d_wire s sv = [] -> d_wire s c = [] -> drop i os = [] /\ take i os = os.
Proof.
  intros I H1 H2. pose proof (bn_dir _ _ _ _ I) as [J1 J2 J3 J4 J5 J6 J7 J8 J9 J10 J11 J12]. rewrite H1, H2 in J6.
  assert (drop i os = []) as E.
  { destruct (drop i os) as [|p l] eqn:E; [done|].
    rewrite J4, <- fmap_drop, E in J6. simpl in J6. symmetry in J6. apply app_eq_nil in J6 as [J6 _].
    exfalso. apply (goodi_nonempty W k ps p); [|done]. apply (Forall_drop _ i) in J1. rewrite E in J1. by inversion J1. }
  split; [done|]. rewrite <- (take_drop i os) at 2. by rewrite E, app_nil_r.
Qed.
Lemma echo_in_order ss ls s : init_st (du_env D c) = Some (ss c) -> run (new_duo ss) ls s -> Forall (quietly c) ls -> cl_sendable D c k ps ls ->
  exists o, (forall e, mails_of e o ++ dunsent (c, e) s = dgiven (c, e) ls) /\
    forall z, exists rest, dheard c z s ++ rest = mails_for W z o /\ (dsettled s -> rest = []).
Proof.
  intros H1 H2 H3 H4. destruct (binv_reach _ _ _ H1 H2 H3 H4) as (os & i & I).
  pose proof (bn_dir _ _ _ _ I) as [J1 J2 J3 J4 J5 J6 J7 J8 J9 J10 J11 J12].
  exists (sent_of (posts os)). split; [done|]. intros z.
  exists (d_rx s (c, z) ++ upz z (d_up s c) ++ forz W z (posts (drop i os))). split.
  - specialize (J7 z). unfold heards in J7. fold (forz W z (posts os)). rewrite <- (take_drop i os) at 2.
    rewrite posts_app, forz_app, <- J7. by rewrite <- !app_assoc.
  - intros [Hs Hr]. rewrite Hr. destruct (Hs c) as [W1 ->]. destruct (Hs sv) as [W2 _]. destruct (bsettled_all _ _ _ _ I W2 W1) as [-> _]. done.
Qed.
Lemma echo_own ss ls s : init_st (du_env D c) = Some (ss c) -> run (new_duo ss) ls s -> Forall (quietly c) ls -> cl_sendable D c k ps ls ->
  noted c s <= selfs c 131%Z ls /\ showed c s <= selfs c 16%Z ls /\
  (dsettled s -> noted c s = selfs c 131%Z ls /\ showed c s = selfs c 16%Z ls).
Proof.
  intros H1 H2 H3 H4. destruct (binv_reach _ _ _ H1 H2 H3 H4) as (os & i & I).
  pose proof (bn_dir _ _ _ _ I) as [J1 J2 J3 J4 J5 J6 J7 J8 J9 J10 J11 J12]. pose proof (bn_ress _ _ _ _ I) as K.
  pose proof (cnt_take isbeat i os). pose proof (cnt_take isreq i os). pose proof (cnt_take isres i os). split_and!; [lia|lia|].
  intros [Hs _]. destruct (bsettled_all _ _ _ _ I (proj1 (Hs sv)) (proj1 (Hs c))) as [_ E]. rewrite E in *. lia.
Qed.

(** ** It can always come back *)
Definition bstep (l : dlab) : Prop := dinner l /\ quietly c l.
Lemma drun_imp (ok ok' : dst -> dlab -> Prop) s ls s' : drun D ok s ls s' -> (forall s l, l ∈ ls -> ok' s l) -> drun D ok' s ls s'.
Proof.
  induction 1 as [|ls s1 l s2 H IH Hok Hst]; intros Hi; [constructor|].
  econstructor; [apply IH; intros s' l' Hl; apply Hi, elem_of_app; by left| |exact Hst]. apply Hi, elem_of_app. right. by left.
Qed.
Lemma bput_free ms : Forall bstep ms -> cl_sendable D c k ps ms.
Proof. intros H e x Hx. rewrite Forall_forall in H. by apply H in Hx as [? _]. Qed.
Lemma binv_inner ls s os i ms s' : binv ls s os i -> run s ms s' -> Forall bstep ms -> exists os' i', binv (ls ++ ms) s' os' i'.
Proof.
  intros I H F. eapply binv_run; [done|done| |by apply bput_free]. eapply Forall_impl; [exact F|]. by intros l [_ ?].
Qed.
Lemma binv_still ls s os i ms s' : binv ls s os i -> run s ms s' ->
  Forall (fun l => match l with DListen _ _ | DDeliver _ => True | _ => False end) ms -> binv (ls ++ ms) s' os i.
Proof.
  intros I H. induction H as [|ms s1 l s2 H IH Hok Hst]; intros F; [by rewrite app_nil_r|]. apply Forall_app in F as [F1 F2].
  apply Forall_cons_1 in F2 as [F2 _]. rewrite app_assoc. eapply binv_quiet; [by apply IH|exact Hst|]. by destruct l.
Qed.
(** The server reads all that the client wrote. *)
Lemma bserve_all n ls s os i : binv ls s os i -> length (d_wire s c) = n ->
  exists ms s', run s ms s' /\ Forall bstep ms /\ binv (ls ++ ms) s' os i /\ d_wire s' c = [] /\
    d_tx s' = d_tx s /\ d_hand s' = d_hand s /\ d_up s' c = d_up s c /\ d_wire s' sv = d_wire s sv ++ d_wire s c.
Proof.
  revert ls s. induction n as [|n IH]; intros ls s I Hn.
  { exists [], s. rewrite app_nil_r. assert (d_wire s c = []) as E by (by apply nil_length_inv). split; [constructor|]. rewrite E, app_nil_r. split; [constructor|done]. }
  destruct (d_wire s c) as [|x q] eqn:Ew; [done|]. pose proof S as (_ & _ & _ & _ & _ & HM).
  destruct (mirror_returns (du_env D sv) (du_conn D sv) [x] (d_st s sv) S) as (s2 & Hf); [done|simpl; lia|].
  assert (exists s', dstep D s (DRead sv 1) s') as (s' & Hst).
  { pose proof (bn_up _ _ _ _ I) as Hup. destruct s as [tx hd ss w up rx sn ws g]. simpl in *. eexists. eapply dk_read; rewrite ?negb_involutive, ?Ew; simpl; [done|lia|lia|lia|exact Hf]. }
  pose proof (binv_serve _ _ _ _ _ _ I Hst) as I'.
  destruct (mirror_writes _ _ _ _ _ S Hst) as (_ & E & _). rewrite negb_involutive, Ew in E.
  assert (d_wire s' c = q) as Ec by (rewrite E; simpl; rewrite fn_lookup_insert_ne by (by destruct c); by rewrite fn_lookup_insert).
  destruct (IH _ _ I') as (ms & s3 & R & F & I3 & W3 & T3 & H3 & U3 & V3); [rewrite Ec; simpl in Hn; lia|].
  exists (DRead sv 1 :: ms), s3. rewrite <- app_assoc in I3. split; [eapply drun_cons; [|exact Hst|done]|].
  { intros Hb. by destruct c. }
  split; [constructor; [by split|done]|]. split; [exact I3|]. split; [done|]. rewrite T3, H3, U3, V3, Ec, E. simpl.
  rewrite fn_lookup_insert_ne by (by destruct c). rewrite fn_lookup_insert, <- app_assoc. done.
Qed.
Context (Hfit : answers_fit D' ps) (Hcap : 0 < du_rxcap D).
Lemma bdeliver_all ls s os i : binv ls s os i -> exists ms s', run s ms s' /\ Forall bstep ms /\ binv (ls ++ ms) s' os i /\ d_up s' c = [] /\
  d_wire s' = d_wire s /\ d_tx s' = d_tx s /\ d_hand s' = d_hand s.
Proof.
  intros I. destruct (ddeliver_all D ps c s Hcap) as (ms & s' & R & F & U & _ & (K1 & K2 & K3) & L).
  assert (run s ms s') as R'.
  { eapply drun_imp; [exact R|]. intros s0 l Hl. rewrite Forall_forall in L. apply L in Hl. by destruct l. }
  exists ms, s'. split; [done|]. split; [|split; [by eapply binv_still|done]].
  eapply Forall_impl; [exact L|]. intros l Hl. by destruct l.
Qed.
Lemma bread_all n ls s os i : binv ls s os i -> wt (drop i os) <= n ->
  exists ms s', run s ms s' /\ Forall bstep ms /\ (forall b, d_wire s' b = [] /\ d_up s' b = []) /\ d_tx s' = d_tx s /\ d_hand s' = d_hand s.
Proof.
  revert ls s os i. induction n as [|n IH]; intros ls s os i I Hn.
  all: destruct (bdeliver_all _ _ _ _ I) as (ms1 & s1 & R1 & F1 & I1 & U1 & W1 & T1 & H1);
    destruct (bserve_all _ _ _ _ _ I1 eq_refl) as (ms2 & s2 & R2 & F2 & I2 & W2 & T2 & H2 & U2 & V2);
    pose proof (drun_app _ _ _ _ _ _ _ R1 R2) as R12;
    assert (Forall bstep (ms1 ++ ms2)) as F12 by (by apply Forall_app).
  all: destruct (decide (d_wire s2 sv = [])) as [W3|W3];
    [exists (ms1 ++ ms2), s2; split; [done|]; split; [done|]; split; [|split; congruence]; intros b; destruct (decide (b = c)) as [->|Hb];
      [by rewrite U2|assert (b = sv) as -> by (by destruct b, c); split; [done|apply I2]]|].
  all: pose proof (bn_dir _ _ _ _ I2) as [J1 J2 J3 J4 J5 J6 J7 J8 J9 J10 J11 J12];
    rewrite W2, app_nil_r, J4, <- fmap_drop in J6; destruct (drop i os) as [|it l] eqn:E; [done|].
  { exfalso. unfold wt in Hn. simpl in Hn. lia. }
  assert (goodi W k ps it) as Hg.
  { apply (Forall_drop _ i) in J1. rewrite E in J1. by inversion J1. }
  set (wt0 := wirei W ps it) in *. pose proof (goodi_nonempty _ _ _ it Hg) as Hne. fold wt0 in Hne.
  pose proof (item_fits D' k ps P Hfit Hcap _ it Hg) as Hm. fold wt0 in Hm. simpl in Hm.
  destruct (receive_items D' k ps P c [it] (d_st s2 c)) as (st' & oss & Hf & _); [by constructor|apply I2|apply I2|done|simpl; by rewrite app_nil_r|].
  simpl in Hf. rewrite app_nil_r in Hf. change (one_way D' (negb c)) with W in Hf. fold wt0 in Hf.
  assert (0 < length wt0) as Hpos by (destruct wt0; simpl; [done|lia]).
  assert (own_reads c (framed ps) s2 (DRead c (length wt0))) as Hok.
  { intros _. exists i, 1. split; [done|]. split; [|done]. rewrite J4, <- fmap_drop, E. simpl. by rewrite app_nil_r. }
  assert (d_up s2 c = []) as U by congruence.
  simpl in J6. fold wt0 in J6. assert (exists s3, dstep D s2 (DRead c (length wt0)) s3 /\ d_tx s3 = d_tx s2 /\ d_hand s3 = d_hand s2) as (s3 & Hst & T3 & H3).
  { destruct s2 as [tx hd ss w up rx sn ws g]. simpl in *. eexists. split; [eapply dk_read; [done|lia| |done|]|done].
    - rewrite J6, app_length. lia.
    - rewrite J6, take_app. exact Hf. }
  destruct (binv_step _ _ _ _ (DRead c (length wt0)) _ I2 Hok ltac:(done) ltac:(done) Hst) as (os2 & i2 & I3 & Hlt).
  rewrite decide_True in Hlt by done. rewrite E in Hlt.
  destruct (IH _ _ _ _ I3) as (ms3 & s4 & R3 & F3 & W4 & T4 & H4); [lia|].
  exists ((ms1 ++ ms2) ++ DRead c (length wt0) :: ms3), s4. split; [eapply drun_app; [done|]; by eapply drun_cons|].
  split; [apply Forall_app; split; [done|by constructor]|]. split; [done|]. split; congruence.
Qed.
(** The client sends everything its endpoint [e] has to send. *)
Lemma bsend_all n e ls s os i : binv ls s os i -> length (dunsent (c, e) s) <= n ->
  exists ms s', run s ms s' /\ Forall bstep ms /\ dunsent (c, e) s' = [] /\ forall y, y <> e -> dunsent (c, y) s' = dunsent (c, y) s.
Proof.
  revert ls s os i. induction n as [|n IH]; intros ls s os i I Hn.
  { exists [], s. split; [constructor|]. split; [constructor|]. split; [|done]. by destruct (dunsent (c, e) s); simpl in Hn; [|lia]. }
  destruct (dunsent (c, e) s) as [|x q] eqn:Eu.
  { exists [], s. split; [constructor|]. by split; [constructor|]. }
  assert (exists ms s1, run s ms s1 /\ Forall bstep ms /\ d_hand s1 (c, e) = Some x /\ d_tx s1 (c, e) = q /\
    forall y, y <> e -> dunsent (c, y) s1 = dunsent (c, y) s) as (ms1 & s1 & R1 & F1 & H1 & T1 & K1).
  { destruct s as [tx hd a w up rx sn ws g]. unfold dunsent in *. simpl in *. destruct (hd (c, e)) as [x'|] eqn:Eh.
    - simpl in Eu. injection Eu as -> <-. eexists [], _. split; [constructor|]. split; [constructor|]. by simpl.
    - eexists [DTake (c, e)], _. split; [apply drun_one; [done|by apply dk_take]|]. split; [by repeat constructor|].
      simpl. rewrite !fn_lookup_insert. split; [done|]. split; [done|]. intros y Hy. by rewrite !fn_lookup_insert_ne by congruence. }
  destruct (binv_inner _ _ _ _ _ _ I R1 F1) as (os1 & i1 & I1).
  destruct (dv_puts _ _ _ _ _ _ _ _ _ _ _ _ _ _ _ _ (bn_dir _ _ _ _ I1) e x) as (l & Hl); [unfold dunsent; rewrite H1; by left|].
  set (p := Post e x l). assert (good W k ps p) as Hg by exact Hl.
  destruct s1 as [tx hd a w up rx sn ws g]. simpl in H1, T1.
  destruct (send_letter D' k ps P c p (a c) Hg) as (a2 & Hf2 & _).
  pose proof (dk_pass D tx hd a w up rx sn ws g c e x _ a2 H1 Hf2) as Hst.
  destruct (binv_step _ _ _ _ (DPass (c, e)) _ I1 ltac:(done) ltac:(done) ltac:(done) Hst) as (os2 & i2 & I2 & _).
  destruct (IH _ _ _ _ I2) as (ms2 & s2 & R2 & F2 & U2 & K2).
  { unfold dunsent. simpl. rewrite fn_lookup_insert, T1. simpl in *. lia. }
  exists (ms1 ++ DPass (c, e) :: ms2), s2. split; [eapply drun_app; [done|]; by eapply drun_cons|].
  split; [apply Forall_app; split; [done|by constructor]|]. split; [done|].
  intros y Hy. rewrite K2, <- K1 by done. unfold dunsent. simpl. by rewrite fn_lookup_insert_ne by congruence.
Qed.
Lemma bsend_everybody (es : list nat) ls s os i : binv ls s os i ->
  exists ms s', run s ms s' /\ Forall bstep ms /\ forall y, y ∈ es \/ dunsent (c, y) s = [] -> dunsent (c, y) s' = [].
Proof.
  revert ls s os i. induction es as [|e es IH]; intros ls s os i I.
  - exists [], s. split; [constructor|]. split; [constructor|]. intros y [Hy|Hy]; [by apply elem_of_nil in Hy|done].
  - destruct (bsend_all _ e _ _ _ _ I (le_n _)) as (ms1 & s1 & R1 & F1 & U1 & K1).
    destruct (binv_inner _ _ _ _ _ _ I R1 F1) as (os1 & i1 & I1).
    destruct (IH _ _ _ _ I1) as (ms2 & s2 & R2 & F2 & U2).
    exists (ms1 ++ ms2), s2. split; [by eapply drun_app|]. split; [by apply Forall_app|].
    intros y Hy. apply U2. destruct (decide (y = e)) as [->|Hn]; [by right|]. rewrite K1 by done.
    destruct Hy as [Hy|Hy]; [|by right]. apply elem_of_cons in Hy as [->|Hy]; [done|by left].
Qed.
Lemma blisten_all (zs : list Z) s : exists ms s', run s ms s' /\ Forall bstep ms /\ (forall z, z ∈ zs \/ d_rx s (c, z) = [] -> d_rx s' (c, z) = []) /\
  (forall z, d_rx s (sv, z) = [] -> d_rx s' (sv, z) = []) /\
  d_up s' = d_up s /\ d_wire s' = d_wire s /\ d_tx s' = d_tx s /\ d_hand s' = d_hand s.
Proof.
  revert s. induction zs as [|z zs IH]; intros s.
  - exists [], s. split; [constructor|]. split; [constructor|]. split; [|done]. intros z [Hz|Hz]; [by apply elem_of_nil in Hz|done].
  - destruct (dlisten_all D ps s (c, z)) as (ms1 & s1 & R1 & F1 & E1 & K1 & U1 & (W1 & T1 & H1) & L1).
    destruct (IH s1) as (ms2 & s2 & R2 & F2 & K2 & V2 & U2 & W2 & T2 & H2).
    exists (ms1 ++ ms2), s2. split; [eapply drun_app; [|exact R2]|].
    { eapply drun_imp; [exact R1|]. intros s0 l Hl. rewrite Forall_forall in L1. apply L1 in Hl. by destruct l. }
    split; [apply Forall_app; split; [|done]; eapply Forall_impl; [exact L1|]; intros l Hl; by destruct l|]. split_and!; try congruence.
    + intros y [Hy|Hy]; [|apply K2; right; by apply K1]. apply elem_of_cons in Hy as [->|Hy]; apply K2; [by right|by left].
    + intros y Hy. by apply V2, K1.
Qed.
Lemma echo_finishes ss ls s : init_st (du_env D c) = Some (ss c) -> run (new_duo ss) ls s -> Forall (quietly c) ls -> cl_sendable D c k ps ls ->
  exists ms s', run s ms s' /\ Forall dinner ms /\ Forall (quietly c) ms /\ dsettled s' /\ forall e, dunsent (c, e) s' = [].
Proof.
  intros H1 H2 H3 H4. destruct (binv_reach _ _ _ H1 H2 H3 H4) as (os & i & I).
  set (es := omap (fun l => match l with DPut (_, e) _ => Some e | _ => None end) ls).
  destruct (bsend_everybody es _ _ _ _ I) as (ms1 & s1 & R1 & F1 & U1).
  destruct (binv_inner _ _ _ _ _ _ I R1 F1) as (os1 & i1 & I1).
  destruct (bread_all _ _ _ _ _ I1 (le_n _)) as (ms2 & s2 & R2 & F2 & W2 & T2 & D2).
  destruct (binv_inner _ _ _ _ _ _ I1 R2 F2) as (os2 & i2 & I2).
  destruct (blisten_all (e_sessions (du_env D c)) s2) as (ms3 & s3 & R3 & F3 & K3 & V3 & P3 & W3 & T3 & D3).
  assert (Forall bstep (ms1 ++ ms2 ++ ms3)) as F by (apply Forall_app; split; [done|by apply Forall_app]).
  exists (ms1 ++ ms2 ++ ms3), s3. split; [eapply drun_app; [done|by eapply drun_app]|].
  split; [eapply Forall_impl; [exact F|]; by intros l []|]. split; [eapply Forall_impl; [exact F|]; by intros l []|]. split.
  - split; [intros b; rewrite W3, P3; apply W2|]. intros [b z]. destruct (decide (b = c)) as [->|Hb].
    2:{ assert (b = sv) as -> by (by destruct b, c). apply V3, I2. }
    apply K3. destruct (decide (z ∈ e_sessions (du_env D c))) as [Hz|Hz]; [by left|right].
    pose proof (dv_heard _ _ _ _ _ _ _ _ _ _ _ _ _ _ _ _ (bn_dir _ _ _ _ I2) z) as E. unfold heards in E.
    rewrite (dnobody_listens D' k ps) in E; [|apply Forall_take, (bn_dir _ _ _ _ I2)|done].
    apply app_eq_nil in E as [_ E]. by apply app_eq_nil in E as [E _].
  - intros e. assert (dunsent (c, e) s1 = []) as E; [|unfold dunsent in *; by rewrite D3, D2, T3, T2].
    apply U1. destruct (decide (e ∈ es)) as [He|He]; [by left|right].
    pose proof (dv_sent _ _ _ _ _ _ _ _ _ _ _ _ _ _ _ _ (bn_dir _ _ _ _ I) e) as E.
    assert (dgiven (c, e) ls = []) as E'; [|simpl in E; rewrite E' in E; by apply app_eq_nil in E as [_ E]].
    apply elem_of_nil_inv. intros x Hx. apply He. unfold dgiven in Hx. apply elem_of_list_omap in Hx as (l & Hl & Ex).
    apply elem_of_list_omap. exists l. split; [done|]. destruct l as [[v y] x'| | | | | | ]; try done. case_decide; congruence.
Qed.
End client.

(** ** Two messages that come back as one *)
Lemma wire_of_longer z ps l w : Forall (fun p => framing p = false) ps -> wire_of z ps (l ++ w) = wire_of z ps l ++ w.
Proof.
  revert l. induction ps as [|p ps IH]; intros l H; [done|]. apply Forall_cons_1 in H as [H1 H2].
  unfold wire_of in *. simpl. rewrite <- IH by done. f_equal. unfold StackSpec.put, framing in *.
  destruct p as [k []]; destruct k; simpl in *; try done; by rewrite ?app_comm_cons, ?app_assoc.
Qed.
Lemma echo_joins D c ps e d l1 l2 ss : echoes D c -> paired (twice D c) KBytes ps -> Forall (fun p => framing p = false) ps ->
  init_st (du_env D c) = Some (ss c) -> 0 < du_txcap D -> 0 < du_rxcap D ->
  let z := dest_of (du_sess D c e) d in let l := l1 ++ wire_of z ps l2 in
  sendable_as (one_way (twice D c) c) KBytes ps e (Mail d (MBytes l1)) l1 ->
  sendable_as (one_way (twice D c) c) KBytes ps e (Mail d (MBytes l2)) l2 ->
  sendable_as (one_way (twice D c) c) KBytes ps e (Mail d (MBytes l)) l ->
  (Z.of_nat (length (wire_of z ps l)) <= e_mtu (du_env D (negb c)))%Z ->
  exists n s, drun D any_reads (new_duo ss)
    [DPut (c, e) (Mail d (MBytes l1)); DTake (c, e); DPass (c, e); DPut (c, e) (Mail d (MBytes l2)); DTake (c, e); DPass (c, e);
     DRead (negb c) n; DRead c n; DDeliver c; DListen c z] s /\ dheard c z s = [MBytes l].
Proof.
  intros S P Hnf Hini Ht Hr z l H1 H2 H3 Hm. set (D' := twice D c) in *.
  assert (wire_of z ps l = wire_of z ps l1 ++ wire_of z ps l2) as El by (by apply wire_of_longer).
  set (p1 := Post e (Mail d (MBytes l1)) l1). set (p2 := Post e (Mail d (MBytes l2)) l2). set (p3 := Post e (Mail d (MBytes l)) l).
  destruct (send_letter D' _ ps P c p1 (ss c) H1) as (a1 & F1 & K1 & Z1).
  destruct (send_letter D' _ ps P c p2 a1 H2) as (a2 & F2 & K2 & Z2). simpl in F1, F2.
  pose proof (good_nonempty (one_way D' c) _ ps p3 H3) as Hne.
  destruct (receive_items D' _ ps P c [ILetter p3] a2) as (a3 & oss & F3 & Heff & _).
  { constructor; [exact H3|done]. }
  { intros j. rewrite K2, K1. by apply init_idle. }
  { rewrite Z2, Z1. by apply init_size. }
  { done. }
  { simpl. rewrite app_nil_r. apply wire_length_room. apply H3. }
  simpl in F3. rewrite app_nil_r in F3.
  destruct (mirror_returns (du_env D (negb c)) (du_conn D (negb c)) (wire_of z ps l) (ss (negb c)) S) as (b1 & F4); [exact Hne|done|].
  assert (0 < length (wire_of z ps l)) as Hpos.
  { destruct (wire_of z ps l) eqn:E0; [|simpl; lia]. exfalso. by apply Hne. }
  destruct (eff_outs D' KBytes ps c [ILetter p3] oss) as (Edel & _); [by constructor; [exact H3|]|exact Heff|].
  assert (delivered (concat oss) = [(z, MBytes l)]) as Ed by (rewrite Edel; done).
  change (wirep (one_way D' c) ps p1) with (wire_of z ps l1) in F1. change (wirep (one_way D' c) ps p2) with (wire_of z ps l2) in F2.
  change (wirep (one_way D' (negb c)) ps p3) with (wire_of z ps l) in F3.
  assert (Z.of_nat (length (wire_of z ps l)) <= e_mtu (du_env D c))%Z as Hmc by (apply wire_length_room, H3).
  set (w1 := wire_of z ps l1) in *. set (w2 := wire_of z ps l2) in *. set (w := wire_of z ps l) in *.
  clearbody w1 w2 w.
  eexists (length w), _. split.
  - eapply drun_cons; [done|apply dk_put; simpl; lia|].
    eapply drun_cons; [done|apply dk_take; [done|by rewrite fn_lookup_insert]|].
    eapply drun_cons; [done|eapply dk_pass; [by rewrite fn_lookup_insert|exact F1]|].
    rewrite written_own. simpl. rewrite app_nil_r.
    eapply drun_cons; [done|apply dk_put; simpl; rewrite fn_lookup_insert; simpl; lia|].
    eapply drun_cons; [done|apply dk_take; [by rewrite fn_lookup_insert|by rewrite !fn_lookup_insert]|].
    eapply drun_cons; [done|eapply dk_pass; [by rewrite fn_lookup_insert|rewrite fn_lookup_insert; exact F2]|].
    rewrite written_own. simpl. rewrite app_nil_r. rewrite !fn_lookup_insert, <- El.
    eapply drun_cons; [done|eapply dk_read; [done|lia| |exact Hm|]|]; rewrite ?negb_involutive, ?fn_lookup_insert.
    + lia.
    + rewrite firstn_all. rewrite !fn_lookup_insert_ne by (by destruct c). exact F4.
    + rewrite written_own. simpl. rewrite app_nil_r.
      eapply drun_cons; [done|eapply dk_read; [by rewrite fn_lookup_insert_ne by (by destruct c)|lia| | |]|].
      * rewrite fn_lookup_insert, app_length. lia.
      * exact Hmc.
      * rewrite fn_lookup_insert. rewrite !fn_lookup_insert_ne by (by destruct c). simpl. rewrite fn_lookup_insert, firstn_all. exact F3.
      * rewrite Ed. eapply drun_cons; [done|apply dk_deliver; [by rewrite fn_lookup_insert|simpl; lia]|].
        eapply drun_one; [done|apply dk_listen; by rewrite fn_lookup_insert].
  - unfold dheard. simpl. by rewrite decide_True.
Qed.
