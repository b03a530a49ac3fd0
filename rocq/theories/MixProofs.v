(** * Proofs about a decoder shared by several connections *)
From Verif Require Import GoBase UBufModel UBufSpec UBufProofs FrameModel FrameSpec FrameProofs MixModel MixSpec.

Lemma jrun_app mtu s ls s1 ms s2 : jrun mtu s ls s1 -> jrun mtu s1 ms s2 -> jrun mtu s (ls ++ ms) s2.
Proof.
  intros H1 H2. induction H2 as [|ms s2 l s3 H2 IH Hl]; [by rewrite app_nil_r|].
  rewrite app_assoc. by econstructor.
Qed.
Lemma jrun_one mtu s l s' : jstep mtu s l s' -> jrun mtu s [l] s'.
Proof. intros H. change [l] with ([] ++ [l]). econstructor; [constructor|done]. Qed.
Lemma jrun_cons mtu s l s1 ls s2 : jstep mtu s l s1 -> jrun mtu s1 ls s2 -> jrun mtu s (l :: ls) s2.
Proof. intros H1 H2. change (l :: ls) with ([l] ++ ls). eapply jrun_app; [by apply jrun_one|done]. Qed.

Lemma arrived_app g ls ms : arrived g (ls ++ ms) = arrived g ls ++ arrived g ms.
Proof. unfold arrived. apply omap_app. Qed.
Lemma ups_eq g c at_ u b : ups g (Jst c at_ u b) = omap (fun x => if decide (fst x = g) then Some (snd x) else None) u.
Proof. done. Qed.
Lemma ups_app g c at_ u v b : ups g (Jst c at_ (u ++ v) b) =
  ups g (Jst c at_ u b) ++ omap (fun x => if decide (fst x = g) then Some (snd x) else None) v.
Proof. unfold ups. simpl. apply omap_app. Qed.

(** [cur_look] and the sequential model's iteration agree. *)
Lemma cur_look_step c ub : match cur_look ub with
  | LookStore => fd_cur_step c ub = match ub_readfrom None c ub with
      | Ok _ (c', u') => (FdStop, c', u') | Panic (c', u') => (FdPanic, c', u') end
  | LookReset => exists u', fd_cur_step c ub = (FdStop, v_reset c, u')
  | LookLast b => fd_cur_step c ub = (FdLast, c, b)
  | LookNew nb u' => fd_cur_step c ub = (FdNew nb, c, u')
  | LookPanic => exists u', fd_cur_step c ub = (FdPanic, c, u')
  end.
Proof.
  unfold cur_look, fd_cur_step. destruct (v_rlen ub <? 4); [done|].
  destruct (v_peekU BE W32 ub) as [[e [x|]] u|u]; [by eexists| |by eexists].
  destruct (e >? _)%Z; [done|]. destruct (e =? _)%Z.
  - destruct (v_readU BE W32 ub); [done|by eexists].
  - destruct (fd_cut e ub) as [[[nb|] u']|]; [done|by eexists|by eexists].
Qed.

(** Buffers a goroutine works on. *)
Definition okb (k : nat) (u : vbuf) : Prop :=
  wf u /\ v_rlen u < k /\ (Z.of_nat (v_rlen u) < 2^32)%Z /\ Forall byte_ok (readable u).

Lemma loop_look k ub o b : okb k ub -> chunk_out (readable ub) o b -> match cur_look ub with
  | LookStore | LookReset => o = []
  | LookLast u => o = [readable u]
  | LookNew nb u' => exists o', o = readable nb :: o' /\ chunk_out (readable u') o' b /\ okb k u' /\ v_rlen u' < v_rlen ub
  | LookPanic => b = true
  end.
Proof.
  intros (W & Hk & Hs & Hbo) (ps & r & Hcut & -> & ->).
  destruct (alloc_some 1 0) as (c & Ec); [lia|]. destruct (alloc_wf _ _ _ Ec) as (Wc & _). clear Ec.
  pose proof (cur_look_step c ub) as L. pose proof (cur_step_spec c ub Wc W Hs) as S. cbv zeta in S.
  pose proof (readable_length ub W) as Ld. remember (readable ub) as d eqn:Ed.
  destruct Hcut as [r Hr|p l ps r Hp Hl Hcut].
  - unfold tail_crash, tail_out.
    destruct ((length r <? 4) || (Z.of_nat (length r) <? announced r)%Z) eqn:E.
    { destruct S as (c' & u' & S & _). rewrite S in L.
      assert ((4 <=? length r) && (announced r =? Z.of_nat (length r))%Z = false) as ->.
      { apply orb_true_iff in E as [E|E].
        - cleq. destruct (4 <=? length r) eqn:?; cleq; [lia|done].
        - apply Z.ltb_lt in E. destruct (announced r =? _)%Z eqn:?; [lia|]. apply andb_false_r. }
      destruct (cur_look ub); [done|done|done|done|by destruct L]. }
    apply orb_false_iff in E as [E1 E2]. cleq. apply Z.ltb_ge in E2.
    destruct (4 <=? length r) eqn:E3; cleq; [|lia]. cbn [andb].
    destruct (announced r =? Z.of_nat (length r))%Z eqn:E4.
    { destruct S as (u' & S & Wu' & R'). rewrite S in L. 
      destruct (ub_readfrom_spec c ub Wc W) as (x & c1 & u1 & EQ & _). rewrite EQ in L.
      destruct (cur_look ub); [done|by destruct L| |done|by destruct L].
      injection L as <-. by rewrite R'. }
    apply Z.eqb_neq in E4.
    destruct (announced r <=? 0)%Z eqn:E5.
    { apply Z.leb_le in E5. rewrite S in L. assert (announced r = 0)%Z as -> by lia.
      destruct (ub_readfrom_spec c ub Wc W) as (x & c1 & u1 & EQ & _). rewrite EQ in L.
      destruct (cur_look ub); [done|by destruct L|done|done|done]. }
    apply Z.leb_gt in E5. 
    destruct (4 + announced r <=? Z.of_nat (length r))%Z eqn:E7; [lia|].
    destruct S as (u' & S). rewrite S in L. destruct (cur_look ub); [done|done|done|done|by destruct L].
  - pose proof (frame_announced p l Hl) as Ha. rewrite Ha in S.
    assert (Lp : length p <> 0) by (by destruct p).
    assert (Lt : length (frame p ++ l) = 4 + length p + length l) by (rewrite app_length, frame_length; lia).
    destruct (length (frame p ++ l) <? 4) eqn:E1; cleq; [lia|].
    destruct (_ <? _)%Z eqn:E2 in S; [lia|]. cbn [orb] in S.
    destruct (_ =? _)%Z eqn:E3 in S; [lia|].
    destruct (_ <=? 0)%Z eqn:E4 in S; [lia|].
    destruct (_ <=? _)%Z eqn:E5 in S; [|lia].
    rewrite Nat2Z.id, frame_payload, frame_rest in S.
    destruct S as (nb & u' & S & Wn & Wu' & Rn & Ru'). rewrite S in L.
    destruct (ub_readfrom_spec c ub Wc W) as (x & c1 & u1 & EQ & _). rewrite EQ in L.
    destruct (cur_look ub); [done|by destruct L|done| |by destruct L].
    injection L as <- <-. exists (ps ++ tail_out r). rewrite Rn, Ru'. split; [done|]. split.
    + by exists ps, r.
    + pose proof (readable_length u' Wu') as Lu. rewrite Ru' in Lu.
      unfold okb. rewrite Ru'. apply Forall_app in Hbo as [_ Hbo]. split_and!; try done; lia.
Qed.

(** ** The invariant *)
Definition todo (p : jpc) : option (list byte) :=
  match p with JTest ub | JTest2 ub _ | JLoop ub => Some (readable ub) | _ => None end.
Definition okpc (k : nat) (p : jpc) : Prop :=
  match p with
  | JIdle | JCached | JReset _ | JReset2 _ => True
  | JTest ub | JLoop ub | JRoom ub | JSlice ub => okb k ub
  | JTest2 ub w | JCopy ub w => okb k ub /\ w = 0
  | JAdd n => n = 0 | JAdd2 w => w = 0
  | JCached2 w => w = 0
  | _ => False
  end.
Definition pending (p : jpc) (o : list (list byte)) : Prop :=
  match todo p with Some d => exists b, chunk_out d o b | None => o = [] end.
Definition calm_cache (k : nat) (c : jcache) : Prop := c_rd c = 0 /\ c_wr c = 0 /\ length (c_bytes c) = k.

(** One step of a goroutine on a cache nobody has put anything into. *)
Lemma move_calm k c p o : 0 < k -> calm_cache k c -> okpc k p -> pending p o ->
  match jmove c p with
  | None => exists d b, todo p = Some d /\ chunk_out d o b /\ b = true
  | Some (c', p', x) => calm_cache k c' /\ okpc k p' /\ exists o', o = option_list x ++ o' /\ pending p' o'
  end.
Proof.
  intros Hk (Hr & Hw & Hb) Hp Ho.
  destruct p; simpl in Hp; try done; cbn [jmove]; unfold pending in *; cbn [todo] in *.
  - split_and!; try done. by exists o.
  - rewrite Hw. split_and!; try done. simpl. by exists o.
  - destruct Hp as [Hp ->]. rewrite Hr. cbn. split_and!; try done. by exists o.
  - destruct Ho as [b Ho]. pose proof (loop_look k ub o b Hp Ho) as L.
    destruct (cur_look ub) eqn:E.
    + subst o. split_and!; try done. by exists [].
    + subst o. split_and!; try done. by exists [].
    + subst o. split_and!; try done. by exists [].
    + destruct L as (o' & -> & Ho' & Hu & _). split_and!; try done. exists o'. split; [done|]. by exists b.
    + subst b. by exists (readable ub), true.
  - subst o. rewrite Hw, Hb. destruct (k <=? 0) eqn:E; cleq; [lia|]. split_and!; try done. by exists [].
  - subst o. rewrite Hw, Hb. destruct (k <? 0) eqn:E; cleq; [lia|]. split_and!; try done. by exists [].
  - destruct Hp as [(W & Hk2 & Hs & _) ->]. rewrite Hb, Nat.sub_0_r. subst o.
    destruct (decide (v_rlen ub = 0)) as [E0|E0].
    + assert (v_read k ub = Ok ([], None) ub) as -> by (unfold v_read; by rewrite E0).
      split_and!; simpl; try done. by exists [].
    + rewrite (v_read_wf k ub W E0). destruct (v_rlen ub <? k) eqn:E; cleq; [|lia].
      split_and!; simpl; try done; [|by exists []]. unfold calm_cache, overwrite. simpl. split_and!; try done.
      rewrite app_length, drop_length, take_length, (readable_length ub W). lia.
  - subst. rewrite Hw. split_and!; try done. by exists [].
  - subst. split_and!; try done. by exists [].
  - subst. split_and!; try done. by exists [].
  - subst. split_and!; try done; [by destruct fin|]. exists []. by destruct fin.
  - subst. rewrite Hw. split_and!; try done. by exists [].
  - subst. rewrite Hr. simpl. split_and!; try done. by exists [].
Qed.
Definition mix_inv (k : nat) (ls : list jlab) (s : jst) : Prop :=
  calm_cache k (j_cache s) /\
  forall g, okpc k (j_at s g) /\ exists os rest,
    Forall2 (fun ch o => exists b, chunk_out ch o b) (arrived g ls) os /\ ups g s ++ rest = concat os /\
    pending (j_at s g) rest /\
    (forall d, todo (j_at s g) = Some d -> exists ch, ch ∈ arrived g ls /\ forall o b, chunk_out d o b -> exists o', chunk_out ch o' b).
Lemma chunk_out_ex ch : Forall byte_ok ch -> exists o b, chunk_out ch o b.
Proof. intros H. destruct (cuts_total ch H) as (ps & r & Hc). eexists _, _. by exists ps, r. Qed.
Lemma rx_okb k mtu ch : chunk_fits k mtu ch -> okb k (rx_chunk mtu ch) /\ readable (rx_chunk mtu ch) = ch.
Proof.
  intros (H1 & H2 & H3 & H4). destruct (rx_chunk_wf mtu ch H3) as (W & R & L). split; [|done].
  unfold okb. rewrite L, R. done.
Qed.
Lemma all_fit_app k mtu ls ms : all_fit k mtu (ls ++ ms) -> all_fit k mtu ls /\ all_fit k mtu ms.
Proof. intros H. split; intros g ch Hc; apply (H g); rewrite arrived_app, elem_of_app; auto. Qed.
Lemma todo_step k c p c' p' x d' : okpc k p -> calm_cache k c -> jmove c p = Some (c', p', x) -> todo p' = Some d' ->
  exists d, todo p = Some d /\ forall o b, chunk_out d' o b -> exists o', chunk_out d o' b.
Proof.
  intros Hp Hc Hm Ht. destruct p; simpl in Hp; try done; cbn [jmove] in Hm; simplify_eq; try done.
  - cbn in Ht. injection Ht as <-. exists (readable ub). split; [done|]. eauto.
  - destruct Hp as [Hp ->]. cbn in Ht. injection Ht as <-. exists (readable ub). split; [done|]. eauto.
  - exists (readable ub). split; [done|]. intros o b Ho. destruct (chunk_out_ex (readable ub)) as (o1 & b1 & Ho1); [by destruct Hp as (?&?&?&?)|].
    pose proof (loop_look k ub o1 b1 Hp Ho1) as L. destruct (cur_look ub); simplify_eq; try done.
    destruct L as (o2 & -> & L & _). cbn in Ht. injection Ht as <-.
    destruct (chunk_out_unique _ _ _ _ _ L Ho) as [-> ->]. eauto.
  - by destruct (_ <=? _) in Ht.
  - destruct (_ <? _) in Hm; by simplify_eq.
  - destruct (v_read _ _) as [[l [e|]] u|]; by simplify_eq.
  - by destruct fin.
  - destruct (_ =? _)%Z in Ht; [done|]. by destruct (_ <? _)%Z in Ht.
Qed.

Lemma mix_inv_reach k mtu ls s : 0 < k -> jrun mtu (new_decoder k) ls s -> all_fit k mtu ls -> mix_inv k ls s.
Proof.
  intros Hk Hr. induction Hr as [|ls s1 l s2 Hr IH Hst]; intros Hf.
  { split; [by split_and!; simpl; rewrite ?replicate_length|]. intros g. split; [done|]. exists [], []. split_and!; try done. constructor. }
  destruct (all_fit_app _ _ _ _ Hf) as [Hf1 Hf2]. destruct (IH Hf1) as [Hc Hg]. clear IH.
  destruct Hst as [c at_ up g ch Hi Hne Hm|c at_ up g c' p o Hi Hm|c at_ up g Hm]; cbn [j_cache j_at] in *.
  - split; [done|]. intros x. rewrite arrived_app. destruct (Hg x) as (Ho & os & rest & H1 & H2 & H3 & H4).
    destruct (decide (x = g)) as [->|Hx].
    + cbn [j_at]. rewrite fn_lookup_insert. cbn [arrived omap list_omap]. rewrite decide_True by done.
      assert (chunk_fits k mtu ch) as Hch.
      { apply (Hf2 g). cbn [arrived omap list_omap]. rewrite decide_True by done. left. }
      destruct (rx_okb _ _ _ Hch) as [Hu Ru]. split; [done|].
      destruct (chunk_out_ex ch) as (o & b & Hob); [by destruct Hch|].
      rewrite Hi in H3. cbn in H3. subst rest. rewrite app_nil_r in H2.
      exists (os ++ [o]), o. split_and!.
      * apply Forall2_app; [done|]. constructor; [by exists b|done].
      * rewrite concat_app. cbn [concat]. rewrite app_nil_r, <- H2. done.
      * unfold pending. cbn [todo]. rewrite Ru. by exists b.
      * intros d [= <-]. rewrite Ru. exists ch. split; [apply elem_of_app; right; left|]. eauto.
    + cbn [j_at]. rewrite fn_lookup_insert_ne by done. cbn [arrived omap list_omap]. rewrite decide_False by done.
      rewrite app_nil_r. split; [done|]. by exists os, rest.
  - assert (arrived g (ls ++ [JMove g]) = arrived g ls) as _ by (by rewrite arrived_app, app_nil_r).
    destruct (Hg g) as (Ho & os & rest & H1 & H2 & H3 & H4).
    pose proof (move_calm k c (at_ g) rest Hk Hc Ho H3) as M. rewrite Hm in M.
    destruct M as (Hc' & Hp & rest' & -> & Hr'). split; [done|]. intros x.
    assert (arrived x (ls ++ [JMove g]) = arrived x ls) as -> by (by rewrite arrived_app, app_nil_r).
    destruct (decide (x = g)) as [->|Hx].
    + cbn [j_at]. rewrite fn_lookup_insert. split; [done|]. exists os, rest'. split_and!; try done.
      * rewrite ups_app. rewrite <- H2. unfold ups. simpl. destruct o; simpl.
        -- rewrite decide_True by done. by rewrite <- app_assoc.
        -- by rewrite app_nil_r.
      * intros d Hd. destruct (todo_step k c _ _ _ _ _ Ho Hc Hm Hd) as (d0 & Hd0 & K).
        destruct (H4 _ Hd0) as (ch & Hch & K2). exists ch. split; [done|]. intros o1 b Ho1.
        destruct (K _ _ Ho1) as (o2 & Ho2). eauto.
    + cbn [j_at]. rewrite fn_lookup_insert_ne by done. destruct (Hg x) as (Hox & osx & restx & J1 & J2 & J3 & J4).
      split; [done|]. exists osx, restx. split_and!; try done.
      rewrite ups_app. rewrite <- J2. unfold ups. simpl. destruct o; simpl; [rewrite decide_False by done|]; by rewrite app_nil_r.
  - split; [done|]. intros x. assert (arrived x (ls ++ [JMove g]) = arrived x ls) as -> by (by rewrite arrived_app, app_nil_r).
    destruct (Hg x) as (Hox & osx & restx & J). split; [done|]. by exists osx, restx.
Qed.

Lemma mix_isolated k mtu ls s g : 0 < k -> jrun mtu (new_decoder k) ls s -> all_fit k mtu ls ->
  exists o rest, each_alone (arrived g ls) o /\ ups g s ++ rest = o /\ (j_at s g = JIdle -> rest = []).
Proof.
  intros Hk Hr Hf. destruct (mix_inv_reach _ _ _ _ Hk Hr Hf) as [_ H]. destruct (H g) as (_ & os & rest & H1 & H2 & H3 & _).
  exists (concat os), rest. split_and!; [by exists os|done|]. intros E. rewrite E in H3. done.
Qed.
Lemma chunk_out_frames ps o b : Forall payload_ok ps -> chunk_out (frames ps) o b -> o = ps /\ b = false.
Proof.
  intros Hp (ps' & r & Hc & -> & ->).
  assert (cuts (frames ps) ps []) as Hc2.
  { rewrite <- (app_nil_r (frames ps)). apply frames_cuts; [done|]. left. simpl. lia. }
  destruct (cuts_unique _ _ _ _ _ Hc Hc2) as [-> ->]. unfold tail_out, tail_crash. simpl. by rewrite app_nil_r.
Qed.
Lemma mix_whole_frames k mtu ls s g pss : 0 < k -> jrun mtu (new_decoder k) ls s -> all_fit k mtu ls ->
  arrived g ls = frames <$> pss -> Forall (Forall payload_ok) pss ->
  exists rest, ups g s ++ rest = concat pss /\ (j_at s g = JIdle -> rest = []).
Proof.
  intros Hk Hr Hf Ha Hp. destruct (mix_isolated _ _ _ _ g Hk Hr Hf) as (o & rest & (os & H1 & ->) & H2 & H3).
  exists rest. split; [|done]. rewrite H2. f_equal. rewrite Ha in H1. clear -H1 Hp. revert os H1.
  induction Hp as [|ps pss Hp _ IH]; intros os H1.
  - by apply Forall2_nil_inv_l in H1.
  - apply Forall2_cons_inv_l in H1 as (o & os' & [b Ho] & H1 & ->). destruct (chunk_out_frames _ _ _ Hp Ho) as [-> _].
    f_equal. by apply IH.
Qed.
Lemma step_crash mtu s l s' : jstep mtu s l s' -> j_crashed s' = true ->
  exists g, l = JMove g /\ jmove (j_cache s) (j_at s g) = None /\ s' = Jst (j_cache s) (j_at s) (j_up s) true.
Proof. intros Hst Hc. destruct Hst; try done. eexists. by split_and!. Qed.
Lemma mix_crash k mtu ls s : 0 < k -> jrun mtu (new_decoder k) ls s -> all_fit k mtu ls -> j_crashed s = true ->
  exists g ch o, ch ∈ arrived g ls /\ chunk_out ch o true.
Proof.
  intros Hk Hr Hf Hc. inversion Hr as [E1 E2|ls1 s1 l s2 Hr1 Hst E1 E2]; subst; [done|].
  destruct (step_crash _ _ _ _ Hst Hc) as (g & -> & Hm & ->).
  destruct (all_fit_app _ _ _ _ Hf) as [Hf1 _]. destruct (mix_inv_reach _ _ _ _ Hk Hr1 Hf1) as [Hc1 H].
  destruct (H g) as (Ho & os & rest & H1 & H2 & H3 & H4).
  pose proof (move_calm k (j_cache s1) (j_at s1 g) rest Hk Hc1 Ho H3) as M. rewrite Hm in M.
  destruct M as (d & b & Hd & Hob & ->). destruct (H4 _ Hd) as (ch & Hch & K).
  destruct (K _ _ Hob) as (o' & Ho'). exists g, ch, o'. split; [|done]. rewrite arrived_app. apply elem_of_app. by left.
Qed.

(** ** Goroutines running alone *)
Inductive jpath : jcache -> jpc -> list (list byte) -> jcache -> jpc -> Prop :=
| jp_nil c p : jpath c p [] c p
| jp_cons c p c1 p1 x o c2 p2 : p <> JIdle -> jmove c p = Some (c1, p1, x) -> jpath c1 p1 o c2 p2 ->
    jpath c p (option_list x ++ o) c2 p2.
Lemma jp_quiet c p c1 p1 o c2 p2 : p <> JIdle -> jmove c p = Some (c1, p1, None) -> jpath c1 p1 o c2 p2 -> jpath c p o c2 p2.
Proof. intros H1 H2 H3. change o with (option_list (@None (list byte)) ++ o). by eapply jp_cons. Qed.
Lemma jp_up c p c1 p1 x o c2 p2 : p <> JIdle -> jmove c p = Some (c1, p1, Some x) -> jpath c1 p1 o c2 p2 ->
  jpath c p (x :: o) c2 p2.
Proof. intros H1 H2 H3. change (x :: o) with (option_list (Some x) ++ o). by eapply jp_cons. Qed.
Definition only (g : nat) (l : jlab) : Prop := l = JMove g.
Lemma path_run mtu g p c o c' p' : jpath c p o c' p' -> forall s, j_crashed s = false -> j_at s g = p -> j_cache s = c ->
  exists ms s', jrun mtu s ms s' /\ Forall (only g) ms /\ j_crashed s' = false /\ j_at s' g = p' /\ j_cache s' = c' /\
    (forall x, x <> g -> j_at s' x = j_at s x) /\ j_up s' = j_up s ++ ((g,.) <$> o).
Proof.
  induction 1 as [c p|c p c1 p1 x o c2 p2 Hi Hm Hp IH]; intros s Hcr Hat Hca.
  { exists [], s. split_and!; try done; [constructor|by rewrite app_nil_r]. }
  destruct s as [c0 at_ up cr]. simpl in *. subst cr c0.
  destruct (IH (Jst c1 (<[g := p1]> at_) (up ++ handed_up g x) false)) as (ms & s' & K1 & K2 & K3 & K4 & K5 & K6 & K7);
    [done|by simpl; rewrite fn_lookup_insert|done|].
  exists (JMove g :: ms), s'. split_and!; try done.
  - eapply jrun_cons; [|done]. by apply jk_move; rewrite Hat.
  - by constructor.
  - intros y Hy. rewrite K6 by done. simpl. by rewrite fn_lookup_insert_ne.
  - rewrite K7. simpl. rewrite <- app_assoc. f_equal. rewrite fmap_app. by destruct x.
Qed.

Definition rank (p : jpc) : nat :=
  match p with
  | JIdle => 0 | JReset2 true => 1 | JReset true => 2 | JCached2 _ => 3 | JCached => 4
  | JReset2 false | JAdd2 _ => 5 | JReset false | JAdd _ => 6 | JCopy _ _ => 7 | JSlice _ => 8 | JRoom _ => 9
  | JLoop ub => 10 + v_rlen ub | JTest2 ub _ => 11 + v_rlen ub | JTest ub => 12 + v_rlen ub
  | _ => 0
  end.
Lemma rank_move k c p o c' p' x : 0 < k -> calm_cache k c -> okpc k p -> pending p o -> p <> JIdle ->
  jmove c p = Some (c', p', x) -> rank p' < rank p.
Proof.
  intros Hk (Hr & Hw & Hb) Hp Ho Hi Hm.
  destruct p; simpl in Hp; try done; cbn [jmove] in Hm; unfold pending in *; cbn [todo] in *.
  - injection Hm as <- <- <-. cbn. lia.
  - destruct Hp as [_ ->]. cbn in Hm. injection Hm as <- <- <-. cbn. lia.
  - destruct Ho as [b Ho]. pose proof (loop_look k ub o b Hp Ho) as L.
    destruct (cur_look ub); try done; injection Hm as <- <- <-; cbn; try lia.
    destruct L as (o' & _ & _ & _ & L). lia.
  - destruct (_ <=? _) in Hm; injection Hm as <- <- <-; cbn; lia.
  - destruct (_ <? _) in Hm; [done|]. injection Hm as <- <- <-; cbn; lia.
  - destruct (v_read _ _) as [[l [e|]] u|]; try done; injection Hm as <- <- <-; cbn; lia.
  - injection Hm as <- <- <-. cbn. lia.
  - injection Hm as <- <- <-. cbn. lia.
  - injection Hm as <- <- <-. destruct fin; cbn; lia.
  - injection Hm as <- <- <-. destruct fin; cbn; lia.
  - injection Hm as <- <- <-. cbn. lia.
  - subst w. rewrite Hr in Hm. injection Hm as <- <- <-. cbn. lia.
Qed.
Lemma mix_finishes k mtu g : 0 < k -> forall n ls s, jrun mtu (new_decoder k) ls s -> all_fit k mtu ls ->
  j_crashed s = false -> rank (j_at s g) <= n ->
  exists ms s', jrun mtu s ms s' /\ Forall (fun l => l = JMove g) ms /\ (j_at s' g = JIdle \/ j_crashed s' = true).
Proof.
  intros Hk n. induction n as [|n IH]; intros ls s Hr Hf Hc Hn.
  all: destruct (mix_inv_reach _ _ _ _ Hk Hr Hf) as [Hcc H]; destruct (H g) as (Ho & os & rest & _ & _ & H3 & _).
  all: destruct (decide (rank (j_at s g) = 0)) as [E0|E0].
  - exists [], s. split; [constructor|]. split; [constructor|]. left.
    destruct (j_at s g) as [| | | | | | | |?|[]|[]| | | | | | | | | | | |]; try done.
  - lia.
  - exists [], s. split; [constructor|]. split; [constructor|]. left.
    destruct (j_at s g) as [| | | | | | | |?|[]|[]| | | | | | | | | | | |]; try done.
  - assert (j_at s g <> JIdle) as Hi by (by intros E; rewrite E in E0).
    destruct s as [c at_ up cr]. simpl in *. subst cr.
    destruct (jmove c (at_ g)) as [[[c' p'] x]|] eqn:E.
    + pose proof (rank_move k c (at_ g) rest c' p' x Hk Hcc Ho H3 Hi E) as R.
      assert (jstep mtu (Jst c at_ up false) (JMove g) (Jst c' (<[g := p']> at_) (up ++ handed_up g x) false)) as Hst
        by (by apply jk_move).
      destruct (IH (ls ++ [JMove g]) _ ltac:(by econstructor) ltac:(intros y ch; rewrite arrived_app, app_nil_r; apply Hf) eq_refl)
        as (ms & s' & K1 & K2 & K3).
      { simpl. rewrite fn_lookup_insert. lia. }
      exists (JMove g :: ms), s'. split; [by eapply jrun_cons|]. split; [by constructor|done].
    + exists [JMove g], (Jst c at_ up true). split; [apply jrun_one; by apply jk_panic|]. split; [by constructor|]. by right.
Qed.

(** ** A cache no larger than the chunks *)
Lemma overwrite_all l b : length l = length b -> overwrite 0 l b = l.
Proof. intros H. unfold overwrite. simpl. rewrite drop_ge by lia. by rewrite app_nil_r. Qed.
Ltac zc := repeat match goal with
  | H : (_ <? _)%Z = true |- _ => apply Z.ltb_lt in H | H : (_ <? _)%Z = false |- _ => apply Z.ltb_ge in H
  | H : (_ <=? _)%Z = true |- _ => apply Z.leb_le in H | H : (_ <=? _)%Z = false |- _ => apply Z.leb_gt in H
  | H : (_ =? _)%Z = true |- _ => apply Z.eqb_eq in H | H : (_ =? _)%Z = false |- _ => apply Z.eqb_neq in H end.
Ltac to c1 p1 := eapply (jp_quiet _ _ c1 p1); [done|cbn [jmove c_rd c_wr c_bytes want_len]|].

(** A short chunk: nothing is cached, and the reset is about to come. *)
Lemma seg_short mtu k bs y : length bs = k -> 4 < k -> 0 < length y -> length y < 4 -> length y <= mtu ->
  exists bs', length bs' = k /\ jpath (Jcache 0 0 bs) (JTest (rx_chunk mtu y)) [] (Jcache 0 0 bs') (JReset true).
Proof.
  intros Hb Hk Hy0 Hy Hm. destruct (rx_chunk_wf mtu y Hm) as (W & R & L). set (u := rx_chunk mtu y) in *.
  exists (overwrite 0 y bs). split.
  { unfold overwrite. simpl. rewrite app_length, drop_length. lia. }
  to (Jcache 0 0 bs) (JTest2 u 0); [done|].
  to (Jcache 0 0 bs) (JLoop u); [done|].
  to (Jcache 0 0 bs) (JRoom u); [unfold cur_look; rewrite L; destruct (_ <? _) eqn:E; cleq; [done|lia]|].
  to (Jcache 0 0 bs) (JSlice u); [destruct (_ <=? _) eqn:E; cleq; [lia|done]|].
  to (Jcache 0 0 bs) (JCopy u 0); [destruct (_ <? _) eqn:E; cleq; [lia|done]|].
  to (Jcache 0 0 (overwrite 0 y bs)) JCached.
  { rewrite (v_read_wf _ _ W) by lia. rewrite R, L, take_ge by lia. destruct (_ <? _) eqn:E; cleq; [done|lia]. }
  to (Jcache 0 0 (overwrite 0 y bs)) (JCached2 0); [done|].
  to (Jcache 0 0 (overwrite 0 y bs)) (JReset true); [done|]. constructor.
Qed.
(** From the test for room to the end of ReadFrom, with exactly as many bytes as the cache holds. *)
Lemma seg_store mtu k bs x : length bs = k -> 0 < k -> length x = k -> k <= mtu ->
  jpath (Jcache 0 0 bs) (JRoom (rx_chunk mtu x)) [] (Jcache 0 k x) JCached.
Proof.
  intros Hb Hk Hx Hm. destruct (rx_chunk_wf mtu x ltac:(lia)) as (W & R & L). set (u := rx_chunk mtu x) in *.
  to (Jcache 0 0 bs) (JSlice u); [destruct (_ <=? _) eqn:E; cleq; [lia|done]|].
  to (Jcache 0 0 bs) (JCopy u 0); [destruct (_ <? _) eqn:E; cleq; [lia|done]|].
  to (Jcache 0 0 x) (JAdd k).
  { rewrite (v_read_wf _ _ W) by lia. rewrite R, L, take_ge by lia. destruct (_ <? _) eqn:E; cleq; [lia|].
    by rewrite overwrite_all, Hx by lia. }
  to (Jcache 0 0 x) (JAdd2 k); [done|].
  to (Jcache 0 k x) JCached; [done|]. constructor.
Qed.
(** The first chunk of a longer frame is cached. *)
Lemma seg_begin mtu k bs x : length bs = k -> 4 < k -> length x = k -> k <= mtu -> (Z.of_nat k < announced x)%Z ->
  (Z.of_nat k < 2^32)%Z ->
  jpath (Jcache 0 0 bs) (JTest (rx_chunk mtu x)) [] (Jcache 0 k x) JCached.
Proof.
  intros Hb Hk Hx Hm Ha H32. destruct (rx_chunk_wf mtu x ltac:(lia)) as (W & R & L).
  to (Jcache 0 0 bs) (JTest2 (rx_chunk mtu x) 0); [done|].
  to (Jcache 0 0 bs) (JLoop (rx_chunk mtu x)); [done|].
  to (Jcache 0 0 bs) (JRoom (rx_chunk mtu x)).
  { unfold cur_look. rewrite v_peekU_wf by (done || lia). rewrite L, R. destruct (_ <? _) eqn:E; cleq; [lia|].
    rewrite Z.mod_small by lia. rewrite Z.gtb_ltb. destruct (_ <? _)%Z eqn:E1; zc; [done|lia]. }
  apply seg_store; [done|lia|done|done].
Qed.
(** Taking a whole frame out of the cache. *)
Lemma seg_take k p : 0 < length p -> 4 + length p = k -> (Z.of_nat (length p) < 2^32)%Z ->
  jpath (Jcache 0 k (frame p)) JCached [p] (Jcache k k (frame p)) JCached.
Proof.
  intros Hp Hk Hs. pose proof (frame_length p) as Lf. set (d := frame p) in *.
  assert (announced d = Z.of_nat (length p)) as Ha by (unfold d; rewrite <- (app_nil_r (frame p)); by apply frame_announced).
  assert (drop 4 d = p) as Hd by (unfold d; rewrite <- (app_nil_r (frame p)), frame_drop4; apply app_nil_r).
  set (e := Z.of_nat (length p)) in *.
  to (Jcache 0 k d) (JCached2 k); [done|].
  to (Jcache 0 k d) (JPeek (Z.of_nat k)).
  { rewrite Z.sub_0_r. destruct (_ =? _)%Z eqn:E; zc; [lia|]. destruct (_ <? _)%Z eqn:E1; zc; [lia|done]. }
  to (Jcache 0 k d) (JPeek2 (Z.of_nat k) k); [done|].
  to (Jcache 0 k d) (JPeek3 (Z.of_nat k)); [destruct (_ <? _)%Z eqn:E1; zc; [lia|done]|].
  to (Jcache 0 k d) (JHead e).
  { destruct (_ <? _) eqn:E; cleq; [lia|]. rewrite drop_0, announced_dec, Ha by lia.
    destruct (_ <? _)%Z eqn:E1; zc; [lia|]. destruct (_ <=? _)%Z eqn:E2; zc; [lia|done]. }
  to (Jcache 0 k d) (JHead2 e k); [done|].
  to (Jcache 0 k d) (JRead (WHead e)); [destruct (_ <? _)%Z eqn:E1; zc; [lia|done]|].
  to (Jcache 0 k d) (JRead2 (WHead e) k); [done|].
  to (Jcache 0 k d) (JTake (WHead e) 4); [destruct (_ <=? _)%Z eqn:E1; zc; [lia|]; do 4 f_equal; lia|].
  to (Jcache 0 k d) (JTaken (WHead e) (take 4 d)); [destruct (_ <? _) eqn:E; cleq; [lia|done]|].
  to (Jcache 0 k d) (JTaken2 (WHead e) (take 4 d) 4); [by rewrite take_length_le by lia|].
  to (Jcache 4 k d) (JRead (WBody e)); [done|].
  to (Jcache 4 k d) (JRead2 (WBody e) k); [done|].
  to (Jcache 4 k d) (JTake (WBody e) (length p)); [destruct (_ <=? _)%Z eqn:E1; zc; [lia|]; do 4 f_equal; unfold e; lia|].
  to (Jcache 4 k d) (JTaken (WBody e) p); [destruct (_ <? _) eqn:E; cleq; [lia|]; by rewrite Hd, take_ge by lia|].
  to (Jcache 4 k d) (JTaken2 (WBody e) p k); [do 4 f_equal; unfold e; lia|].
  eapply (jp_up _ _ (Jcache k k d) JCached); [done| |constructor].
  cbn [jmove c_rd c_wr c_bytes want_len]. destruct (_ <? _) eqn:E; cleq; [lia|done].
Qed.
Lemma arrive_run mtu s g ch : j_crashed s = false -> j_at s g = JIdle -> ch <> [] -> length ch <= mtu ->
  exists s', jrun mtu s [JArrive g ch] s' /\ j_crashed s' = false /\ j_at s' g = JTest (rx_chunk mtu ch) /\
    j_cache s' = j_cache s /\ (forall x, x <> g -> j_at s' x = j_at s x) /\ j_up s' = j_up s.
Proof.
  intros H1 H2 H3 H4. destruct s as [c at_ up cr]. simpl in *. subst cr. eexists. split; [apply jrun_one; by apply jk_arrive|].
  simpl. split_and!; try done; [by rewrite fn_lookup_insert|]. intros x Hx. by rewrite fn_lookup_insert_ne.
Qed.
Lemma arrived_only g h ms : Forall (only h) ms -> arrived g ms = [].
Proof. induction 1 as [|l ms -> _ IH]; [done|]. apply IH. Qed.
Lemma nonempty_ne {A} (l : list A) : 0 < length l -> l <> [].
Proof. by destruct l; simpl; [lia|]. Qed.

(** The frame has replaced the beginning of a longer one in the cache: goroutine 1 is about to look for frames there, and so is 2. *)
Lemma mixed_half mtu k x y p : 0 < length p -> 4 + length p = k -> k <= mtu -> (Z.of_nat k < 2^32)%Z ->
  length x = k -> (Z.of_nat k < announced x)%Z -> 0 < length y < 4 ->
  exists ls s, jrun mtu (new_decoder k) ls s /\ arrived 0 ls = [y] /\ arrived 1 ls = [x] /\ arrived 2 ls = [frame p] /\
    j_up s = [] /\ j_crashed s = false /\ j_at s 1 = JCached /\ j_at s 2 = JCached /\ j_cache s = Jcache 0 k (frame p).
Proof.
  intros Hp Hk Hm H32 Hx Ha [Hy0 Hy4]. pose proof (frame_length p) as Lf.
  destruct (arrive_run mtu (new_decoder k) 0 y) as (s1 & R1 & A1 & B1 & C1 & D1 & E1); [done|done|by apply nonempty_ne|lia|].
  destruct (seg_short mtu k (replicate k 0%Z) y) as (bs & Lb & P2); [by rewrite replicate_length|lia..|].
  destruct (path_run mtu 0 _ _ _ _ _ P2 s1 A1 B1 C1) as (m2 & s2 & R2 & F2 & A2 & B2 & C2 & D2 & E2).
  destruct (arrive_run mtu s2 1 x) as (s3 & R3 & A3 & B3 & C3 & D3 & E3);
    [done|by rewrite D2, D1 by done|apply nonempty_ne; lia|lia|].
  pose proof (seg_begin mtu k bs x Lb ltac:(lia) Hx Hm Ha H32) as P4.
  destruct (path_run mtu 1 _ _ _ _ _ P4 s3 A3 B3 ltac:(by rewrite C3, C2)) as (m4 & s4 & R4 & F4 & A4 & B4 & C4 & D4 & E4).
  destruct (arrive_run mtu s4 2 (frame p)) as (s5 & R5 & A5 & B5 & C5 & D5 & E5);
    [done|by rewrite D4, D3, D2, D1 by done|apply nonempty_ne; lia|lia|].
  assert (jpath (Jcache 0 k x) (JTest (rx_chunk mtu (frame p))) [] (Jcache 0 k x) (JRoom (rx_chunk mtu (frame p)))) as P6.
  { to (Jcache 0 k x) (JTest2 (rx_chunk mtu (frame p)) k); [done|].
    to (Jcache 0 k x) (JRoom (rx_chunk mtu (frame p))); [destruct (_ <? _) eqn:E; cleq; [done|lia]|]. constructor. }
  destruct (path_run mtu 2 _ _ _ _ _ P6 s5 A5 B5 ltac:(by rewrite C5, C4)) as (m6 & s6 & R6 & F6 & A6 & B6 & C6 & D6 & E6).
  assert (jpath (Jcache 0 k x) (JReset true) [] (Jcache 0 0 x) JIdle) as P7.
  { to (Jcache 0 k x) (JReset2 true); [done|]. to (Jcache 0 0 x) JIdle; [done|]. constructor. }
  destruct (path_run mtu 0 _ _ _ _ _ P7 s6 A6 ltac:(by rewrite D6, D5, D4, D3, B2 by done) C6)
    as (m7 & s7 & R7 & F7 & A7 & B7 & C7 & D7 & E7).
  pose proof (seg_store mtu k x (frame p) Hx ltac:(lia) ltac:(lia) Hm) as P8.
  destruct (path_run mtu 2 _ _ _ _ _ P8 s7 A7 ltac:(by rewrite D7, B6 by done) C7)
    as (m8 & s8 & R8 & F8 & A8 & B8 & C8 & D8 & E8).
  exists ([JArrive 0 y] ++ m2 ++ [JArrive 1 x] ++ m4 ++ [JArrive 2 (frame p)] ++ m6 ++ m7 ++ m8), s8. split.
  { repeat (eapply jrun_app; [done|]). done. }
  split_and!; try done;
    try (rewrite !arrived_app; rewrite (arrived_only _ _ _ F2), (arrived_only _ _ _ F4), (arrived_only _ _ _ F6),
      (arrived_only _ _ _ F7), (arrived_only _ _ _ F8); done).
  - rewrite E8, E7, E6, E5, E4, E3, E2, E1. done.
  - by rewrite D8, D7, D6, D5, B4 by done.
Qed.
Lemma mixed mtu k x y p : 0 < length p -> 4 + length p = k -> k <= mtu -> (Z.of_nat k < 2^32)%Z ->
  length x = k -> (Z.of_nat k < announced x)%Z -> 0 < length y < 4 ->
  exists ls s, jrun mtu (new_decoder k) ls s /\ arrived 0 ls = [y] /\ arrived 1 ls = [x] /\ arrived 2 ls = [frame p] /\
    j_up s = [(1, p)] /\ j_crashed s = false.
Proof.
  intros Hp Hk Hm H32 Hx Ha Hy.
  destruct (mixed_half mtu k x y p Hp Hk Hm H32 Hx Ha Hy) as (ls & s & R & G0 & G1 & G2 & U & A & B1 & B2 & C).
  pose proof (seg_take k p Hp Hk ltac:(lia)) as P9.
  destruct (path_run mtu 1 _ _ _ _ _ P9 s A B1 C) as (m9 & s9 & R9 & F9 & A9 & B9 & C9 & D9 & E9).
  exists (ls ++ m9), s9. split; [by eapply jrun_app|].
  rewrite !arrived_app, !(arrived_only _ _ _ F9), !app_nil_r. split_and!; try done. by rewrite E9, U.
Qed.
(** Two goroutines take the same frame out of the cache. *)
Lemma mixed_crash mtu k x y p : 0 < length p -> 4 + length p = k -> k <= mtu -> (Z.of_nat k < 2^32)%Z ->
  length x = k -> (Z.of_nat k < announced x)%Z -> 0 < length y < 4 ->
  exists ls s, jrun mtu (new_decoder k) ls s /\ arrived 0 ls = [y] /\ arrived 1 ls = [x] /\ arrived 2 ls = [frame p] /\
    j_up s = [(2, p)] /\ j_crashed s = true.
Proof.
  intros Hp Hk Hm H32 Hx Ha Hy.
  destruct (mixed_half mtu k x y p Hp Hk Hm H32 Hx Ha Hy) as (ls & s & R & G0 & G1 & G2 & U & A & B1 & B2 & C).
  assert (jpath (Jcache 0 k (frame p)) JCached [] (Jcache 0 k (frame p)) (JPeek3 (Z.of_nat k))) as P8.
  { to (Jcache 0 k (frame p)) (JCached2 k); [done|].
    to (Jcache 0 k (frame p)) (JPeek (Z.of_nat k)).
    { rewrite Z.sub_0_r. destruct (_ =? _)%Z eqn:E; zc; [lia|]. destruct (_ <? _)%Z eqn:E1; zc; [lia|done]. }
    to (Jcache 0 k (frame p)) (JPeek2 (Z.of_nat k) k); [done|].
    to (Jcache 0 k (frame p)) (JPeek3 (Z.of_nat k)); [destruct (_ <? _)%Z eqn:E1; zc; [lia|done]|]. constructor. }
  destruct (path_run mtu 1 _ _ _ _ _ P8 s A B1 C) as (m8 & s8 & R8 & F8 & A8 & B8 & C8 & D8 & E8).
  pose proof (seg_take k p Hp Hk ltac:(lia)) as P9.
  destruct (path_run mtu 2 _ _ _ _ _ P9 s8 A8 ltac:(by rewrite D8) C8) as (m9 & s9 & R9 & F9 & A9 & B9 & C9 & D9 & E9).
  assert (j_at s9 1 = JPeek3 (Z.of_nat k)) as B9' by (by rewrite D9).
  destruct s9 as [c at_ up cr]. simpl in *. subst cr c.
  exists (ls ++ m8 ++ m9 ++ [JMove 1]), (Jst (Jcache k k (frame p)) at_ up true). split.
  { eapply jrun_app; [done|]. eapply jrun_app; [done|]. eapply jrun_app; [done|]. apply jrun_one, jk_panic. rewrite B9'.
    cbn [jmove c_rd c_wr c_bytes]. rewrite frame_length. destruct (_ <? _) eqn:E; cleq; [done|lia]. }
  rewrite !arrived_app, !(arrived_only _ _ _ F8), !(arrived_only _ _ _ F9). simpl. rewrite !app_nil_r. split_and!; try done. by rewrite E9, E8, U.
Qed.
(** None of the three chunks crashes the decoder by itself. *)
Lemma mixed_harmless k x y p : 0 < length p -> 4 + length p = k -> (Z.of_nat k < 2^32)%Z ->
  length x = k -> (Z.of_nat k < announced x)%Z -> 0 < length y < 4 ->
  chunk_out y [] false /\ chunk_out x [] false /\ chunk_out (frame p) [p] false.
Proof.
  intros Hp Hk H32 Hx Ha Hy. split_and!.
  - exists [], y. split; [constructor; lia|]. unfold tail_out, tail_crash. destruct (4 <=? length y) eqn:E; [cleq; lia|done].
  - exists [], x. split; [constructor; right; right; lia|]. unfold tail_out, tail_crash. destruct (4 <=? length x); [|done]. simpl.
    rewrite (proj2 (Z.eqb_neq _ _)) by lia. by rewrite (proj2 (Z.eqb_neq _ _)) by lia.
  - exists [p], []. split; [|done]. rewrite <- (app_nil_r (frame p)). constructor; [by apply nonempty_ne|lia|]. constructor. simpl. lia.
Qed.
