(** * A goroutine alone on a decoder does what the sequential model says *)
From Verif Require Import GoBase UBufModel UBufSpec UBufProofs FrameModel FrameSpec FrameProofs MixModel MixSpec MixProofs.

(** The cache as the goroutines see it. *)
Definition shared (v : vbuf) : jcache := Jcache (v_rd v) (v_wr v) (arr (v_st v)).
Ltac jm := repeat match goal with c := _ : jcache |- context [?d] => constr_eq c d; unfold c end;
  cbn [jmove c_rd c_wr c_bytes shared want_len].
Definition plain (v : vbuf) : Prop := wf v /\ v_res v = 0.

Lemma jpath_app c p o1 c1 p1 o2 c2 p2 : jpath c p o1 c1 p1 -> jpath c1 p1 o2 c2 p2 -> jpath c p (o1 ++ o2) c2 p2.
Proof. induction 1 as [|c p c' p' x o c3 p3 H1 H2 H3 IH]; intros H; [done|]. rewrite <- app_assoc. eapply jp_cons; eauto. Qed.
Lemma jpath_det c p o1 c1 p1 : jpath c p o1 c1 p1 -> forall o2 c2 p2, jpath c p o2 c2 p2 ->
  p1 = JIdle \/ jmove c1 p1 = None -> p2 = JIdle \/ jmove c2 p2 = None -> o1 = o2 /\ c1 = c2 /\ p1 = p2.
Proof.
  induction 1 as [c p|c p c' p' x o c3 p3 H1 H2 H3 IH]; intros o2 c2 p2 H T1 T2.
  - inversion H as [|? ? ? ? ? ? ? ? K1 K2 K3]; subst; [done|]. destruct T1; congruence.
  - inversion H as [|? ? ? ? ? ? ? ? K1 K2 K3]; subst; [destruct T2; congruence|].
    rewrite H2 in K2. injection K2 as <- <- <-. destruct (IH _ _ _ K3 T1 T2) as (-> & -> & ->). done.
Qed.

(** The cache takes what it can from the chunk. *)
Lemma store_path v ub x v' u' : plain v -> wf ub -> ub_readfrom None v ub = Ok x (v', u') ->
  plain v' /\ jpath (shared v) (JRoom ub) [] (shared v') JCached.
Proof.
  intros [W R0] Wu H. destruct (ub_readfrom_spec v ub W Wu) as (x0 & v0 & u0 & E0 & W0 & R1 & _).
  rewrite H in E0. injection E0 as <- <- <-. split; [split; [done|congruence]|].
  pose proof W as (W1 & W2 & W3 & W4). unfold v_cap, scap in *.
  unfold ub_readfrom in H. unfold v_tlen, v_cap, scap in H.
  destruct (_ =? 0) eqn:E in H; cleq.
  { injection H as <- <- <-. eapply jp_quiet; [done| |constructor]. jm. destruct (_ <=? _) eqn:E1; cleq; [done|lia]. }
  eapply (jp_quiet _ _ (shared v) (JSlice ub)); [done|jm; destruct (_ <=? _) eqn:E1; cleq; [lia|done]|].
  eapply (jp_quiet _ _ (shared v) (JCopy ub (v_wr v))); [done|jm; destruct (_ <? _) eqn:E1; cleq; [lia|done]|].
  destruct (v_read (length (arr (v_st v)) - v_wr v) ub) as [[l e] u1|u1] eqn:Er; [|done].
  unfold v_readfrom_body in H. destruct (s_from_wr v W) as (dst & Ed & _). rewrite Ed in H.
  destruct e as [e|]; injection H as <- <- <-.
  - eapply jp_quiet; [done| |constructor]. jm. by rewrite Er.
  - eapply (jp_quiet _ _ (Jcache (v_rd v) (v_wr v) (overwrite (v_wr v) l (arr (v_st v)))) (JAdd (length l))); [done|jm; by rewrite Er|].
    eapply jp_quiet; [done|done|]. eapply jp_quiet; [done|done|]. constructor.
Qed.

Lemma fd_cut_exact L u : wf u -> 4 <= v_rlen u -> (0 < L)%Z ->
  exists nb, fd_cut L u = Some (if (4 + L <=? Z.of_nat (v_rlen u))%Z then Some nb else None,
      set_rd u (v_rd u + 4 + Nat.min (Z.to_nat L) (v_rlen u - 4))) /\
    ((4 + L <= Z.of_nat (v_rlen u))%Z -> readable nb = take (Z.to_nat L) (drop 4 (readable u))).
Proof.
  intros W H4 HL. pose proof (fd_cut_spec L u W H4) as C. cbv zeta in C.
  destruct (L <=? 0)%Z eqn:E; zc; [lia|]. rewrite (readable_length u W) in C.
  assert (exists r, fd_cut L u = Some (r, set_rd u (v_rd u + 4 + Nat.min (Z.to_nat L) (v_rlen u - 4)))) as (r & Hr).
  { clear C. unfold fd_cut. destruct (alloc_some L 0) as (nb & Ea); [lia|]. rewrite Ea.
    destruct (alloc_wf _ _ _ Ea) as (Wn & An & _). unfold q_new in An. injection An as A1 A2 A3 A4. simpl in A4. rewrite Nat.sub_0_r in A4.
    rewrite (v_readU_wf u W H4). destruct (pop_spec u 4 W H4) as [W1 A]. unfold absq, q_pop in A. injection A as A5.
    set (u1 := set_rd u (v_rd u + 4)) in *.
    assert (R1 : v_rlen u1 = v_rlen u - 4) by (unfold u1, set_rd, v_rlen; simpl; lia).
    unfold ub_copyn, ub_readfrom. destruct (v_tlen nb =? 0) eqn:E1; cleq; [lia|].
    assert (Z.to_nat L `min` v_tlen nb = Z.to_nat L) as -> by lia.
    destruct (v_rlen u1 =? 0) eqn:E2; cleq.
    - assert (v_read (Z.to_nat L) u1 = Ok ([], None) u1) as -> by (unfold v_read; by rewrite E2).
      destruct (body_ok [] false nb Wn ltac:(simpl; lia)) as (c' & -> & _).
      replace (Nat.min (Z.to_nat L) (v_rlen u - 4)) with 0 by lia. rewrite Nat.add_0_r. fold u1. cbn [length].
      destruct (0 =? Z.to_nat L); by eexists.
    - rewrite (v_read_wf _ u1 W1 E2).
      edestruct (body_ok (take (Z.to_nat L) (readable u1))) as (c' & Eb & _).
      { exact Wn. } { rewrite take_length. lia. }
      rewrite Eb. rewrite R1. unfold u1, set_rd. cbn [v_res v_rd v_wr v_st].
      clear Eb. destruct (_ <? _); cbv iota zeta; [by eexists|]. destruct (_ =? _); by eexists. }
  destruct C as (u' & _ & _ & _ & _ & C). destruct (_ <=? _)%Z eqn:E1; zc.
  - destruct C as (nb & C & _ & Rn & _). rewrite Hr in C. injection C as -> _. exists nb. by rewrite Hr.
  - rewrite Hr in C. injection C as -> _. exists u. split; [done|lia].
Qed.

Lemma reset_plain v : plain v -> plain (v_reset v).
Proof. intros [(H1 & H2 & H3 & H4) R]. unfold v_reset. split; [|done]. unfold wf, v_cap, scap in *. cbn [v_rd v_wr v_res v_st] in *. lia. Qed.
Lemma reset_path v : plain v -> jpath (shared v) (JReset true) [] (shared (v_reset v)) JIdle.
Proof. intros [_ R]. unfold v_reset. rewrite R. eapply jp_quiet; [done|done|]. eapply jp_quiet; [done|done|]. constructor. Qed.
Lemma reset_path_cur v : plain v -> jpath (shared v) (JReset false) [] (shared (v_reset v)) JCached.
Proof. intros [_ R]. unfold v_reset. rewrite R. eapply jp_quiet; [done|done|]. eapply jp_quiet; [done|done|]. constructor. Qed.
Lemma set_rd_plain v n : plain v -> v_rd v + n <= v_wr v -> plain (set_rd v (v_rd v + n)).
Proof. intros [(H1 & H2 & H3 & H4) R] H. split; [|done]. unfold wf, v_cap, scap, set_rd in *. cbn [v_rd v_wr v_res v_st] in *. lia. Qed.
Lemma readable_arr v n : wf v -> v_rd v + n <= v_wr v -> take n (drop (v_rd v) (arr (v_st v))) = take n (readable v).
Proof. intros _ H. unfold readable. rewrite take_take. unfold v_rlen; f_equal; lia. Qed.

(** One iteration over the cache. *)
Lemma cached_path v : plain v -> match fd_cached_step v with
  | (FdPanic, _) => exists c p, jpath (shared v) JCached [] c p /\ p <> JIdle /\ jmove c p = None
  | (FdNew nb, v') => plain v' /\ jpath (shared v) JCached [readable nb] (shared v') JCached
  | (_, v') => plain v' /\ jpath (shared v) JCached [] (shared v') JIdle
  end.
Proof.
  intros P. pose proof P as [W R]. pose proof W as (W1 & W2 & W3 & W4). unfold v_cap, scap in W2, W3, W4.
  set (c := shared v).
  assert (forall o c' p', jpath c (JCached2 (v_wr v)) o c' p' -> jpath c JCached o c' p') as Go.
  { intros. by eapply (jp_quiet _ _ c (JCached2 (v_wr v))). }
  unfold fd_cached_step. unfold v_rlen at 1 2.
  destruct (_ =? 0) eqn:E; cleq.
  { split; [by apply reset_plain|]. apply Go. eapply (jp_quiet _ _ c (JReset true)); [done| |by apply reset_path].
    jm. destruct (_ =? _)%Z eqn:E1; zc; [done|lia]. }
  destruct (_ <? 4) eqn:E4; cleq.
  { split; [done|]. apply Go. eapply jp_quiet; [done| |constructor]. jm. destruct (_ =? _)%Z eqn:E1; zc; [lia|].
    destruct (_ <? _)%Z eqn:E2; zc; [done|lia]. }
  assert (4 <= v_rlen v) as H4 by (unfold v_rlen; lia). set (n := (Z.of_nat (v_wr v) - Z.of_nat (v_rd v))%Z).
  assert (Z.of_nat (v_rlen v) = n) as En by (unfold n, v_rlen; lia).
  rewrite (v_peekU_wf v W H4). set (e := announced (readable v)).
  assert (dec BE (take 4 (drop (v_rd v) (arr (v_st v)))) = e) as He.
  { rewrite readable_arr by (done || lia). apply announced_dec. by rewrite (readable_length v W). }
  assert (forall o c' p', jpath c (JPeek3 n) o c' p' -> jpath c JCached o c' p') as Go2.
  { intros o c' p' Hp. apply Go. eapply (jp_quiet _ _ c (JPeek n)); [done| |].
    { jm. fold n. destruct (_ =? _)%Z eqn:E1; zc; [lia|]. destruct (_ <? _)%Z eqn:E2; zc; [lia|done]. }
    eapply (jp_quiet _ _ c (JPeek2 n (v_wr v))); [done|done|].
    eapply (jp_quiet _ _ c (JPeek3 n)); [done| |done]. jm. fold n. destruct (_ <? _)%Z eqn:E2; zc; [lia|done]. }
  rewrite En.
  destruct (n <? e)%Z eqn:Ee.
  { split; [done|]. apply Go2. eapply jp_quiet; [done| |constructor]. jm. destruct (_ <? _) eqn:E1; cleq; [lia|].
    by rewrite He, Ee. }
  destruct (decide (0 < e)%Z) as [He0|He0].
  2:{ assert (fd_cut e v = None) as -> by (unfold fd_cut, v_alloc; by rewrite (proj2 (Z.leb_le e 0)) by lia).
    exists c, (JPeek3 n). split; [apply Go2; constructor|]. split; [done|]. jm. destruct (_ <? _) eqn:E1; cleq; [lia|].
    rewrite He, Ee. destruct (_ <=? _)%Z eqn:E2; zc; [done|lia]. }
  assert (forall o c' p', jpath (Jcache (v_rd v + 4) (v_wr v) (arr (v_st v))) (JRead (WBody e)) o c' p' -> jpath c JCached o c' p') as Go3.
  { intros o c' p' Hp. apply Go2. eapply (jp_quiet _ _ c (JHead e)); [done| |].
    { jm. destruct (_ <? _) eqn:E1; cleq; [lia|]. rewrite He, Ee. destruct (_ <=? _)%Z eqn:E2; zc; [lia|done]. }
    eapply (jp_quiet _ _ c (JHead2 e (v_wr v))); [done|done|].
    eapply (jp_quiet _ _ c (JRead (WHead e))); [done|jm; fold n; destruct (_ <? 4)%Z eqn:E2; zc; [lia|done]|].
    eapply (jp_quiet _ _ c (JRead2 (WHead e) (v_wr v))); [done|done|].
    eapply (jp_quiet _ _ c (JTake (WHead e) 4)); [done|jm; fold n; destruct (_ <=? _)%Z eqn:E2; zc; [lia|]; do 4 f_equal; lia|].
    set (h := take 4 (drop (v_rd v) (arr (v_st v)))).
    assert (length h = 4) as Lh by (unfold h; rewrite take_length, drop_length; lia).
    eapply (jp_quiet _ _ c (JTaken (WHead e) h)); [done|jm; destruct (_ <? _) eqn:E1; cleq; [lia|done]|].
    eapply (jp_quiet _ _ c (JTaken2 (WHead e) h (v_rd v + 4))); [done|jm; by rewrite Lh|].
    eapply jp_quiet; [done|done|]. done. }
  destruct (fd_cut_exact e v W H4 He0) as (nb & -> & Rn). rewrite En.
  set (v' := set_rd v _). set (m := Nat.min (Z.to_nat e) (v_rlen v - 4)) in *.
  assert (plain v') as P'.
  { unfold v'. rewrite <- Nat.add_assoc. apply set_rd_plain; [done|]. unfold m, v_rlen. lia. }
  set (c4 := Jcache (v_rd v + 4) (v_wr v) (arr (v_st v))) in *.
  assert (forall o c' p', 0 < v_rlen v - 4 -> jpath c4 (JTaken2 (WBody e) (take m (drop 4 (readable v))) (v_rd v + 4 + m)) o c' p' -> jpath c JCached o c' p') as Go5.
  { intros o c' p' Hpos Hp. apply Go3. eapply (jp_quiet _ _ c4 (JRead2 (WBody e) (v_wr v))); [done|done|].
    eapply (jp_quiet _ _ c4 (JTake (WBody e) m)); [done| |].
    { jm. unfold v_rlen in Hpos. destruct (_ <=? _)%Z eqn:E2; zc; [lia|]. do 4 f_equal. unfold m, v_rlen. lia. }
    assert (take m (drop (v_rd v + 4) (arr (v_st v))) = take m (drop 4 (readable v))) as Et.
    { unfold readable. rewrite skipn_firstn_comm, drop_drop, take_take. f_equal. unfold m, v_rlen. lia. }
    eapply (jp_quiet _ _ c4 (JTaken (WBody e) (take m (drop 4 (readable v))))); [done|jm; destruct (_ <? _) eqn:E1; cleq; [lia|by rewrite Et]|].
    eapply (jp_quiet _ _ c4 (JTaken2 (WBody e) (take m (drop 4 (readable v))) (v_rd v + 4 + m))); [done| |done].
    jm. rewrite take_length, drop_length, (readable_length v W). do 4 f_equal. unfold m. lia. }
  destruct (4 + e <=? n)%Z eqn:Ecut; zc.
  - split; [done|]. apply Go5; [lia|]. assert (m = Z.to_nat e) as Em by (unfold m; lia). rewrite Em in *.
    eapply jp_up; [done| |constructor]. jm. rewrite take_length, drop_length, (readable_length v W).
    cbn [want_len]. destruct (_ <? _) eqn:E1; cleq; [lia|]. rewrite Rn by lia. unfold v'. rewrite Em. done.
  - split; [by apply reset_plain|]. destruct (decide (0 < v_rlen v - 4)) as [Hp|Hp].
    + apply Go5; [done|]. eapply (jp_quiet _ _ (shared v') (JReset true)); [done| |by apply reset_path].
      jm. rewrite take_length, drop_length, (readable_length v W).
      cbn [want_len]. destruct (_ <? _) eqn:E1; cleq; [done|lia].
    + apply Go3. eapply (jp_quiet _ _ c4 (JRead2 (WBody e) (v_wr v))); [done|done|].
      assert (shared v' = c4) as Es by (unfold shared, v', c4, set_rd; simpl; f_equal; unfold m; lia).
      rewrite <- Es. eapply (jp_quiet _ _ (shared v') (JReset true)); [done| |by apply reset_path].
      rewrite Es. jm. unfold v_rlen in *. destruct (_ <=? _)%Z eqn:E2; zc; [done|lia].
Qed.

Lemma look_new_wf ub nb u' : wf ub -> cur_look ub = LookNew nb u' -> wf u'.
Proof.
  intros W. unfold cur_look. destruct (v_rlen ub <? 4) eqn:E; cleq; [done|].
  destruct (v_peekU BE W32 ub) as [[e [x|]] u|u]; try done. destruct (e >? _)%Z; [done|]. destruct (e =? _)%Z.
  { by destruct (v_readU BE W32 ub). }
  pose proof (fd_cut_spec e ub W E) as C. cbv zeta in C. destruct (e <=? 0)%Z; [by rewrite C|].
  destruct C as (u2 & W2 & _ & _ & _ & C). destruct (_ <=? _)%Z.
  - destruct C as (nb2 & -> & _). by intros [= <- <-].
  - by rewrite C.
Qed.

(** Running to the end: either idle, or before a step that panics. *)
Definition ends (c : jcache) (p : jpc) (o : list (list byte)) (cr : bool) (v' : vbuf) : Prop :=
  if cr then exists c' p', jpath c p o c' p' /\ p' <> JIdle /\ jmove c' p' = None
  else plain v' /\ jpath c p o (shared v') JIdle.
Lemma ends_path c p o1 c1 p1 o2 cr v' : jpath c p o1 c1 p1 -> ends c1 p1 o2 cr v' -> ends c p (o1 ++ o2) cr v'.
Proof.
  intros H. destruct cr; simpl.
  - intros (c' & p' & H1 & H2). exists c', p'. split; [by eapply jpath_app|done].
  - intros [P H1]. split; [done|]. by eapply jpath_app.
Qed.
Lemma cached_ends fuel v l v' cr : plain v -> fd_cached fuel v = Some (l, v', cr) ->
  ends (shared v) JCached (readable <$> l) cr v'.
Proof.
  revert v l. induction fuel as [|fuel IH]; intros v l P H; [done|]. cbn [fd_cached] in H.
  pose proof (cached_path v P) as C. destruct (fd_cached_step v) as [[| |nb|] v1].
  - injection H as <- <- <-. done.
  - injection H as <- <- <-. done.
  - destruct C as [P1 C]. destruct (fd_cached fuel v1) as [[[l2 v2] cr2]|] eqn:E; [|done]. injection H as <- <- <-.
    change (readable <$> nb :: l2) with ([readable nb] ++ (readable <$> l2)).
    eapply ends_path; [exact C|]. by apply IH.
  - injection H as <- <- <-. done.
Qed.
(** The first half: up to handleCachedData. *)
Definition gets (c : jcache) (p : jpc) (o : list (list byte)) (cr : bool) (v' : vbuf) : Prop :=
  if cr then exists c' p', jpath c p o c' p' /\ p' <> JIdle /\ jmove c' p' = None
  else plain v' /\ jpath c p o (shared v') JCached.
Lemma gets_path c p o1 c1 p1 o2 cr v' : jpath c p o1 c1 p1 -> gets c1 p1 o2 cr v' -> gets c p (o1 ++ o2) cr v'.
Proof.
  intros H. destruct cr; simpl.
  - intros (c' & p' & H1 & H2). exists c', p'. split; [by eapply jpath_app|done].
  - intros [P H1]. split; [done|]. by eapply jpath_app.
Qed.
Lemma cur_gets fuel v ub l v' cr : plain v -> wf ub -> fd_cur fuel v ub = Some (l, v', cr) ->
  gets (shared v) (JLoop ub) (readable <$> l) cr v'.
Proof.
  intros P. revert ub l. induction fuel as [|fuel IH]; intros ub l W H; [done|]. cbn [fd_cur] in H.
  pose proof (cur_look_step v ub) as C. destruct (cur_look ub) as [| |b|nb u'|] eqn:El.
  - rewrite C in H. destruct (ub_readfrom_spec v ub (proj1 P) W) as (x0 & v0 & u0 & E0 & _). rewrite E0 in H.
    injection H as <- <- <-. destruct (store_path v ub x0 v0 u0 P W E0) as [P0 J]. split; [done|].
    eapply (jp_quiet _ _ (shared v) (JRoom ub)); [done|cbn [jmove]; by rewrite El|done].
  - destruct C as (u' & C). rewrite C in H. injection H as <- <- <-. split; [by apply reset_plain|].
    eapply (jp_quiet _ _ (shared v) (JReset false)); [done|cbn [jmove]; by rewrite El|by apply reset_path_cur].
  - rewrite C in H. injection H as <- <- <-. split; [done|]. eapply jp_up; [done|cbn [jmove]; by rewrite El|constructor].
  - rewrite C in H. destruct (fd_cur fuel v u') as [[[l2 v2] cr2]|] eqn:E; [|done]. injection H as <- <- <-.
    change (readable <$> nb :: l2) with ([readable nb] ++ (readable <$> l2)).
    eapply (gets_path _ _ _ (shared v) (JLoop u')); [eapply jp_up; [done|cbn [jmove]; by rewrite El|constructor]|].
    apply IH; [by eapply look_new_wf|done].
  - destruct C as (u' & C). rewrite C in H. injection H as <- <- <-. exists (shared v), (JLoop ub). split; [constructor|].
    split; [done|]. cbn [jmove]. by rewrite El.
Qed.
Lemma recv_ends fuel v ub l v' cr : plain v -> wf ub -> fd_recv fuel v ub = Some (l, v', cr) ->
  ends (shared v) (JTest ub) (readable <$> l) cr v'.
Proof.
  intros P W H. unfold fd_recv in H. destruct (fd_current fuel v ub) as [[[l1 v1] cr1]|] eqn:E1; [|done].
  assert (gets (shared v) (JTest ub) (readable <$> l1) cr1 v1) as G.
  { clear H. unfold fd_current in E1. change (readable <$> l1) with ([] ++ (readable <$> l1)).
    assert (jpath (shared v) (JTest ub) [] (shared v) (JTest2 ub (v_wr v))) as J by (eapply jp_quiet; [done|done|constructor]).
    destruct (0 <? v_rlen v) eqn:E0; cleq; unfold v_rlen in E0.
    - destruct (ub_readfrom_spec v ub (proj1 P) W) as (x0 & v0 & u0 & Er & _). rewrite Er in E1.
      injection E1 as <- <- <-. destruct (store_path v ub x0 v0 u0 P W Er) as [P0 J0].
      eapply gets_path; [exact J|]. split; [done|]. eapply (jp_quiet _ _ (shared v) (JRoom ub)); [done| |done].
      jm. destruct (_ <? _) eqn:E; cleq; [done|lia].
    - eapply gets_path; [exact J|]. change (readable <$> l1) with ([] ++ (readable <$> l1)).
      eapply (gets_path _ _ _ (shared v) (JLoop ub)); [eapply jp_quiet; [done| |constructor]|by eapply cur_gets].
      jm. destruct (_ <? _) eqn:E; cleq; [lia|done]. }
  destruct cr1.
  - injection H as <- <- <-. exact G.
  - destruct G as [P1 G]. destruct (fd_cached fuel v1) as [[[l2 v2] cr2]|] eqn:E2; [|done]. injection H as <- <- <-.
    rewrite fmap_app. eapply ends_path; [exact G|]. by apply (cached_ends fuel).
Qed.

(** ** Runs of one goroutine *)
Lemma feed_snoc fuel mtu v chs ch outs v' cr : fd_feed fuel mtu v (chs ++ [ch]) = Some (outs, v', cr) ->
  exists outs1 v1 cr1, fd_feed fuel mtu v chs = Some (outs1, v1, cr1) /\
    (cr1 = false -> exists l, fd_recv fuel v1 (rx_chunk mtu ch) = Some (l, v', cr) /\ outs = outs1 ++ [readable <$> l]).
Proof.
  revert v outs. induction chs as [|c0 chs IH]; intros v outs H; cbn [app fd_feed] in *.
  - exists [], v, false. split; [done|]. intros _. destruct (fd_recv _ _ _) as [[[l v2] [|]]|] eqn:E; [| |done].
    + injection H as <- <- <-. by exists l.
    + injection H as <- <- <-. by exists l.
  - destruct (fd_recv _ _ _) as [[[l v2] [|]]|] eqn:E; [| |done].
    + eexists _, _, true. by split.
    + destruct (fd_feed fuel mtu v2 (chs ++ [ch])) as [[[o2 v3] cr3]|] eqn:E2; [|done]. injection H as <- <- <-.
      destruct (IH _ _ E2) as (o1 & v1 & cr1 & -> & K). eexists _, _, _. split; [done|]. intros Hc.
      destruct (K Hc) as (l' & Hl & ->). exists l'. done.
Qed.
Lemma fresh_plain k : plain (fresh_cache k).
Proof. split; [|done]. unfold wf, fresh_cache, v_cap, scap. cbn. rewrite replicate_length. lia. Qed.

Definition alone_inv (fuel mtu k g : nat) (ls : list jlab) (s : jst) : Prop :=
  (arrived g ls = [] /\ j_at s g = JIdle /\ j_cache s = shared (fresh_cache k) /\ ups g s = [] /\ j_crashed s = false) \/
  exists chs0 ch outs0 v0 o, arrived g ls = chs0 ++ [ch] /\ length ch <= mtu /\
    fd_feed fuel mtu (fresh_cache k) chs0 = Some (outs0, v0, false) /\ plain v0 /\
    jpath (shared v0) (JTest (rx_chunk mtu ch)) o (j_cache s) (j_at s g) /\ ups g s = concat outs0 ++ o /\
    (j_crashed s = true -> j_at s g <> JIdle /\ jmove (j_cache s) (j_at s g) = None).
Lemma alone_done fuel mtu k g ls s outs v cr : alone_inv fuel mtu k g ls s ->
  fd_feed fuel mtu (fresh_cache k) (arrived g ls) = Some (outs, v, cr) -> j_at s g = JIdle \/ j_crashed s = true ->
  ups g s = concat outs /\ j_crashed s = cr /\ (cr = false -> j_cache s = shared v /\ plain v).
Proof.
  intros [(Ha & H1 & H2 & H3 & H4)|(chs0 & ch & outs0 & v0 & o & Ha & Hm & Hf & P0 & J & Hu & Hcr)] H Hend.
  - rewrite Ha in H. injection H as <- <- <-. split_and!; try done. intros _. split; [done|apply fresh_plain].
  - rewrite Ha in H. destruct (feed_snoc _ _ _ _ _ _ _ _ H) as (o1 & v1 & cr1 & E1 & K). rewrite Hf in E1. injection E1 as <- <- <-.
    destruct (K eq_refl) as (l & Hr & ->). rewrite concat_app. cbn [concat]. rewrite app_nil_r.
    destruct (rx_chunk_wf mtu ch Hm) as (Wc & _ & _).
    pose proof (recv_ends fuel v0 _ l v cr P0 Wc Hr) as En.
    assert (j_at s g = JIdle \/ jmove (j_cache s) (j_at s g) = None) as T.
    { destruct Hend as [Hi|Hi]; [by left|right]. by apply Hcr. }
    destruct cr; simpl in En.
    + destruct En as (c' & p' & J' & Hp & Hn). destruct (jpath_det _ _ _ _ _ J _ _ _ J' T (or_intror Hn)) as (-> & Ec & Ep).
      split; [done|]. split; [|done]. destruct Hend as [Hi|Hi]; [congruence|done].
    + destruct En as [P' J']. destruct (jpath_det _ _ _ _ _ J _ _ _ J' T (or_introl eq_refl)) as (-> & Ec & Ep).
      split; [done|]. split; [|done]. destruct (j_crashed s) eqn:Ecr; [|done]. destruct (Hcr eq_refl) as [Hc _]. congruence.
Qed.
Lemma alone_reach fuel mtu k g ls s : jrun mtu (new_decoder k) ls s -> Forall (by_alone g) ls ->
  forall outs v cr, fd_feed fuel mtu (fresh_cache k) (arrived g ls) = Some (outs, v, cr) -> alone_inv fuel mtu k g ls s.
Proof.
  induction 1 as [|ls s1 l s2 Hr IH Hst]; intros Hg outs v cr Hf.
  { left. unfold fresh_cache, shared, make_store. done. }
  apply Forall_app in Hg as [Hg1 Hg2]. inversion Hg2 as [|? ? Hl _]; subst. rewrite arrived_app in Hf.
  inversion Hst as [c at_ up x ch Hi Hne Hm|c at_ up x c' p o Hi Hmv|c at_ up x Hmv]; subst; simpl in Hl; subst x.
  - cbn [arrived omap list_omap] in Hf. simpl in Hf. rewrite decide_True in Hf by done.
    destruct (feed_snoc _ _ _ _ _ _ _ _ Hf) as (o1 & v1 & cr1 & E1 & _). pose proof (IH Hg1 _ _ _ E1) as I.
    destruct (alone_done _ _ _ _ _ _ _ _ _ I E1 (or_introl Hi)) as (Hu & Hc & Hv). simpl in Hc. subst cr1.
    destruct (Hv eq_refl) as [Hca Pv]. simpl in Hca. right. exists (arrived g ls), ch, o1, v1, []. split_and!; try done.
    + rewrite arrived_app. simpl. by rewrite decide_True.
    + simpl. rewrite fn_lookup_insert, Hca. constructor.
    + rewrite app_nil_r. exact Hu.
  - simpl in Hf. rewrite app_nil_r in Hf. destruct (IH Hg1 _ _ _ Hf) as [(_ & H1 & _)|(chs0 & ch & outs0 & v0 & o0 & Ha & Hm & Hf0 & P0 & J & Hu & Hcr)]; [done|].
    simpl in J. right. exists chs0, ch, outs0, v0, (o0 ++ option_list o). split_and!; try done.
    + rewrite arrived_app. simpl. by rewrite app_nil_r.
    + simpl. rewrite fn_lookup_insert. eapply jpath_app; [exact J|]. rewrite <- (app_nil_r (option_list o)). eapply jp_cons; [done|done|constructor].
    + rewrite app_assoc, <- Hu. rewrite ups_app. unfold ups. simpl. f_equal. destruct o; simpl; [by rewrite decide_True|done].
  - simpl in Hf. rewrite app_nil_r in Hf. destruct (IH Hg1 _ _ _ Hf) as [(_ & H1 & _)|(chs0 & ch & outs0 & v0 & o0 & Ha & Hm & Hf0 & P0 & J & Hu & Hcr)].
    { simpl in H1. rewrite H1 in Hmv. done. }
    right. exists chs0, ch, outs0, v0, o0. split_and!; try done.
    + rewrite arrived_app. simpl. by rewrite app_nil_r.
    + intros _. simpl. split; [|done]. intros E. rewrite E in Hmv. done.
Qed.
Lemma mix_alone fuel mtu k g ls s outs v cr : jrun mtu (new_decoder k) ls s -> Forall (by_alone g) ls ->
  fd_feed fuel mtu (fresh_cache k) (arrived g ls) = Some (outs, v, cr) -> j_at s g = JIdle \/ j_crashed s = true ->
  ups g s = concat outs /\ j_crashed s = cr.
Proof.
  intros H1 H2 H3 H4. destruct (alone_done _ _ _ _ _ _ _ _ _ (alone_reach fuel mtu k g ls s H1 H2 _ _ _ H3) H3 H4) as (K1 & K2 & _). done.
Qed.

Lemma jpath_rest c p o1 c1 p1 : jpath c p o1 c1 p1 -> forall o2 c2 p2, jpath c p o2 c2 p2 ->
  p2 = JIdle \/ jmove c2 p2 = None -> exists o3, jpath c1 p1 o3 c2 p2.
Proof.
  induction 1 as [c p|c p c' p' x o c3 p3 H1 H2 H3 IH]; intros o2 c2 p2 H T2; [by exists o2|].
  inversion H as [|? ? ? ? ? ? ? ? K1 K2 K3]; subst; [destruct T2; congruence|].
  rewrite H2 in K2. injection K2 as <- <- <-. by eapply IH.
Qed.
Lemma mix_alone_finishes fuel mtu k g ls s outs v cr : jrun mtu (new_decoder k) ls s -> Forall (by_alone g) ls ->
  fd_feed fuel mtu (fresh_cache k) (arrived g ls) = Some (outs, v, cr) ->
  exists ms s', jrun mtu s ms s' /\ Forall (fun l => l = JMove g) ms /\ (j_at s' g = JIdle \/ j_crashed s' = true).
Proof.
  intros H1 H2 H3. destruct (j_crashed s) eqn:Ecr.
  { exists [], s. split; [constructor|]. split; [constructor|]. by right. }
  destruct (alone_reach fuel mtu k g ls s H1 H2 _ _ _ H3) as [(_ & Hi & _)|(chs0 & ch & outs0 & v0 & o & Ha & Hm & Hf & P0 & J & _)].
  { exists [], s. split; [constructor|]. split; [constructor|]. by left. }
  rewrite Ha in H3. destruct (feed_snoc _ _ _ _ _ _ _ _ H3) as (o1 & v1 & cr1 & E1 & K). rewrite Hf in E1. injection E1 as <- <- <-.
  destruct (K eq_refl) as (l & Hr & ->). destruct (rx_chunk_wf mtu ch Hm) as (Wc & _ & _).
  pose proof (recv_ends fuel v0 _ l v cr P0 Wc Hr) as En.
  assert (exists o2 c2 p2, jpath (j_cache s) (j_at s g) o2 c2 p2 /\ (p2 = JIdle \/ jmove c2 p2 = None)) as (o2 & c2 & p2 & J2 & T).
  { destruct cr; simpl in En.
    - destruct En as (c' & p' & J' & Hp & Hn). destruct (jpath_rest _ _ _ _ _ J _ _ _ J' (or_intror Hn)) as (o3 & J3).
      exists o3, c', p'. split; [done|by right].
    - destruct En as [P' J']. destruct (jpath_rest _ _ _ _ _ J _ _ _ J' (or_introl eq_refl)) as (o3 & J3).
      exists o3, (shared v), JIdle. split; [done|by left]. }
  destruct (path_run mtu g _ _ _ _ _ J2 s Ecr eq_refl eq_refl) as (ms & s' & R & F & C' & A' & Ca' & _).
  destruct T as [->|T].
  - exists ms, s'. split; [done|]. split; [exact F|]. by left.
  - exists (ms ++ [JMove g]), (Jst c2 (j_at s') (j_up s') true). split.
    + econstructor; [done|]. destruct s' as [c3 at3 up3 cr3]. simpl in *. subst cr3 c3. apply jk_panic. by rewrite A'.
    + split; [apply Forall_app; split; [exact F|by constructor]|]. by right.
Qed.
