(** * Proofs about copy-on-write buffers used by several goroutines *)
From stdpp Require Import sets.
From Verif Require Import GoBase UBufModel UBufSpec CowModel CowSpec.

(** ** Runs *)
Lemma crun_one s l s' : cstep s l s' -> crun s [l] s'.
Proof. intros H. change [l] with ([] ++ [l]). eapply cr_snoc; [constructor|done]. Qed.
Lemma crun_app s l1 s1 l2 s2 : crun s l1 s1 -> crun s1 l2 s2 -> crun s (l1 ++ l2) s2.
Proof. intros H1 H2. induction H2 as [|ls s2 l s3 H2 IH Hs]; [by rewrite app_nil_r|]. rewrite app_assoc. by eapply cr_snoc. Qed.
Lemma crun_cons s l s1 ls s2 : cstep s l s1 -> crun s1 ls s2 -> crun s (l :: ls) s2.
Proof. intros H1 H2. change (l :: ls) with ([l] ++ ls). eapply crun_app; [by apply crun_one|done]. Qed.
Lemma meaning_snoc ls l : meaning (ls ++ [l]) = meaning1 (meaning ls) l.
Proof. unfold meaning. by rewrite fold_left_app. Qed.

(** ** Counting references *)
Definition leaving (b : cbuf) : bool := match b_pc b with PCopy _ _ _ => true | _ => false end.
Definition stays (a : nat) (b : cbuf) : bool := (b_loc b =? a) && negb (leaving b).
Fixpoint refs (a : nat) (bs : list cbuf) : nat :=
  match bs with [] => 0 | b :: bs' => Nat.b2n (stays a b) + refs a bs' end.
Lemma refs_app a l1 l2 : refs a (l1 ++ l2) = refs a l1 + refs a l2.
Proof. induction l1; simpl; lia. Qed.
Lemma refs_insert a bs h b b' : bs !! h = Some b -> refs a (<[h := b']> bs) + Nat.b2n (stays a b) = refs a bs + Nat.b2n (stays a b').
Proof. revert h. induction bs as [|x bs IH]; intros [|h] H; simplify_eq/=; [lia|]. specialize (IH h H). lia. Qed.
Lemma refs_le a bs : refs a bs <= length bs.
Proof. induction bs as [|b bs IH]; simpl; [lia|]. destruct (stays a b); simpl; lia. Qed.
Lemma refs_ge1 a bs h b : bs !! h = Some b -> stays a b = true -> 1 <= refs a bs.
Proof. revert h. induction bs as [|x bs IH]; intros [|h] H Hs; simplify_eq/=; [rewrite Hs; simpl; lia|]. specialize (IH h H Hs). lia. Qed.
Lemma refs_ge2 a bs h1 b1 h2 b2 : h1 <> h2 -> bs !! h1 = Some b1 -> bs !! h2 = Some b2 -> stays a b1 = true -> stays a b2 = true -> 2 <= refs a bs.
Proof.
  revert h1 h2. induction bs as [|x bs IH]; intros [|h1] [|h2] Hn H1 H2 S1 S2; simplify_eq/=.
  - rewrite S1. pose proof (refs_ge1 _ _ _ _ H2 S2). simpl. lia.
  - rewrite S2. pose proof (refs_ge1 _ _ _ _ H1 S1). simpl. lia.
  - assert (h1 <> h2) by congruence. specialize (IH h1 h2 ltac:(done) H1 H2 S1 S2). lia.
Qed.
Lemma refs_fresh a bs : (forall h b, bs !! h = Some b -> b_loc b <> a) -> refs a bs = 0.
Proof.
  induction bs as [|x bs IH]; intros H; simpl; [done|]. rewrite IH by (intros h b Hb; apply (H (S h) b Hb)).
  pose proof (H 0 x eq_refl). unfold stays. replace (b_loc x =? a) with false; [done|]. symmetry. by apply Nat.eqb_neq.
Qed.

(** ** The invariant of calm runs *)
Definition settled (b : cbuf) : Prop :=
  b_cow b = false /\ match b_pc b with PIdle | PWrite _ _ => True | _ => False end.
Definition fits (n : nat) (b : cbuf) (w : side) (l : list byte) : Prop :=
  l <> [] /\ match w with Tail => b_wr b + length l <= n | Head => length l <= b_rd b end.
Definition pc_ok (p : bool) (by_ : list byte) (b : cbuf) : Prop :=
  match b_pc b with
  | PIdle => True
  | PLoad w l | PDec w l | PWrite w l => b_cow b = false /\ fits (length by_) b w l
  | PCopy l new k => b_cow b = false /\ (p = false -> fits (length by_) b Tail l) /\ b_rd b + k <= b_wr b /\
      length new = length by_ /\ (forall i, i < k -> new !! (b_rd b + i) = by_ !! (b_rd b + i))
  end.
Definition seg (i j : nat) (l : list byte) : list byte := take (j - i) (drop i l).
Definition buf_ok (p : bool) (by_ : list byte) (b : cbuf) (q : deque) : Prop :=
  b_rd b <= b_wr b /\ b_wr b <= length by_ /\ b_res b <= length by_ /\
  q = DQ (b_res b) (b_rd b) (seg (b_rd b) (b_wr b) by_) (length by_ - b_wr b) /\ pc_ok p by_ b.
Record cinv (qs : list deque) (s : cst) : Prop := {
  ci_len : length qs = length (cc_bufs s);
  ci_buf h b : cc_bufs s !! h = Some b -> exists c q, cc_cells s !! b_loc b = Some c /\ qs !! h = Some q /\ buf_ok (cc_panic s) (c_bytes c) b q;
  ci_ref a c : cc_cells s !! a = Some c -> c_ref c = Z.of_nat (refs a (cc_bufs s));
  ci_own h b : cc_bufs s !! h = Some b -> settled b -> forall h' b', cc_bufs s !! h' = Some b' -> b_loc b' = b_loc b -> h' = h }.

Lemma seg_lookup i j l k : seg i j l !! k = if decide (k < j - i) then l !! (i + k) else None.
Proof.
  unfold seg. destruct (decide _).
  - rewrite lookup_take by lia. apply lookup_drop.
  - apply lookup_take_ge. lia.
Qed.
Lemma seg_length i j l : j <= length l -> length (seg i j l) = j - i.
Proof. intros. unfold seg. rewrite take_length, drop_length. lia. Qed.
Lemma list_eq_seg i j l l' : (forall k, i <= k -> k < j -> l !! k = l' !! k) -> seg i j l = seg i j l'.
Proof. intros H. apply list_eq. intros k. rewrite !seg_lookup. destruct (decide _); [apply H; lia|done]. Qed.
Lemma holds_of qs s : cinv qs s -> forall h, holds s h = q_data <$> qs !! h.
Proof.
  intros I h. unfold holds. destruct (cc_bufs s !! h) as [b|] eqn:E; simpl.
  - destruct (ci_buf _ _ I h b E) as (c & q & Hc & Hq & Hb). rewrite Hc, Hq. simpl. destruct Hb as (_ & _ & _ & -> & _). done.
  - apply lookup_ge_None in E. rewrite <- (ci_len _ _ I) in E. apply lookup_ge_None in E. by rewrite E.
Qed.

(** Replacing one buffer, possibly with its storage. *)
Lemma wrap32_id z : (-2^31 <= z < 2^31)%Z -> wrap32 z = z.
Proof. intros. unfold wrap32. rewrite Z.mod_small; lia. Qed.

(** One buffer changes, its storage and its place in the count do not. *)
Lemma cinv_buf qs cs bs h b b' c q' :
  cinv qs (Cst cs bs false) -> bs !! h = Some b -> cs !! b_loc b = Some c ->
  b_loc b' = b_loc b -> leaving b' = leaving b ->
  buf_ok false (c_bytes c) b' q' ->
  (settled b' -> forall h2 b2, bs !! h2 = Some b2 -> b_loc b2 = b_loc b -> h2 = h) ->
  cinv (<[h := q']> qs) (Cst cs (<[h := b']> bs) false).
Proof.
  intros I Hb Hc Hl Hv Hok Hown. pose proof (lookup_lt_Some _ _ _ Hb) as Hlt.
  constructor; simpl.
  - rewrite !insert_length. apply (ci_len _ _ I).
  - intros h2 b2 H2. destruct (decide (h2 = h)) as [->|Hn].
    + rewrite list_lookup_insert in H2 by done. simplify_eq. rewrite Hl. exists c, q'. split; [done|]. split; [|done].
      apply list_lookup_insert. rewrite (ci_len _ _ I). done.
    + rewrite list_lookup_insert_ne in H2 by done. rewrite list_lookup_insert_ne by done. apply (ci_buf _ _ I h2 b2 H2).
  - intros a c2 H2. rewrite (ci_ref _ _ I a c2 H2). simpl. f_equal.
    pose proof (refs_insert a bs h b b' Hb) as R. unfold stays in R. rewrite Hl, Hv in R. lia.
  - intros h2 b2 H2 S2 h3 b3 H3 L.
    destruct (decide (h2 = h)) as [->|Hn2]; destruct (decide (h3 = h)) as [->|Hn3]; [done| | |].
    + rewrite list_lookup_insert in H2 by done. rewrite list_lookup_insert_ne in H3 by done. simplify_eq.
      apply (Hown S2 h3 b3 H3). congruence.
    + rewrite list_lookup_insert in H3 by done. rewrite list_lookup_insert_ne in H2 by done. simplify_eq.
      apply (ci_own _ _ I h2 b2 H2 S2 h b Hb). congruence.
    + rewrite list_lookup_insert_ne in H2 by done. rewrite list_lookup_insert_ne in H3 by done. by apply (ci_own _ _ I h2 b2 H2 S2 h3 b3 H3).
Qed.
(** A settled buffer changes together with the bytes of its storage. *)
Lemma cinv_store qs cs bs h b b' c by_ q' :
  cinv qs (Cst cs bs false) -> bs !! h = Some b -> cs !! b_loc b = Some c -> settled b ->
  b_loc b' = b_loc b -> leaving b' = false ->
  buf_ok false by_ b' q' ->
  cinv (<[h := q']> qs) (Cst (<[b_loc b := Ccell (c_ref c) by_]> cs) (<[h := b']> bs) false).
Proof.
  intros I Hb Hc Hs Hl Hv Hok. pose proof (lookup_lt_Some _ _ _ Hb) as Hlt. pose proof (lookup_lt_Some _ _ _ Hc) as Hltc.
  pose proof (ci_own _ _ I h b Hb Hs) as Hown. simpl in Hown.
  assert (Hvb : leaving b = false). { unfold leaving. destruct Hs as [_ Hs]. by destruct (b_pc b). }
  constructor; simpl.
  - rewrite !insert_length. apply (ci_len _ _ I).
  - intros h2 b2 H2. destruct (decide (h2 = h)) as [->|Hn].
    + rewrite list_lookup_insert in H2 by done. simplify_eq. rewrite Hl. exists (Ccell (c_ref c) by_), q'.
      split; [by apply list_lookup_insert|]. split; [|done]. apply list_lookup_insert. rewrite (ci_len _ _ I). done.
    + rewrite list_lookup_insert_ne in H2 by done. rewrite (list_lookup_insert_ne qs) by done.
      destruct (decide (b_loc b2 = b_loc b)) as [e|e]; [by destruct Hn; apply (Hown h2 b2 H2)|].
      rewrite list_lookup_insert_ne by done. apply (ci_buf _ _ I h2 b2 H2).
  - intros a c2 H2.
    assert (exists c3, cs !! a = Some c3 /\ c_ref c2 = c_ref c3) as (c3 & H3 & E).
    { destruct (decide (a = b_loc b)) as [->|Hn].
      - rewrite list_lookup_insert in H2 by done. simplify_eq. by exists c.
      - rewrite list_lookup_insert_ne in H2 by done. by exists c2. }
    rewrite E. rewrite (ci_ref _ _ I a c3 H3). simpl. f_equal.
    pose proof (refs_insert a bs h b b' Hb) as R. unfold stays in R. rewrite Hl, Hv, Hvb in R. lia.
  - intros h2 b2 H2 S2 h3 b3 H3 L.
    destruct (decide (h2 = h)) as [->|Hn2]; destruct (decide (h3 = h)) as [->|Hn3]; [done| | |].
    + rewrite list_lookup_insert in H2 by done. rewrite list_lookup_insert_ne in H3 by done. simplify_eq.
      apply (Hown h3 b3 H3). congruence.
    + rewrite list_lookup_insert in H3 by done. rewrite list_lookup_insert_ne in H2 by done. simplify_eq.
      apply (ci_own _ _ I h2 b2 H2 S2 h b Hb). congruence.
    + rewrite list_lookup_insert_ne in H2 by done. rewrite list_lookup_insert_ne in H3 by done. by apply (ci_own _ _ I h2 b2 H2 S2 h3 b3 H3).
Qed.

Definition load_calm (s : cst) (l : clab) : Prop :=
  forall h b, l = CLoad h -> cc_bufs s !! h = Some b -> forall h', h' <> h -> ~ copying s h' (b_loc b).

Lemma not_leaving_idle b : b_pc b = PIdle -> leaving b = false.
Proof. unfold leaving. by intros ->. Qed.
Lemma alter_is {A} (f : A -> A) (l : list A) i x : l !! i = Some x -> alter f i l = <[i := f x]> l.
Proof. revert i. induction l as [|y l IH]; intros [|i] H; simplify_eq/=; [done|]. f_equal. by apply IH. Qed.
Lemma insert_same {A} (l : list A) i x : l !! i = Some x -> <[i := x]> l = l.
Proof. apply list_insert_id. Qed.

Lemma cinv_step qs s l s' :
  cinv qs s -> (Z.of_nat (length (cc_bufs s)) + 1 < 2^31)%Z -> load_calm s l -> cstep s l s' -> cinv (meaning1 qs l) s'.
Proof.
  intros I Hbound Hcalm Hs. destruct Hs as
    [cs bs n r Hn Hr|cs bs h b c Hb Hp Hc|cs bs h b c i x Hb Hp Hc Hi Hx|cs bs h b n Hb Hp Hn|cs bs h b Hb Hp
    |cs bs h b c w l Hb Hp Hc Hl Hw|cs bs h b c w l Hb Hp Hc|cs bs h b c w l Hb Hp Hc
    |cs bs h b c l new k x Hb Hp Hc Hk Hx|cs bs h b l new k Hb Hp Hk|cs bs h b c x l Hb Hp Hc|cs bs h b c l Hb Hp Hc]; simpl in *.
  - (* alloc *)
    assert (Hloc : forall h b, bs !! h = Some b -> b_loc b < length cs).
    { intros h b Hb. destruct (ci_buf _ _ I h b Hb) as (c & q & Hc & _). simpl in Hc. by apply lookup_lt_Some in Hc. }
    constructor; simpl.
    + rewrite !app_length, (ci_len _ _ I). simpl. lia.
    + intros h b Hb. apply lookup_app_Some in Hb as [Hb|[Hge Hb]].
      * destruct (ci_buf _ _ I h b Hb) as (c & q & Hc & Hq & Hok). simpl in *. exists c, q.
        split; [by apply lookup_app_l_Some|]. split; [by apply lookup_app_l_Some|done].
      * apply list_lookup_singleton_Some in Hb as [Hh <-]. simpl. exists (Ccell 1 (replicate n 0%Z)), (q_new n r).
        split; [rewrite lookup_app_r by lia; by rewrite Nat.sub_diag|].
        split.
        -- rewrite lookup_app_r by (rewrite (ci_len _ _ I); simpl; lia). rewrite (ci_len _ _ I). simpl.
           by replace (h - length bs) with 0 by lia.
        -- unfold buf_ok. simpl. rewrite replicate_length. split_and!; try lia; [|done].
           unfold q_new, seg. rewrite Nat.sub_diag. done.
    + intros a c Ha. rewrite refs_app. apply lookup_app_Some in Ha as [Ha|[Hge Ha]].
      * rewrite (ci_ref _ _ I a c Ha). simpl. apply lookup_lt_Some in Ha. unfold stays. simpl.
        replace (length cs =? a) with false by (symmetry; apply Nat.eqb_neq; lia). simpl. lia.
      * apply list_lookup_singleton_Some in Ha as [Hh <-]. replace a with (length cs) by lia.
        rewrite refs_fresh. { simpl. unfold stays. simpl. by rewrite Nat.eqb_refl. }
        intros h b Hb. specialize (Hloc h b Hb). lia.
    + intros h b Hb Hset h' b' Hb' E.
      apply lookup_app_Some in Hb as [Hb|[Hge Hb]]; apply lookup_app_Some in Hb' as [Hb'|[Hge' Hb']].
      * by apply (ci_own _ _ I h b Hb Hset h' b' Hb').
      * apply list_lookup_singleton_Some in Hb' as [_ <-]. simpl in E. specialize (Hloc h b Hb). lia.
      * apply list_lookup_singleton_Some in Hb as [_ <-]. simpl in E. specialize (Hloc h' b' Hb'). lia.
      * apply list_lookup_singleton_Some in Hb as [? _]. apply list_lookup_singleton_Some in Hb' as [? _]. lia.
  - (* snapshot *)
    destruct (ci_buf _ _ I h b Hb) as (c2 & q & Hc2 & Hq & Hok). simpl in *. simplify_eq. rewrite Hq.
    pose proof (lookup_lt_Some _ _ _ Hb) as Hlt. pose proof (lookup_lt_Some _ _ _ Hc) as Hltc.
    set (nb := Cbuf (b_res b) (b_rd b) (b_wr b) (b_loc b) true PIdle).
    assert (Hnb : buf_ok false (c_bytes c) nb q).
    { destruct Hok as (? & ? & ? & ? & ?). unfold buf_ok. simpl. split_and!; try done. }
    assert (Hcell : forall a, exists cr, <[b_loc b:=Ccell (wrap32 (c_ref c + 1)) (c_bytes c)]> cs !! a = cr /\ (c_bytes <$> cr) = c_bytes <$> cs !! a).
    { intros a. eexists. split; [done|]. destruct (decide (a = b_loc b)) as [->|Hne].
      - rewrite list_lookup_insert by done. by rewrite Hc.
      - by rewrite list_lookup_insert_ne. }
    assert (Hall : forall h2 b2, (<[h:=nb]> bs ++ [nb]) !! h2 = Some b2 ->
      exists q2, (qs ++ [q]) !! h2 = Some q2 /\ exists c2, cs !! b_loc b2 = Some c2 /\ buf_ok false (c_bytes c2) b2 q2).
    { intros h2 b2 H2. apply lookup_app_Some in H2 as [H2|[Hge H2]].
      - destruct (decide (h2 = h)) as [->|Hn].
        + rewrite list_lookup_insert in H2 by done. simplify_eq. exists q. split; [by apply lookup_app_l_Some|]. by exists c.
        + rewrite list_lookup_insert_ne in H2 by done. destruct (ci_buf _ _ I h2 b2 H2) as (c2 & q2 & ? & ? & ?).
          exists q2. split; [by apply lookup_app_l_Some|]. by exists c2.
      - rewrite insert_length in *. apply list_lookup_singleton_Some in H2 as [H2 <-]. exists q. split; [|by exists c].
        rewrite lookup_app_r by (rewrite (ci_len _ _ I); simpl; lia). rewrite (ci_len _ _ I). simpl. by replace (h2 - length bs) with 0 by lia. }
    constructor; simpl.
    + rewrite !app_length, insert_length, (ci_len _ _ I). simpl. lia.
    + intros h2 b2 H2. destruct (Hall h2 b2 H2) as (q2 & Hq2 & c2 & Hc2' & Hok2).
      destruct (Hcell (b_loc b2)) as (cr & Hcr & Ecr). rewrite Hc2' in Ecr. destruct cr as [cr|]; simplify_eq/=.
      exists cr, q2. split_and!; [done..|congruence].
    + intros a c2 H2. rewrite refs_app. pose proof (refs_insert a bs h b nb Hb) as R.
      assert (Hst : stays a nb = (b_loc b =? a)) by (unfold stays, leaving; simpl; by rewrite andb_true_r).
      assert (Hst2 : stays a b = (b_loc b =? a)) by (unfold stays; rewrite (not_leaving_idle b Hp); by rewrite andb_true_r).
      cbn [refs]. rewrite Hst, Hst2 in *.
      destruct (decide (a = b_loc b)) as [->|Hne].
      * rewrite list_lookup_insert in H2 by done. simplify_eq/=. rewrite Nat.eqb_refl in *. simpl in *.
        rewrite (ci_ref _ _ I _ _ Hc). simpl. pose proof (refs_le (b_loc b) bs). rewrite wrap32_id by lia. lia.
      * rewrite list_lookup_insert_ne in H2 by done. rewrite (ci_ref _ _ I _ _ H2). simpl.
        replace (b_loc b =? a) with false in * by (symmetry; apply Nat.eqb_neq; lia). simpl in *. lia.
    + intros h2 b2 H2 [S2a S2b] h3 b3 H3 E.
      assert (Hin : forall h2 b2, (<[h:=nb]> bs ++ [nb]) !! h2 = Some b2 -> b2 = nb \/ (h2 <> h /\ bs !! h2 = Some b2)).
      { intros h4 b4 H4. apply lookup_app_Some in H4 as [H4|[_ H4]]; [|apply list_lookup_singleton_Some in H4 as [_ <-]; by left].
        destruct (decide (h4 = h)) as [->|Hn4]; [rewrite list_lookup_insert in H4 by done; simplify_eq; by left|].
        rewrite list_lookup_insert_ne in H4 by done. by right. }
      destruct (Hin _ _ H2) as [->|[Hn2 H2']]; [done|]. destruct (Hin _ _ H3) as [->|[Hn3 H3']].
      * destruct Hn2. symmetry. by apply (ci_own _ _ I h2 b2 H2' ltac:(done) h b Hb).
      * by apply (ci_own _ _ I h2 b2 H2' ltac:(done) h3 b3 H3').
  - (* look *) done.
  - (* skip *)
    destruct (ci_buf _ _ I h b Hb) as (c & q & Hc & Hq & Hok). simpl in *.
    rewrite (alter_is _ _ _ _ Hq). eapply cinv_buf; try done; simpl; [by rewrite (not_leaving_idle b Hp)| |].
    + destruct Hok as (H1 & H2 & H3 & -> & H5). unfold buf_ok. simpl. split_and!; try lia; [|done].
      unfold q_pop. simpl. f_equal. unfold seg. rewrite skipn_firstn_comm, drop_drop. f_equal. lia.
    + intros [Sa _]. simpl in Sa. apply (ci_own _ _ I h b Hb). split; [done|]. by rewrite Hp.
  - (* reset *)
    destruct (ci_buf _ _ I h b Hb) as (c & q & Hc & Hq & Hok). simpl in *.
    rewrite (alter_is _ _ _ _ Hq). eapply cinv_buf; try done; simpl; [by rewrite (not_leaving_idle b Hp)| |].
    + destruct Hok as (H1 & H2 & H3 & -> & H5). unfold buf_ok, q_cap. simpl. split_and!; try lia; [|done].
      rewrite seg_length by done. f_equal; [|lia]. unfold seg. by rewrite Nat.sub_diag.
    + intros [Sa _]. simpl in Sa. apply (ci_own _ _ I h b Hb). split; [done|]. by rewrite Hp.
  - (* begin *)
    destruct (ci_buf _ _ I h b Hb) as (c2 & q & Hc2 & Hq & Hok). simpl in *. simplify_eq.
    rewrite <- (insert_same _ _ _ Hq). eapply cinv_buf; try done; simpl.
    + rewrite (not_leaving_idle b Hp). unfold leaving. simpl. by destruct (b_cow b).
    + destruct Hok as (H1 & H2 & H3 & -> & H5). unfold buf_ok. simpl. split_and!; try done. unfold pc_ok, fits. simpl.
      by destruct (b_cow b).
    + intros [_ Sb]. simpl in Sb. apply (ci_own _ _ I h b Hb). split; [by destruct (b_cow b)|]. by rewrite Hp.
  - (* load *)
    destruct (ci_buf _ _ I h b Hb) as (c2 & q & Hc2 & Hq & Hok). simpl in *. simplify_eq.
    rewrite <- (insert_same _ _ _ Hq).
    assert (Hlv : leaving b = false) by (unfold leaving; by rewrite Hp).
    destruct Hok as (H1 & H2 & H3 & Eq & H5). unfold pc_ok in H5. rewrite Hp in H5.
    eapply cinv_buf; try done; simpl.
    + rewrite Hlv. unfold leaving. simpl. by destruct (decide _).
    + unfold buf_ok. simpl. split_and!; try done. unfold pc_ok. simpl. by destruct (decide _).
    + intros [_ Sb] h2 b2 Hb2 E. simpl in Sb. destruct (decide (c_ref c = 1%Z)) as [E1|]; [|done].
      rewrite (ci_ref _ _ I _ _ Hc) in E1. simpl in E1. destruct (decide (h2 = h)) as [|Hn]; [done|exfalso].
      destruct (leaving b2) eqn:E2.
      * unfold leaving in E2. destruct (b_pc b2) eqn:Ep; try done. eapply (Hcalm h b eq_refl Hb h2 Hn). exists b2. eauto 10.
      * assert (2 <= refs (b_loc b) bs); [|lia]. eapply (refs_ge2 _ _ h b h2 b2); try done; unfold stays.
        -- by rewrite Hlv, Nat.eqb_refl.
        -- by rewrite E, E2, Nat.eqb_refl.
  - (* decrement *)
    destruct (ci_buf _ _ I h b Hb) as (c2 & q & Hc2 & Hq & Hok). simpl in *. simplify_eq.
    destruct Hok as (H1 & H2 & H3 & Eq & H5). unfold pc_ok in H5. rewrite Hp in H5. destruct H5 as [H5 H6].
    pose proof (lookup_lt_Some _ _ _ Hb) as Hlt. pose proof (lookup_lt_Some _ _ _ Hc) as Hltc.
    set (nb := at_pc b _).
    assert (Hcell : forall a c2, cs !! a = Some c2 -> exists cr, <[b_loc b:=Ccell (wrap32 (c_ref c - 1)) (c_bytes c)]> cs !! a = Some cr /\ c_bytes cr = c_bytes c2).
    { intros a c2 Ha. destruct (decide (a = b_loc b)) as [->|Hne].
      - rewrite list_lookup_insert by done. eexists. split; [done|]. simpl. congruence.
      - rewrite list_lookup_insert_ne by done. by exists c2. }
    constructor; simpl.
    + rewrite insert_length. apply (ci_len _ _ I).
    + intros h2 b2 Hb2. destruct (decide (h2 = h)) as [->|Hn].
      * rewrite list_lookup_insert in Hb2 by done. injection Hb2 as <-. simpl. destruct (Hcell _ _ Hc) as (cr & Hcr & Er).
        exists cr, q. split_and!; [done..|]. rewrite Er. unfold buf_ok. simpl. split_and!; try done.
        unfold pc_ok. simpl. split_and!; try done; [|lia|by rewrite replicate_length|intros; lia].
        destruct w; [done|]. by intros.
      * rewrite list_lookup_insert_ne in Hb2 by done. destruct (ci_buf _ _ I h2 b2 Hb2) as (c2 & q2 & Hc2' & Hq2 & Hok2). simpl in *.
        destruct (Hcell _ _ Hc2') as (cr & Hcr & Er). exists cr, q2. split_and!; [done..|]. rewrite Er.
        destruct Hok2 as (? & ? & ? & ? & Hpc). unfold buf_ok. split_and!; try done.
        unfold pc_ok in *. destruct (b_pc b2); try done. naive_solver.
    + intros a c2 H2'. pose proof (refs_insert a bs h b nb Hb) as R.
      assert (Hst : stays a nb = false) by (unfold stays, leaving; simpl; by rewrite andb_false_r).
      assert (Hst2 : stays a b = (b_loc b =? a)) by (unfold stays, leaving; rewrite Hp; by rewrite andb_true_r).
      rewrite Hst, Hst2 in R. simpl in R.
      destruct (decide (a = b_loc b)) as [->|Hne].
      * rewrite list_lookup_insert in H2' by done. simplify_eq/=. rewrite Nat.eqb_refl in *. simpl in *.
        rewrite (ci_ref _ _ I _ _ Hc). simpl. pose proof (refs_le (b_loc b) bs). rewrite wrap32_id by lia. lia.
      * rewrite list_lookup_insert_ne in H2' by done. rewrite (ci_ref _ _ I _ _ H2'). simpl.
        replace (b_loc b =? a) with false in * by (symmetry; apply Nat.eqb_neq; lia). simpl in *. lia.
    + intros h2 b2 Hb2 S2 h3 b3 Hb3 E.
      destruct (decide (h2 = h)) as [->|Hn2].
      { rewrite list_lookup_insert in Hb2 by done. simplify_eq. by destruct S2. }
      rewrite list_lookup_insert_ne in Hb2 by done. destruct (decide (h3 = h)) as [->|Hn3].
      * rewrite list_lookup_insert in Hb3 by done. simplify_eq. apply (ci_own _ _ I h2 b2 Hb2 S2 h b Hb). done.
      * rewrite list_lookup_insert_ne in Hb3 by done. by apply (ci_own _ _ I h2 b2 Hb2 S2 h3 b3 Hb3).
  - (* copy a byte *)
    destruct (ci_buf _ _ I h b Hb) as (c2 & q & Hc2 & Hq & Hok). simpl in *. simplify_eq.
    rewrite <- (insert_same _ _ _ Hq).
    destruct Hok as (H1 & H2 & H3 & Eq & H5). unfold pc_ok in H5. rewrite Hp in H5. destruct H5 as (H5 & H6 & H7 & H8 & H9).
    eapply cinv_buf; try done; simpl.
    + unfold leaving. simpl. by rewrite Hp.
    + unfold buf_ok. simpl. split_and!; try done. unfold pc_ok. simpl. split_and!; try done; [lia|by rewrite insert_length|].
      intros i Hi. destruct (decide (i = k)) as [->|].
      * rewrite list_lookup_insert by lia. done.
      * rewrite list_lookup_insert_ne by lia. apply H9. lia.
    + by intros [_ ?].
  - (* swap *)
    destruct (ci_buf _ _ I h b Hb) as (c & q & Hc & Hq & Hok). simpl in *.
    destruct Hok as (H1 & H2 & H3 & Eq & H5). unfold pc_ok in H5. rewrite Hp in H5. destruct H5 as (H5 & H6 & H7 & H8 & H9).
    specialize (H6 eq_refl). pose proof (lookup_lt_Some _ _ _ Hb) as Hlt.
    assert (Hloc : forall h b, bs !! h = Some b -> b_loc b < length cs).
    { intros h2 b2 Hb2. destruct (ci_buf _ _ I h2 b2 Hb2) as (c2 & q2 & Hc2 & _). simpl in Hc2. by apply lookup_lt_Some in Hc2. }
    set (nb := Cbuf (b_res b) (b_rd b) (b_wr b) (length cs) (b_cow b) (PWrite Tail l)).
    constructor; simpl.
    + rewrite insert_length. apply (ci_len _ _ I).
    + intros h2 b2 Hb2. destruct (decide (h2 = h)) as [->|Hn].
      * rewrite list_lookup_insert in Hb2 by done. injection Hb2 as <-. simpl. exists (Ccell 1 new), q.
        split; [rewrite lookup_app_r by lia; by rewrite Nat.sub_diag|]. split; [done|].
        unfold buf_ok. simpl. rewrite H8. split_and!; try done.
        { rewrite Eq. f_equal. apply list_eq_seg. intros i Hi1 Hi2.
          specialize (H9 (i - b_rd b) ltac:(lia)). replace (b_rd b + (i - b_rd b)) with i in H9 by lia. done. }
        unfold pc_ok. simpl. rewrite H8. done.
      * rewrite list_lookup_insert_ne in Hb2 by done. destruct (ci_buf _ _ I h2 b2 Hb2) as (c2 & q2 & Hc2 & Hq2 & Hok2). simpl in *.
        exists c2, q2. split; [by apply lookup_app_l_Some|]. done.
    + intros a c2 Ha. pose proof (refs_insert a bs h b nb Hb) as R. 
      assert (Hst : stays a nb = (length cs =? a)) by (unfold stays, leaving; simpl; by rewrite andb_true_r).
      assert (Hst2 : stays a b = false) by (unfold stays, leaving; rewrite Hp; by rewrite andb_false_r).
      rewrite Hst, Hst2 in R. simpl in R.
      apply lookup_app_Some in Ha as [Ha|[Hge Ha]].
      * rewrite (ci_ref _ _ I a c2 Ha). simpl. apply lookup_lt_Some in Ha.
        replace (length cs =? a) with false in R by (symmetry; apply Nat.eqb_neq; lia). simpl in R. lia.
      * apply list_lookup_singleton_Some in Ha as [Hh <-]. replace a with (length cs) in * by lia. rewrite Nat.eqb_refl in R.
        rewrite (refs_fresh (length cs) bs) in R. { simpl in *. lia. }
        intros h2 b2 Hb2. specialize (Hloc h2 b2 Hb2). lia.
    + intros h2 b2 Hb2 S2 h3 b3 Hb3 E.
      destruct (decide (h2 = h)) as [->|Hn2]; destruct (decide (h3 = h)) as [->|Hn3]; [done| | |].
      * rewrite list_lookup_insert in Hb2 by done. rewrite list_lookup_insert_ne in Hb3 by done. simplify_eq. simpl in E. specialize (Hloc h3 b3 Hb3). lia.
      * rewrite list_lookup_insert in Hb3 by done. rewrite list_lookup_insert_ne in Hb2 by done. simplify_eq. simpl in E. specialize (Hloc h2 b2 Hb2). lia.
      * rewrite list_lookup_insert_ne in Hb2 by done. rewrite list_lookup_insert_ne in Hb3 by done. by apply (ci_own _ _ I h2 b2 Hb2 S2 h3 b3 Hb3).
  - (* store at the tail *)
    destruct (ci_buf _ _ I h b Hb) as (c2 & q & Hc2 & Hq & Hok). simpl in *. simplify_eq.
    destruct Hok as (H1 & H2 & H3 & Eq & H5). unfold pc_ok in H5. rewrite Hp in H5. destruct H5 as [H5 [H6 H7]]. simpl in H7.
    rewrite (alter_is _ _ _ _ Hq). eapply cinv_store; try done; simpl.
    + split; [done|]. by rewrite Hp.
    + unfold leaving. simpl. by destruct l.
    + rewrite Eq. unfold buf_ok. simpl. rewrite insert_length. split_and!; try lia.
      * unfold q_append. simpl. f_equal; [|lia]. apply list_eq. intros i. rewrite seg_lookup.
        destruct (decide (i < b_wr b - b_rd b)).
        -- rewrite lookup_app_l by (rewrite seg_length; lia). rewrite seg_lookup, decide_True by lia. rewrite decide_True by lia.
           by rewrite list_lookup_insert_ne by lia.
        -- rewrite lookup_app_r by (rewrite seg_length; lia). rewrite seg_length by lia. destruct (decide (i = b_wr b - b_rd b)) as [->|].
           ++ rewrite decide_True by lia. rewrite Nat.sub_diag. replace (b_rd b + (b_wr b - b_rd b)) with (b_wr b) by lia. by rewrite list_lookup_insert by lia.
           ++ rewrite decide_False by lia. apply lookup_ge_None. simpl. lia.
      * unfold pc_ok, fits. simpl. destruct l as [|y l]; [done|]. rewrite insert_length. simpl in *. split_and!; [done|done|lia].
  - (* store at the head *)
    destruct (ci_buf _ _ I h b Hb) as (c2 & q & Hc2 & Hq & Hok). simpl in *. simplify_eq.
    destruct Hok as (H1 & H2 & H3 & Eq & H5). unfold pc_ok in H5. rewrite Hp in H5. destruct H5 as [H5 [H6 H7]]. simpl in H7.
    assert (Hlen : length (splice (c_bytes c) (b_rd b - length l) l) = length (c_bytes c)).
    { unfold splice. rewrite !app_length, take_length, drop_length. lia. }
    rewrite (alter_is _ _ _ _ Hq). eapply cinv_store; try done; simpl.
    + split; [done|]. by rewrite Hp.
    + rewrite Eq. unfold buf_ok. simpl. rewrite Hlen. split_and!; try lia; [|done].
      unfold q_prepend. simpl. f_equal. unfold seg, splice.
      rewrite drop_app_alt by (rewrite take_length; lia).
      replace (b_rd b - length l + length l) with (b_rd b) by lia.
      replace (b_wr b - (b_rd b - length l)) with (length l + (b_wr b - b_rd b)) by lia.
      by rewrite take_add_app.
Qed.

Lemma calm_crun s ls s' : calm_run s ls s' -> crun s ls s'.
Proof. induction 1; econstructor; eauto. Qed.
Lemma calm_cons s l s1 ls s2 : cstep s l s1 -> load_calm s l -> calm_run s1 ls s2 -> calm_run s (l :: ls) s2.
Proof.
  intros Hs Hc H. induction H as [|ls s2 l2 s3 H IH Hs2 Hc2].
  - change [l] with ([] ++ [l]). by eapply cm_snoc; [constructor|..].
  - change (l :: ls ++ [l2]) with ((l :: ls) ++ [l2]). by eapply cm_snoc.
Qed.
Lemma cstep_len s l s' : cstep s l s' -> length (cc_bufs s') <= S (length (cc_bufs s)).
Proof. intros H. destruct H; simpl; rewrite ?app_length, ?insert_length; simpl; lia. Qed.
Lemma crun_len ls s : crun cow_new ls s -> length (cc_bufs s) <= length ls.
Proof.
  intros H.  induction H as [|ls s1 l s2 H IH Hs]; [done|].
  rewrite app_length. apply cstep_len in Hs. simpl. lia.
Qed.
Lemma cinv_new : cinv [] cow_new.
Proof. constructor; simpl; [done|by intros|by intros|by intros]. Qed.
Lemma calm_cinv ls s : calm_run cow_new ls s -> (Z.of_nat (length ls) < 2^31)%Z -> cinv (meaning ls) s.
Proof.
  intros H.  induction H as [|ls s1 l s2 H IH Hs Hcalm]; intros Hb.
  - apply cinv_new.
  - rewrite app_length in Hb. simpl in Hb. rewrite meaning_snoc. eapply cinv_step; try done.
    + apply IH; lia.
    + pose proof (crun_len _ _ (calm_crun _ _ _ H)). lia.
Qed.
Lemma snoc_split {A} (ls : list A) l l1 x l2 : ls ++ [l] = l1 ++ x :: l2 -> (l2 = [] /\ l1 = ls /\ x = l) \/ exists l3, l2 = l3 ++ [l] /\ ls = l1 ++ x :: l3.
Proof.
  intros E. destruct l2 as [|y l2 _] using rev_ind.
  - apply app_inj_tail in E as [-> ->]. by left.
  - right. rewrite app_comm_cons, app_assoc in E. apply app_inj_tail in E as [-> ->]. by exists l2.
Qed.
Lemma calm_isolated ls s : calm_run cow_new ls s -> (Z.of_nat (length ls) < 2^31)%Z -> isolated ls s.
Proof.
  intros H Hb. split.
  - revert Hb. induction H as [|ls s1 l s2 H IH Hs Hcalm]; intros Hb l1 h i x l2 El.
    { by destruct l1. }
    rewrite app_length in Hb. simpl in Hb.
    apply snoc_split in El as [(-> & -> & <-)|(l3 & -> & ->)].
    + pose proof (calm_cinv _ _ H ltac:(lia)) as I. inversion Hs; subst.
      destruct (ci_buf _ _ I h b ltac:(done)) as (c2 & q & Hc2 & Hq & Hok). simpl in *. simplify_eq. exists q. split; [done|].
      destruct Hok as (? & ? & ? & -> & _). simpl. rewrite seg_lookup, decide_True by lia. done.
    + eapply IH; [lia|done].
  - intros h. apply holds_of. by apply calm_cinv.
Qed.

(** Where one buffer alone is written to, every run is calm. *)
Lemma cstep_pc s l s' h b' : cstep s l s' -> cc_bufs s' !! h = Some b' -> b_pc b' <> PIdle ->
  (exists b, cc_bufs s !! h = Some b /\ b_pc b <> PIdle) \/ exists w l0, l = CBegin h w l0.
Proof.
  assert (Ins : forall (bs : list cbuf) h2 b2 b3, bs !! h2 = Some b2 -> <[h2 := b3]> bs !! h = Some b' ->
    (h = h2 /\ b' = b3) \/ (h <> h2 /\ bs !! h = Some b')).
  { intros bs h2 b2 b3 H2 H. destruct (decide (h = h2)) as [->|].
    - rewrite list_lookup_insert in H by (by eapply lookup_lt_Some). simplify_eq. by left.
    - rewrite list_lookup_insert_ne in H by done. by right. }
  intros Hs Hb Hp. destruct Hs as
    [cs bs n r Hn Hr|cs bs h2 b c Hb2 Hp2 Hc|cs bs h2 b c i x Hb2 Hp2 Hc Hi Hx|cs bs h2 b n Hb2 Hp2 Hn|cs bs h2 b Hb2 Hp2
    |cs bs h2 b c w l Hb2 Hp2 Hc Hl Hw|cs bs h2 b c w l Hb2 Hp2 Hc|cs bs h2 b c w l Hb2 Hp2 Hc
    |cs bs h2 b c l new k x Hb2 Hp2 Hc Hk Hx|cs bs h2 b l new k Hb2 Hp2 Hk|cs bs h2 b c x l Hb2 Hp2 Hc|cs bs h2 b c l Hb2 Hp2 Hc]; simpl in *.
  - apply lookup_app_Some in Hb as [Hb|[_ Hb]]; [by eauto|]. by apply list_lookup_singleton_Some in Hb as [_ <-].
  - apply lookup_app_Some in Hb as [Hb|[_ Hb]]; [|by apply list_lookup_singleton_Some in Hb as [_ <-]].
    apply (Ins _ _ _ _ Hb2) in Hb as [[-> ->]|[_ Hb]]; [done|by eauto].
  - by eauto.
  - apply (Ins _ _ _ _ Hb2) in Hb as [[-> ->]|[_ Hb]]; [done|by eauto].
  - apply (Ins _ _ _ _ Hb2) in Hb as [[-> ->]|[_ Hb]]; [done|by eauto].
  - apply (Ins _ _ _ _ Hb2) in Hb as [[-> ->]|[_ Hb]]; [by eauto|by eauto].
  - apply (Ins _ _ _ _ Hb2) in Hb as [[-> ->]|[_ Hb]]; [|by eauto]. left. exists b. by rewrite Hp2.
  - apply (Ins _ _ _ _ Hb2) in Hb as [[-> ->]|[_ Hb]]; [|by eauto]. left. exists b. by rewrite Hp2.
  - apply (Ins _ _ _ _ Hb2) in Hb as [[-> ->]|[_ Hb]]; [|by eauto]. left. exists b. by rewrite Hp2.
  - apply (Ins _ _ _ _ Hb2) in Hb as [[-> ->]|[_ Hb]]; [|by eauto]. left. exists b. by rewrite Hp2.
  - apply (Ins _ _ _ _ Hb2) in Hb as [[-> ->]|[_ Hb]]; [|by eauto]. left. exists b. by rewrite Hp2.
  - apply (Ins _ _ _ _ Hb2) in Hb as [[-> ->]|[_ Hb]]; [done|by eauto].
Qed.
Lemma pc_began ls s h b : crun cow_new ls s -> cc_bufs s !! h = Some b -> b_pc b <> PIdle -> exists w l, CBegin h w l ∈ ls.
Proof.
  intros H.  revert h b. induction H as [|ls s1 l s2 H IH Hs]; intros h b Hb Hp; [done|].
  destruct (cstep_pc _ _ _ _ _ Hs Hb Hp) as [(b1 & Hb1 & Hp1)|(w & l0 & ->)].
  - destruct (IH h b1 Hb1 Hp1) as (w & l0 & Hin). exists w, l0. set_solver.
  - exists w, l0. set_solver.
Qed.
Lemma one_writer_calm h ls s : crun cow_new ls s -> one_writer h ls -> calm_run cow_new ls s.
Proof.
  intros H.  induction H as [|ls s1 l s2 H IH Hs]; intros Hw; [constructor|].
  assert (Hw1 : one_writer h ls). { intros h2 w l2 Hin. apply (Hw h2 w l2). set_solver. }
  econstructor; [by apply IH|done|].
  intros h1 b -> Hb h2 Hn (b2 & l2 & new & k & Hb2 & _ & Hp2).
  assert (b_pc b <> PIdle). { inversion Hs; simplify_eq/=. congruence. }
  destruct (pc_began _ _ _ _ H Hb ltac:(done)) as (w1 & l1 & H1).
  destruct (pc_began _ _ _ _ H Hb2 ltac:(by rewrite Hp2)) as (w2 & l3 & H2).
  apply Hw1 in H1. apply Hw1 in H2. congruence.
Qed.
Lemma one_writer_isolated h ls s : crun cow_new ls s -> one_writer h ls -> (Z.of_nat (length ls) < 2^31)%Z -> isolated ls s.
Proof. intros H Hw. apply calm_isolated. by eapply one_writer_calm. Qed.

(** ** Finishing a write *)
Lemma splice_splice a i l1 l2 : i + length l1 <= length a -> splice (splice a i l1) (i + length l1) l2 = splice a i (l1 ++ l2).
Proof.
  intros H. unfold splice.
  assert (E : length (take i a) = i) by (rewrite take_length; lia).
  rewrite take_add_app by done. rewrite take_app. rewrite <- !app_assoc. do 3 f_equal.
  rewrite app_assoc. rewrite drop_app_ge by (rewrite app_length; lia). rewrite drop_drop, !app_length, E. f_equal. lia.
Qed.
Lemma puts_run cs bs h b c l : bs !! h = Some b -> b_pc b = PWrite Tail l -> l <> [] -> cs !! b_loc b = Some c ->
  b_wr b + length l <= length (c_bytes c) ->
  crun (Cst cs bs false) (map (CPut h) l)
       (Cst (<[b_loc b := Ccell (c_ref c) (splice (c_bytes c) (b_wr b) l)]> cs)
            (<[h := Cbuf (b_res b) (b_rd b) (b_wr b + length l) (b_loc b) (b_cow b) PIdle]> bs) false).
Proof.
  revert cs bs b c. induction l as [|x l IH]; intros cs bs b c Hb Hp Hl Hc Hn; [done|]. simpl in *.
  pose proof (lookup_lt_Some _ _ _ Hb) as Hlt. pose proof (lookup_lt_Some _ _ _ Hc) as Hltc.
  eapply crun_cons; [by eapply ck_put|].
  assert (Hx : <[b_wr b := x]> (c_bytes c) = splice (c_bytes c) (b_wr b) [x]).
  { unfold splice. rewrite insert_take_drop by lia. simpl. by rewrite Nat.add_1_r. }
  destruct l as [|y l].
  - simpl. rewrite Hx. replace (b_wr b + 1) with (S (b_wr b)) by lia. constructor.
  - set (b1 := Cbuf _ _ _ _ _ _). set (cs1 := <[b_loc b := _]> cs). set (bs1 := <[h := b1]> bs).
    specialize (IH cs1 bs1 b1 (Ccell (c_ref c) (<[b_wr b := x]> (c_bytes c)))).
    assert (E1 : bs1 !! h = Some b1) by (by apply list_lookup_insert).
    assert (E2 : cs1 !! b_loc b1 = Some (Ccell (c_ref c) (<[b_wr b := x]> (c_bytes c)))) by (by apply list_lookup_insert).
    specialize (IH E1 eq_refl ltac:(done) E2). simpl c_bytes in IH. rewrite insert_length in IH. specialize (IH ltac:(simpl in *; lia)).
    unfold bs1, cs1 in IH. rewrite !list_insert_insert in IH. simpl in IH.
    replace (splice (<[b_wr b:=x]> (c_bytes c)) (S (b_wr b)) (y :: l)) with (splice (c_bytes c) (b_wr b) (x :: y :: l)) in IH.
    + cbn [length]. replace (b_wr b + S (S (length l))) with (S (b_wr b + S (length l))) by lia. exact IH.
    + rewrite Hx. replace (S (b_wr b)) with (b_wr b + length [x]) by (simpl; lia). rewrite splice_splice; [done|]. simpl. lia.
Qed.
Lemma copies_run cs bs h b c l new k m : bs !! h = Some b -> b_pc b = PCopy l new k -> cs !! b_loc b = Some c ->
  b_rd b + k + m = b_wr b -> b_wr b <= length (c_bytes c) -> length new = length (c_bytes c) ->
  exists new', length new' = length (c_bytes c) /\
    crun (Cst cs bs false) (replicate m (CCopy h)) (Cst cs (<[h := at_pc b (PCopy l new' (k + m))]> bs) false) /\
    (forall i, new' !! i = if decide (b_rd b + k <= i /\ i < b_wr b) then c_bytes c !! i else new !! i).
Proof.
  revert bs b new k. induction m as [|m IH]; intros bs b new k Hb Hp Hc Hm Hw Hn.
  - exists new. split; [done|]. split.
    + simpl. replace (k + 0) with k by lia. replace (<[h := _]> bs) with bs; [constructor|]. symmetry. apply list_insert_id. rewrite Hb. f_equal.
      destruct b. unfold at_pc. simpl in *. by subst.
    + intros i. rewrite decide_False by lia. done.
  - pose proof (lookup_lt_Some _ _ _ Hb) as Hlt.
    destruct (lookup_lt_is_Some_2 (c_bytes c) (b_rd b + k)) as [x Hx]; [lia|].
    set (b1 := at_pc b (PCopy l (<[b_rd b + k := x]> new) (S k))).
    destruct (IH (<[h := b1]> bs) b1 (<[b_rd b + k := x]> new) (S k)) as (new' & Hl' & Hr & Hi); simpl; try done; try lia.
    + by apply list_lookup_insert.
    + by rewrite insert_length.
    + exists new'. split; [done|]. split.
      * simpl. eapply crun_cons; [eapply ck_copy; try done; lia|]. rewrite list_insert_insert in Hr. unfold at_pc in Hr. simpl in Hr.
        replace (k + S m) with (S (k + m)) by lia. exact Hr.
      * intros i. rewrite Hi. simpl. destruct (decide (i = b_rd b + k)) as [->|].
        -- rewrite decide_False by lia. rewrite decide_True by lia. rewrite list_lookup_insert by lia. done.
        -- rewrite list_lookup_insert_ne by done. destruct (decide _); destruct (decide _); try done; lia.
Qed.

Lemma write_finishes cs bs h b c l : bs !! h = Some b -> b_pc b = PWrite Tail l -> l <> [] -> cs !! b_loc b = Some c ->
  b_wr b + length l <= length (c_bytes c) ->
  exists ls' s', crun (Cst cs bs false) ls' s' /\ Forall (by_buf h) ls' /\ cc_panic s' = false /\
    exists b', cc_bufs s' !! h = Some b' /\ b_pc b' = PIdle.
Proof.
  intros Hb Hp Hl Hc Hn. pose proof (puts_run _ _ _ _ _ _ Hb Hp Hl Hc Hn) as Hr. eexists _, _. split; [exact Hr|].
  split; [|split; [done|]].
  - apply Forall_forall. intros x Hx. apply elem_of_list_fmap in Hx as (y & -> & _). done.
  - simpl. eexists. split; [apply list_lookup_insert; by eapply lookup_lt_Some|done].
Qed.
Lemma copy_finishes cs bs h b c l new k : bs !! h = Some b -> b_pc b = PCopy l new k -> l <> [] -> cs !! b_loc b = Some c ->
  b_rd b + k <= b_wr b -> length new = length (c_bytes c) -> b_wr b + length l <= length (c_bytes c) ->
  exists ls' s', crun (Cst cs bs false) ls' s' /\ Forall (by_buf h) ls' /\ cc_panic s' = false /\
    exists b', cc_bufs s' !! h = Some b' /\ b_pc b' = PIdle.
Proof.
  intros Hb Hp Hl Hc Hk Hnew Hn. pose proof (lookup_lt_Some _ _ _ Hb) as Hlt.
  destruct (copies_run cs bs h b c l new k (b_wr b - (b_rd b + k)) Hb Hp Hc) as (new' & Hl' & Hr & _); [lia..|].
  set (b1 := at_pc b _) in Hr.
  assert (Hs : cstep (Cst cs (<[h := b1]> bs) false) (CSwap h)
      (Cst (cs ++ [Ccell 1 new']) (<[h := Cbuf (b_res b1) (b_rd b1) (b_wr b1) (length cs) (b_cow b1) (PWrite Tail l)]> (<[h := b1]> bs)) false)).
  { eapply ck_swap; [by apply list_lookup_insert|done|simpl; lia]. }
  rewrite list_insert_insert in Hs. unfold b1 in Hs at 2 3 4 5. simpl in Hs.
  destruct (write_finishes (cs ++ [Ccell 1 new']) (<[h := Cbuf (b_res b) (b_rd b) (b_wr b) (length cs) (b_cow b) (PWrite Tail l)]> bs) h
     (Cbuf (b_res b) (b_rd b) (b_wr b) (length cs) (b_cow b) (PWrite Tail l)) (Ccell 1 new') l) as (ls2 & s2 & H2 & F2 & P2 & B2).
  { by apply list_lookup_insert. } { done. } { done. }
  { simpl. rewrite lookup_app_r by lia. by rewrite Nat.sub_diag. } { simpl. lia. }
  exists (replicate (b_wr b - (b_rd b + k)) (CCopy h) ++ CSwap h :: ls2), s2. split.
  { eapply crun_app; [exact Hr|]. eapply crun_cons; [exact Hs|exact H2]. }
  split; [|done]. apply Forall_app. split; [|by constructor]. apply Forall_replicate. done.
Qed.
Lemma dec_finishes cs bs h b c l : bs !! h = Some b -> b_pc b = PDec Tail l -> l <> [] -> cs !! b_loc b = Some c ->
  b_rd b <= b_wr b -> b_wr b + length l <= length (c_bytes c) ->
  exists ls' s', crun (Cst cs bs false) ls' s' /\ Forall (by_buf h) ls' /\ cc_panic s' = false /\
    exists b', cc_bufs s' !! h = Some b' /\ b_pc b' = PIdle.
Proof.
  intros Hb Hp Hl Hc Hk Hn. pose proof (lookup_lt_Some _ _ _ Hb) as Hlt. pose proof (lookup_lt_Some _ _ _ Hc) as Hltc.
  pose proof (ck_dec cs bs h b c Tail l Hb Hp Hc) as Hs. simpl in Hs.
  match type of Hs with cstep _ _ (Cst ?cs1 (<[_ := ?b1]> _) _) =>
    destruct (copy_finishes cs1 (<[h := b1]> bs) h b1 (Ccell (wrap32 (c_ref c - 1)) (c_bytes c)) l (replicate (length (c_bytes c)) 0%Z) 0) as (ls2 & s2 & H2 & F2 & P2 & B2) end.
  { by apply list_lookup_insert. } { done. } { done. } { simpl. by apply list_lookup_insert. } { simpl. lia. }
  { simpl. apply replicate_length. } { done. }
  exists (CDec h :: ls2), s2. split; [by eapply crun_cons|]. split; [by constructor|done].
Qed.
Lemma tail_writes_finish ls s h b : calm_run cow_new ls s -> (Z.of_nat (length ls) < 2^31)%Z -> cc_panic s = false ->
  cc_bufs s !! h = Some b -> tail_write b ->
  exists ls' s', crun s ls' s' /\ Forall (by_buf h) ls' /\ cc_panic s' = false /\
    exists b', cc_bufs s' !! h = Some b' /\ b_pc b' = PIdle.
Proof.
  intros H Hbd Hnp Hb Ht. pose proof (calm_cinv _ _ H Hbd) as I. destruct s as [cs bs p]. simpl in *. subst.
  destruct (ci_buf _ _ I h b Hb) as (c & q & Hc & Hq & H1 & H2 & H3 & _ & H5). simpl in *.
  pose proof (lookup_lt_Some _ _ _ Hb) as Hlt.
  unfold tail_write in Ht. unfold pc_ok in H5. destruct (b_pc b) as [|[] l|[] l|l new k|[] l] eqn:Hp; try done.
  - destruct H5 as (_ & Hl & Hn). pose proof (ck_load cs bs h b c Tail l Hb Hp Hc) as Hs.
    match type of Hs with cstep _ _ (Cst _ (<[_ := ?b1]> _) _) => set (b1' := b1) in Hs end.
    assert (E : exists ls' s', crun (Cst cs (<[h := b1']> bs) false) ls' s' /\ Forall (by_buf h) ls' /\ cc_panic s' = false /\
      exists b', cc_bufs s' !! h = Some b' /\ b_pc b' = PIdle).
    { unfold b1'. clear Hs b1'. destruct (decide (c_ref c = 1%Z)).
      - eapply (write_finishes _ _ _ _ c l); [by apply list_lookup_insert|done..].
      - eapply (dec_finishes _ _ _ _ c l); [by apply list_lookup_insert|done..]. }
    destruct E as (ls2 & s2 & H6 & F2 & P2 & B2). exists (CLoad h :: ls2), s2. split; [by eapply crun_cons|]. split; [by constructor|done].
  - destruct H5 as (_ & Hl & Hn). by eapply dec_finishes.
  - destruct H5 as (_ & [Hl Hn] & Hk & Hnew & _); [done|]. by eapply copy_finishes.
  - destruct H5 as (_ & Hl & Hn). by eapply write_finishes.
Qed.

(** ** The race *)
Lemma fold_meaning qs l1 l2 : fold_left meaning1 (l1 ++ l2) qs = fold_left meaning1 l2 (fold_left meaning1 l1 qs).
Proof. apply fold_left_app. Qed.
Lemma meaning_puts h l q qs : qs !! h = Some q -> fold_left meaning1 (map (CPut h) l) qs = <[h := q_append q l]> qs.
Proof.
  revert q qs. induction l as [|x l IH]; intros q qs H; simpl.
  - symmetry. apply list_insert_id. rewrite H. f_equal. destruct q. unfold q_append. simpl. f_equal; [by rewrite app_nil_r|lia].
  - rewrite (alter_is _ _ _ _ H). rewrite (IH (q_append q [x])) by (apply list_lookup_insert; by eapply lookup_lt_Some).
    rewrite list_insert_insert. f_equal. unfold q_append. simpl. f_equal; [by rewrite <- app_assoc|lia].
Qed.
Lemma meaning_copies h m qs : fold_left meaning1 (replicate m (CCopy h)) qs = qs.
Proof. induction m; simpl; done. Qed.
Lemma crun_one_eq s0 s l s1 s' : cstep s l s1 -> s0 = s -> s1 = s' -> crun s0 [l] s'.
Proof. intros H -> <-. by apply crun_one. Qed.
Lemma isolation_lost n d ds x y : S (length ds) < n ->
  exists ls s, crun cow_new (ls ++ [CLook 0 0 x]) s /\ q_data <$> meaning ls !! 0 = Some (d :: ds ++ [y]) /\
    (forall h b, cc_bufs s !! h = Some b -> b_pc b = PIdle).
Proof.
  intros Hn. set (m := S (length ds)). assert (Hm : m = S (length ds)) by done.
  set (a0 := replicate n 0%Z : list byte). set (a1 := splice a0 0 (d :: ds)).
  assert (La0 : @length byte a0 = n) by apply replicate_length.
  assert (La1 : length a1 = n) by (unfold a1, splice; rewrite !app_length, take_length, drop_length, La0; simpl; lia).
  set (a2 := <[0 := x]> a1).
  assert (La2 : length a2 = n) by (unfold a2; by rewrite insert_length).
  (* writing the data *)
  assert (R1 : crun cow_new ([CAlloc n 0; CBegin 0 Tail (d :: ds)] ++ map (CPut 0) (d :: ds))
     (Cst [Ccell 1 a1] [Cbuf 0 0 m 0 false PIdle] false)).
  { eapply crun_app.
    - eapply crun_cons; [apply (ck_alloc [] [] n 0); lia|]. eapply crun_one.
      apply (ck_begin _ _ 0 (Cbuf 0 0 0 0 false PIdle) (Ccell 1 a0) Tail (d :: ds)); try done. simpl. lia.
    - apply (puts_run [Ccell 1 a0] [Cbuf 0 0 0 0 false (PWrite Tail (d :: ds))] 0 (Cbuf 0 0 0 0 false (PWrite Tail (d :: ds))) (Ccell 1 a0) (d :: ds)); try done.
      simpl. lia. }
  clear La0. clearbody a1. clearbody m.
  (* the second buffer writes while the first is about to copy *)
  assert (R2 : crun (Cst [Ccell 1 a1] [Cbuf 0 0 m 0 false PIdle] false)
     [CSnap 0; CBegin 0 Tail [y]; CLoad 0; CDec 0; CReset 1; CBegin 1 Tail [x]; CLoad 1; CPut 1 x]
     (Cst [Ccell 1 a2] [Cbuf 0 0 m 0 false (PCopy [y] (replicate n 0%Z) 0); Cbuf 0 0 1 0 false PIdle] false)).
  { eapply crun_cons; [by eapply (ck_snap _ _ 0)|]. simpl.
    eapply crun_cons; [eapply (ck_begin _ _ 0); try done; simpl; lia|]. simpl.
    eapply crun_cons; [by eapply (ck_load _ _ 0)|]. simpl.
    eapply crun_cons; [by eapply (ck_dec _ _ 0)|]. simpl. rewrite La1.
    eapply crun_cons; [by eapply (ck_reset _ _ 1)|]. simpl.
    eapply crun_cons; [eapply (ck_begin _ _ 1); try done; simpl; lia|]. simpl.
    eapply crun_cons; [by eapply (ck_load _ _ 1)|]. simpl.
    eapply crun_one_eq; [|done|done].
    by apply (ck_put [Ccell 1 a1] [Cbuf 0 0 m 0 false (PCopy [y] (replicate n 0%Z) 0); Cbuf 0 0 0 0 false (PWrite Tail [x])] 1 (Cbuf 0 0 0 0 false (PWrite Tail [x])) (Ccell 1 a1) x []). }
  destruct (copies_run [Ccell 1 a2] [Cbuf 0 0 m 0 false (PCopy [y] (replicate n 0%Z) 0); Cbuf 0 0 1 0 false PIdle] 0
     (Cbuf 0 0 m 0 false (PCopy [y] (replicate n 0%Z) 0)) (Ccell 1 a2) [y] (replicate n 0%Z) 0 m) as (new' & Hl' & R3 & Hnew);
    [done|done|done|simpl; lia|simpl; lia|simpl; rewrite replicate_length; lia|]. cbn [c_bytes b_rd b_wr] in *.
  rewrite La2 in Hl'.
  set (a3 := <[m := y]> new').
  assert (R4 : crun (Cst [Ccell 1 a2] [Cbuf 0 0 m 0 false (PCopy [y] new' m); Cbuf 0 0 1 0 false PIdle] false)
     [CSwap 0; CPut 0 y]
     (Cst [Ccell 1 a2; Ccell 1 a3] [Cbuf 0 0 (S m) 1 false PIdle; Cbuf 0 0 1 0 false PIdle] false)).
  { eapply crun_cons; [by eapply (ck_swap _ _ 0)|]. simpl. eapply crun_one_eq; [|done|done].
    by apply (ck_put [Ccell 1 a2; Ccell 1 new'] [Cbuf 0 0 m 1 false (PWrite Tail [y]); Cbuf 0 0 1 0 false PIdle] 0 (Cbuf 0 0 m 1 false (PWrite Tail [y])) (Ccell 1 new') y []). }
  eexists (([CAlloc n 0; CBegin 0 Tail (d :: ds)] ++ map (CPut 0) (d :: ds)) ++
     [CSnap 0; CBegin 0 Tail [y]; CLoad 0; CDec 0; CReset 1; CBegin 1 Tail [x]; CLoad 1; CPut 1 x] ++ replicate m (CCopy 0) ++ [CSwap 0; CPut 0 y]), _.
  split; [|split].
  - rewrite <- !(app_assoc _ _ [CLook 0 0 x]). eapply crun_app; [exact R1|]. eapply crun_app; [exact R2|].
    eapply crun_app; [exact R3|]. eapply crun_app; [exact R4|].
    eapply crun_one. eapply (ck_look _ _ 0 _ (Ccell 1 a3)); try done; simpl; [lia|].
    unfold a3. rewrite list_lookup_insert_ne by lia. rewrite Hnew. rewrite decide_True by lia. unfold a2.
    rewrite list_lookup_insert by lia. done.
  - unfold meaning. rewrite !fold_meaning. rewrite meaning_copies.
    change (fold_left meaning1 [CAlloc n 0; CBegin 0 Tail (d :: ds)] []) with [q_new n 0].
    rewrite (meaning_puts 0 (d :: ds) (q_new n 0) [q_new n 0]) by done. simpl. unfold q_append, q_new. simpl.
    do 2 f_equal.
  - intros h b Hb. simpl in Hb. destruct h as [|[|h]]; by simplify_eq/=.
Qed.

Lemma calls_allowed ls s h b q l : calm_run cow_new ls s -> (Z.of_nat (length ls) < 2^31)%Z -> cc_panic s = false ->
  cc_bufs s !! h = Some b -> meaning ls !! h = Some q -> call_on l = Some h ->
  (exists s', cstep s l s') <-> b_pc b = PIdle /\ allowed q l.
Proof.
  intros R Hb Hp Hh Hq Hl. pose proof (calm_cinv _ _ R Hb) as I.
  destruct (ci_buf _ _ I h b Hh) as (c & q2 & Hc & Hq2 & Hok). rewrite Hq in Hq2. injection Hq2 as <-.
  destruct s as [cs bs p]. simpl in *. subst p.
  destruct Hok as (O1 & O2 & O3 & -> & O5). clear I R Hq. split.
  - intros (s' & Hs). inversion Hs; subst; simpl in Hl; try done; simplify_eq; (split; [done|]); simpl; try done.
    + by rewrite seg_lookup, decide_True by lia.
    + rewrite seg_length by done. lia.
    + destruct w; split; try done; lia.
  - intros (Hi & Ha). destruct l as [| | | | |h' w l| | | | | |]; simpl in Hl, Ha; try done; injection Hl as ->.
    + eexists. by eapply ck_snap.
    + rewrite seg_lookup in Ha. case_decide; [|done]. eexists. eapply ck_look; try done. lia.
    + rewrite seg_length in Ha by done. eexists. eapply ck_skip; try done. lia.
    + eexists. by eapply ck_reset.
    + eexists. eapply ck_begin; try done; destruct w; destruct Ha; try done; lia.
Qed.

(** ** Every schedule of a write ends *)
Definition wr_left (b : cbuf) : nat :=
  match b_pc b with
  | PIdle => 0
  | PLoad _ l => 3 + (b_wr b - b_rd b) + length l
  | PDec _ l => 2 + (b_wr b - b_rd b) + length l
  | PCopy l _ k => 1 + (b_wr b - b_rd b - k) + length l
  | PWrite Tail l => length l
  | PWrite Head _ => 1
  end.
Definition left_of (h : nat) (s : cst) : nat := match cc_bufs s !! h with Some b => wr_left b | None => 0 end.
Definition by1 (h : nat) (l : clab) : nat := if by_bufb h l then 1 else 0.
Lemma left_same h h' b (bs : list cbuf) : bs !! h' = Some b -> forall b' cs1 p1 cs p, h <> h' ->
  left_of h (Cst cs1 (<[h' := b']> bs) p1) = left_of h (Cst cs bs p).
Proof. intros _ b' cs1 p1 cs p Hne. unfold left_of. cbn [cc_bufs]. by rewrite list_lookup_insert_ne. Qed.
Lemma left_here h b (bs : list cbuf) : bs !! h = Some b -> forall b' cs p, left_of h (Cst cs (<[h := b']> bs) p) = wr_left b'.
Proof. intros H b' cs p. unfold left_of. cbn [cc_bufs]. rewrite list_lookup_insert; [done|]. by eapply lookup_lt_Some. Qed.
Lemma left_at h b (bs : list cbuf) : bs !! h = Some b -> forall cs p, left_of h (Cst cs bs p) = wr_left b.
Proof. intros H cs p. unfold left_of. cbn [cc_bufs]. by rewrite H. Qed.
Lemma left_snoc h b cs bs p cs0 p0 : b_pc b = PIdle -> left_of h (Cst cs (bs ++ [b]) p) = left_of h (Cst cs0 bs p0).
Proof.
  intros Hb. unfold left_of. cbn [cc_bufs]. destruct (decide (h < length bs)).
  - by rewrite lookup_app_l.
  - rewrite lookup_app_r by lia. rewrite (lookup_ge_None_2 bs) by lia. destruct (h - length bs) as [|n0] eqn:E; [|done].
    simpl. unfold wr_left. by rewrite Hb.
Qed.
Lemma left_step h s l s' : cstep s l s' -> (forall w x, l <> CBegin h w x) -> by1 h l + left_of h s' <= left_of h s.
Proof.
  intros Hs Hno. destruct Hs; unfold by1; cbn [by_bufb].
  1: by rewrite (left_snoc _ _ _ bs _ cs false).
  1: { rewrite (left_snoc _ _ _ _ _ cs false) by done. destruct (decide (h0 = h)) as [->|Hne];
    [erewrite left_here, (left_at h b bs) by done; unfold wr_left; cbn [b_pc]; lia|rewrite (left_same h h0 b bs) with (cs := cs) (p := false) by done; lia]. }
  all: try (destruct (decide (h0 = h)) as [->|Hne];
    [rewrite ?Nat.eqb_refl; erewrite left_here, (left_at h b bs) by done
    |rewrite ?(proj2 (Nat.eqb_neq h0 h) Hne); rewrite (left_same h h0 b bs) with (cs := cs) (p := false) by done; lia]).
  all: try lia; unfold wr_left, at_pc; cbn [b_pc b_wr b_rd]; repeat match goal with H : b_pc _ = _ |- _ => rewrite H end; try lia.
  - by exfalso; eapply Hno.
  - destruct (decide _), w; simpl; lia.
  - destruct l; simpl; lia.
Qed.
Lemma left_run h s ls s' : crun s ls s' -> (forall w x, CBegin h w x ∉ ls) -> steps_by h ls + left_of h s' <= left_of h s.
Proof.
  induction 1 as [|ls s1 l s2 _ IH Hs]; intros Hno; [unfold steps_by; simpl; lia|].
  unfold steps_by. rewrite List.filter_app, app_length. fold (steps_by h ls).
  assert (by1 h l + left_of h s2 <= left_of h s1).
  { eapply left_step; [done|]. intros w x ->. apply (Hno w x). apply elem_of_app. right. by left. }
  specialize (IH ltac:(intros w x Hin; apply (Hno w x), elem_of_app; by left)). unfold by1 in *. simpl. destruct (by_bufb h l); simpl; lia.
Qed.
Lemma write_steps ls0 s h w x q s1 ls s' : calm_run cow_new ls0 s -> (Z.of_nat (length ls0) < 2^31)%Z ->
  meaning ls0 !! h = Some q -> cstep s (CBegin h w x) s1 -> crun s1 ls s' -> (forall w x, CBegin h w x ∉ ls) ->
  steps_by h ls <= 3 + length (q_data q) + length x.
Proof.
  intros H Hbd Hq Hs Hr Hno. pose proof (calm_cinv _ _ H Hbd) as I. pose proof (left_run _ _ _ _ Hr Hno) as Hl.
  inversion Hs; subst. match goal with H : bs !! h = Some ?b |- _ => rename H into Hb end.
  destruct (ci_buf _ _ I h b Hb) as (c' & q' & Hc' & Hq' & H1' & H2' & H3' & Hd & _). cbn [cc_cells cc_bufs cc_panic] in *.
  erewrite left_here in Hl by done. rewrite Hq in Hq'. injection Hq' as <-.
  assert (length (q_data q) = b_wr b - b_rd b) as ->.
  { rewrite Hd. by apply seg_length. }
  unfold wr_left in Hl. cbn [b_pc b_wr b_rd] in Hl. assert (length x <> 0) by (destruct x; [done|simpl; lia]).
  destruct (b_cow b), w; lia.
Qed.
(** None is ever held up. *)
Lemma crun_first s ls s' : crun s ls s' -> ls = [] /\ s' = s \/ exists l ls2 s1, ls = l :: ls2 /\ cstep s l s1.
Proof.
  induction 1 as [|ls s1 l s2 Hr IH Hs]; [by left|]. right. destruct IH as [[-> ->]|(l' & ls2 & s3 & -> & Hs')]; simpl; eauto 6.
Qed.
Lemma by_buf_bool h l : by_buf h l -> by_bufb h l = true.
Proof. destruct l; simpl; try done; intros ->; apply Nat.eqb_refl. Qed.
Lemma write_ends ls s h b : calm_run cow_new ls s -> (Z.of_nat (length ls) < 2^31)%Z -> cc_panic s = false ->
  cc_bufs s !! h = Some b -> (forall l s', by_bufb h l = true -> ~ cstep s l s') -> ~ tail_write b.
Proof.
  intros H Hbd Hp Hb Hno Ht. destruct (tail_writes_finish ls s h b H Hbd Hp Hb Ht) as (ls' & s' & Hr & Hf & _ & b' & Hb' & Hi).
  apply crun_first in Hr as [[-> ->]|(l & ls2 & s1 & -> & Hs)].
  - rewrite Hb in Hb'. injection Hb' as <-. unfold tail_write in Ht. by rewrite Hi in Ht.
  - inversion Hf; subst. eapply Hno; [by apply by_buf_bool|done].
Qed.

Lemma alloc_allowed s n r : cc_panic s = false -> (exists s', cstep s (CAlloc n r) s') <-> exists v, v_alloc (Z.of_nat n) (Z.of_nat r) = Some v.
Proof.
  intros Hp. unfold v_alloc. split.
  - intros [s' Hs]. inversion Hs; subst. rewrite (proj2 (Z.leb_gt _ _)), (proj2 (Z.ltb_ge _ _)) by lia. rewrite Z.gtb_ltb, (proj2 (Z.ltb_ge _ _)) by lia. eauto.
  - destruct s as [cs bs p]. simpl in Hp. subst p. destruct (Z.leb_spec (Z.of_nat n) 0); [by intros [? ?]|].
    destruct (Z.ltb_spec (Z.of_nat r) 0); [lia|]. rewrite Z.gtb_ltb. destruct (Z.ltb_spec (Z.of_nat n) (Z.of_nat r)); [by intros [? ?]|].
    intros _. eexists. apply ck_alloc; lia.
Qed.
