(** * Proofs about the reference transports *)
From Verif Require Import GoBase RefModel RefSpec.

Lemma fset_eq {A B} `{EqDecision A} (f : A -> B) a b : fset f a b a = b.
Proof. unfold fset. by rewrite decide_True. Qed.
Lemma fset_ne {A B} `{EqDecision A} (f : A -> B) a b x : x <> a -> fset f a b x = f x.
Proof. intros. unfold fset. by rewrite decide_False. Qed.

Section transports.
Context (addr : nat -> nat) (server : nat -> bool) (size : nat -> Z).
Notation rstep := (rstep addr server size).
Notation rrun := (rrun addr server size).
Notation rreach := (rreach addr server size).
Notation puts := (puts addr server).
Notation gots := (gots addr server).

Lemma rrun_app s ls1 s1 ls2 s2 : rrun s ls1 s1 -> rrun s1 ls2 s2 -> rrun s (ls1 ++ ls2) s2.
Proof.
  intros H1 H2. induction H2 as [|ls s3 l s4 H2 IH Hs]; [by rewrite app_nil_r|].
  rewrite app_assoc. econstructor; done.
Qed.
Lemma rrun_one s l s' : rstep s l s' -> rrun s [l] s'.
Proof. intros H. change [l] with ([] ++ [l]). econstructor; [constructor|done]. Qed.
Lemma rrun_cons s l s1 ls s2 : rstep s l s1 -> rrun s1 ls s2 -> rrun s (l :: ls) s2.
Proof. intros H1 H2. change (l :: ls) with ([l] ++ ls). eapply rrun_app; [by apply rrun_one|done]. Qed.

(** ** Stop does nothing *)
Lemma not_running s : rreach s -> forall t, r_running s t = false.
Proof.
  intros [ls H]. induction H as [|ls s1 l s2 H IH Hst]; [done|]. intros t.
  inversion Hst; subst; simpl in *; try apply IH. case_decide; simpl; apply IH.
Qed.
Lemma stop_nothing s t s' : rreach s -> rstep s (RStop t) s' -> s' = s.
Proof. intros Hr Hst. pose proof (not_running _ Hr t) as Hn. inversion Hst; subst; simpl in *; congruence. Qed.

(** ** Channels and addresses *)
Definition cinv (s : rst) : Prop :=
  (forall c t ch b, r_conns s !! c = Some (t, ch, b) -> r_map s (addr t) = Some ch) /\
  (forall t ch, r_pc s t = RPushing ch -> r_map s (addr t) = Some ch /\ r_mutex s = Some t) /\
  (forall a ch, r_map s a = Some ch -> exists x, r_chans s !! ch = Some x /\ rc_closed x = false) /\
  (forall a a' ch, r_map s a = Some ch -> r_map s a' = Some ch -> a = a').
Lemma chans_keep (chs : list rchan) ch x y i : chs !! ch = Some x -> rc_closed y = rc_closed x ->
  (exists z, chs !! i = Some z /\ rc_closed z = false) -> exists z, <[ch := y]> chs !! i = Some z /\ rc_closed z = false.
Proof.
  intros Hx Hy (z & Hz & Hc). destruct (decide (ch = i)) as [->|].
  - exists y. rewrite list_lookup_insert by (by eapply lookup_lt_Some). split; [done|congruence].
  - exists z. by rewrite list_lookup_insert_ne.
Qed.
Lemma conns_keep (cs : list (nat * nat * bool)) c t ch b b' i t' ch' b'' : cs !! c = Some (t, ch, b) ->
  <[c := (t, ch, b')]> cs !! i = Some (t', ch', b'') -> exists b0, cs !! i = Some (t', ch', b0).
Proof.
  intros Hc Hi. destruct (decide (c = i)) as [->|].
  - rewrite list_lookup_insert in Hi by (by eapply lookup_lt_Some). injection Hi as <- <- <-. by eexists.
  - rewrite list_lookup_insert_ne in Hi by done. by eexists.
Qed.
Lemma cinv_step s l s' : (forall t, r_running s t = false) -> cinv s -> rstep s l s' -> cinv s'.
Proof.
  intros Hn (C1 & C2 & C3 & C4) Hst. inversion Hst; subst; unfold cinv in *; simpl in *; try (split_and!; done); try congruence.
  - split_and!; try done. intros t' ch. unfold fset. case_decide; [done|]. apply C2.
  - split_and!.
    + intros c t' ch b Hc. apply C1 in Hc. rewrite fset_ne; [done|]. intros E. congruence.
    + intros t' ch. unfold fset at 1. case_decide as E.
      * subst. intros [= <-]. by rewrite fset_eq.
      * intros Hp. destruct (C2 _ _ Hp) as [_ ?]. done.
    + intros a ch. unfold fset. case_decide as E.
      * intros [= <-]. eexists. split; [by apply list_lookup_middle|done].
      * intros Ha. destruct (C3 _ _ Ha) as (x & Hx & Hc). exists x. split; [by apply lookup_app_l_Some|done].
    + intros a a' ch. unfold fset. repeat case_decide; try congruence.
      * intros [= <-] Ha. destruct (C3 _ _ Ha) as (x & Hx & _). apply lookup_lt_Some in Hx. lia.
      * intros Ha [= <-]. destruct (C3 _ _ Ha) as (x & Hx & _). apply lookup_lt_Some in Hx. lia.
      * apply C4.
  - split_and!; try done. intros t' ch Hp. by destruct (C2 _ _ Hp).
  - split_and!; try done.
    + intros t' ch'. unfold fset. case_decide as E; [|intros Hp; by destruct (C2 _ _ Hp)]. subst. intros [= <-]. done.
    + intros a ch' Ha. eapply chans_keep; [done|done|by eapply C3].
  - assert (forall t', pc t' <> RIdle -> forall ch, pc t' = RPushing ch -> t' = t) as Huniq.
    { intros t' _ ch' Hp. destruct (C2 _ _ Hp). destruct (C2 _ _ H). congruence. }
    split_and!; try done.
    + intros c t' ch' b Hc. apply lookup_app_Some in Hc as [Hc|[_ Hc]]; [by eapply C1|].
      destruct (c - length cs) as [|[]]; simpl in Hc; [|done..]. injection Hc as <- <- <-. by apply C2.
    + intros t' ch'. unfold fset. case_decide; [done|]. intros Hp. exfalso. apply H1. eapply Huniq; [by rewrite Hp|done].
  - split_and!; try done. intros c' t' ch' b' Hc. destruct (conns_keep _ _ _ _ _ _ _ _ _ _ H Hc) as [b0 ?]. by eapply C1.
  - split_and!; try done. intros a ch' Ha. eapply chans_keep; [done|done|by eapply C3].
  - split_and!; try done. intros a ch' Ha. eapply chans_keep; [done|done|by eapply C3].
Qed.
Lemma cinv_reach s : rreach s -> cinv s.
Proof.
  intros [ls H]. induction H as [|ls s1 l s2 H IH Hst]; [done|]. eapply cinv_step; [|done|done].
  apply not_running. by exists ls.
Qed.

(** ** The pipe *)
Lemma puts_app a b ls l : puts a b (ls ++ [l]) = puts a b ls ++ option_list (put_by addr server a b l).
Proof. unfold RefSpec.puts. rewrite omap_app. simpl. by destruct (put_by _ _ _ _ _). Qed.
Lemma gots_app a b ls l : gots a b (ls ++ [l]) = gots a b ls ++ option_list (got_by addr server a b l).
Proof. unfold RefSpec.gots. rewrite omap_app. simpl. by destruct (got_by _ _ _ _ _). Qed.
Definition pinv (ls : list rlab) (s : rst) : Prop := forall a b,
  match r_map s a with
  | None => puts a b ls = [] /\ gots a b ls = []
  | Some ch => forall x, r_chans s !! ch = Some x ->
      puts a b ls = gots a (negb b) ls ++ rc_buf x (negb b) /\ length (rc_buf x (negb b)) <= rc_cap x
  end.
Lemma pinv_run ls s : rrun new_ref ls s -> pinv ls s.
Proof.
  induction 1 as [|ls s1 l s2 H IH Hst]; [done|].
  assert (cinv s1) as (C1 & C2 & C3 & C4) by (apply cinv_reach; by exists ls).
  assert (forall t, r_running s1 t = false) as Hn by (apply not_running; by exists ls).
  intros a b. pose proof IH as IHb. rewrite puts_app, !gots_app. specialize (IH a b).
  inversion Hst; subst; simpl in *; rewrite ?app_nil_r; try done; try congruence.
  - unfold fset. case_decide as E.
    + subst. rewrite H1 in IH. destruct IH as [-> Hg]. intros x Hx.
      rewrite (list_lookup_middle chs [] _ (length chs) eq_refl) in Hx. injection Hx as <-. simpl.
      pose proof (IHb (addr t) (negb b)) as IHc. simpl in IHc. rewrite H1 in IHc. destruct IHc as [_ ->]. simpl. split; [done|lia].
    + destruct (mp a) as [ch|] eqn:Ea; [|done]. intros x Hx. apply IH. destruct (C3 _ _ Ea) as (y & Hy & _).
      rewrite lookup_app_l in Hx by (by eapply lookup_lt_Some). done.
  - destruct (mp a) as [ch'|] eqn:Ea; [|done]. intros y Hy. destruct (decide (ch = ch')) as [->|Hne].
    + rewrite list_lookup_insert in Hy by (by eapply lookup_lt_Some). injection Hy as <-. simpl. by apply IH.
    + rewrite list_lookup_insert_ne in Hy by done. by apply IH.
  - pose proof (C1 _ _ _ _ H1) as Em. destruct (decide (a = addr t)) as [->|Ha].
    + rewrite Em in *. intros y Hy. rewrite list_lookup_insert in Hy by (by eapply lookup_lt_Some). injection Hy as <-.
      specialize (IH _ H2). simpl. destruct (decide (server t = b)) as [<-|Hb].
      * rewrite decide_True by done. simpl. rewrite fset_eq. destruct IH as [-> Hl]. rewrite app_assoc. split; [done|]. rewrite app_length. simpl. lia.
      * rewrite decide_False by naive_solver. simpl. rewrite app_nil_r. rewrite fset_ne; [done|]. by destruct b, (server t).
    + rewrite decide_False by naive_solver. simpl. rewrite app_nil_r. destruct (mp a) as [ch'|] eqn:Ea; [|done].
      intros y Hy. rewrite list_lookup_insert_ne in Hy; [by apply IH|]. intros <-. apply Ha. by eapply C4.
  - exfalso. pose proof (C1 _ _ _ _ H1) as Em. destruct (C3 _ _ Em) as (y & Hy & Hc). congruence.
  - pose proof (C1 _ _ _ _ H1) as Em. destruct (decide (a = addr t)) as [->|Ha].
    + rewrite Em in *. intros y Hy. rewrite list_lookup_insert in Hy by (by eapply lookup_lt_Some). injection Hy as <-.
      specialize (IH _ H2). simpl. destruct (decide (server t = negb b)) as [E|Hb].
      * rewrite decide_True by done. simpl. rewrite <-E, fset_eq. rewrite <-E, H3 in IH. destruct IH as [-> Hl]. rewrite <-app_assoc. split; [done|]. simpl in Hl. lia.
      * rewrite decide_False by naive_solver. simpl. rewrite app_nil_r. rewrite fset_ne; [done|]. congruence.
    + rewrite ?(decide_False (P := addr t = a /\ _)) by naive_solver. simpl. rewrite ?app_nil_r. destruct (mp a) as [ch'|] eqn:Ea.
      * intros y Hy. rewrite list_lookup_insert_ne in Hy; [by apply IH|]. intros <-. apply Ha. by eapply C4.
      * rewrite ?(decide_False (P := addr t = a /\ _)) by naive_solver. simpl. by rewrite ?app_nil_r.
  - pose proof (C1 _ _ _ _ H1) as Em. pose proof (C1 _ _ _ _ H3) as Em'. pose proof (C4 _ _ _ Em Em') as Eaddr.
    destruct (decide (a = addr t)) as [->|Ha].
    + rewrite Em in *. intros y Hy. rewrite H5 in Hy. injection Hy as <-. specialize (IH _ H5). rewrite <-Eaddr.
      destruct (decide (server t = b)) as [<-|Hb].
      * rewrite !decide_True by done. simpl. rewrite H4 in H7. rewrite H7 in *. rewrite !app_nil_r in *. destruct IH as [-> _]. split; [done|simpl; lia].
      * rewrite !decide_False by (intros [_ ?]; destruct b, (server t), (server t'); naive_solver). simpl. by rewrite !app_nil_r.
    + rewrite <-Eaddr. rewrite !(decide_False (P := addr t = a /\ _)) by naive_solver. simpl. by rewrite !app_nil_r.
Qed.
Lemma fifo ls s a side : rrun new_ref ls s -> gots a (negb side) ls `prefix_of` puts a side ls.
Proof.
  intros H. pose proof (pinv_run _ _ H a side) as P. pose proof (pinv_run _ _ H a (negb side)) as P2.
  destruct (r_map s a) as [ch|] eqn:E.
  - destruct (cinv_reach s) as (_ & _ & C3 & _); [by exists ls|]. destruct (C3 _ _ E) as (x & Hx & _).
    destruct (P _ Hx) as [-> _]. by eexists.
  - destruct P2 as [_ ->]. apply prefix_nil.
Qed.
(** A goroutine's own references, in the order it sets them. *)
Lemma in_call_order ls s k : rrun new_ref ls s -> called k ls = done_by k ls ++ option_list (r_pend s k).
Proof.
  induction 1 as [|ls s1 l s2 H IH Hst]; [done|]. unfold called, done_by in *. rewrite !omap_app.
  assert (cinv s1) as (C1 & _ & C3 & _) by (apply cinv_reach; by exists ls).
  assert (forall t, r_running s1 t = false) as Hn by (apply not_running; by exists ls).
  inversion Hst; subst; simpl in *; rewrite ?app_nil_r; try done; try congruence.
  - unfold fset. repeat case_decide; subst; try done.
    + rewrite IH, H0. by rewrite !app_nil_r.
    + by rewrite app_nil_r.
  - unfold fset. case_decide as E.
    + subst. rewrite decide_True by done. rewrite IH, H0. by rewrite !app_nil_r.
    + rewrite decide_False by congruence. by rewrite !app_nil_r.
  - exfalso. destruct (C3 _ _ (C1 _ _ _ _ H1)) as (y & Hy & Hc). congruence.
  - unfold fset. case_decide as E.
    + subst. rewrite decide_True by done. rewrite IH, H0. by rewrite !app_nil_r.
    + rewrite decide_False by congruence. by rewrite !app_nil_r.
Qed.
(** A send proceeds when there is room, a receive when there is something. *)
Lemma send_enabled ls s k c p t ch b x : rrun new_ref ls s -> r_crash s = false -> r_pend s k = Some (c, p) ->
  r_conns s !! c = Some (t, ch, b) -> r_chans s !! ch = Some x ->
  length (puts (addr t) (server t) ls) < length (gots (addr t) (negb (server t)) ls) + rc_cap x ->
  exists s', rstep s (RSent k t c p) s' /\ r_crash s' = false.
Proof.
  intros H Hc Hp Hco Hx Hlt. pose proof (cinv_reach s (ex_intro _ ls H)) as (C1 & _ & C3 & _).
  pose proof (C1 _ _ _ _ Hco) as Em. destruct (C3 _ _ Em) as (y & Hy & Hcl). rewrite Hx in Hy. injection Hy as <-.
  pose proof (pinv_run _ _ H (addr t) (server t)) as P. rewrite Em in P. destruct (P _ Hx) as [E _]. rewrite E, app_length in Hlt.
  destruct s as [nx cn rn pc mx mp chs cs pe wa cr]. simpl in *. subst cr. eexists. split; [eapply rk_sent; [done..|lia]|done].
Qed.
Lemma receive_enabled ls s j c t ch b : rrun new_ref ls s -> r_crash s = false -> r_wait s j = Some c ->
  r_conns s !! c = Some (t, ch, b) ->
  length (gots (addr t) (server t) ls) < length (puts (addr t) (negb (server t)) ls) ->
  exists s' p, rstep s (RGot j t c p) s' /\ puts (addr t) (negb (server t)) ls !! length (gots (addr t) (server t) ls) = Some p.
Proof.
  intros H Hc Hw Hco Hlt. pose proof (cinv_reach s (ex_intro _ ls H)) as (C1 & _ & C3 & _).
  pose proof (C1 _ _ _ _ Hco) as Em. destruct (C3 _ _ Em) as (x & Hx & Hcl).
  pose proof (pinv_run _ _ H (addr t) (negb (server t))) as P. rewrite Em in P. destruct (P _ Hx) as [E _].
  rewrite negb_involutive in E. rewrite E, app_length in Hlt.
  destruct (rc_buf x (server t)) as [|p q] eqn:Eq; [simpl in Hlt; lia|].
  destruct s as [nx cn rn pc mx mp chs cs pe wa cr]. simpl in *. subst cr. eexists _, p. split; [by eapply rk_got|].
  rewrite E. by apply list_lookup_middle.
Qed.

(** ** Run *)
Lemma counts ls s t : rrun new_ref ls s -> r_crash s = false ->
  run_count t ls = next_count t ls + length (r_next s t) + match r_pc s t with RIdle => 0 | _ => 1 end.
Proof.
  induction 1 as [|ls s1 l s2 H IH Hst]; [done|]. unfold run_count, next_count in *. rewrite !List.filter_app, !app_length.
  assert (forall t, r_running s1 t = false) as Hn by (apply not_running; by exists ls).
  inversion Hst; subst; simpl in *; intros Hc; try (specialize (IH eq_refl)); try congruence; try lia.
  all: unfold fset; repeat case_decide; repeat case_bool_decide; subst; try done; try congruence; simpl; try lia.
  all: rewrite H0 in *; rewrite ?app_length in *; simpl in *; try lia.
Qed.
Lemma run_not_stuck ls s t ch : rrun new_ref ls s -> r_crash s = false -> run_count t ls <= next_count t ls + 1 ->
  r_pc s t = RPushing ch -> exists s', rstep s (RPush t) s'.
Proof.
  intros H Hc Hle Hp. pose proof (counts _ _ t H Hc) as E. rewrite Hp in E.
  destruct s as [nx cn rn pc mx mp chs cs pe wa cr]. simpl in *. subst cr. eexists. apply (rk_push _ _ _ _ _ _ _ _ _ _ _ _ _ _ ch); [done|]. lia.
Qed.
Lemma mutex_holder ls s t : rrun new_ref ls s -> r_crash s = false -> r_mutex s = Some t -> exists ch, r_pc s t = RPushing ch.
Proof.
  induction 1 as [|ls s1 l s2 H IH Hst]; [done|].
  assert (cinv s1) as (_ & C2 & _ & _) by (apply cinv_reach; by exists ls).
  assert (forall t, r_running s1 t = false) as Hn by (apply not_running; by exists ls).
  inversion Hst; subst; simpl in *; intros Hc Hm; try done; try (by apply IH); try congruence.
  - destruct (IH eq_refl Hm) as [ch E]. exists ch. rewrite fset_ne; [done|]. congruence.
  - injection Hm as ->. eexists. by rewrite fset_eq.
  - injection Hm as ->. eexists. by rewrite fset_eq.
Qed.
Lemma stuck_forever s t ch c s' ls : rreach s -> r_pc s t = RPushing ch -> r_next s t = [c] -> rrun s ls s' -> RNext t ∉ ls ->
  r_pc s' t = RPushing ch /\ r_next s' t = [c] /\ r_mutex s' = Some t /\ length (r_conns s') = length (r_conns s) /\
  (forall t', RGlobal t' ∉ ls /\ RPush t' ∉ ls).
Proof.
  intros Hr Hp Hx H. induction H as [|ls s1 l s2 H IH Hst]; intros Hnot.
  - split_and!; try done; [destruct (cinv_reach _ Hr) as (_ & C2 & _); by eapply C2|]. intros t'. split; apply not_elem_of_nil.
  - rewrite not_elem_of_app, elem_of_list_singleton in Hnot. destruct Hnot as [N1 N2].
    destruct (IH N1) as (I1 & I2 & I3 & I4 & I5). clear IH.
    assert (rreach s1) as Hr1. { destruct Hr as [ls0 Hr]. exists (ls0 ++ ls). by eapply rrun_app. }
    pose proof (not_running _ Hr1) as Hn. destruct (cinv_reach _ Hr1) as (C1 & C2 & C3 & C4).
    assert ((forall t', l <> RGlobal t' /\ l <> RPush t') -> forall t', RGlobal t' ∉ ls ++ [l] /\ RPush t' ∉ ls ++ [l]) as Hl.
    { intros Hl t'. rewrite !not_elem_of_app, !elem_of_list_singleton. destruct (I5 t'), (Hl t'). done. }
    inversion Hst; subst; simpl in *; rewrite ?insert_length; try (split_and!; try done; by apply Hl); try congruence.
    + split_and!; try done; [|by apply Hl]. rewrite fset_ne; [done|]. congruence.
    + exfalso. destruct (C2 _ _ H0) as [_ E]. assert (t0 = t) as -> by congruence. rewrite I2 in *. simpl in *. lia.
    + split_and!; try done; [|by apply Hl]. rewrite fset_ne; [done|]. congruence.
Qed.
Lemma next_conns s t c : rreach s -> c ∈ r_next s t -> exists ch b, r_conns s !! c = Some (t, ch, b).
Proof.
  intros [ls H]. revert t c. induction H as [|ls s1 l s2 H IH Hst]; intros t c; [by intros ?%elem_of_nil|].
  assert (forall t, r_running s1 t = false) as Hn by (apply not_running; by exists ls).
  inversion Hst; subst; simpl in *; try apply IH; try congruence.
  - unfold fset. case_decide as E.
    + subst. intros [Hin|Hin]%elem_of_app; [|apply elem_of_list_singleton in Hin as ->].
      * destruct (IH _ _ Hin) as (ch' & b & Hc). exists ch', b. by apply lookup_app_l_Some.
      * exists ch, false. by apply list_lookup_middle.
    + intros Hin. destruct (IH _ _ Hin) as (ch' & b & Hc). exists ch', b. by apply lookup_app_l_Some.
  - unfold fset. case_decide as E; [|apply IH]. subst. intros Hin. apply IH. rewrite H0. by right.
  - intros Hin. destruct (IH _ _ Hin) as (ch' & b' & Hc). destruct (decide (c0 = c)) as [->|].
    + rewrite list_lookup_insert by (by eapply lookup_lt_Some). rewrite H0 in Hc. injection Hc as -> -> ->. by do 2 eexists.
    + rewrite list_lookup_insert_ne by done. by do 2 eexists.
Qed.
Lemma second_run_sticks s t c : rreach s -> r_crash s = false -> r_mutex s = None -> r_pc s t = RIdle -> r_next s t = [c] ->
  exists s' ch, rrun s [RRun t; RGlobal t] s' /\ r_pc s' t = RPushing ch /\ r_next s' t = [c].
Proof.
  intros Hr Hc Hm Hp Hx. destruct (next_conns s t c Hr) as (ch & b & Hco); [rewrite Hx; left|].
  destruct (cinv_reach _ Hr) as (C1 & C2 & C3 & C4). pose proof (C1 _ _ _ _ Hco) as Em. destruct (C3 _ _ Em) as (x & Hch & _).
  pose proof (not_running _ Hr t) as Hn.
  destruct s as [nx cn rn pc mx mp chs cs pe wa cr]. simpl in *. subst. eexists _, ch. split_and!.
  - eapply rrun_cons; [by apply rk_run|]. apply rrun_one. eapply (rk_global_old _ _ _ _ _ _ _ _ _ _ _ _ _ ch x); [by rewrite fset_eq|done|done].
  - simpl. by rewrite fset_eq.
  - done.
Qed.
Lemma run_again_connects s t ch x : rreach s -> r_crash s = false -> r_mutex s = None -> r_pc s t = RIdle -> r_next s t = [] ->
  r_map s (addr t) = Some ch -> r_chans s !! ch = Some x ->
  exists s', rrun s [RRun t; RGlobal t; RPush t] s' /\ r_conns s' = r_conns s ++ [(t, ch, false)] /\
    r_next s' t = [length (r_conns s)] /\ r_mutex s' = None /\ r_pc s' t = RIdle /\ r_crash s' = false /\
    r_chans s' = <[ch := set_refs x (rc_refs x + 1)]> (r_chans s) /\ r_pend s' = r_pend s /\ r_wait s' = r_wait s /\ r_running s' t = false.
Proof.
  intros Hr Hc Hm Hp Hx Em Hch. pose proof (not_running _ Hr t) as Hn.
  destruct s as [nx cn rn pc mx mp chs cs pe wa cr]. simpl in *. subst. eexists. split.
  - eapply rrun_cons; [by apply rk_run|].
    eapply rrun_cons; [eapply (rk_global_old _ _ _ _ _ _ _ _ _ _ _ _ _ ch x); [by rewrite fset_eq|done|done]|].
    apply rrun_one. apply (rk_push _ _ _ _ _ _ _ _ _ _ _ _ _ _ ch); [by rewrite fset_eq|rewrite Hx; simpl; lia].
  - simpl. rewrite !fset_eq, Hx. done.
Qed.
Lemma first_run_connects s t : rreach s -> r_crash s = false -> r_mutex s = None -> r_pc s t = RIdle -> r_next s t = [] ->
  r_map s (addr t) = None -> (0 <= size t)%Z ->
  exists s', rrun s [RRun t; RGlobal t; RPush t] s' /\ r_conns s' = r_conns s ++ [(t, length (r_chans s), false)] /\
    r_next s' t = [length (r_conns s)] /\ r_mutex s' = None /\ r_pc s' t = RIdle /\ r_crash s' = false /\
    r_chans s' = r_chans s ++ [Rchan (Z.to_nat (size t)) 1 false (fun _ => [])].
Proof.
  intros Hr Hc Hm Hp Hx Em Hs. pose proof (not_running _ Hr t) as Hn.
  destruct s as [nx cn rn pc mx mp chs cs pe wa cr]. simpl in *. subst. eexists. split.
  - eapply rrun_cons; [by apply rk_run|].
    eapply rrun_cons; [apply rk_global_new; [by rewrite fset_eq|done|done]|].
    apply rrun_one. eapply rk_push; [by rewrite fset_eq|rewrite Hx; simpl; lia].
  - simpl. rewrite !fset_eq, Hx. done.
Qed.
(** What was not read before Stop is read after the next Run. *)
Lemma stale s t ch x p q j : rreach s -> r_crash s = false -> r_mutex s = None -> r_pc s t = RIdle -> r_next s t = [] ->
  r_map s (addr t) = Some ch -> r_chans s !! ch = Some x -> rc_buf x (server t) = p :: q -> r_pend s j = None -> r_wait s j = None ->
  exists s', rrun s [RStop t; RRun t; RGlobal t; RPush t; RNext t; RGet j t (length (r_conns s)); RGot j t (length (r_conns s)) p] s'.
Proof.
  intros Hr Hc Hm Hp Hx Em Hch Hb Hpe Hwa. pose proof (not_running _ Hr t) as Hn.
  destruct (run_again_connects s t ch x) as (s1 & R1 & Ec & En & Emu & Epc & Ecr & Ech & Epe & Ewa & _); [done..|].
  assert (rstep s (RStop t) s) as T0.
  { destruct s as [nx cn rn pc mx mp chs cs pe wa cr]. simpl in *. subst. by apply rk_stop. }
  destruct s1 as [nx cn rn pc mx mp chs cs pe wa cr]. simpl in *. subst. eexists.
  eapply rrun_cons; [exact T0|]. 
  change ([RRun t; RGlobal t; RPush t; RNext t; RGet j t (length (r_conns s)); RGot j t (length (r_conns s)) p])
    with ([RRun t; RGlobal t; RPush t] ++ [RNext t; RGet j t (length (r_conns s)); RGot j t (length (r_conns s)) p]).
  eapply rrun_app; [exact R1|]. eapply rrun_cons; [by eapply rk_next|].
  eapply rrun_cons; [eapply (rk_get _ _ _ _ _ _ _ _ _ _ _ _ _ _ _ _ ch); [done|done|by apply list_lookup_middle]|].
  apply rrun_one. eapply (rk_got _ _ _ _ _ _ _ _ _ _ _ _ _ _ _ _ ch); [by rewrite fset_eq|by apply list_lookup_middle|apply list_lookup_insert; by eapply lookup_lt_Some|done].
Qed.

(** ** Closing *)
Lemma only_close_closes ls s c t ch : rrun new_ref ls s -> r_conns s !! c = Some (t, ch, true) -> RClose t c ∈ ls.
Proof.
  intros H. revert c t ch. induction H as [|ls s1 l s2 H IH Hst]; intros c t ch Hco; [done|]. apply elem_of_app.
  assert (forall t, r_running s1 t = false) as Hn by (apply not_running; by exists ls).
  inversion Hst; subst; simpl in *; try (left; by eapply IH); try congruence.
  - apply lookup_app_Some in Hco as [Hco|[_ Hco]]; [left; by eapply IH|]. destruct (c - length cs) as [|[]]; done.
  - destruct (decide (c0 = c)) as [->|Hne].
    + rewrite list_lookup_insert in Hco by (by eapply lookup_lt_Some). injection Hco as <- <-. right. left.
    + rewrite list_lookup_insert_ne in Hco by done. left. by eapply IH.
Qed.
Lemma channel_kept s ls s' a ch : rreach s -> rrun s ls s' -> r_map s a = Some ch -> r_map s' a = Some ch.
Proof.
  intros Hr H Ha. induction H as [|ls s1 l s2 H IH Hst]; [done|].
  assert (rreach s1) as Hr1. { destruct Hr as [ls0 Hr]. exists (ls0 ++ ls). by eapply rrun_app. }
  pose proof (not_running _ Hr1) as Hn. inversion Hst; subst; simpl in *; try done; try congruence.
  rewrite fset_ne; [done|]. congruence.
Qed.
Lemma closed_delivers s j c t ch b x p q : r_crash s = false -> r_wait s j = Some c -> r_conns s !! c = Some (t, ch, b) ->
  r_chans s !! ch = Some x -> rc_buf x (server t) = p :: q -> exists s', rrun s [RClose t c; RGot j t c p] s'.
Proof.
  intros Hc Hw Hco Hx Hb. destruct s as [nx cn rn pc mx mp chs cs pe wa cr]. simpl in *. subst. eexists.
  eapply rrun_cons; [by eapply rk_close|]. apply rrun_one. eapply rk_got; [done| |done|done].
  apply list_lookup_insert. by eapply lookup_lt_Some.
Qed.
Lemma peer_sends s k c t ch b c' t' b' p x : rreach s -> r_crash s = false -> r_pend s k = None -> r_wait s k = None ->
  r_conns s !! c = Some (t, ch, b) -> r_conns s !! c' = Some (t', ch, b') -> c <> c' -> b = false ->
  r_chans s !! ch = Some x -> length (rc_buf x (negb (server t))) < rc_cap x ->
  exists s', rrun s [RClose t' c'; RSet k t c p; RSent k t c p] s' /\ r_crash s' = false.
Proof.
  intros Hr Hc Hp Hw H1 H2 Hne -> Hx Hlt. destruct (cinv_reach _ Hr) as (C1 & C2 & C3 & C4).
  destruct (C3 _ _ (C1 _ _ _ _ H1)) as (y & Hy & Hcl). rewrite Hx in Hy. injection Hy as <-.
  destruct s as [nx cn rn pc mx mp chs cs pe wa cr]. simpl in *. subst. eexists. split.
  - eapply rrun_cons; [by eapply rk_close|]. eapply rrun_cons; [eapply rk_set; [done|done|by rewrite list_lookup_insert_ne]|].
    apply rrun_one. eapply rk_sent; [by rewrite fset_eq|by rewrite list_lookup_insert_ne|done|done|done].
  - done.
Qed.
Lemma peer_waits s j c t ch b x ls s' : rreach s -> r_wait s j = Some c -> r_conns s !! c = Some (t, ch, b) ->
  r_chans s !! ch = Some x -> rc_buf x (server t) = [] -> rrun s ls s' -> puts (addr t) (negb (server t)) ls = [] ->
  r_wait s' j = Some c.
Proof.
  intros [ls0 Hr] Hw Hco Hx Hb H Hnone.
  assert (r_wait s' j = Some c /\ (exists b', r_conns s' !! c = Some (t, ch, b')) /\
    exists x', r_chans s' !! ch = Some x' /\ rc_buf x' (server t) = []) as (? & _); [|done].
  induction H as [|ls s1 l s2 H IH Hst]; [split_and!; try done; by eexists|].
  rewrite puts_app in Hnone. apply app_eq_nil in Hnone as [N1 N2]. destruct (IH N1) as (I1 & (b1 & I2) & x1 & I3 & I4). clear IH.
  assert (rreach s1) as Hr1. { exists (ls0 ++ ls). by eapply rrun_app. }
  pose proof (not_running _ Hr1) as Hn. destruct (cinv_reach _ Hr1) as (C1 & C2 & C3 & C4).
  inversion Hst; subst; simpl in *; try (split_and!; [done|by eexists|by eexists]); try congruence.
  - split_and!; [done|by eexists|]. exists x1. split; [by apply lookup_app_l_Some|done].
  - split_and!; [done|by eexists|]. destruct (decide (ch0 = ch)) as [->|].
    + eexists. rewrite list_lookup_insert by (by eapply lookup_lt_Some). split; [done|]. simpl. congruence.
    + exists x1. by rewrite list_lookup_insert_ne.
  - split_and!; [done| |by eexists]. exists b1. by apply lookup_app_l_Some.
  - split_and!; [done| |by eexists]. destruct (decide (c0 = c)) as [->|].
    + rewrite list_lookup_insert by (by eapply lookup_lt_Some). eexists. by simplify_eq.
    + exists b1. by rewrite list_lookup_insert_ne.
  - split_and!; [done|by eexists|]. destruct (decide (ch0 = ch)) as [->|].
    + eexists. rewrite list_lookup_insert by (by eapply lookup_lt_Some). split; [done|].
      rewrite I3 in H2. injection H2 as <-. simpl. rewrite fset_ne; [done|]. intros E.
      case_decide as Hd; [done|]. apply Hd. split; [|by rewrite E, negb_involutive]. eapply C4; [by eapply C1|by eapply C1].
    + exists x1. by rewrite list_lookup_insert_ne.
  - split_and!; [|by eexists|by eexists]. rewrite fset_ne; [done|]. congruence.
  - split_and!; [|by eexists|].
    + rewrite fset_ne; [done|]. intros <-. simplify_eq. congruence.
    + destruct (decide (ch0 = ch)) as [->|].
      * eexists. rewrite list_lookup_insert by (by eapply lookup_lt_Some). split; [done|].
        rewrite I3 in H2. injection H2 as <-. simpl. rewrite fset_ne; [done|]. intros E. rewrite E in I4. congruence.
      * exists x1. by rewrite list_lookup_insert_ne.
  - exfalso. destruct (C3 _ _ (C1 _ _ _ _ H1)) as (y & Hy & Hcl). congruence.
  - split_and!; [|by eexists|by eexists]. rewrite fset_ne; [done|]. intros <-. simplify_eq.
    case_decide as Hd; [done|]. apply Hd. split; [eapply C4; [by eapply C1|by eapply C1]|]. by rewrite H4, negb_involutive.
Qed.
Lemma closed_refuses s ls s' c t ch : rreach s -> rrun s ls s' -> r_conns s !! c = Some (t, ch, true) ->
  forall k t' p, RSet k t' c p ∉ ls /\ RGet k t' c ∉ ls.
Proof.
  intros [ls0 Hr] H Hco.
  assert (r_conns s' !! c = Some (t, ch, true) /\ forall k t' p, RSet k t' c p ∉ ls /\ RGet k t' c ∉ ls) as [_ ?]; [|done].
  induction H as [|ls s1 l s2 H [I1 I2] Hst]; [split; [done|]; intros; split; apply not_elem_of_nil|].
  assert (rreach s1) as Hr1. { exists (ls0 ++ ls). by eapply rrun_app. }
  pose proof (not_running _ Hr1) as Hn.
  assert ((forall k t' p, l <> RSet k t' c p /\ l <> RGet k t' c) -> forall k t' p, RSet k t' c p ∉ ls ++ [l] /\ RGet k t' c ∉ ls ++ [l]) as Hl.
  { intros Hl k t' p. rewrite !not_elem_of_app, !elem_of_list_singleton. destruct (I2 k t' p), (Hl k t' p). done. }
  inversion Hst; subst; simpl in *; try (split; [done|by apply Hl]); try congruence.
  - split; [by apply lookup_app_l_Some|by apply Hl].
  - split; [|by apply Hl]. destruct (decide (c0 = c)) as [->|].
    + rewrite list_lookup_insert by (by eapply lookup_lt_Some). congruence.
    + by rewrite list_lookup_insert_ne.
  - split; [done|]. apply Hl. intros k' t' p'. split; [|done]. intros [= -> -> -> ->]. congruence.
  - split; [done|]. apply Hl. intros k' t' p'. split; [done|]. intros [= -> -> ->]. congruence.
Qed.
End transports.
