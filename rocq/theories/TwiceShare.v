(** * Proofs about stacks that share processor instances *)
From Coq Require Import Lia.
From Verif Require Import GoBase StackModel StackSpec StackProofs TwiceModel TwiceSpec TwiceProofs.
From stdpp Require Import sets list.

(** ** One Run, seen from its stack *)
Lemma emb_inj k p q : emb k p = emb k q -> p = q.
Proof. destruct p, q; simpl; congruence. Qed.
Definition over (k : nat) (g : pid -> option pid) (old new : tpid -> option tpid) : Prop :=
  (forall p, new (emb k p) = match g p with Some q => Some (emb k q) | None => old (emb k p) end) /\
  (forall x, (forall p, x <> emb k p) -> new x = old x).
Definition shows (k : nat) (lk : links) (G F : fields) : Prop :=
  over k (l_upper lk) (t_upper G) (t_upper F) /\ over k (l_lower lk) (t_lower G) (t_lower F).

Lemma shows_none k G : shows k no_links G G.
Proof. by repeat split. Qed.
Lemma over_set k g old new p q : over k g old new ->
  over k (fun x => if decide (x = p) then Some q else g x) old (fun x => if decide (x = emb k p) then Some (emb k q) else new x).
Proof.
  intros [H1 H2]. split.
  - intros x. destruct (decide (x = p)) as [->|Hx]; [by rewrite decide_True|].
    rewrite decide_False; [apply H1|]. intros E. by apply emb_inj in E.
  - intros x Hx. rewrite decide_False; [by apply H2|]. apply Hx.
Qed.
Lemma shows_upper k lk G F p q : shows k lk G F -> shows k (set_upper lk p q) G (tset_upper F (emb k p) (emb k q)).
Proof. intros [H1 H2]. split; [by apply over_set|done]. Qed.
Lemma shows_lower k lk G F p q : shows k lk G F -> shows k (set_lower lk p q) G (tset_lower F (emb k p) (emb k q)).
Proof. intros [H1 H2]. split; [done|by apply over_set]. Qed.
Lemma shows_pairs k ids lk G F : shows k lk G F -> shows k (link_pairs ids lk) G (tlink_pairs ids F).
Proof.
  revert lk F. induction ids as [|i [|j ids] IH]; intros lk F H; [done..|]. apply IH.
  apply (shows_upper k _ G _ (PProc j) (PProc i)). by apply (shows_lower k _ G _ (PProc i) (PProc j)).
Qed.
Lemma stack_links ids k F : t_upper (foldl (fun F i => tset_stack F i k) F ids) = t_upper F /\
  t_lower (foldl (fun F i => tset_stack F i k) F ids) = t_lower F.
Proof. revert F. induction ids as [|i ids IH]; intros F; [done|]. simpl. destruct (IH (tset_stack F i k)) as [-> ->]. done. Qed.
Lemma shows_build k ids G : shows k (build_links ids no_links) G (tbuild k ids G).
Proof.
  unfold tbuild. match goal with |- shows _ _ _ (foldl _ ?F _) => destruct (stack_links ids k F) as [Hu Hl] end.
  unfold shows. rewrite Hu, Hl. clear Hu Hl. destruct ids as [|h t].
  - apply (shows_upper k _ G _ PLower PUpper). apply (shows_lower k _ G _ PUpper PLower). apply shows_none.
  - rewrite build_cons. apply (shows_upper k _ G _ PLower (PProc _)). apply (shows_lower k _ G _ (PProc _) PLower).
    apply shows_pairs. apply (shows_upper k _ G _ (PProc _) PUpper). apply (shows_lower k _ G _ PUpper (PProc _)). apply shows_none.
Qed.

Section one.
  Context (k : nat) (ids : list nat) (G : fields).
  Let F := tbuild k ids G.
  Lemma t_next p i q : ids = p ++ i :: q -> i ∉ q ->
    t_lower F (TProc i) = Some (emb k (next_below q)) /\ t_upper F (TProc i) = Some (emb k (next_above p)).
  Proof.
    intros E Hi. destruct (shows_build k ids G) as [[Hu _] [Hl _]].
    specialize (Hu (PProc i)). specialize (Hl (PProc i)). rewrite E, build_upper in Hu by done. rewrite E, build_lower in Hl by done.
    unfold F. by rewrite E.
  Qed.
  Lemma t_ends : t_lower F (TUpper k) = Some (emb k (next_below ids)) /\ t_upper F (TLower k) = Some (emb k (next_above ids)).
  Proof.
    destruct (shows_build k ids G) as [[Hu _] [Hl _]]. specialize (Hu PLower). specialize (Hl PUpper).
    rewrite build_bottom in Hu. rewrite build_top in Hl. done.
  Qed.
  Lemma links_other x : x ∉ ids -> l_lower (build_links ids no_links) (PProc x) = None /\ l_upper (build_links ids no_links) (PProc x) = None.
  Proof.
    intros Hx. destruct ids as [|h t]; [done|]. rewrite build_cons.
    assert (x <> List.last (h :: t) h) as Hn.
    { intros ->. apply Hx. destruct (build_last (h :: t) h) as (l & n & E & ->); [done|]. rewrite E. set_solver. }
    rewrite set_upper_lower, lower_ne by congruence. rewrite upper_ne, set_lower_upper by done.
    destruct (link_pairs_other (h :: t) (set_upper (set_lower no_links PUpper (PProc h)) (PProc h) PUpper) (PProc x)) as [-> ->].
    { by intros y [= <-]. }
    rewrite set_upper_lower, lower_ne by done. rewrite upper_ne; [done|]. intros [= ->]. set_solver.
  Qed.
  Lemma t_other x : x ∉ ids -> t_lower F (TProc x) = t_lower G (TProc x) /\ t_upper F (TProc x) = t_upper G (TProc x).
  Proof.
    intros Hx. destruct (shows_build k ids G) as [[Hu _] [Hl _]]. specialize (Hu (PProc x)). specialize (Hl (PProc x)).
    destruct (links_other x Hx) as [E1 E2]. rewrite E2 in Hu. by rewrite E1 in Hl.
  Qed.
  Lemma t_decks k' : k' <> k -> t_lower F (TUpper k') = t_lower G (TUpper k') /\ t_upper F (TLower k') = t_upper G (TLower k').
  Proof.
    intros Hk. destruct (shows_build k ids G) as [[_ Hu] [_ Hl]]. split; [apply Hl|apply Hu]; intros [| |]; simpl; congruence.
  Qed.
  Lemma t_owner x : t_stack F x = if decide (x ∈ ids) then Some k else t_stack G x.
  Proof.
    unfold F, tbuild.
    assert (forall l F0, t_stack (tlink_pairs l F0) = t_stack F0) as Hp.
    { induction l as [|a [|b l] IH]; intros F0; [done..|]. exact (IH (tset_upper (tset_lower F0 (TProc a) (TProc b)) (TProc b) (TProc a))). }
    assert (forall l F0, t_stack (foldl (fun F i => tset_stack F i k) F0 l) x = if decide (x ∈ l) then Some k else t_stack F0 x) as Hf.
    { induction l as [|a l IH]; intros F0; [by rewrite decide_False by set_solver|]. simpl. rewrite IH. simpl.
      destruct (decide (x ∈ l)); [by rewrite decide_True by set_solver|]. destruct (decide (x = a)) as [->|].
      - by rewrite decide_True by set_solver.
      - by rewrite decide_False by set_solver. }
    rewrite Hf. destruct (decide _); [done|]. destruct ids as [|h t]; [done|].
    exact (f_equal (fun g => g x) (Hp (h :: t) (tset_upper (tset_lower G (TUpper k) (TProc h)) (TProc h) (TUpper k)))).
  Qed.
End one.

(** ** Paths *)
Lemma elem_of_rev (x : nat) l : x ∈ rev l <-> x ∈ l.
Proof. rewrite !elem_of_list_In. symmetry. apply in_rev. Qed.
Fixpoint tpath (next : tpid -> option tpid) (p : tpid) (l : list nat) (t : tpid) : Prop :=
  match l with [] => next p = Some t | x :: l' => next p = Some (TProc x) /\ tpath next (TProc x) l' t end.
Lemma tpath_walk next p l t : tpath next p l t -> twalk next (S (length l)) p = (Some ∘ TProc <$> l) ++ [Some t].
Proof.
  revert p. induction l as [|x l IH]; intros p.
  - cbn. by intros ->.
  - intros [H1 H2]. cbn [length]. change (twalk next (S (S (length l))) p) with
      (next p :: match next p with Some q' => twalk next (S (length l)) q' | None => [] end).
    rewrite H1, (IH _ H2). done.
Qed.
Lemma tpath_app next p l1 x l2 t : tpath next p (l1 ++ x :: l2) t <-> tpath next p l1 (TProc x) /\ tpath next (TProc x) l2 t.
Proof.
  revert p. induction l1 as [|y l1 IH]; intros p; simpl; [done|]. rewrite IH. tauto.
Qed.
Lemma tpath_ext next next' p l t : next' p = next p -> (forall x, x ∈ l -> next' (TProc x) = next (TProc x)) ->
  tpath next p l t -> tpath next' p l t.
Proof.
  revert p. induction l as [|x l IH]; intros p Hp Hl; simpl; [by rewrite Hp|]. rewrite Hp. intros [H1 H2]. split; [done|].
  apply IH; [apply Hl; set_solver| |done]. intros y Hy. apply Hl. set_solver.
Qed.

Lemma own_down k ids G : NoDup ids -> tpath (t_lower (tbuild k ids G)) (TUpper k) ids (TLower k).
Proof.
  intros Hn. destruct (t_ends k ids G) as [Ht _]. revert Ht. generalize (TUpper k) as top. 
  assert (forall c p top, ids = p ++ c -> t_lower (tbuild k ids G) top = Some (emb k (next_below c)) ->
    tpath (t_lower (tbuild k ids G)) top c (TLower k)) as H; [|by intros top; apply (H ids [])].
  induction c as [|x c IH]; intros p top E Ht; [done|]. split; [done|]. apply (IH (p ++ [x])).
  - by rewrite <- app_assoc.
  - apply (t_next k ids G p x c); [done|]. rewrite E in Hn. apply NoDup_app in Hn as (_ & _ & Hn). by apply NoDup_cons in Hn as [? _].
Qed.
Lemma own_up k ids G : NoDup ids -> tpath (t_upper (tbuild k ids G)) (TLower k) (rev ids) (TUpper k).
Proof.
  intros Hn. destruct (t_ends k ids G) as [_ Ht]. revert Ht. generalize (TLower k) as bot.
  assert (forall p c bot, ids = p ++ c -> t_upper (tbuild k ids G) bot = Some (emb k (next_above p)) ->
    tpath (t_upper (tbuild k ids G)) bot (rev p) (TUpper k)) as H; [|intros bot; apply (H ids []); by rewrite app_nil_r].
  induction p as [|x p IH] using rev_ind; intros c bot E Ht; [done|]. rewrite rev_unit. split.
  - rewrite Ht. unfold next_above. by rewrite last_snoc.
  - apply (IH (x :: c)); [by rewrite E, <- app_assoc|]. apply (t_next k ids G p x c); [by rewrite E, <- app_assoc|].
    rewrite E in Hn. rewrite <- app_assoc in Hn. apply NoDup_app in Hn as (_ & _ & Hn). by apply NoDup_cons in Hn as [? _].
Qed.

Lemma own k ids G : NoDup ids -> sends_through (tbuild k ids G) k ids k /\ hears_through (tbuild k ids G) k (rev ids) k.
Proof.
  intros Hn. split.
  - apply tpath_walk. by apply own_down.
  - apply tpath_walk. by apply own_up.
Qed.

Lemma later k ids G post : NoDup ids ->
  (forall k' ids', (k', ids') ∈ post -> k' <> k /\ forall x, x ∈ ids -> x ∉ ids') ->
  sends_through (tbuilds post (tbuild k ids G)) k ids k /\ hears_through (tbuilds post (tbuild k ids G)) k (rev ids) k /\
  (forall x, x ∈ ids -> t_stack (tbuilds post (tbuild k ids G)) x = Some k).
Proof.
  intros Hn Hpost.
  assert (tpath (t_lower (tbuilds post (tbuild k ids G))) (TUpper k) ids (TLower k) /\
    tpath (t_upper (tbuilds post (tbuild k ids G))) (TLower k) (rev ids) (TUpper k) /\
    (forall x, x ∈ ids -> t_stack (tbuilds post (tbuild k ids G)) x = Some k)) as (H1 & H2 & H3).
  { induction post as [|[k' ids'] post IH] using rev_ind.
    - split_and!; [by apply own_down|by apply own_up|]. intros x Hx. simpl. by rewrite t_owner, decide_True.
    - destruct IH as (H1 & H2 & H3). { intros k1 ids1 Hin. apply Hpost. set_solver. }
      destruct (Hpost k' ids') as [Hk Hd]; [set_solver|]. unfold tbuilds in *. rewrite foldl_app. simpl. split_and!.
      + eapply tpath_ext; [| |exact H1]; [by apply t_decks|]. intros x Hx. apply t_other. by apply Hd.
      + eapply tpath_ext; [| |exact H2]; [by apply t_decks|]. intros x Hx. apply t_other. apply Hd. by apply elem_of_rev.
      + intros x Hx. rewrite t_owner, decide_False by (by apply Hd). by apply H3. }
  split_and!; [by apply tpath_walk|by apply tpath_walk|done].
Qed.

Lemma shared k1 k2 a1 a2 i c1 c2 G (F := tbuild k2 (a2 ++ i :: c2) (tbuild k1 (a1 ++ i :: c1) G)) : k1 <> k2 ->
  NoDup (a1 ++ i :: c1) -> NoDup (a2 ++ i :: c2) -> (forall x, x ∈ a1 ++ c1 -> x ∉ a2 ++ c2) ->
  sends_through F k1 (a1 ++ i :: c2) k2 /\ hears_through F k1 (rev c1 ++ i :: rev a2) k2 /\ t_stack F i = Some k2.
Proof.
  intros Hk N1 N2 Hd.
  assert (forall x, x ∈ a1 ++ c1 -> x ∉ a2 ++ i :: c2) as Hd'.
  { intros x Hx Hx'. assert (x = i) as ->.
    { destruct (decide (x = i)); [done|]. exfalso. apply (Hd x Hx). set_solver. }
    apply NoDup_app in N1 as (_ & Hn & N1). apply NoDup_cons in N1 as [N1 _]. apply elem_of_app in Hx as [Hx|Hx]; [|done].
    apply (Hn i Hx). set_solver. }
  split_and!.
  - apply tpath_walk. apply tpath_app. split.
    + apply (tpath_ext (t_lower (tbuild k1 (a1 ++ i :: c1) G))).
      * by apply t_decks.
      * intros x Hx. apply t_other. apply Hd'. set_solver.
      * pose proof (own_down k1 _ G N1) as H. by apply tpath_app in H as [? _].
    + pose proof (own_down k2 _ (tbuild k1 (a1 ++ i :: c1) G) N2) as H. by apply tpath_app in H as [_ ?].
  - apply tpath_walk. apply tpath_app. split.
    + apply (tpath_ext (t_upper (tbuild k1 (a1 ++ i :: c1) G))).
      * by apply t_decks.
      * intros x Hx. apply t_other. apply Hd'. rewrite elem_of_rev in Hx. apply elem_of_app. by right.
      * pose proof (own_up k1 _ G N1) as H. rewrite rev_app_distr in H. simpl in H. rewrite <- app_assoc in H.
        by apply tpath_app in H as [? _].
    + pose proof (own_up k2 _ (tbuild k1 (a1 ++ i :: c1) G) N2) as H. rewrite rev_app_distr in H. simpl in H. rewrite <- app_assoc in H.
      by apply tpath_app in H as [_ ?].
  - unfold F. rewrite t_owner. apply decide_True. set_solver.
Qed.
