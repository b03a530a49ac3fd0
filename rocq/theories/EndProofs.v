(** * Proofs about the receiving side of an endpoint *)
From Verif Require Import GoBase EndModel EndSpec.

Lemma erun_app s ls1 s1 ls2 s2 : erun s ls1 s1 -> erun s1 ls2 s2 -> erun s (ls1 ++ ls2) s2.
Proof.
  intros H1 H2. induction H2 as [|ls s3 l s4 H2 IH Hs]; [by rewrite app_nil_r|].
  rewrite app_assoc. econstructor; done.
Qed.
Lemma erun_one s l s' : estep s l s' -> erun s [l] s'.
Proof. intros H. change [l] with ([] ++ [l]). econstructor; [constructor|done]. Qed.
Lemma erun_cons s l s1 ls s2 : estep s l s1 -> erun s1 ls s2 -> erun s (l :: ls) s2.
Proof. intros H1 H2. change (l :: ls) with ([l] ++ ls). eapply erun_app; [by apply erun_one|done]. Qed.
Lemma ereach_run s ls s' : ereach s -> erun s ls s' -> ereach s'.
Proof. intros [ls0 H0] H. eexists. by eapply erun_app. Qed.
Lemma ereach_ind (P : est -> Prop) :
  P new_end -> (forall s l s', ereach s -> P s -> estep s l s' -> P s') -> forall s, ereach s -> P s.
Proof.
  intros H0 Hs s [ls H]. induction H as [|ls s1 l s2 H IH Hst]; [done|]. eapply Hs; [by exists ls|done..].
Qed.

(** ** What goroutines hold *)
Definition rest (ts : list rpc) (i : nat) : list nat := concat (holds <$> (take i ts ++ drop (S i) ts)).
Lemma hands_at ts i pc : ts !! i = Some pc -> concat (holds <$> ts) ≡ₚ holds pc ++ rest ts i.
Proof.
  intros H. unfold rest. rewrite <- (take_drop_middle _ _ _ H) at 1.
  rewrite !fmap_app, fmap_cons, !concat_app. cbn [concat]. by rewrite Permutation_app_swap_app.
Qed.
Lemma hands_insert ts i pc pc' : ts !! i = Some pc -> concat (holds <$> <[i := pc']> ts) ≡ₚ holds pc' ++ rest ts i.
Proof.
  intros H. assert (i < length ts) as Hi by (by eapply lookup_lt_Some).
  rewrite (hands_at _ i pc') by (by apply list_lookup_insert). unfold rest.
  rewrite take_insert by lia. by rewrite drop_insert_gt by lia.
Qed.
Lemma hands_single pc : in_hands (Est None false [] [pc] 0 false [] [] []) = holds pc.
Proof. unfold in_hands. simpl. by rewrite app_nil_r. Qed.

(** ** One call of SetDataListener *)
Definition one_inv (l : nat) (s : est) : Prop :=
  (e_sets s = [] -> s = Est None false (e_arrived s) [] 0 false [] (e_arrived s) []) /\
  (e_sets s = [Some l] -> e_listener s = Some l /\ e_panic s = false /\
     (e_calls s).*2 ++ in_hands s ++ e_queue s = e_arrived s /\ Forall (fun c => fst c = l) (e_calls s) /\
     ((e_setters s = 1 /\ e_threads s = [] /\ e_auto s = false) \/
      (e_setters s = 0 /\ exists pc, e_threads s = [pc] /\ alive pc))).
Lemma single_lookup {A} (x y : A) i : [x] !! i = Some y -> i = 0 /\ x = y.
Proof. destruct i as [|[]]; [|done..]. intros [= ->]. done. Qed.
Ltac thr1 := match goal with
  | H : [?pc] !! ?i = Some ?x |- _ => apply single_lookup in H as [-> ->]
  end.
Lemma one_inv_reach l s : ereach s -> one_inv l s.
Proof.
  revert s. apply ereach_ind.
  { split; [done|]. done. }
  intros s lb s' _ [H0 H1] Hst. split.
  - intros He. inversion Hst; subst; simpl in *;
      try (by destruct (e_sets s)); specialize (H0 He);
      try (match goal with H : e_threads _ !! _ = Some _ |- _ => rewrite H0 in H; done end).
    + rewrite H0 in H. done.
    + rewrite H0. simpl. done.
  - intros He.
    assert (e_sets s = [] /\ lb = LSet (Some l) \/ e_sets s = [Some l]) as [[Hs ->]|Hs].
    { inversion Hst; subst; simpl in He; try (by right). destruct (e_sets s) as [|x [|]]; simpl in He.
      - injection He as ->. by left.
      - done.
      - done. }
    + specialize (H0 Hs). inversion Hst; subst. simpl. rewrite H0. simpl. unfold in_hands. simpl. split_and!; try done. by left.
    + destruct (H1 Hs) as (Hl & Hp & Ha & Hf & Ht). inversion Hst; subst; simpl in *.
      * exfalso. rewrite Hs in He. simpl in He. done.
      * destruct Ht as [(J2 & J3 & J4)|(J2 & _)]; [|congruence]. rewrite J2 in H. injection H as <-.
        rewrite J3, J4. simpl. split_and!; try done.
        -- unfold in_hands in *. simpl. rewrite J3 in Ha. done.
        -- right. split; [done|]. by exists RStart.
      * split_and!; try done. unfold in_hands in *; simpl in *. rewrite <- Ha. by rewrite <- !app_assoc.
      * destruct Ht as [(J2 & J3 & J4)|(J2 & pc & J3 & J4)]; [by rewrite J3 in H|].
        rewrite J3 in *. thr1. rewrite Hl. unfold in_hands in *. simpl in *. rewrite J3 in *. simpl in *.
        split_and!; try done. right. split; [done|]. by exists RMark.
      * destruct Ht as [(J2 & J3 & J4)|(J2 & pc & J3 & J4)]; [by rewrite J3 in H|].
        rewrite J3 in *. thr1. unfold in_hands in *. simpl in *. rewrite J3 in *. simpl in *.
        split_and!; try done. right. split; [done|]. by exists RRange.
      * destruct Ht as [(J2 & J3 & J4)|(J2 & pc & J3 & J4)]; [by rewrite J3 in H|].
        rewrite J3 in *. thr1. unfold in_hands in *. simpl in *. rewrite J3 in *. simpl in *.
        split_and!; try done; [by rewrite <- Ha, H2|]. right. split; [done|]. by exists (RGot m).
      * destruct Ht as [(J2 & J3 & J4)|(J2 & pc & J3 & J4)]; [by rewrite J3 in H|].
        rewrite J3 in *. thr1. rewrite Hl. unfold in_hands in *. simpl in *. rewrite J3 in *. simpl in *.
        split_and!; try done. right. split; [done|]. by exists (RCall m).
      * destruct Ht as [(J2 & J3 & J4)|(J2 & pc & J3 & J4)]; [by rewrite J3 in H|].
        rewrite J3 in *. thr1. done.
      * destruct Ht as [(J2 & J3 & J4)|(J2 & pc & J3 & J4)]; [by rewrite J3 in H|].
        rewrite J3 in *. thr1. rewrite Hl in H2. injection H2 as <-. unfold in_hands in *. simpl in *. rewrite J3 in *. simpl in *.
        split_and!; try done.
        -- rewrite fmap_app. simpl. rewrite <- Ha, <- app_assoc. done.
        -- apply Forall_app. split; [done|]. by constructor.
        -- right. split; [done|]. by exists (RIn l m).
      * congruence.
      * destruct Ht as [(J2 & J3 & J4)|(J2 & pc & J3 & J4)]; [by rewrite J3 in H|].
        rewrite J3 in *. thr1. unfold in_hands in *. simpl in *. rewrite J3 in *. simpl in *.
        split_and!; try done. right. split; [done|]. by exists RRange.
Qed.
Lemma one_listener_in_order s l : ereach s -> e_sets s = [Some l] ->
  e_panic s = false /\ (e_calls s).*2 ++ in_hands s ++ e_queue s = e_arrived s /\
  Forall (fun c => fst c = l) (e_calls s).
Proof. intros Hr Hs. destruct (one_inv_reach l s Hr) as [_ H]. destruct (H Hs) as (? & ? & ? & ? & ?). done. Qed.

(** ** Listeners that are never nil *)
Definition nn_inv (s : est) : Prop :=
  Forall is_Some (e_sets s) ->
  e_panic s = false /\ Forall alive (e_threads s) /\
  (e_sets s <> [] -> is_Some (e_listener s)) /\ (e_sets s = [] -> e_threads s = [] /\ e_setters s = 0) /\
  (e_threads s = [] -> e_auto s = false) /\
  (e_sets s <> [] -> e_setters s = 0 -> e_threads s <> []) /\
  (e_calls s).*2 ++ in_hands s ++ e_queue s ≡ₚ e_arrived s /\
  Forall (fun c => Some (fst c) ∈ e_sets s) (e_calls s) /\
  (forall l, e_listener s = Some l -> Some l ∈ e_sets s).
Lemma insert_ne_nil {A} (l : list A) i x : l <> [] -> <[i := x]> l <> [].
Proof. destruct l, i; done. Qed.
Lemma lookup_ne_nil {A} (l : list A) i x : l !! i = Some x -> l <> [].
Proof. by destruct l. Qed.
Lemma nn_inv_reach s : ereach s -> nn_inv s.
Proof.
  revert s. apply ereach_ind.
  { intros _. unfold in_hands. simpl. split_and!; done. }
  intros s lb s' _ IH Hst Hn.
  assert (Forall is_Some (e_sets s)) as Hn0.
  { inversion Hst; subst; try done. simpl in Hn. by apply Forall_app in Hn as [? _]. }
  destruct (IH Hn0) as (Hp & Ha & Hl & He & Hau & Hns & Hm & Hc & Hls). clear IH.
  assert (forall i pc, e_threads s !! i = Some pc -> is_Some (e_listener s)) as Hthr.
  { intros i pc Hi. apply Hl. intros E. destruct (He E) as [E' _]. by rewrite E' in Hi. }
  inversion Hst; subst; simpl in *.
  - apply Forall_app in Hn as [_ Hn]. apply Forall_inv in Hn. split_and!; try done.
    + intros E. by apply app_nil in E as [_ ?].
    + eapply Forall_impl; [exact Hc|]. intros c Hin. apply elem_of_app. by left.
    + intros l' ->. apply elem_of_app. right. left.
  - split_and!; try done.
    + apply Forall_app. split; [done|]. destruct (e_auto s); by repeat constructor.
    + intros E. destruct (He E) as [_ E2]. congruence.
    + destruct (e_auto s) eqn:E; [|done]. rewrite app_nil_r. intros E2. specialize (Hau E2). congruence.
    + intros E1 E2. destruct (e_auto s) eqn:E; [|by destruct (e_threads s)]. rewrite app_nil_r. intros E3.
      specialize (Hau E3). congruence.
    + unfold in_hands in *. simpl. rewrite fmap_app, concat_app.
      assert (concat (holds <$> (if e_auto s then [] else [RStart])) = []) as -> by (by destruct (e_auto s)).
      by rewrite app_nil_r.
  - split_and!; try done. unfold in_hands in *; simpl in *. rewrite <- Hm. by rewrite <- !app_assoc.
  - destruct (Hthr _ _ H) as [l0 El]. rewrite El in *. split_and!; try done.
    + by apply Forall_insert.
    + intros E. destruct (He E) as [E' _]. by rewrite E' in H.
    + intros E. by apply insert_ne_nil in E; [|by eapply lookup_ne_nil].
    + intros _ _. apply insert_ne_nil. by eapply lookup_ne_nil.
    + unfold in_hands in *. simpl. rewrite (hands_insert _ _ _ _ H). rewrite (hands_at _ _ _ H) in Hm. done.
  - split_and!; try done.
    + by apply Forall_insert.
    + intros E. destruct (He E) as [E' _]. by rewrite E' in H.
    + intros E. by apply insert_ne_nil in E; [|by eapply lookup_ne_nil].
    + intros _ _. apply insert_ne_nil. by eapply lookup_ne_nil.
    + unfold in_hands in *. simpl. rewrite (hands_insert _ _ _ _ H). rewrite (hands_at _ _ _ H) in Hm. done.
  - split_and!; try done.
    + by apply Forall_insert.
    + intros E. destruct (He E) as [E' _]. by rewrite E' in H.
    + intros E. by apply insert_ne_nil in E; [|by eapply lookup_ne_nil].
    + intros _ _. apply insert_ne_nil. by eapply lookup_ne_nil.
    + unfold in_hands in *. simpl. rewrite (hands_insert _ _ _ _ H). rewrite (hands_at _ _ _ H), H0 in Hm. simpl in *.
      rewrite <- Hm. f_equiv. by rewrite Permutation_middle.
  - destruct (Hthr _ _ H) as [l0 El]. rewrite El in *. split_and!; try done.
    + by apply Forall_insert.
    + intros E. destruct (He E) as [E' _]. by rewrite E' in H.
    + intros E. by apply insert_ne_nil in E; [|by eapply lookup_ne_nil].
    + intros _ _. apply insert_ne_nil. by eapply lookup_ne_nil.
    + unfold in_hands in *. simpl. rewrite (hands_insert _ _ _ _ H). rewrite (hands_at _ _ _ H) in Hm. done.
  - eapply Forall_lookup_1 in H; [|done]. done.
  - split_and!; try done.
    + by apply Forall_insert.
    + intros E. destruct (He E) as [E' _]. by rewrite E' in H.
    + intros E. by apply insert_ne_nil in E; [|by eapply lookup_ne_nil].
    + intros _ _. apply insert_ne_nil. by eapply lookup_ne_nil.
    + unfold in_hands in *. simpl. rewrite (hands_insert _ _ _ _ H). rewrite (hands_at _ _ _ H) in Hm. simpl in *.
      rewrite fmap_app. simpl. rewrite <- app_assoc. done.
    + apply Forall_app. split; [done|]. constructor; [|done]. simpl. by apply Hls.
  - destruct (Hthr _ _ H) as [l0 El]. congruence.
  - split_and!; try done.
    + by apply Forall_insert.
    + intros E. destruct (He E) as [E' _]. by rewrite E' in H.
    + intros E. by apply insert_ne_nil in E; [|by eapply lookup_ne_nil].
    + intros _ _. apply insert_ne_nil. by eapply lookup_ne_nil.
    + unfold in_hands in *. simpl. rewrite (hands_insert _ _ _ _ H). rewrite (hands_at _ _ _ H) in Hm. done.
Qed.
Lemma non_nil_exactly_once s : ereach s -> Forall is_Some (e_sets s) ->
  e_panic s = false /\ (e_calls s).*2 ++ in_hands s ++ e_queue s ≡ₚ e_arrived s /\
  Forall (fun c => Some (fst c) ∈ e_sets s) (e_calls s).
Proof. intros Hr Hn. destruct (nn_inv_reach s Hr Hn) as (? & ? & ? & ? & ? & ? & ? & ? & ?). done. Qed.

(** ** Listeners replaced one after the other *)
Definition paced_inv (s : est) : Prop :=
  Forall is_Some (e_sets s) -> (e_calls s).*2 ++ in_hands s ++ e_queue s = e_arrived s /\
  (e_threads s = [] \/ exists pc, e_threads s = [pc] /\ (e_auto s = false -> starting pc)).
Lemma sets_mono s l s' : estep s l s' -> Forall is_Some (e_sets s') -> Forall is_Some (e_sets s).
Proof. intros Hst. destruct Hst; simpl; try done. by intros [? _]%Forall_app. Qed.
Lemma paced_reach s : paced new_end s -> ereach s.
Proof.
  induction 1 as [|s1 l s2 H [ls IH] Hst _]; [by exists []; constructor|]. exists (ls ++ [l]). by econstructor.
Qed.
Lemma paced_cons s l s1 s2 : estep s l s1 -> (l = LCheck -> Forall (fun pc => ~ starting pc) (e_threads s)) ->
  paced s1 s2 -> paced s s2.
Proof.
  intros Hst Hw H. induction H as [|s2 m s3 H IH Hst2 Hw2]; [|by econstructor].
  econstructor; [constructor|done..].
Qed.
Lemma paced_inv_holds s : paced new_end s -> paced_inv s.
Proof.
  induction 1 as [|s1 l s2 H IH Hst Hw]; [by intros _; split; [|left]|].
  intros Hn. pose proof (sets_mono _ _ _ Hst Hn) as Hn1. destruct (IH Hn1) as [Ha Ht].
  destruct (nn_inv_reach s1 (paced_reach _ H) Hn1) as (Hp & Hal & Hl & He & _).
  assert (forall i pc, e_threads s1 !! i = Some pc -> i = 0 /\ e_threads s1 = [pc] /\ is_Some (e_listener s1) /\
     (e_auto s1 = false -> starting pc)) as Hone.
  { intros i pc Hi. destruct Ht as [E|(pc' & E & Hs)]; rewrite E in Hi; [done|].
    apply single_lookup in Hi as [-> ->]. split_and!; try done. apply Hl. intros E0. destruct (He E0). congruence. }
  clear IH. destruct Hst as [s1 l|s1 n Hset|s1 m|s1 i Hi|s1 i Hi|s1 i m q Hi Hq|s1 i m Hi|s1 i Hi|s1 i m l' Hi Hl'|s1 i m Hi Hl'|s1 i l' m Hi];
    try (destruct (Hone _ _ Hi) as (-> & E & [l0 El] & Hs); clear Hone Ht; rewrite E in Hi);
    unfold in_hands in *; simpl in *; try rewrite E in *; simpl in *; try rewrite El in *.
  - done.
  - split.
    + rewrite <- Ha. rewrite fmap_app, concat_app. destruct (e_auto s1); simpl; by rewrite app_nil_r.
    + destruct Ht as [->|(pc & E & Hs)]; simpl.
      * destruct (e_auto s1); [by left|]. right. exists RStart. split; [done|]. intros _. by left.
      * destruct (e_auto s1); [rewrite E; right; by exists pc|]. exfalso.
        specialize (Hw eq_refl). rewrite E in Hw. apply Forall_inv in Hw. by apply Hw, Hs.
  - split; [|done]. rewrite <- Ha. by rewrite <- !app_assoc.
  - split; [done|]. right. exists RMark. split; [done|]. intros _. by right.
  - split; [done|]. right. by exists RRange.
  - split; [by rewrite <- Ha, Hq|]. right. exists (RGot m). split; [done|]. intros K. by destruct (Hs K).
  - split; [done|]. right. exists (RCall m). split; [done|]. intros K. by destruct (Hs K).
  - apply Forall_inv in Hal. done.
  - split; [|right; exists (RIn l' m); split; [done|]; intros K; by destruct (Hs K)].
    rewrite fmap_app, <- Ha, <- app_assoc. done.
  - done.
  - split; [done|]. right. exists RRange. split; [done|]. intros K. by destruct (Hs K).
Qed.
Lemma paced_in_order s : paced new_end s -> Forall is_Some (e_sets s) ->
  e_panic s = false /\ (e_calls s).*2 ++ in_hands s ++ e_queue s = e_arrived s /\
  Forall (fun c => Some (fst c) ∈ e_sets s) (e_calls s).
Proof.
  intros Hp Hn. destruct (non_nil_exactly_once s (paced_reach s Hp) Hn) as (? & _ & ?).
  by destruct (paced_inv_holds s Hp Hn).
Qed.

(** ** Draining *)
Definition good (s : est) : Prop := is_Some (e_listener s) /\ someone_receives s.
Lemma to_range s l : e_listener s = Some l -> forall i pc, e_threads s !! i = Some pc -> alive pc ->
  exists ls s', erun s ls s' /\ Forall silent ls /\ e_threads s' !! i = Some RRange /\ e_listener s' = Some l /\
    e_queue s' = e_queue s /\ e_arrived s' = e_arrived s /\ exists c, e_calls s' = e_calls s ++ c.
Proof.
  intros Hl i pc Hi Ha. assert (i < length (e_threads s)) as Hlt by (by eapply lookup_lt_Some).
  assert (forall m, e_threads s !! i = Some (RCall m) ->
    exists ls s', erun s ls s' /\ Forall silent ls /\ e_threads s' !! i = Some RRange /\ e_listener s' = Some l /\
    e_queue s' = e_queue s /\ e_arrived s' = e_arrived s /\ exists c, e_calls s' = e_calls s ++ c) as HC.
  { intros m Hm. do 2 eexists. split.
    - eapply erun_cons; [by eapply st_call|]. apply erun_one. eapply st_return.
      simpl. by rewrite list_lookup_insert.
    - simpl. rewrite list_lookup_insert by (rewrite insert_length; done). split_and!; try done.
      + by repeat constructor.
      + by eexists. }
  destruct pc as [| | |m| |m|l' m|]; try done.
  - do 2 eexists. split.
    + eapply erun_cons; [by eapply st_start|]. apply erun_one. apply st_mark. simpl. rewrite Hl. by rewrite list_lookup_insert.
    + simpl. rewrite list_lookup_insert by (rewrite insert_length; done). split_and!; try done.
      * by repeat constructor.
      * exists []. by rewrite app_nil_r.
  - do 2 eexists. split; [apply erun_one; by eapply st_mark|]. simpl. rewrite list_lookup_insert by done.
    split_and!; try done; [by repeat constructor|]. exists []. by rewrite app_nil_r.
  - exists [], s. split_and!; try done; [constructor|]. exists []. by rewrite app_nil_r.
  - (* RGot *) do 2 eexists. split.
    + eapply erun_cons; [by eapply st_got|]. eapply erun_cons.
      { eapply (st_call _ i m l); simpl; [rewrite Hl; by rewrite list_lookup_insert|done]. }
      apply erun_one. eapply (st_return _ i). simpl. by rewrite list_lookup_insert by (rewrite insert_length; done).
    + simpl. rewrite list_lookup_insert by (rewrite !insert_length; done). split_and!; try done.
      * by repeat constructor.
      * by eexists.
  - by eapply HC.
  - do 2 eexists. split; [apply erun_one; by eapply st_return|]. simpl. rewrite list_lookup_insert by done.
    split_and!; try done; [by repeat constructor|]. exists []. by rewrite app_nil_r.
Qed.
Lemma drain q : forall s l i, e_listener s = Some l -> e_threads s !! i = Some RRange -> e_queue s = q ->
  exists ls s', erun s ls s' /\ Forall silent ls /\ e_queue s' = [] /\ e_calls s' = e_calls s ++ ((l,.) <$> q).
Proof.
  induction q as [|m q IH]; intros s l i Hl Hi Hq.
  { exists [], s. split_and!; try done; [constructor|]. by rewrite app_nil_r. }
  assert (i < length (e_threads s)) as Hlt by (by eapply lookup_lt_Some).
  set (s1 := goto (set_queue s q) i (RGot m)). set (s2 := goto s1 i (RCall m)).
  set (s3 := goto (add_call s2 (l, m)) i (RIn l m)). set (s4 := goto s3 i RRange).
  assert (erun s [LThread; LThread; LThread; LThread] s4) as H4.
  { eapply erun_cons; [by eapply st_receive|]. eapply erun_cons.
    { pose proof (st_got s1 i m) as G. simpl in G. rewrite Hl in G. apply G. by apply list_lookup_insert. }
    eapply erun_cons; [eapply (st_call s2 i m l); [|done]; apply list_lookup_insert; simpl; by rewrite insert_length|].
    apply erun_one. apply (st_return s3 i l m). simpl. apply list_lookup_insert. by rewrite !insert_length. }
  destruct (IH s4 l i) as (ls & s' & K1 & K2 & K3 & K4); [done| |done|].
  { simpl. apply list_lookup_insert. by rewrite !insert_length. }
  exists ([LThread; LThread; LThread; LThread] ++ ls), s'. split_and!; [by eapply erun_app| |done|].
  - apply Forall_app. split; [by repeat constructor|done].
  - rewrite K4. simpl. by rewrite <- app_assoc.
Qed.
Lemma drainable s : good s ->
  exists ls s', erun s ls s' /\ Forall silent ls /\ e_queue s' = [] /\
    exists c l, e_listener s = Some l /\ e_calls s' = e_calls s ++ c ++ ((l,.) <$> e_queue s).
Proof.
  intros [[l Hl] (i & pc & Hi & Ha)].
  destruct (to_range s l Hl i pc Hi Ha) as (ls1 & s1 & H1 & H2 & H3 & H4 & H5 & H6 & c & H7).
  destruct (drain (e_queue s) s1 l i) as (ls2 & s2 & K1 & K2 & K3 & K4); [done..|].
  exists (ls1 ++ ls2), s2. split_and!; [by eapply erun_app|by apply Forall_app|done|].
  exists c, l. split; [done|]. by rewrite K4, H7, <- app_assoc.
Qed.
(** Somebody goes on receiving as long as the listener is not nil. *)
Lemma good_step s l s' : good s -> no_set l -> estep s l s' -> good s'.
Proof.
  intros [Hl (i & pc & Hi & Ha)] Hn Hst.
  assert (forall j pc', alive pc' -> exists k pc0, <[j := pc']> (e_threads s) !! k = Some pc0 /\ alive pc0) as HH.
  { intros j pc' Ha'. destruct (decide (j = i)) as [->|].
    - exists i, pc'. split; [|done]. apply list_lookup_insert. by eapply lookup_lt_Some.
    - exists i, pc. split; [|done]. by rewrite list_lookup_insert_ne. }
  inversion Hst; subst; simpl in *; try done; (split; [done|]); unfold someone_receives; simpl.
  - exists i, pc. split; [|done]. apply lookup_app_l_Some. done.
  - by exists i, pc.
  - apply HH. destruct Hl as [? ->]. done.
  - by apply HH.
  - by apply HH.
  - apply HH. destruct Hl as [? ->]. done.
  - destruct (decide (i = i0)) as [->|]; [rewrite H in Hi; by injection Hi as <-|].
    exists i, pc. split; [|done]. by rewrite list_lookup_insert_ne.
  - by apply HH.
  - by exists i, pc.
  - by apply HH.
Qed.
Lemma good_run s ls s' : good s -> Forall no_set ls -> erun s ls s' -> good s'.
Proof.
  intros Hg Hn Hr. induction Hr as [|ls s1 l s2 H IH Hst]; [done|].
  apply Forall_app in Hn as [Hn1 Hn2]. apply Forall_inv in Hn2. eapply good_step; [by apply IH|done..].
Qed.
Lemma non_nil_good s : ereach s -> Forall is_Some (e_sets s) -> e_sets s <> [] -> e_setters s = 0 -> good s.
Proof.
  intros Hr Hn He H0. destruct (nn_inv_reach s Hr Hn) as (_ & Ha & Hl & _ & _ & Hne & _).
  split; [by apply Hl|]. specialize (Hne He H0). destruct (e_threads s) as [|pc ts] eqn:E; [done|].
  exists 0, pc. split; [by rewrite E|]. by apply Forall_cons in Ha as [? _].
Qed.

(** ** Calm executions *)
Definition active (pc : rpc) : Prop := match pc with RStart | RMark | RExit => False | _ => True end.
Definition calm_inv (s : est) : Prop :=
  (e_auto s = true -> exists i pc, e_threads s !! i = Some pc /\ active pc) /\
  (is_Some (e_listener s) -> e_setters s = 0 -> someone_receives s).
Lemma calm_inv_step s l s' : calm_inv s -> estep s l s' -> (l = LCheck -> RClear ∉ e_threads s) -> calm_inv s'.
Proof.
  intros [H1 H2] Hst Hw.
  assert (HA : forall j pc', active pc' -> (e_auto s = true -> exists i pc, e_threads s !! i = Some pc /\ active pc) ->
     e_auto s = true -> exists k pc0, <[j := pc']> (e_threads s) !! k = Some pc0 /\ active pc0).
  { intros j pc' Ha' K E. destruct (K E) as (i & pc & Hi & Ha). destruct (decide (j = i)) as [->|].
    - exists i, pc'. split; [|done]. apply list_lookup_insert. by eapply lookup_lt_Some.
    - exists i, pc. split; [|done]. by rewrite list_lookup_insert_ne. }
  assert (HP : forall j x pc', e_threads s !! j = Some x -> ~ active x -> e_auto s = true ->
     exists k pc0, <[j := pc']> (e_threads s) !! k = Some pc0 /\ active pc0).
  { intros j x pc' Hj Hx E. destruct (H1 E) as (i & pc & Hi & Ha). exists i, pc. split; [|done].
    rewrite list_lookup_insert_ne; [done|]. intros ->. rewrite Hi in Hj. injection Hj as ->. done. }
  assert (HB : forall j pc', alive pc' -> someone_receives s ->
     exists k pc0, <[j := pc']> (e_threads s) !! k = Some pc0 /\ alive pc0).
  { intros j pc' Ha' (i & pc & Hi & Ha). destruct (decide (j = i)) as [->|].
    - exists i, pc'. split; [|done]. apply list_lookup_insert. by eapply lookup_lt_Some.
    - exists i, pc. split; [|done]. by rewrite list_lookup_insert_ne. }
  inversion Hst; subst; unfold calm_inv, someone_receives; simpl in *.
  - split; [done|lia].
  - specialize (Hw eq_refl). split.
    + intros E. destruct (H1 E) as (i & pc & Hi & Ha). exists i, pc. split; [|done]. by apply lookup_app_l_Some.
    + intros Hl ->. destruct (e_auto s) eqn:E.
      * destruct (H1 eq_refl) as (i & pc & Hi & Ha). exists i, pc. rewrite app_nil_r. split; [done|].
        destruct pc; try done. exfalso. apply Hw. by eapply elem_of_list_lookup_2.
      * exists (length (e_threads s)), RStart. split; [|done]. apply list_lookup_middle. done.
  - split; done.
  - split.
    + intros E. eapply HP; [done| |done]. intros [].
    + intros Hl E. destruct Hl as [x El]. rewrite El in *. apply HB; [done|]. apply H2; [by eexists|done].
  - split; [|intros Hl E; apply HB; [done|by apply H2]].
    intros _. exists i, RRange. split; [|done]. apply list_lookup_insert. by eapply lookup_lt_Some.
  - split; [by apply HA|]. intros Hl E. apply HB; [done|by apply H2].
  - split.
    + apply HA; [by destruct (e_listener s)|done].
    + intros Hl E. pose proof (H2 Hl E). destruct Hl as [x El]. rewrite El in *. by apply HB.
  - split; [done|]. intros Hl E. destruct (H2 Hl E) as (j & pc & Hj & Ha). exists j, pc. split; [|done].
    rewrite list_lookup_insert_ne; [done|]. intros ->. rewrite H in Hj. by injection Hj as <-.
  - split; [by apply HA|]. intros Hl E. apply HB; [done|by apply H2].
  - split; done.
  - split; [by apply HA|]. intros Hl E. apply HB; [done|by apply H2].
Qed.
Lemma calm_cons s l s1 s2 : estep s l s1 -> (l = LCheck -> RClear ∉ e_threads s) -> calm s1 s2 -> calm s s2.
Proof.
  intros Hst Hw H. induction H as [|s2 m s3 H IH Hst2 Hw2]; [|by econstructor].
  econstructor; [constructor|done..].
Qed.
Lemma calm_good s : calm new_end s -> is_Some (e_listener s) -> e_setters s = 0 -> good s.
Proof.
  intros Hc. assert (calm_inv s) as [_ H].
  { induction Hc as [|s1 l s2 H IH Hst Hw]; [split; [done|intros [? [=]]]|]. by eapply calm_inv_step. }
  intros Hl H0. split; [done|]. by apply H.
Qed.

(** ** The bad schedules *)
Lemma reorder l m1 m2 : exists s, ereach s /\ e_sets s = [Some l; Some l] /\ e_arrived s = [m1; m2] /\
  e_calls s = [(l, m2); (l, m1)].
Proof.
  eexists. split.
  { eexists.
    eapply erun_cons; [apply (st_set _ (Some l))|]. eapply erun_cons; [by eapply st_check|]. cbn.
    eapply erun_cons; [apply (st_set _ (Some l))|]. eapply erun_cons; [by eapply st_check|]. cbn.
    eapply erun_cons; [by apply (st_start _ 0)|]. eapply erun_cons; [by apply (st_mark _ 0)|].
    eapply erun_cons; [by apply (st_start _ 1)|]. eapply erun_cons; [by apply (st_mark _ 1)|]. cbn.
    eapply erun_cons; [by apply (st_arrive _ m1)|]. eapply erun_cons; [by apply (st_arrive _ m2)|]. cbn.
    eapply erun_cons; [by eapply (st_receive _ 0)|]. eapply erun_cons; [by eapply (st_receive _ 1)|]. cbn.
    eapply erun_cons; [by eapply (st_got _ 1)|]. eapply erun_cons; [by eapply (st_call _ 1)|]. cbn.
    eapply erun_cons; [by eapply (st_got _ 0)|]. apply erun_one. by eapply (st_call _ 0). }
  done.
Qed.
Lemma nil_call l m : exists s, ereach s /\ e_sets s = [Some l; None] /\ e_arrived s = [m] /\ e_panic s = true.
Proof.
  eexists. split.
  { eexists.
    eapply erun_cons; [apply (st_set _ (Some l))|]. eapply erun_cons; [by eapply st_check|]. cbn.
    eapply erun_cons; [by apply (st_start _ 0)|]. eapply erun_cons; [by apply (st_mark _ 0)|]. cbn.
    eapply erun_cons; [by apply (st_arrive _ m)|]. cbn.
    eapply erun_cons; [by eapply (st_receive _ 0)|]. eapply erun_cons; [by eapply (st_got _ 0)|]. cbn.
    eapply erun_cons; [apply (st_set _ None)|]. cbn.
    apply erun_one. by eapply (st_call_nil _ 0). }
  done.
Qed.
Lemma dropped l m : exists s, ereach s /\ e_sets s = [Some l; None; Some l] /\ e_arrived s = [m] /\
  e_setters s = 0 /\ e_listener s = Some l /\ e_queue s = [] /\ in_hands s = [] /\ e_calls s = [].
Proof.
  eexists. split.
  { eexists.
    eapply erun_cons; [apply (st_set _ (Some l))|]. eapply erun_cons; [by eapply st_check|]. cbn.
    eapply erun_cons; [by apply (st_start _ 0)|]. eapply erun_cons; [by apply (st_mark _ 0)|]. cbn.
    eapply erun_cons; [apply (st_set _ None)|]. eapply erun_cons; [by eapply st_check|]. cbn.
    eapply erun_cons; [by apply (st_arrive _ m)|]. cbn.
    eapply erun_cons; [by eapply (st_receive _ 0)|]. eapply erun_cons; [by eapply (st_got _ 0)|]. cbn.
    eapply erun_cons; [by eapply (st_clear _ 0)|]. cbn.
    eapply erun_cons; [apply (st_set _ (Some l))|]. apply erun_one. by eapply st_check. }
  done.
Qed.
(** Nobody receives any more. *)
Definition dead (s : est) : Prop := Forall (fun pc => pc = RExit) (e_threads s) /\ e_setters s = 0.
Lemma dead_step s l s' : dead s -> no_set l -> estep s l s' -> dead s' /\ e_calls s' = e_calls s.
Proof.
  intros [Hd H0] Hn Hst.
  assert (forall i pc, e_threads s !! i = Some pc -> pc = RExit) as HH by (intros i pc Hi; exact (Forall_lookup_1 _ _ _ _ Hd Hi)).
  inversion Hst; subst; simpl in *; try done;
    try (match goal with H : e_threads _ !! _ = Some _ |- _ => apply HH in H; done end). congruence.
Qed.
Lemma dead_run s ls s' : dead s -> Forall no_set ls -> erun s ls s' -> dead s' /\ e_calls s' = e_calls s.
Proof.
  intros Hg Hn Hr. induction Hr as [|ls s1 l s2 H IH Hst]; [done|].
  apply Forall_app in Hn as [Hn1 Hn2]. apply Forall_inv in Hn2.
  destruct (IH Hn1) as [K1 K2]. destruct (dead_step _ _ _ K1 Hn2 Hst). split; [done|congruence].
Qed.
Lemma lost_wakeup l1 l2 m ms : exists s, ereach s /\ e_sets s = [Some l1; None; Some l2] /\ e_setters s = 0 /\
  e_listener s = Some l2 /\ e_arrived s = m :: ms /\ e_queue s = ms /\ e_calls s = [] /\
  forall ls s', Forall no_set ls -> erun s ls s' -> e_calls s' = [].
Proof.
  assert (exists s, ereach s /\ e_sets s = [Some l1; None; Some l2] /\ e_setters s = 0 /\
    e_listener s = Some l2 /\ e_arrived s = [m] /\ e_queue s = [] /\ e_calls s = [] /\ dead s)
    as (s & H1 & H2 & H3 & H4 & H5 & H6 & H7 & H8).
  { eexists. split.
    { eexists.
      eapply erun_cons; [apply (st_set _ (Some l1))|]. eapply erun_cons; [by eapply st_check|]. cbn.
      eapply erun_cons; [by apply (st_start _ 0)|]. eapply erun_cons; [by apply (st_mark _ 0)|]. cbn.
      eapply erun_cons; [apply (st_set _ None)|]. eapply erun_cons; [by eapply st_check|]. cbn.
      eapply erun_cons; [by apply (st_arrive _ m)|]. cbn.
      eapply erun_cons; [by eapply (st_receive _ 0)|]. eapply erun_cons; [by eapply (st_got _ 0)|]. cbn.
      eapply erun_cons; [apply (st_set _ (Some l2))|]. eapply erun_cons; [by eapply st_check|]. cbn.
      apply erun_one. by eapply (st_clear _ 0). }
    split_and!; try done. split; [|done]. by repeat constructor. }
  assert (exists s', erun s (LArrive <$> ms) s' /\ e_sets s' = e_sets s /\ e_setters s' = e_setters s /\
    e_listener s' = e_listener s /\ e_arrived s' = e_arrived s ++ ms /\ e_queue s' = e_queue s ++ ms /\
    e_calls s' = e_calls s /\ e_threads s' = e_threads s) as (s' & K1 & K2 & K3 & K4 & K5 & K6 & K7 & K8).
  { clear. revert s. induction ms as [|x ms IH]; intros s.
    - exists s. rewrite !app_nil_r. split_and!; try done. constructor.
    - destruct (IH (Est (e_listener s) (e_auto s) (e_queue s ++ [x]) (e_threads s) (e_setters s) (e_panic s)
                             (e_sets s) (e_arrived s ++ [x]) (e_calls s))) as (s' & H1 & H2 & H3 & H4 & H5 & H6 & H7 & H8).
      exists s'. simpl in *. rewrite <- !app_assoc in *. split_and!; try done. eapply erun_cons; [|exact H1]. constructor. }
  exists s'. rewrite K2, K3, K4, K5, K6, K7. rewrite H5, H6. split_and!; try done; [by eapply ereach_run|].
  intros ls s2 Hn Hr. eapply dead_run in Hr; [|split; [rewrite K8; apply H8|by rewrite K3]|done].
  destruct Hr as [_ ->]. by rewrite K7.
Qed.
Lemma listener_run s ls s' : Forall no_set ls -> erun s ls s' -> e_listener s' = e_listener s.
Proof.
  intros Hn Hr. induction Hr as [|ls s1 l s2 H IH Hst]; [done|].
  apply Forall_app in Hn as [Hn1 Hn2]. apply Forall_inv in Hn2. rewrite <- (IH Hn1).
  by inversion Hst; subst.
Qed.
Lemma good_keeps s : good s -> keeps_receiving s.
Proof.
  intros Hg. pose proof Hg as [[l Hl] _]. exists l. split; [done|]. intros ls s1 Hn Hr.
  destruct (drainable s1) as (ls2 & s2 & H1 & H2 & H3 & c & l' & H4 & H5); [by eapply good_run|].
  rewrite (listener_run _ _ _ Hn Hr), Hl in H4. injection H4 as <-. by exists ls2, s2, c.
Qed.
Lemma non_nil_keeps s : ereach s -> Forall is_Some (e_sets s) -> e_sets s <> [] -> e_setters s = 0 ->
  keeps_receiving s.
Proof. intros. by apply good_keeps, non_nil_good. Qed.
Lemma calm_keeps s : calm new_end s -> is_Some (e_listener s) -> e_setters s = 0 -> keeps_receiving s.
Proof. intros. by apply good_keeps, calm_good. Qed.
