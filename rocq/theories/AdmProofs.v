(** * Proofs about administration by several goroutines *)
From Verif Require Import GoBase MgmtModel MgmtSpec MgmtProofs MgmtFacts AdmModel AdmSpec.

(** ** Slices that share an array *)
Lemma append1_look g h s x h' s' : sl_ok h s -> append1 g h s x = (h', s') -> forall t, sl_ok h t ->
  sl_ok h' t /\
  (forall k, k < sl_len t -> array_of h' t !! k =
     if decide (sl_arr t = sl_arr s /\ k = sl_len s) then Some x else array_of h t !! k) /\
  (sl_arr s' = sl_arr s \/ sl_arr t <> sl_arr s').
Proof.
  unfold sl_ok, append1, array_of. destruct s as [[a|] n]; simpl.
  - intros (l & Hl & Hn). rewrite Hl; simpl. destruct (Nat.ltb_spec n (length l)); intros [= <- <-] [[b|] m]; simpl.
    + intros (l' & Hl' & Hm). assert (a < length h) by (eapply lookup_lt_Some; done).
      destruct (decide (a = b)) as [->|Hne].
      * rewrite Hl in Hl'. injection Hl' as <-. rewrite list_lookup_insert by done. simpl. split_and!.
        -- eexists; split; [done|]. by rewrite insert_length.
        -- intros k Hk. rewrite Hl. simpl. case_decide as Hd.
           ++ destruct Hd as [_ ->]. apply list_lookup_insert. lia.
           ++ apply list_lookup_insert_ne. intros <-. by apply Hd.
        -- by left.
      * rewrite list_lookup_insert_ne by done. split_and!; [eauto| |by left].
        intros k Hk. rewrite decide_False by naive_solver. done.
    + intros ->. split_and!; [done| |by left]. intros k Hk. lia.
    + intros (l' & Hl' & Hm). assert (b < length h) by (eapply lookup_lt_Some; done).
      rewrite lookup_app_l by done. split_and!; [eauto| |].
      * intros k Hk. rewrite decide_False; [done|]. intros [[= ->] ->]. rewrite Hl in Hl'. injection Hl' as <-. lia.
      * right. intros [= ->]. lia.
    + intros ->. split_and!; [done| |by right]. intros k Hk. lia.
  - intros -> [= <- <-] [[b|] m]; simpl.
    + intros (l' & Hl' & Hm). assert (b < length h) by (eapply lookup_lt_Some; done).
      rewrite lookup_app_l by done. split_and!; [eauto| |].
      * intros k Hk. try rewrite decide_False by naive_solver. done.
      * right. intros [= ->]. lia.
    + intros ->. split_and!; [done| |by right]. intros k Hk. lia.
Qed.
Lemma remove_look h s i h' s' : sl_ok h s -> remove_at h s i = Some (h', s') ->
  i < sl_len s /\ s' = Slice (sl_arr s) (sl_len s - 1) /\ sl_ok h' s' /\
  forall t, sl_ok h t ->
  sl_ok h' t /\
  (forall k, array_of h' t !! k =
     if decide (sl_arr t = sl_arr s /\ i <= k < sl_len s - 1) then array_of h t !! S k else array_of h t !! k).
Proof.
  unfold sl_ok, remove_at, array_of. destruct s as [[a|] n]; simpl; [|by destruct (match n with 0 => _ | _ => _ end)].
  intros (l & Hl & Hn). rewrite Hl. simpl.
  destruct (match n with 0 => false | S m' => i <=? m' end) eqn:Ei; [|done]. intros [= <- <-]. simpl.
  assert (i < n) by (destruct n; [done|]; apply Nat.leb_le in Ei; lia).
  assert (a < length h) by (eapply lookup_lt_Some; done).
  assert (Hlen : length (take i l ++ drop (S i) (take n l) ++ drop (n - 1) l) = length l).
  { rewrite !app_length, !drop_length, !take_length. lia. }
  split_and!; [done..| |].
  { rewrite list_lookup_insert by done. eexists; split; [done|]. lia. }
  intros [[b|] m]; simpl; [|intros ->; split; [done|]; intros k; try rewrite decide_False by naive_solver; done].
  intros (l' & Hl' & Hm). destruct (decide (a = b)) as [->|Hne].
  - rewrite Hl in Hl'. injection Hl' as <-. rewrite list_lookup_insert by done. simpl. split.
    + eexists; split; [done|]. lia.
    + intros k. rewrite Hl. simpl.
      destruct (decide (k < i)) as [Hk|Hk].
      { rewrite decide_False by lia. rewrite lookup_app_l by (rewrite take_length; lia). by rewrite lookup_take. }
      rewrite lookup_app_r by (rewrite take_length; lia). rewrite take_length, Nat.min_l by lia.
      destruct (decide (k < n - 1)) as [Hk1|Hk1].
      * rewrite decide_True by (split; [done|lia]). rewrite lookup_app_l by (rewrite drop_length, take_length; lia).
        rewrite lookup_drop, lookup_take by lia. f_equal. lia.
      * rewrite decide_False by lia. rewrite lookup_app_r by (rewrite drop_length, take_length; lia).
        rewrite lookup_drop, drop_length, take_length. f_equal. lia.
  - rewrite list_lookup_insert_ne by done. split; [eauto|]. intros k. rewrite decide_False by naive_solver. done.
Qed.
Lemma contents_look h s k : k < sl_len s -> contents h s !! k = array_of h s !! k.
Proof. intros Hk. unfold contents. by rewrite lookup_take. Qed.
Lemma contents_Some h s k x : contents h s !! k = Some x -> k < sl_len s /\ array_of h s !! k = Some x.
Proof.
  intros H. assert (k < sl_len s) as Hk.
  { apply lookup_lt_Some in H. unfold contents in H. rewrite take_length in H. lia. }
  split; [done|]. by rewrite <- contents_look.
Qed.
Lemma array_Some h s k : sl_ok h s -> k < sl_len s -> is_Some (array_of h s !! k).
Proof.
  intros Hs Hk. rewrite <- contents_look by done. apply lookup_lt_is_Some. by rewrite contents_length.
Qed.

(** ** Every interleaving *)
Definition okh (P : nat -> Prop) (h : aheap) (s : slice) : Prop :=
  sl_ok h s /\ forall k x, k < sl_len s -> array_of h s !! k = Some x -> P x.
Lemma okh_mono (P Q : nat -> Prop) h s : (forall x, P x -> Q x) -> okh P h s -> okh Q h s.
Proof. intros HPQ [H1 H2]. split; [done|]. eauto. Qed.
Lemma okh_append P g h s x h' s' : okh P h s -> P x -> append1 g h s x = (h', s') ->
  okh P h' s' /\ forall t, okh P h t -> okh P h' t.
Proof.
  intros [Hs HP] Hx E. split.
  - destruct (append1_spec _ _ _ _ _ _ Hs E) as (H1 & H2 & H3 & _). split; [done|].
    intros k y Hk Hy. rewrite <- contents_look, H2 in Hy by done.
    apply lookup_app_Some in Hy as [Hy|[_ Hy]].
    + apply contents_Some in Hy as [??]. eauto.
    + apply list_lookup_singleton_Some in Hy as [_ <-]. done.
  - intros t [Ht HPt]. destruct (append1_look _ _ _ _ _ _ Hs E t Ht) as (H1 & H2 & _). split; [done|].
    intros k y Hk Hy. rewrite H2 in Hy by done. case_decide; [congruence|]. eauto.
Qed.
Lemma okh_remove P h s i h' s' : okh P h s -> remove_at h s i = Some (h', s') ->
  okh P h' s' /\ forall t, okh P h t -> okh P h' t.
Proof.
  intros [Hs HP] E. destruct (remove_look _ _ _ _ _ Hs E) as (Hi & -> & H1 & H2).
  assert (forall t, okh P h t -> okh P h' t) as H.
  { intros t [Ht HPt]. destruct (H2 t Ht) as (H3 & H4). split; [done|].
    intros k y Hk Hy. rewrite H4 in Hy. case_decide as Hd; [|eauto]. destruct Hd as [Ha Hd].
    unfold array_of in Hy, HP. rewrite Ha in Hy. eapply (HP (S k)); [lia|done]. }
  split; [|done]. split; [done|]. simpl. intros k y Hk Hy.
  assert (okh P h' s) as [_ Hq] by (apply H; split; done). eapply (Hq k); [lia|done].
Qed.

(** What a call of [op] knows where it is. *)
Definition pc_ok (P : nat -> Prop) (h : aheap) (op : setop) (pc : apc) : Prop :=
  match op, pc with
  | Ins e, CAddScan e' sl i => e' = e /\ okh P h sl
  | Ins e, CAddPub e' p => e' = e
  | Ins e, CAddRead e' => e' = e /\ P e
  | Ins e, CAddWrite e' sl | Ins e, CAddStore e' sl => e' = e /\ P e /\ okh P h sl
  | Ins e, CDone => P e
  | Rem e, CDelScan e' sl i => e' = e /\ okh P h sl
  | Rem e, CDelPub e' i p => e' = e
  | Rem e, CDelRead e' i => e' = e
  | Rem e, CDelWrite e' i sl => e' = e /\ okh P h sl
  | Rem e, CDelStore e' sl => e' = e /\ okh P h sl
  | Rem e, CDone => True
  | _, _ => False
  end.
Lemma pc_ok_mono (P Q : nat -> Prop) h h' op pc : (forall x, P x -> Q x) ->
  (forall t, okh P h t -> okh Q h' t) -> pc_ok P h op pc -> pc_ok Q h' op pc.
Proof. intros H1 H2. destruct op, pc; simpl; naive_solver. Qed.

Record ainv (P : nat -> Prop) (ops : list setop) (s : ast) : Prop := {
  ai_eps : okh P (a_heap s) (a_eps s);
  ai_pubs : Forall (fun x => okh P (a_heap s) (fst x)) (a_pubs s);
  ai_calls : Forall2 (pc_ok P (a_heap s)) ops (a_calls s);
  ai_log : Forall (fun x => fst x < length (a_pubs s) /\ P (snd x)) (a_log s) }.

Definition ops_after (ops : list setop) (l : alab) : list setop := ops ++ option_list (a_op l).
Lemma omap_snoc ls l : omap a_op (ls ++ [l]) = ops_after (omap a_op ls) l.
Proof. rewrite omap_app. unfold ops_after. simpl. by destruct (a_op l). Qed.

Lemma Forall2_upd {A B} (R : A -> B -> Prop) l k c y x :
  Forall2 R l k -> l !! c = Some x -> R x y -> Forall2 R l (<[c := y]> k).
Proof.
  intros H Hx Hy. apply Forall2_same_length_lookup. pose proof (Forall2_length _ _ _ H) as Hl.
  split; [by rewrite insert_length|]. intros i a b Ha Hb.
  destruct (decide (i = c)) as [->|Hne].
  - assert (c < length k) by (rewrite <- Hl; by eapply lookup_lt_Some).
    rewrite list_lookup_insert in Hb by done. congruence.
  - rewrite list_lookup_insert_ne in Hb by done. eapply Forall2_lookup_lr in H; eauto.
Qed.
Lemma Forall_upd {A} (Q : A -> Prop) l c y : Forall Q l -> Q y -> Forall Q (<[c := y]> l).
Proof. intros. by apply Forall_insert. Qed.

Lemma ainv_step g (P P' : nat -> Prop) ops s l s' : ainv P ops s -> astep g s l s' ->
  (forall x, P x -> P' x) ->
  (forall c e p, l = ADeck c -> a_calls s !! c = Some (CAddPub e p) -> P' e) ->
  ainv P' (ops_after ops l) s'.
Proof.
  intros [He Hp Hc Hl] Hs HP HD.
  assert (forall t, okh P (a_heap s) t -> okh P' (a_heap s) t) as Hok by (intros t; apply okh_mono, HP).
  assert (He' := Hok _ He).
  assert (Hp' : Forall (fun x => okh P' (a_heap s) (fst x)) (a_pubs s)).
  { eapply Forall_impl; [exact Hp|]. intros x. apply Hok. }
  assert (Hc' : Forall2 (pc_ok P' (a_heap s)) ops (a_calls s)).
  { eapply Forall2_impl; [exact Hc|]. intros ??. by apply pc_ok_mono. }
  assert (Hl' : Forall (fun x => fst x < length (a_pubs s) /\ P' (snd x)) (a_log s)).
  { eapply Forall_impl; [exact Hl|]. simpl. naive_solver. }
  assert (Hcall : forall c pc, a_calls s !! c = Some pc -> exists op, ops !! c = Some op /\ pc_ok P' (a_heap s) op pc).
  { intros c pc Hpc. destruct (Forall2_lookup_r _ _ _ _ _ Hc' Hpc) as (op & ? & ?). eauto. }
  assert (Hlog2 : forall n, Forall (fun x => fst x < length (a_pubs s) /\ P' (snd x)) (a_log s) ->
    Forall (fun x => fst x < length (a_pubs s) + n /\ P' (snd x)) (a_log s)).
  { intros n HF. eapply Forall_impl; [exact HF|]. simpl. intros ? [? ?]. split; [lia|done]. }
  destruct Hs; unfold ops_after; cbn [a_op option_list a_heap a_eps a_served a_pubs a_calls a_log a_panic] in *;
    rewrite ?app_nil_r.
  - constructor; cbn [a_heap a_eps a_pubs a_calls a_log]; [done..| |done]. apply Forall2_app; [done|]. constructor; [|constructor]. done.
  - constructor; cbn [a_heap a_eps a_pubs a_calls a_log]; [done..| |done]. apply Forall2_app; [done|]. constructor; [|constructor]. done.
  - constructor; cbn [a_heap a_eps a_pubs a_calls a_log]; [done| |done|].
    + apply Forall_app. split; [done|]. constructor; [done|constructor].
    + rewrite app_length. by apply Hlog2.
  - constructor; cbn [a_heap a_eps a_pubs a_calls a_log]; [done| |done|].
    + apply Forall_upd; [done|]. simpl. apply (proj1 (Forall_lookup _ _) Hp' p (sl, i)). done.
    + rewrite insert_length. apply Forall_app. split; [done|]. constructor; [|constructor]. simpl. split.
      * by eapply lookup_lt_Some.
      * pose proof (proj1 (Forall_lookup _ _) Hp' p (sl, i)) as [_ Hq]; [done|]. eauto.
  - constructor; cbn [a_heap a_eps a_pubs a_calls a_log]; [done..| |done].
    destruct (Hcall _ _ H) as (op & Hop & Hpc). eapply Forall2_upd; [done..|].
    destruct op; simpl in *; [|done]. destruct Hpc as [-> [_ Hq]]. eauto.
  - constructor; cbn [a_heap a_eps a_pubs a_calls a_log]; [done..| |done].
    destruct (Hcall _ _ H) as (op & Hop & Hpc). eapply Forall2_upd; [done..|].
    by destruct op; simpl in *.
  - constructor; cbn [a_heap a_eps a_pubs a_calls a_log]; [done| | |].
    + apply Forall_app. split; [done|]. constructor; [done|constructor].
    + destruct (Hcall _ _ H) as (op & Hop & Hpc). eapply Forall2_upd; [done..|]. destruct op; simpl in *; naive_solver.
    + rewrite app_length. by apply Hlog2.
  - constructor; cbn [a_heap a_eps a_pubs a_calls a_log]; [done..| |done].
    destruct (Hcall _ _ H) as (op & Hop & Hpc). eapply Forall2_upd; [done..|].
    destruct op; simpl in *; [|done]. subst. split; [done|]. by eapply HD.
  - constructor; cbn [a_heap a_eps a_pubs a_calls a_log]; [done..| |done].
    destruct (Hcall _ _ H) as (op & Hop & Hpc). eapply Forall2_upd; [done..|].
    destruct op; simpl in *; naive_solver.
  - destruct (Hcall _ _ H) as (op & Hop & Hpc). destruct op as [e'|]; simpl in Hpc; [|done].
    destruct Hpc as (-> & HPe & Hsl). destruct (okh_append _ _ _ _ _ _ _ Hsl HPe H0) as [Hn Hall].
    constructor; cbn [a_heap a_eps a_pubs a_calls a_log]; [auto| | |done].
    + eapply Forall_impl; [exact Hp'|]. simpl. intros ?. apply Hall.
    + eapply Forall2_upd; [|done|simpl; done]. eapply Forall2_impl; [exact Hc'|]. intros ??. by apply pc_ok_mono.
  - destruct (Hcall _ _ H) as (op & Hop & Hpc). destruct op as [e'|]; simpl in Hpc; [|done].
    destruct Hpc as (-> & HPe & Hsl). constructor; cbn [a_heap a_eps a_pubs a_calls a_log]; [done..| |done]. by eapply Forall2_upd.
  - constructor; cbn [a_heap a_eps a_pubs a_calls a_log]; [done..| |done].
    destruct (Hcall _ _ H) as (op & Hop & Hpc). eapply Forall2_upd; [done..|].
    by destruct op; simpl in *.
  - constructor; cbn [a_heap a_eps a_pubs a_calls a_log]; [done..| |done].
    destruct (Hcall _ _ H) as (op & Hop & Hpc). eapply Forall2_upd; [done..|].
    by destruct op; simpl in *.
  - constructor; cbn [a_heap a_eps a_pubs a_calls a_log]; [done| | |].
    + apply Forall_app. split; [done|]. constructor; [done|constructor].
    + destruct (Hcall _ _ H) as (op & Hop & Hpc). eapply Forall2_upd; [done..|]. destruct op; simpl in *; naive_solver.
    + rewrite app_length. by apply Hlog2.
  - constructor; cbn [a_heap a_eps a_pubs a_calls a_log]; [done..| |done].
    destruct (Hcall _ _ H) as (op & Hop & Hpc). eapply Forall2_upd; [done..|].
    by destruct op; simpl in *.
  - constructor; cbn [a_heap a_eps a_pubs a_calls a_log]; [done..| |done].
    destruct (Hcall _ _ H) as (op & Hop & Hpc). eapply Forall2_upd; [done..|].
    destruct op; simpl in *; naive_solver.
  - destruct (Hcall _ _ H) as (op & Hop & Hpc). destruct op as [|e']; simpl in Hpc; [done|].
    destruct Hpc as (-> & Hsl). destruct (okh_remove _ _ _ _ _ _ Hsl H0) as [Hn Hall].
    constructor; cbn [a_heap a_eps a_pubs a_calls a_log]; [auto| | |done].
    + eapply Forall_impl; [exact Hp'|]. simpl. intros ?. apply Hall.
    + eapply Forall2_upd; [|done|simpl; done]. eapply Forall2_impl; [exact Hc'|]. intros ??. by apply pc_ok_mono.
  - constructor; done.
  - destruct (Hcall _ _ H) as (op & Hop & Hpc). destruct op as [|e']; simpl in Hpc; [done|].
    destruct Hpc as (-> & Hsl). constructor; cbn [a_heap a_eps a_pubs a_calls a_log]; [done..| |done]. by eapply Forall2_upd.
Qed.

Lemma ainv_new P : ainv P [] new_ast.
Proof. constructor; simpl; [|by constructor..]. split; [done|]. intros k x Hk. simpl in Hk. lia. Qed.
(** Endpoints that show up anywhere were given to AddEndPoint. *)
Lemma ainv_given g ls s : arun g new_ast ls s -> ainv (fun x => AAdd x ∈ ls) (omap a_op ls) s.
Proof.
  induction 1 as [|ls s1 l s2 _ IH Hs]; [apply ainv_new|]. rewrite omap_snoc.
  eapply ainv_step; [exact IH|exact Hs| |].
  - intros x Hx. apply elem_of_app. by left.
  - intros c e p -> Hc. apply elem_of_app. left.
    destruct (Forall2_lookup_r _ _ _ _ _ (ai_calls _ _ _ IH) Hc) as (op & Hop & Hpc).
    destruct op; simpl in Hpc; [|done]. subst. apply elem_of_list_lookup_2, elem_of_list_omap in Hop as (y & Hy & E).
    destruct y; simplify_eq/=. done.
Qed.
(** Endpoints that show up anywhere are served unless a deletion was called. *)
Lemma ainv_served g ls s : arun g new_ast ls s -> ainv (fun x => ADel x ∉ ls -> x ∈ a_served s) (omap a_op ls) s.
Proof.
  induction 1 as [|ls s1 l s2 Hr IH Hs]; [apply ainv_new|]. rewrite omap_snoc.
  eapply ainv_step; [exact IH|exact Hs| |].
  - intros x Hx Hd. rewrite not_elem_of_app in Hd. destruct Hd as [Hd _]. specialize (Hx Hd).
    destruct Hs; simpl in *; try done.
    + unfold accept. case_decide; [done|]. apply elem_of_app. by left.
    + unfold dismiss. apply elem_of_list_filter. split; [|done]. intros ->. apply Hd.
      destruct (Forall2_lookup_r _ _ _ _ _ (ai_calls _ _ _ IH) H) as (op & Hop & Hpc).
      destruct op; simpl in Hpc; [done|]. subst. apply elem_of_list_lookup_2, elem_of_list_omap in Hop as (y & Hy & E).
      destruct y; simplify_eq/=. done.
  - intros c e p -> Hc _. inversion Hs; subst; simpl in *; [|congruence].
    assert (e0 = e) as -> by congruence. unfold accept. case_decide; [done|]. apply elem_of_app. right. by left.
Qed.
(** A panic ends the program. *)
Lemma adm_crash_ends g s ls s' : a_panic s = true -> arun g s ls s' -> ls = [] /\ s' = s.
Proof. intros Hp. induction 1 as [|ls s1 l s2 Hr [-> ->] Hs]; [done|]. destruct Hs; done. Qed.
