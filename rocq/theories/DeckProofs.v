(** * Proofs about the upper deck *)
From Verif Require Import GoBase DeckModel DeckSpec.

Section sigma.
Context (σ : nat -> Z).

(** ** Registration *)
Lemma exists_endpoint_false d e : exists_endpoint σ d e = false <-> e ∉ d /\ σ e ∉ (σ <$> d).
Proof.
  unfold exists_endpoint. induction d as [|x d IH]; simpl.
  { split; [split; apply not_elem_of_nil|done]. }
  rewrite !orb_false_iff, IH, !not_elem_of_cons, Nat.eqb_neq, Z.eqb_neq. naive_solver.
Qed.
Lemma exists_endpoint_true d e : exists_endpoint σ d e = true <-> exists x, x ∈ d /\ (x = e \/ σ x = σ e).
Proof.
  unfold exists_endpoint. rewrite existsb_exists. split.
  - intros (x & Hx & H). exists x. rewrite elem_of_list_In. split; [done|].
    apply orb_true_iff in H as [H|H]; [apply Nat.eqb_eq in H; by left|apply Z.eqb_eq in H; by right].
  - intros (x & Hx & H). exists x. rewrite <- elem_of_list_In. split; [done|].
    apply orb_true_iff. rewrite Nat.eqb_eq, Z.eqb_eq. done.
Qed.
Lemma accept_elem d e x : x ∈ accept σ d e -> x ∈ d \/ x = e.
Proof.
  unfold accept. destruct (exists_endpoint σ d e); [by left|].
  rewrite elem_of_app, elem_of_list_singleton. done.
Qed.
Lemma accept_nodup d e : NoDup (σ <$> d) -> NoDup (σ <$> accept σ d e).
Proof.
  intros H. unfold accept. destruct (exists_endpoint σ d e) eqn:E; [done|].
  apply exists_endpoint_false in E as [_ E]. rewrite fmap_app. apply NoDup_app. split_and!; [done| |apply NoDup_singleton].
  intros k Hk ->%elem_of_list_singleton. done.
Qed.
Lemma filter_in (e x : nat) l : x ∈ List.filter (fun y => negb (y =? e)) l <-> x ∈ l /\ x <> e.
Proof.
  rewrite !elem_of_list_In, filter_In, negb_true_iff, Nat.eqb_neq. done.
Qed.
Lemma filter_fmap_nodup d e : NoDup (σ <$> d) -> NoDup (σ <$> unserve d e).
Proof.
  unfold unserve. induction d as [|x d IH]; simpl; intros H; [done|]. apply NoDup_cons in H as [H1 H2].
  destruct (negb (x =? e)); simpl; [|by apply IH]. apply NoDup_cons. split; [|by apply IH].
  intros Hin. apply H1. apply elem_of_list_fmap in Hin as (y & -> & Hy). apply elem_of_list_fmap.
  exists y. split; [done|]. by apply filter_in in Hy as [? _].
Qed.
Definition rinv (r : reg) : Prop :=
  forall d, r_deck r = Some d -> (forall x, x ∈ d -> x ∈ r_list r) /\ NoDup (σ <$> d).
Lemma foldl_accept_inv l : forall d, NoDup (σ <$> d) ->
  (forall x, x ∈ foldl (accept σ) d l -> x ∈ d \/ x ∈ l) /\ NoDup (σ <$> foldl (accept σ) d l).
Proof.
  induction l as [|e l IH]; simpl; intros d Hd; [split; [by left|done]|].
  destruct (IH (accept σ d e) (accept_nodup _ _ Hd)) as [H1 H2]. split; [|done]. intros x Hx.
  destruct (H1 _ Hx) as [H|H]; [|by right; right]. apply accept_elem in H as [?| ->]; [by left|right; left].
Qed.
Lemma rinv_step r o : rinv r -> rinv (rstep σ r o).
Proof.
  intros H. destruct o as [e|e|]; simpl.
  - case_decide; [done|]. intros d. simpl. destruct (r_deck r) as [d0|] eqn:E0; [|done]. intros [= <-].
    destruct (H _ E0) as [H1 H2]. split; [|by apply accept_nodup]. intros x Hx. simpl. apply elem_of_app.
    apply accept_elem in Hx as [Hx| ->]; [left; by apply H1|right; left].
  - case_decide; [|done]. intros d. simpl. destruct (r_deck r) as [d0|] eqn:E0; [|done]. intros [= <-].
    destruct (H _ E0) as [H1 H2]. split; [|by apply filter_fmap_nodup]. intros x. unfold unserve. simpl.
    rewrite !filter_in. intros [? ?]. split; [by apply H1|done].
  - intros d [= <-]. simpl. destruct (foldl_accept_inv (r_list r) []) as [H1 H2]; [constructor|].
    split; [|done]. intros x Hx. destruct (H1 _ Hx) as [?%elem_of_nil|]; done.
Qed.
Lemma foldl_rinv ops : forall r, rinv r -> rinv (foldl (rstep σ) r ops).
Proof. induction ops as [|o ops IH]; simpl; intros r H; [done|]. by apply IH, rinv_step. Qed.
Lemma registered_rinv ops : rinv (registered_after σ ops).
Proof. apply foldl_rinv. done. Qed.
Lemma filter_session_length d k : NoDup (σ <$> d) -> length (List.filter (fun x => (σ x =? k)%Z) d) <= 1.
Proof.
  induction d as [|x d IH]; simpl; intros H; [lia|]. apply NoDup_cons in H as [H1 H2].
  destruct (Z.eqb_spec (σ x) k) as [Hk|]; [|by apply IH]. simpl.
  enough (List.filter (fun x => (σ x =? k)%Z) d = []) as -> by (simpl; lia).
  clear IH H2. induction d as [|y d IH]; simpl; [done|].
  rewrite fmap_cons, not_elem_of_cons in H1. destruct H1 as [H1 H2].
  destruct (Z.eqb_spec (σ y) k); [congruence|]. by apply IH.
Qed.
Lemma one_per_session ops k :
  length (served_for σ (registered_after σ ops) k) <= 1 /\
  forall x, x ∈ served_for σ (registered_after σ ops) k -> x ∈ r_list (registered_after σ ops) /\ σ x = k.
Proof.
  pose proof (registered_rinv ops) as H. unfold served_for. destruct (r_deck _) as [d|] eqn:E; simpl.
  - destruct (H _ E) as [H1 H2]. split; [by apply filter_session_length|]. intros x.
    rewrite elem_of_list_In, filter_In, Z.eqb_eq, <- elem_of_list_In. intros [? ?]. split; [by apply H1|done].
  - split; [lia|]. by intros x ?%elem_of_nil.
Qed.

Definition find_k (k : Z) (l : list nat) : option nat := List.find (fun x => (σ x =? k)%Z) l.
Lemma find_app_own k l1 l2 : find_k k (l1 ++ l2) = match find_k k l1 with Some x => Some x | None => find_k k l2 end.
Proof. unfold find_k. induction l1 as [|x l1 IH]; simpl; [done|]. destruct (σ x =? k)%Z; done. Qed.
Lemma find_none k l : find_k k l = None <-> forall x, x ∈ l -> σ x <> k.
Proof.
  unfold find_k. induction l as [|x l IH]; simpl.
  { split; [by intros _ x ?%elem_of_nil|done]. }
  destruct (Z.eqb_spec (σ x) k).
  - split; [done|]. intros H. exfalso. by apply (H x); [left|].
  - rewrite IH. setoid_rewrite elem_of_cons. naive_solver.
Qed.
Lemma find_some k l x : find_k k l = Some x -> x ∈ l /\ σ x = k.
Proof.
  unfold find_k. induction l as [|y l IH]; simpl; [done|]. destruct (Z.eqb_spec (σ y) k).
  - intros [= ->]. split; [left|done].
  - intros H. destruct (IH H). split; [by right|done].
Qed.
Lemma find_filter_other k l e : σ e <> k -> find_k k (List.filter (fun y => negb (y =? e)) l) = find_k k l.
Proof.
  intros He. unfold find_k. induction l as [|x l IH]; simpl; [done|].
  destruct (Nat.eqb_spec x e) as [->|]; simpl.
  - destruct (Z.eqb_spec (σ e) k); [done|]. apply IH.
  - destruct (σ x =? k)%Z; [done|]. apply IH.
Qed.
Lemma find_accept k d e : (e ∈ d -> True) -> find_k k (accept σ d e) =
  match find_k k d with Some x => Some x | None => if (σ e =? k)%Z then Some e else None end.
Proof.
  intros _. unfold accept. destruct (exists_endpoint σ d e) eqn:E.
  - destruct (find_k k d) eqn:F; [done|]. destruct (Z.eqb_spec (σ e) k) as [Hk|]; [|done]. exfalso.
    apply exists_endpoint_true in E as (x & Hx & Hxs). eapply find_none in F; [|exact Hx]. destruct Hxs as [->|]; congruence.
  - rewrite find_app_own. destruct (find_k k d); [done|]. simpl. done.
Qed.
Lemma find_foldl k l : forall d, find_k k (foldl (accept σ) d l) =
  match find_k k d with Some x => Some x | None => find_k k l end.
Proof.
  induction l as [|e l IH]; simpl; intros d; [by destruct (find_k k d)|].
  rewrite IH, find_accept by done. destruct (find_k k d); [done|].
  destruct (σ e =? k)%Z; done.
Qed.
Definition finv (r : reg) : Prop := forall d, r_deck r = Some d -> forall k, find_k k d = find_k k (r_list r).
Lemma finv_step r o : rinv r -> finv r ->
  (forall e, o = RDel e -> forall x, x ∈ r_list r -> σ x = σ e -> x = e) -> finv (rstep σ r o).
Proof.
  intros Hr H Hl. destruct o as [e|e|]; simpl.
  - case_decide; [done|]. intros d. simpl. destruct (r_deck r) as [d0|] eqn:E; [|done]. intros [= <-] k.
    rewrite find_accept, find_app_own by done. rewrite (H _ E). destruct (find_k k (r_list r)); [done|]. done.
  - case_decide; [|done]. intros d. simpl. destruct (r_deck r) as [d0|] eqn:E; [|done]. intros [= <-] k.
    unfold unserve. destruct (decide (σ e = k)) as [<-|Hk].
    + destruct (Hr _ E) as [Hsub _].
      rewrite !(proj2 (find_none _ _)); [done| |]; intros x [Hx Hne]%filter_in Hs.
      * apply Hne. by apply (Hl e).
      * apply Hne. apply (Hl e); [done|by apply Hsub|done].
    + rewrite !find_filter_other by done. by apply H.
  - intros d [= <-] k. by rewrite find_foldl.
Qed.
Lemma first_serves ops k : lonely_deletions σ (Reg [] None) ops -> r_deck (registered_after σ ops) <> None ->
  served_for σ (registered_after σ ops) k = option_list (first_registered σ (registered_after σ ops) k).
Proof.
  intros Hl Hd.
  assert (finv (registered_after σ ops)) as Hf.
  { unfold registered_after. assert (rinv (Reg [] None)) as Hr by done. assert (finv (Reg [] None)) as H0 by done.
    revert Hl Hr H0. clear Hd. generalize (Reg [] None). induction ops as [|o ops IH]; simpl; intros r Hl Hr H0; [done|].
    destruct Hl as [Hl1 Hl2]. apply IH; [done|by apply rinv_step|by apply finv_step]. }
  pose proof (one_per_session ops k) as [H1 _]. unfold served_for, first_registered in *.
  destruct (r_deck (registered_after σ ops)) as [d|] eqn:E; [|done]. simpl in *.
  specialize (Hf _ E k). unfold find_k in Hf. rewrite <- Hf. clear Hf Hl Hd E.
  induction d as [|x d IH]; simpl in *; [done|]. destruct (σ x =? k)%Z; [|by apply IH].
  simpl in *. destruct (List.filter _ d); [done|simpl in H1; lia].
Qed.
(** Deleting the serving endpoint of a session silences the others. *)
Lemma starvation ops d e1 e2 : let r := registered_after σ ops in
  r_deck r = Some d -> e1 ∈ d -> e2 ∈ r_list r -> e1 <> e2 -> σ e1 = σ e2 ->
  let r1 := registered_after σ (ops ++ [RDel e1]) in
  e2 ∈ r_list r1 /\ served_for σ r1 (σ e2) = [] /\
  forall e3, e3 ∉ r_list r -> σ e3 = σ e2 ->
    served_for σ (registered_after σ (ops ++ [RDel e1; RAdd e3])) (σ e2) = [e3] /\
    first_registered σ (registered_after σ (ops ++ [RDel e1; RAdd e3])) (σ e2) <> Some e3.
Proof.
  cbv zeta. unfold registered_after. rewrite !foldl_app. fold (registered_after σ ops).
  intros Hd He1 He2 Hne Hs. pose proof (registered_rinv ops) as Hr. destruct (Hr _ Hd) as [Hsub Hnd].
  set (r := registered_after σ ops) in *. cbn [foldl].
  assert (rstep σ r (RDel e1) = Reg (List.filter (fun x => negb (x =? e1)) (r_list r)) (Some (unserve d e1))) as Er.
  { simpl. rewrite decide_True by (by apply Hsub). by rewrite Hd. }
  assert (forall x, x ∈ unserve d e1 -> σ x <> σ e2) as Hno.
  { intros x [Hx Hxe]%filter_in E. apply Hxe. clear -Hnd He1 Hx E Hs. rewrite <- Hs in E. clear Hs.
    induction d as [|y d IH]; [by apply elem_of_nil in Hx|]. rewrite fmap_cons in Hnd. apply NoDup_cons in Hnd as [H1 H2].
    apply elem_of_cons in Hx as [->|Hx], He1 as [->|He1]; [done| | |by apply IH].
    - exfalso. apply H1. rewrite E. by apply elem_of_list_fmap_1.
    - exfalso. apply H1. rewrite <- E. by apply elem_of_list_fmap_1. }
  assert (e2 ∈ List.filter (fun x => negb (x =? e1)) (r_list r)) as Hin by (apply filter_in; split; [done|congruence]).
  assert (List.filter (fun x => (σ x =? σ e2)%Z) (unserve d e1) = []) as Hempty.
  { revert Hno. generalize (unserve d e1). intros u Hno. induction u as [|x u IH]; simpl; [done|].
    destruct (Z.eqb_spec (σ x) (σ e2)) as [E|]; [exfalso; apply (Hno x); [left|done]|]. apply IH. intros y Hy. apply Hno. by right. }
  rewrite Er. unfold served_for, first_registered. simpl. split_and!; [done|done|].
  intros e3 He3 Hs3. rewrite foldl_app. fold (registered_after σ ops). fold r. cbn [foldl]. rewrite Er. simpl.
  rewrite decide_False by (rewrite filter_in; naive_solver). simpl. split.
  - unfold accept. rewrite (proj2 (exists_endpoint_false _ _)).
    + rewrite List.filter_app, Hempty. simpl. by rewrite Hs3, Z.eqb_refl.
    + split.
      * unfold unserve. rewrite filter_in. intros [Hx _]. by apply He3, Hsub.
      * rewrite Hs3. intros (x & E & Hx)%elem_of_list_fmap. by apply (Hno x).
  - intros E. fold (find_k (σ e2) (List.filter (fun x => negb (x =? e1)) (r_list r) ++ [e3])) in E.
    rewrite find_app_own in E. destruct (find_k _ _) as [y|] eqn:F.
    + injection E as ->. apply find_some in F as [F _]. apply filter_in in F as [F _]. done.
    + eapply find_none in F; [|exact Hin]. done.
Qed.

(** ** Executions *)
Lemma drun_app s ls1 s1 ls2 s2 : drun σ s ls1 s1 -> drun σ s1 ls2 s2 -> drun σ s (ls1 ++ ls2) s2.
Proof.
  intros H1 H2. induction H2 as [|ls s3 l s4 H2 IH Hs]; [by rewrite app_nil_r|].
  rewrite app_assoc. econstructor; done.
Qed.
Lemma drun_one s l s' : dstep σ s l s' -> drun σ s [l] s'.
Proof. intros H. change [l] with ([] ++ [l]). econstructor; [constructor|done]. Qed.
Lemma drun_cons s l s1 ls s2 : dstep σ s l s1 -> drun σ s1 ls s2 -> drun σ s (l :: ls) s2.
Proof. intros H1 H2. change (l :: ls) with ([l] ++ ls). eapply drun_app; [by apply drun_one|done]. Qed.

Lemma unmap_in m e p : p ∈ unmap m e <-> p ∈ m /\ fst p <> e.
Proof. unfold unmap. rewrite !elem_of_list_In, filter_In, negb_true_iff, Nat.eqb_neq. done. Qed.
Lemma unmap_keys m e : (unmap m e).*1 = List.filter (fun y => negb (y =? e)) m.*1.
Proof. unfold unmap. induction m as [|[a b] m IH]; simpl; [done|]. destruct (negb (a =? e)); simpl; [f_equal|]; apply IH. Qed.
Lemma unmap_absent m e : e ∉ m.*1 -> unmap m e = m.
Proof.
  unfold unmap. induction m as [|[a b] m IH]; simpl; intros H; [done|]. rewrite not_elem_of_cons in H. destruct H as [H1 H2].
  destruct (Nat.eqb_spec a e); [congruence|]. simpl. by rewrite IH.
Qed.

(** Two registrations at the same time. *)
Lemma two_serve s e1 e2 : dreach σ s -> e1 <> e2 -> σ e1 = σ e2 -> serving σ s (σ e1) = [] ->
  exists s', drun σ s [DCheck e1; DCheck e2; DInsert e1; DInsert e2] s' /\ serving σ s' (σ e1) = [e2; e1].
Proof.
  intros Hr Hne Hs Hsv.
  assert (forall e, σ e = σ e1 -> exists_endpoint σ ((d_map s).*1) e = false) as Hex.
  { intros e He. destruct (exists_endpoint σ _ e) eqn:E; [|done].
    apply exists_endpoint_true in E as (x & Hx & Hxe). exfalso. unfold serving in Hsv.
    assert (In x (List.filter (fun y => (σ y =? σ e1)%Z) (d_map s).*1)) as Hin.
    { apply filter_In. rewrite <- elem_of_list_In. split; [done|]. apply Z.eqb_eq. destruct Hxe as [->|]; congruence. }
    rewrite Hsv in Hin. done. }
  assert (forall e, σ e = σ e1 -> e ∉ (d_map s).*1) as Hnin.
  { intros e He. specialize (Hex _ He). by apply exists_endpoint_false in Hex as [? _]. }
  eexists. split.
  - eapply drun_cons; [apply dk_check|]. rewrite (Hex e1) by done.
    eapply drun_cons; [apply dk_check|]. simpl. rewrite (Hex e2) by done. rewrite <- app_assoc. simpl.
    eapply drun_cons; [apply (dk_insert _ _ e1 (d_pending s) [e2]); done|]. simpl.
    apply drun_one. apply (dk_insert _ _ e2 (d_pending s) []). done.
  - unfold serving. simpl. rewrite <- Hs, Z.eqb_refl. f_equal.
    destruct (Nat.eqb_spec e1 e2); [done|]. simpl. rewrite Z.eqb_refl.
    rewrite !unmap_keys. f_equal. rewrite <- Hsv. unfold serving. clear -Hnin Hs.
    induction ((d_map s).*1) as [|x l IH]; simpl; [done|].
    rewrite !not_elem_of_cons in Hnin || idtac.
    assert (x <> e1) as Hx1. { intros ->. apply (Hnin e1); [done|left]. }
    assert (x <> e2) as Hx2. { intros ->. apply (Hnin e2); [done|left]. }
    destruct (Nat.eqb_spec x e1); [done|]. simpl. destruct (Nat.eqb_spec x e2); [done|]. simpl.
    rewrite IH; [done|]. intros e He Hin. apply (Hnin e He). by right.
Qed.
Lemma serial_one s k : dserial σ s -> length (serving σ s k) <= 1.
Proof.
  intros H. apply filter_session_length.
  assert (NoDup (σ <$> ((d_map s).*1 ++ d_pending s)) /\ length (d_pending s) <= 1) as [G _].
  2:{ rewrite fmap_app in G. by apply NoDup_app in G as [? _]. }
  induction H as [|s l s' H IH Hst Hser]; [split; [constructor|simpl; lia]|].
  destruct IH as [IH1 IH2].
  assert (forall e, NoDup (σ <$> ((unmap (d_map s) e).*1 ++ d_pending s))) as Hun.
  { intros e. rewrite unmap_keys. rewrite fmap_app in *. apply NoDup_app in IH1 as (I1 & I2 & I3).
    apply NoDup_app. split_and!; [by apply filter_fmap_nodup| |done]. intros k0 Hk0. apply I2.
    apply elem_of_list_fmap in Hk0 as (y & -> & Hy). apply elem_of_list_fmap. exists y. split; [done|].
    by apply filter_in in Hy as [? _]. }
  inversion Hst; subst; simpl in *; try done; try (split; [by apply Hun|done]).
  - specialize (Hser _ eq_refl). destruct (exists_endpoint σ _ e) eqn:E; [done|]. rewrite Hser in *. simpl in *.
    split; [|lia]. rewrite app_nil_r in IH1. rewrite fmap_app. simpl. apply NoDup_app. split_and!; [done| |apply NoDup_singleton].
    apply exists_endpoint_false in E as [_ E]. intros k0 Hk0 ->%elem_of_list_singleton. done.
  - rewrite H0 in *. rewrite app_length in IH2. simpl in IH2. assert (p1 = []) as -> by (destruct p1; simpl in IH2; [done|lia]).
    assert (p2 = []) as -> by (destruct p2; simpl in IH2; [done|lia]). simpl in *. split; [|lia].
    rewrite app_nil_r. specialize (Hun e). rewrite fmap_app in Hun. apply NoDup_app in Hun as (I1 & I2 & _).
    apply NoDup_cons. split; [|done]. intros Hin. apply (I2 _ Hin). left.
Qed.

(** ** Transmission after deletion *)
Lemma look_unmap m e : look (unmap m e) e = None.
Proof.
  unfold look, unmap. induction m as [|[a b] m IH]; simpl; [done|].
  destruct (Nat.eqb_spec a e) as [->|]; simpl; [done|]. destruct (Nat.eqb_spec a e); [done|]. apply IH.
Qed.
(** A goroutine that reads a nil stop channel sends whatever is put. *)
Lemma sends_on ms : forall s i e, d_loops s !! i = Some (e, LTop) -> look (d_map s) e = None -> d_tx s e = [] ->
  (forall j ch, d_loops s !! j <> Some (e, LParked ch)) ->
  exists ls s', drun σ s ls s' /\ Forall (fun l => l = DLoop e \/ exists m, l = DPut e m) ls /\
    d_sent s' = d_sent s ++ ((e,.) <$> ms) /\ d_map s' = d_map s /\
    omap (fun l => match l with DPut _ m => Some m | _ => None end) ls = ms.
Proof.
  induction ms as [|m ms IH]; intros s i e Hi Hl Htx Hnp.
  { exists [], s. rewrite app_nil_r. split_and!; try done. constructor. }
  assert (i < length (d_loops s)) as Hlt by (by eapply lookup_lt_Some).
  set (s1 := Dst (d_map s) (d_chans s) (d_pending s) (<[i := (e, LReady None)]> (d_loops s)) (d_tx s) (d_sent s)).
  set (s2 := Dst (d_map s) (d_chans s) (d_pending s) (<[i := (e, LReady None)]> (d_loops s)) (set_tx (d_tx s) e [m]) (d_sent s)).
  set (s3 := Dst (d_map s) (d_chans s) (d_pending s) (<[i := (e, LSending m)]> (<[i := (e, LReady None)]> (d_loops s)))
                 (set_tx (set_tx (d_tx s) e [m]) e []) (d_sent s)).
  set (s4 := Dst (d_map s) (d_chans s) (d_pending s)
                 (<[i := (e, LTop)]> (<[i := (e, LSending m)]> (<[i := (e, LReady None)]> (d_loops s))))
                 (set_tx (set_tx (d_tx s) e [m]) e []) (d_sent s ++ [(e, m)])).
  assert (dstep σ s (DLoop e) s1) as T1.
  { pose proof (dk_read σ s i e Hi) as G. rewrite Hl in G. exact G. }
  assert (dstep σ s1 (DPut e m) s2) as T2.
  { pose proof (dk_put_buffer σ s1 e m) as G. simpl in G. rewrite Htx in G. simpl in G. apply G; [|lia].
    intros j ch. destruct (decide (i = j)) as [<-|]; [by rewrite list_lookup_insert|].
    rewrite list_lookup_insert_ne by done. apply Hnp. }
  assert (dstep σ s2 (DLoop e) s3) as T3.
  { apply (dk_take σ s2 i e None m []).
    - simpl. by apply list_lookup_insert.
    - simpl. unfold set_tx. by rewrite decide_True. }
  assert (dstep σ s3 (DLoop e) s4) as T4.
  { apply (dk_send σ s3 i e m). simpl. apply list_lookup_insert. by rewrite insert_length. }
  destruct (IH s4 i e) as (ls & s' & K1 & K2 & K3 & K4 & K5).
  { simpl. apply list_lookup_insert. by rewrite !insert_length. }
  { done. }
  { simpl. unfold set_tx. by rewrite decide_True. }
  { simpl. intros j ch. destruct (decide (i = j)) as [<-|].
    - rewrite list_lookup_insert by (by rewrite !insert_length). done.
    - rewrite !list_lookup_insert_ne by done. apply Hnp. }
  exists ([DLoop e; DPut e m; DLoop e; DLoop e] ++ ls), s'. split_and!; try done.
  - eapply drun_app; [|exact K1]. eapply drun_cons; [exact T1|]. eapply drun_cons; [exact T2|].
    eapply drun_cons; [exact T3|]. by apply drun_one.
  - apply Forall_app. split; [|done]. repeat (apply Forall_cons; split); [by left|right; by eexists|by left|by left|by apply Forall_nil].
  - rewrite K3. simpl. by rewrite <- app_assoc.
  - simpl. f_equal. exact K5.
Qed.
Lemma busy_goes_on s i e c ch m0 ms : look (d_map s) e = Some c -> d_loops s !! i = Some (e, LSending m0) ->
  (forall j e' ch', d_loops s !! j <> Some (e', LParked ch')) -> d_chans s !! c = Some ch -> sc_buf ch = [] ->
  d_tx s e = [] ->
  exists s1 ls s2, dstep σ s (DDelete e) s1 /\ look (d_map s1) e = None /\ drun σ s1 ls s2 /\
    Forall (fun l => l = DLoop e \/ exists m, l = DPut e m) ls /\
    omap (fun l => match l with DPut _ m => Some m | _ => None end) ls = ms /\
    d_sent s2 = d_sent s1 ++ (e, m0) :: ((e,.) <$> ms).
Proof.
  intros Hm Hi Hnp Hch Hb Htx.
  set (s1 := Dst (unmap (d_map s) e) (<[c := Schan (sc_owner ch) [true] true]> (d_chans s)) (d_pending s)
           (d_loops s) (d_tx s) (d_sent s)).
  set (s2 := Dst (d_map s1) (d_chans s1) (d_pending s1) (<[i := (e, LTop)]> (d_loops s1)) (d_tx s1) (d_sent s1 ++ [(e, m0)])).
  assert (i < length (d_loops s)) as Hlt by (by eapply lookup_lt_Some).
  destruct (sends_on ms s2 i e) as (ls & s3 & K1 & K2 & K3 & K4 & K5).
  { simpl. by apply list_lookup_insert. }
  { simpl. apply look_unmap. }
  { done. }
  { simpl. intros j ch'. destruct (decide (i = j)) as [<-|]; [by rewrite list_lookup_insert|].
    rewrite list_lookup_insert_ne by done. apply Hnp. }
  exists s1, (DLoop e :: ls), s3. split_and!.
  - by eapply dk_delete_buffer.
  - apply look_unmap.
  - eapply drun_cons; [|exact K1]. by apply (dk_send σ s1 i e m0).
  - constructor; [by left|done].
  - done.
  - rewrite K3. simpl. by rewrite <- app_assoc.
Qed.
(** Such a state is reached by registering, waiting and sending one message. *)
Lemma busy_reached e m0 : exists s, dreach σ s /\ look (d_map s) e = Some 0 /\ d_loops s = [(e, LSending m0)] /\
  d_chans s = [Schan e [] false] /\ d_tx s e = [] /\ d_sent s = [].
Proof.
  eexists. split.
  { eexists. eapply drun_cons; [apply (dk_check _ _ e)|]. cbn.
    eapply drun_cons; [apply (dk_insert _ _ e [] []); done|]. cbn.
    eapply drun_cons; [by apply (dk_read _ _ 0)|]. cbn. rewrite Nat.eqb_refl. cbn.
    eapply drun_cons; [eapply (dk_park _ _ 0); [done|done|]|].
    { cbn. intros c sc [= <-] [= <-]. done. }
    cbn. apply drun_one. by eapply (dk_put_parked _ _ e m0 0). }
  cbn. by rewrite Nat.eqb_refl.
Qed.
Lemma deleted_goes_on e m0 ms : exists s s1 ls s2, dreach σ s /\ dstep σ s (DDelete e) s1 /\ look (d_map s1) e = None /\
  drun σ s1 ls s2 /\ Forall (fun l => l = DLoop e \/ exists m, l = DPut e m) ls /\
  omap (fun l => match l with DPut _ m => Some m | _ => None end) ls = ms /\
  sent_for e s1 = [] /\ sent_for e s2 = m0 :: ms.
Proof.
  destruct (busy_reached e m0) as (s & H1 & H2 & H3 & H4 & H5 & H6).
  destruct (busy_goes_on s 0 e 0 (Schan e [] false) m0 ms) as (s1 & ls & s2 & K1 & K2 & K3 & K4 & K5 & K6);
    [done|by rewrite H3| |by rewrite H4|done|done|].
  { intros [|[]] e' ch'; rewrite H3; done. }
  assert (d_sent s1 = []) as E1 by (by inversion K1; subst).
  exists s, s1, ls, s2. split_and!; try done.
  - unfold sent_for. by rewrite E1.
  - unfold sent_for. rewrite K6, E1. simpl. rewrite decide_True by done. f_equal. clear.
    induction ms as [|m ms IH]; simpl; [done|]. rewrite decide_True by done. f_equal. apply IH.
Qed.

(** An idle goroutine stops. *)
Definition all_stopped (e : nat) (s : dst) : Prop := forall j pc, d_loops s !! j = Some (e, pc) -> pc = LStopped.
Lemma insert_pair_lookup (l : list (nat * lpc)) i j e e' pc pc' :
  <[i := (e, pc)]> l !! j = Some (e', pc') -> (i = j /\ e = e' /\ pc = pc') \/ (i <> j /\ l !! j = Some (e', pc')).
Proof.
  intros H. destruct (decide (i = j)) as [<-|].
  - assert (i < length l) as Hi. { apply lookup_lt_Some in H. by rewrite insert_length in H. }
    rewrite list_lookup_insert in H by done. injection H as -> ->. by left.
  - right. by rewrite list_lookup_insert_ne in H.
Qed.
Lemma wake_fst c p : fst (wake c p) = fst p.
Proof. destruct p as [a [| |[|]| |]]; simpl; try done. unfold wake. simpl. by destruct (_ =? _). Qed.
Lemma all_stopped_step s l s' e : dstep σ s l s' -> not_again e l -> all_stopped e s ->
  all_stopped e s' /\ sent_for e s' = sent_for e s.
Proof.
  intros Hst Hn Ha.
  assert (forall i e' pc, d_loops s !! i = Some (e', pc) -> e' = e -> pc = LStopped) as HH.
  { intros i e' pc Hi ->. by eapply Ha. }
  assert (HI : forall i e' pc pc', d_loops s !! i = Some (e', pc) -> pc <> LStopped ->
     forall j pc0, <[i := (e', pc')]> (d_loops s) !! j = Some (e, pc0) -> pc0 = LStopped).
  { intros i e' pc pc' Hi Hp j pc0 Hj. apply insert_pair_lookup in Hj as [(-> & -> & ->)|[_ Hj]]; [|by eapply Ha].
    exfalso. apply Hp. by eapply HH. }
  inversion Hst; subst; unfold all_stopped, sent_for; simpl in *;
    try (split; [done|done]); try (split; [by eapply HI|done]).
  - split; [|done]. intros j pc Hj. apply lookup_app_Some in Hj as [Hj|[_ Hj]]; [by eapply Ha|].
    destruct (j - length (d_loops s)) as [|[]]; simpl in Hj; [|done..]. injection Hj as -> <-. by destruct Hn.
  - split; [|done]. intros j pc Hj. rewrite list_lookup_fmap in Hj.
    destruct (<[i := (e', LStopped)]> (d_loops s) !! j) as [[a pc0]|] eqn:E; [|done]. simpl in Hj. injection Hj as Hj.
    assert (a = e) as ->. { pose proof (f_equal fst Hj) as Hf. rewrite wake_fst in Hf. done. }
    apply insert_pair_lookup in E as [(-> & -> & <-)|[_ E]].
    + unfold wake in Hj. simpl in Hj. by injection Hj as <-.
    + apply Ha in E as ->. unfold wake in Hj. simpl in Hj. by injection Hj as <-.
  - split; [by eapply HI|]. rewrite omap_app. simpl. rewrite decide_False; [by rewrite app_nil_r|].
    intros ->. by apply HH in H.
Qed.
Lemma all_stopped_run s ls s' e : drun σ s ls s' -> Forall (not_again e) ls -> all_stopped e s ->
  sent_for e s' = sent_for e s.
Proof.
  intros Hr Hn Ha. assert (all_stopped e s' /\ sent_for e s' = sent_for e s) as [_ ?]; [|done].
  induction Hr as [|ls s1 l s2 H IH Hst]; [done|]. apply Forall_app in Hn as [Hn1 Hn2]. apply Forall_inv in Hn2.
  destruct (IH Hn1) as [K1 K2]. destruct (all_stopped_step _ _ _ e Hst Hn2 K1). split; [done|congruence].
Qed.
(** Channels belong to the endpoint they were made for. *)
Definition owned (s : dst) : Prop :=
  (forall e c, (e, c) ∈ d_map s -> exists ch, d_chans s !! c = Some ch /\ sc_owner ch = e) /\
  (forall i e c, d_loops s !! i = Some (e, LReady (Some c)) \/ d_loops s !! i = Some (e, LParked (Some c)) ->
     exists ch, d_chans s !! c = Some ch /\ sc_owner ch = e).
Lemma look_in m e c : look m e = Some c -> (e, c) ∈ m.
Proof.
  unfold look. induction m as [|[a b] m IH]; simpl; [done|]. destruct (Nat.eqb_spec a e) as [->|]; simpl.
  - intros [= ->]. left.
  - intros H. right. by apply IH.
Qed.
Lemma owned_reach s : dreach σ s -> owned s.
Proof.
  intros [ls H]. induction H as [|ls s1 l s2 H IH Hst]; [split; [by intros e c ?%elem_of_nil|intros i e c []; done]|].
  destruct IH as [I1 I2].
  assert (HC : forall c0 f, (forall ch, sc_owner (f ch) = sc_owner ch) -> forall c e ch0, d_chans s1 !! c0 = Some ch0 ->
    (exists ch, d_chans s1 !! c = Some ch /\ sc_owner ch = e) ->
    exists ch, <[c0 := f ch0]> (d_chans s1) !! c = Some ch /\ sc_owner ch = e).
  { intros c0 f Hf c e ch0 H0 (ch & Hc & <-). destruct (decide (c0 = c)) as [->|].
    - rewrite Hc in H0. injection H0 as ->. exists (f ch0). split; [|apply Hf]. apply list_lookup_insert. by eapply lookup_lt_Some.
    - exists ch. by rewrite list_lookup_insert_ne. }
  assert (HL : forall i e c pc, (forall x, pc = LReady (Some x) \/ pc = LParked (Some x) -> (exists ch, d_chans s1 !! x = Some ch /\ sc_owner ch = e)) ->
    forall j e', <[i := (e, pc)]> (d_loops s1) !! j = Some (e', LReady (Some c)) \/ <[i := (e, pc)]> (d_loops s1) !! j = Some (e', LParked (Some c)) ->
      exists ch, d_chans s1 !! c = Some ch /\ sc_owner ch = e').
  { intros i e c pc Hpc j e' [Hj|Hj]; apply insert_pair_lookup in Hj as [(-> & -> & ->)|[_ Hj]].
    - apply Hpc. by left.
    - eapply I2. by left.
    - apply Hpc. by right.
    - eapply I2. by right. }
  inversion Hst; subst; unfold owned; simpl in *.
  - done.
  - split.
    + intros e0 c [[= -> ->]|Hin]%elem_of_cons.
      * exists (Schan e [] false). split; [by apply list_lookup_middle|done].
      * apply unmap_in in Hin as [Hin _]. destruct (I1 _ _ Hin) as (ch & ? & ?). exists ch. split; [|done]. by apply lookup_app_l_Some.
    + intros i e0 c Hi. assert (d_loops s1 !! i = Some (e0, LReady (Some c)) \/ d_loops s1 !! i = Some (e0, LParked (Some c))) as Hi'.
      { destruct Hi as [Hi|Hi]; apply lookup_app_Some in Hi as [Hi|[_ Hi]]; [by left| |by right|];
          destruct (i - length (d_loops s1)) as [|[]]; done. }
      destruct (I2 _ _ _ Hi') as (ch & ? & ?). exists ch. split; [|done]. by apply lookup_app_l_Some.
  - done.
  - split.
    + intros e0 c0 [Hin _]%unmap_in. apply (HC c (fun ch => Schan (sc_owner ch) (sc_buf ch) true)); [done|done|by apply I1].
    + intros j e0 c0 Hj. apply (HC c (fun ch => Schan (sc_owner ch) (sc_buf ch) true)); [done|done|].
      assert (d_loops s1 !! j = Some (e0, LReady (Some c0)) \/ d_loops s1 !! j = Some (e0, LParked (Some c0))) as Hj'; [|by eapply I2].
      destruct Hj as [Hj|Hj]; rewrite list_lookup_fmap in Hj;
        (destruct (<[i := (e', LStopped)]> (d_loops s1) !! j) as [[a pc0]|] eqn:E; [|done]); simpl in Hj; injection Hj as Hj;
        (apply insert_pair_lookup in E as [(-> & -> & <-)|[_ E]]; [done|]);
        destruct pc0 as [|?|[x|]|?|]; unfold wake in Hj; simpl in Hj; try (injection Hj as -> ->); try (by left); try (by right); try done.
      * destruct (x =? c); done.
      * destruct (x =? c); [done|]. injection Hj as -> ->. by right.
  - split.
    + intros e0 c0 [Hin _]%unmap_in. apply (HC c (fun ch => Schan (sc_owner ch) [true] true)); [done|done|by apply I1].
    + intros j e0 c0 Hj. apply (HC c (fun ch => Schan (sc_owner ch) [true] true)); [done|done|by eapply I2].
  - split; [done|]. intros j e0 c. apply HL. naive_solver.
  - done.
  - split; [done|]. intros j e0 c. apply HL. intros x [[= Hx]|[=]]. apply look_in in Hx. by apply I1.
  - split.
    + intros e0 c0 Hin. apply (HC c (fun ch => Schan (sc_owner ch) b (sc_closed ch))); [done|done|by apply I1].
    + intros j e0 c0 Hj. apply (HC c (fun ch => Schan (sc_owner ch) b (sc_closed ch))); [done|done|].
      eapply HL; [|exact Hj]. naive_solver.
  - split; [done|]. intros j e0 c0. apply HL. naive_solver.
  - split; [done|]. intros j e0 c0. apply HL. naive_solver.
  - split; [done|]. intros j e0 c0. apply HL. intros x [[=]|[= ->]]. eapply I2. by left.
  - split; [done|]. intros j e0 c0. apply HL. naive_solver.
Qed.
Lemma parked_stops s e i c s1 ls s2 : dreach σ s -> only_parked s e i c -> dstep σ s (DDelete e) s1 ->
  drun σ s1 ls s2 -> Forall (not_again e) ls -> sent_for e s2 = sent_for e s.
Proof.
  intros Hr (Hm & Hi & Ho) Hd Hls Hn.
  assert (all_stopped e s1 /\ sent_for e s1 = sent_for e s) as [Ha Hs].
  { inversion Hd; subst; unfold sent_for; simpl.
    - congruence.
    - rewrite Hm in H0. injection H0 as <-.
      destruct (owned_reach _ Hr) as [_ O2].
      split; [|done]. intros j pc Hj. simpl in Hj. rewrite list_lookup_fmap in Hj.
      destruct (<[i0 := (e', LStopped)]> (d_loops s) !! j) as [[a pc0]|] eqn:E; [|done]. simpl in Hj. injection Hj as Hj.
      assert (a = e) as ->. { pose proof (f_equal fst Hj) as Hf. rewrite wake_fst in Hf. done. }
      (* the goroutine that got the value is this endpoint's *)
      assert (e' = e) as ->.
      { destruct (O2 i0 e' c) as (ch1 & C1 & C2); [by right|]. destruct (O2 i e c) as (ch2 & C3 & C4); [by right|]. congruence. }
      assert (i0 = i) as ->.
      { destruct (decide (i0 = i)) as [|Hne]; [done|]. eapply Ho in H1; [done|done]. }
      apply insert_pair_lookup in E as [(-> & _ & <-)|[Hne E]].
      + unfold wake in Hj. simpl in Hj. by injection Hj as <-.
      + apply Ho in E as ->; [|done]. unfold wake in Hj. simpl in Hj. by injection Hj as <-.
    - rewrite Hm in H0. injection H0 as <-. exfalso. by eapply H1. }
  rewrite <- Hs. by eapply all_stopped_run.
Qed.

(** DeleteEndPoint never blocks: the stop channel of a registered endpoint is empty. *)
Definition fresh (s : dst) : Prop :=
  NoDup ((d_map s).*2) /\
  (forall e c, (e, c) ∈ d_map s -> exists ch, d_chans s !! c = Some ch /\ sc_buf ch = [] /\ sc_closed ch = false).
Lemma unmap_nodup2 m e : NoDup m.*2 -> NoDup (unmap m e).*2.
Proof.
  unfold unmap. induction m as [|[a b] m IH]; simpl; intros H; [done|]. apply NoDup_cons in H as [H1 H2].
  destruct (negb (a =? e)); simpl; [|by apply IH]. apply NoDup_cons. split; [|by apply IH].
  intros ([x y] & -> & Hy)%elem_of_list_fmap. apply H1. apply elem_of_list_fmap. exists (x, y). split; [done|].
  apply elem_of_list_In, filter_In in Hy as [Hy _]. by apply elem_of_list_In.
Qed.
Lemma unmap_chan m e c e0 c0 : NoDup m.*2 -> look m e = Some c -> (e0, c0) ∈ unmap m e -> c0 <> c.
Proof.
  intros Hn Hl [Hin Hne]%unmap_in ->. apply look_in in Hl. simpl in Hne.
  apply elem_of_list_lookup in Hl as [i Hi]. apply elem_of_list_lookup in Hin as [j Hj].
  assert (i = j) as ->.
  { eapply NoDup_lookup; [exact Hn| |]; rewrite list_lookup_fmap; [by rewrite Hi|by rewrite Hj]. }
  congruence.
Qed.
Lemma fresh_reach s : dreach σ s -> fresh s.
Proof.
  intros [ls H]. induction H as [|ls s1 l s2 H IH Hst]; [split; [constructor|by intros e c ?%elem_of_nil]|].
  destruct IH as [I0 I1].
  inversion Hst; subst; unfold fresh; simpl in *; try done.
  - split.
    + apply NoDup_cons. split; [|by apply unmap_nodup2].
      intros ([x y] & Hy & [Hin _]%unmap_in)%elem_of_list_fmap. simpl in Hy. subst y.
      destruct (I1 _ _ Hin) as (ch & Hc & _). apply lookup_lt_Some in Hc. lia.
    + intros e0 c [[= -> ->]|Hin]%elem_of_cons.
      * exists (Schan e [] false). split; [by apply list_lookup_middle|done].
      * apply unmap_in in Hin as [Hin _]. destruct (I1 _ _ Hin) as (ch & ? & ?). exists ch. split; [|done]. by apply lookup_app_l_Some.
  - split; [by apply unmap_nodup2|]. intros e0 c0 Hin. pose proof (unmap_chan _ _ _ _ _ I0 H0 Hin) as Hne.
    apply unmap_in in Hin as [Hin _]. destruct (I1 _ _ Hin) as (ch1 & ? & ?). exists ch1. by rewrite list_lookup_insert_ne.
  - split; [by apply unmap_nodup2|]. intros e0 c0 Hin. pose proof (unmap_chan _ _ _ _ _ I0 H0 Hin) as Hne.
    apply unmap_in in Hin as [Hin _]. destruct (I1 _ _ Hin) as (ch1 & ? & ?). exists ch1. by rewrite list_lookup_insert_ne.
  - split; [done|]. intros e0 c0 Hin. destruct (I1 _ _ Hin) as (ch1 & C1 & C2 & C3). exists ch1.
    rewrite list_lookup_insert_ne; [done|]. intros ->. rewrite H1 in C1. injection C1 as ->. rewrite H2 in C2. done.
Qed.
Lemma delete_enabled s e : dreach σ s -> exists s', dstep σ s (DDelete e) s'.
Proof.
  intros Hr. destruct (look (d_map s) e) as [c|] eqn:E; [|eexists; by apply dk_delete_none].
  destruct (fresh_reach _ Hr) as [_ H]. destruct (H _ _ (look_in _ _ _ E)) as (ch & Hc & Hb & _).
  destruct (List.find (fun p => match snd p with LParked (Some c') => c' =? c | _ => false end) (d_loops s)) as [[e' pc]|] eqn:F.
  - apply List.find_some in F as [F1 F2]. apply elem_of_list_In, elem_of_list_lookup in F1 as [i Hi]. simpl in F2.
    destruct pc as [| |[c'|]| |]; try done. apply Nat.eqb_eq in F2 as ->. eexists. by eapply dk_delete_parked.
  - eexists. eapply dk_delete_buffer; [done| |done|done]. intros i e' Hi.
    eapply List.find_none in F; [|apply elem_of_list_In; by eapply elem_of_list_lookup_2]. simpl in F. by rewrite Nat.eqb_refl in F.
Qed.
(** ** Order of transmission *)
Lemma puts_app e ls l : puts e (ls ++ [l]) = puts e ls ++ puts e [l].
Proof. unfold puts. by rewrite omap_app. Qed.
Definition hand1 (e : nat) (p : nat * lpc) : option nat :=
  match p with (x, LSending m) => if decide (x = e) then Some m else None | _ => None end.
Lemma in_hand_eq e s : in_hand e s = omap (hand1 e) (d_loops s).
Proof. done. Qed.
Lemma omap_insert_split (l : list (nat * lpc)) i p q e : l !! i = Some p ->
  omap (hand1 e) l = omap (hand1 e) (take i l) ++ option_list (hand1 e p) ++ omap (hand1 e) (drop (S i) l) /\
  omap (hand1 e) (<[i := q]> l) = omap (hand1 e) (take i l) ++ option_list (hand1 e q) ++ omap (hand1 e) (drop (S i) l).
Proof.
  intros H. split.
  - rewrite <- (take_drop_middle l i p H) at 1. rewrite omap_app. simpl. by destruct (hand1 e p).
  - assert (i < length l) as Hi by (by eapply lookup_lt_Some). rewrite insert_take_drop by done. rewrite omap_app. simpl. by destruct (hand1 e q).
Qed.
Lemma hand_wake e c (l : list (nat * lpc)) : omap (hand1 e) (wake c <$> l) = omap (hand1 e) l.
Proof.
  assert (forall p, hand1 e (wake c p) = hand1 e p) as G.
  { intros [a pc]. destruct pc as [| |[c'|]| |]; try done. unfold wake. simpl. by destruct (c' =? c). }
  induction l as [|p l IH]; [done|]. rewrite fmap_cons. cbn -[wake hand1]. rewrite G.
  destruct (hand1 e p); [f_equal|]; apply IH.
Qed.
Lemma hand_same e (l : list (nat * lpc)) i p q : l !! i = Some p -> hand1 e q = hand1 e p ->
  omap (hand1 e) (<[i := q]> l) = omap (hand1 e) l.
Proof. intros H E. destruct (omap_insert_split l i p q e H) as [-> ->]. by rewrite E. Qed.
Lemma sent_app e s p : omap (fun p => if decide (fst p = e) then Some (snd p) else None) (d_sent s ++ [p]) =
  sent_for e s ++ (if decide (fst p = e) then [snd p] else []).
Proof. unfold sent_for. rewrite omap_app. simpl. by case_decide. Qed.
Lemma parked_empty s : dreach σ s -> forall i e ch, d_loops s !! i = Some (e, LParked ch) -> d_tx s e = [].
Proof.
  intros [ls H]. induction H as [|ls s1 l s2 H IH Hst]; [done|].
  assert (HL : forall i e pc, (forall ch, pc <> LParked ch) ->
    forall j e' ch, <[i := (e, pc)]> (d_loops s1) !! j = Some (e', LParked ch) -> d_tx s1 e' = []).
  { intros i e pc Hpc j e' ch Hj. apply insert_pair_lookup in Hj as [(_ & _ & Hp)|[_ Hj]]; [by apply Hpc in Hp|by eapply IH]. }
  inversion Hst; subst; simpl in *; try done.
  - intros j e0 ch Hj. apply lookup_app_Some in Hj as [Hj|[_ Hj]]; [by eapply IH|].
    destruct (j - length (d_loops s1)) as [|[]]; done.
  - intros j e0 ch0 Hj. rewrite list_lookup_fmap in Hj.
    destruct (<[i := (e', LStopped)]> (d_loops s1) !! j) as [[a pc0]|] eqn:E; [|done]. simpl in Hj. injection Hj as Hj.
    apply insert_pair_lookup in E as [(-> & -> & <-)|[_ E]]; [done|].
    destruct pc0 as [| |[c'|]| |]; unfold wake in Hj; simpl in Hj; try done.
    + destruct (c' =? c); [done|]. injection Hj as <- <-. by eapply IH.
    + injection Hj as <- <-. by eapply IH.
  - intros j e0 ch0. by apply HL.
  - intros j e0 ch0 Hj. unfold set_tx. case_decide; [|by eapply IH]. subst. by apply H0 in Hj.
  - intros j e0 ch0. by apply HL.
  - intros j e0 ch0. by apply HL.
  - intros j e0 ch0. by apply HL.
  - intros j e0 ch0 Hj. apply insert_pair_lookup in Hj as [(_ & _ & Hp)|[_ Hj]]; [done|].
    unfold set_tx. case_decide; [|by eapply IH]. subst. apply IH in Hj. congruence.
  - intros j e0 ch0 Hj. apply insert_pair_lookup in Hj as [(-> & -> & _)|[_ Hj]]; [done|by eapply IH].
  - intros j e0 ch0. by apply HL.
Qed.
(** Whatever happens: nothing is lost or sent twice. *)
Lemma sent_exactly_once ls s e : drun σ new_deck ls s -> sent_for e s ++ in_hand e s ++ d_tx s e ≡ₚ puts e ls.
Proof.
  induction 1 as [|ls s1 l s2 H IH Hst]; [done|]. rewrite puts_app, <- IH. clear IH. rewrite !in_hand_eq.
  inversion Hst; subst; unfold sent_for at 1; simpl.
  - by rewrite app_nil_r.
  - rewrite omap_app. simpl. by rewrite !app_nil_r.
  - by rewrite app_nil_r.
  - rewrite hand_wake. erewrite (hand_same e); [by rewrite app_nil_r|done|done].
  - by rewrite app_nil_r.
  - destruct (omap_insert_split (d_loops s1) i _ (e0, LSending m) e H0) as [-> ->]. simpl. case_decide; simpl; [|by rewrite app_nil_r].
    subst. rewrite H1. unfold sent_for. solve_Permutation.
  - unfold set_tx. unfold puts; simpl. repeat case_decide; subst; try done; [|by rewrite app_nil_r]. unfold sent_for. by rewrite !app_assoc.
  - erewrite (hand_same e); [by rewrite app_nil_r|done|done].
  - erewrite (hand_same e); [by rewrite app_nil_r|done|done].
  - erewrite (hand_same e); [by rewrite app_nil_r|done|done].
  - destruct (omap_insert_split (d_loops s1) i _ (e0, LSending m) e H0) as [-> ->]. simpl. unfold set_tx.
    repeat case_decide; subst; simpl; try done; [|by rewrite app_nil_r]. rewrite H1. unfold sent_for. solve_Permutation.
  - erewrite (hand_same e); [by rewrite app_nil_r|done|done].
  - destruct (omap_insert_split (d_loops s1) i _ (e0, LTop) e H0) as [-> ->]. rewrite sent_app. simpl.
    case_decide; simpl; rewrite ?app_nil_r; [|done]. solve_Permutation.
Qed.
Lemma registrations_app e ls l : registrations e (ls ++ [l]) = registrations e ls + registrations e [l].
Proof. unfold registrations. by rewrite List.filter_app, app_length. Qed.
Definition loops_of (e : nat) (s : dst) : list (nat * lpc) := List.filter (fun p => fst p =? e) (d_loops s).
Lemma loops_insert (l : list (nat * lpc)) i e pc pc' x : l !! i = Some (e, pc) ->
  length (List.filter (fun p => fst p =? x) (<[i := (e, pc')]> l)) = length (List.filter (fun p => fst p =? x) l).
Proof.
  revert i. induction l as [|[a b] l IH]; intros [|i] H; simpl in *; try done.
  - injection H as -> ->. by destruct (e =? x).
  - destruct (a =? x); simpl; by rewrite (IH i).
Qed.
Lemma loops_registrations ls s e : drun σ new_deck ls s -> length (loops_of e s) = registrations e ls.
Proof.
  induction 1 as [|ls s1 l s2 H IH Hst]; [done|]. rewrite registrations_app, <- IH. unfold loops_of.
  inversion Hst; subst; simpl; unfold registrations; simpl; try lia; try (erewrite loops_insert; [lia|done]).
  - rewrite List.filter_app, app_length. simpl. by destruct (e0 =? e).
  - rewrite <- (loops_insert (d_loops s1) i e' (LParked (Some c)) LStopped e) by done. rewrite Nat.add_0_r.
    generalize (<[i := (e', LStopped)]> (d_loops s1)). intros l. induction l as [|p l IHl]; [done|].
    rewrite fmap_cons. simpl. rewrite wake_fst. destruct (fst p =? e); simpl; by rewrite IHl.
Qed.
Lemma one_hand (l : list (nat * lpc)) i e m m' : l !! i = Some (e, m) -> length (List.filter (fun p => fst p =? e) l) <= 1 ->
  hand1 e (e, m) = m' -> omap (hand1 e) (take i l) = [] /\ omap (hand1 e) (drop (S i) l) = [].
Proof.
  intros Hi Hl _. rewrite <- (take_drop_middle l i _ Hi) in Hl. rewrite List.filter_app, app_length in Hl. simpl in Hl.
  rewrite Nat.eqb_refl in Hl. simpl in Hl.
  assert (forall l0 : list (nat * lpc), length (List.filter (fun p => fst p =? e) l0) = 0 -> omap (hand1 e) l0 = []) as G.
  { intros l0. induction l0 as [|[a b] l0 IH]; simpl; [done|]. destruct (Nat.eqb_spec a e); [done|]. intros H.
    destruct b; simpl; try (by apply IH). destruct (decide (a = e)); [done|]. by apply IH. }
  split; apply G; lia.
Qed.
Lemma sent_in_order ls s e : drun σ new_deck ls s -> registrations e ls <= 1 ->
  sent_for e s ++ in_hand e s ++ d_tx s e = puts e ls.
Proof.
  intros Hr. induction Hr as [|ls s1 l s2 H IH Hst]; [done|]. rewrite registrations_app, puts_app. intros Hn.
  rewrite <- IH by lia. clear IH. pose proof (loops_registrations _ _ e H) as Hl. rewrite !in_hand_eq.
  assert (length (List.filter (fun p => fst p =? e) (d_loops s1)) <= 1) as Hl1 by (unfold loops_of in Hl; lia).
  inversion Hst; subst; unfold sent_for at 1; simpl.
  - by rewrite app_nil_r.
  - rewrite omap_app. simpl. by rewrite !app_nil_r.
  - by rewrite app_nil_r.
  - rewrite hand_wake. erewrite (hand_same e); [by rewrite app_nil_r|done|done].
  - by rewrite app_nil_r.
  - unfold puts. simpl. case_decide.
    + subst. destruct (one_hand _ _ _ _ _ H0 Hl1 eq_refl) as [E1 E2].
      destruct (omap_insert_split (d_loops s1) i _ (e, LSending m) e H0) as [-> ->]. rewrite E1, E2, H1. simpl.
      rewrite decide_True by done. simpl. unfold sent_for. by rewrite app_nil_r.
    + erewrite (hand_same e); [by rewrite app_nil_r|done|]. simpl. by rewrite decide_False.
  - unfold set_tx. unfold puts; simpl. repeat case_decide; subst; try done; [|by rewrite app_nil_r]. unfold sent_for. by rewrite !app_assoc.
  - erewrite (hand_same e); [by rewrite app_nil_r|done|done].
  - erewrite (hand_same e); [by rewrite app_nil_r|done|done].
  - erewrite (hand_same e); [by rewrite app_nil_r|done|done].
  - unfold set_tx. case_decide.
    + subst. destruct (one_hand _ _ _ _ _ H0 Hl1 eq_refl) as [E1 E2].
      destruct (omap_insert_split (d_loops s1) i _ (e0, LSending m) e0 H0) as [-> ->]. rewrite E1, E2, H1. simpl.
      rewrite decide_True by done. simpl. unfold sent_for. by rewrite app_nil_r.
    + erewrite (hand_same e); [by rewrite app_nil_r|done|]. simpl. by rewrite decide_False.
  - erewrite (hand_same e); [by rewrite app_nil_r|done|done].
  - rewrite sent_app. simpl. case_decide.
    + subst. destruct (one_hand _ _ _ _ _ H0 Hl1 eq_refl) as [E1 E2].
      destruct (omap_insert_split (d_loops s1) i _ (e, LTop) e H0) as [-> ->]. rewrite E1, E2. simpl.
      rewrite decide_True by done. simpl. by rewrite app_nil_r, <- app_assoc.
    + rewrite !app_nil_r. erewrite (hand_same e); [done|done|]. simpl. by rewrite decide_False.
Qed.
(** A put blocks only when the channel is full and nobody waits. *)
Lemma put_enabled s e m : dreach σ s -> length (d_tx s e) < 512 -> exists s', dstep σ s (DPut e m) s'.
Proof.
  intros Hr Hl.
  destruct (List.find (fun p => match p with (x, LParked _) => x =? e | _ => false end) (d_loops s)) as [[e' pc]|] eqn:F.
  - apply List.find_some in F as [F1 F2]. apply elem_of_list_In, elem_of_list_lookup in F1 as [i Hi].
    destruct pc; try done. apply Nat.eqb_eq in F2 as ->. eexists. eapply dk_put_parked; [done|]. by eapply parked_empty.
  - eexists. apply dk_put_buffer; [|done]. intros i ch Hi.
    eapply List.find_none in F; [|apply elem_of_list_In; by eapply elem_of_list_lookup_2]. simpl in F. by rewrite Nat.eqb_refl in F.
Qed.
(** Deleted while busy and registered again: two goroutines, messages overtake. *)
Lemma overtaking e m0 m1 m2 : exists ls s, drun σ new_deck ls s /\ puts e ls = [m0; m1; m2] /\
  registrations e ls = 2 /\ sent_for e s = [m0; m2; m1].
Proof.
  eexists [DCheck e; DInsert e; DLoop e; DPut e m0; DLoop e; DDelete e; DCheck e; DInsert e; DLoop e; DLoop e; DLoop e;
           DPut e m1; DLoop e; DPut e m2; DLoop e; DLoop e; DLoop e], _. split.
  { eapply drun_cons; [apply (dk_check _ _ e)|]. cbn.
    eapply drun_cons; [apply (dk_insert _ _ e [] []); done|]. cbn.
    eapply drun_cons; [by apply (dk_read _ _ 0)|]. cbn. rewrite Nat.eqb_refl. cbn.
    eapply drun_cons; [eapply dk_put_buffer; [by intros [|[]]|cbn; lia]|]. cbn.
    eapply drun_cons; [eapply (dk_take _ _ 0 e _ m0 []); [done|cbn; unfold set_tx; by rewrite decide_True]|]. cbn.
    eapply drun_cons; [eapply (dk_delete_buffer _ _ e 0); [cbn; by rewrite Nat.eqb_refl|by intros [|[]]|done|done]|]. cbn.
    rewrite Nat.eqb_refl. cbn.
    eapply drun_cons; [apply (dk_check _ _ e)|]. cbn.
    eapply drun_cons; [apply (dk_insert _ _ e [] []); done|]. cbn.
    eapply drun_cons; [by apply (dk_send _ _ 0)|]. cbn.
    eapply drun_cons; [by apply (dk_read _ _ 0)|]. cbn. rewrite Nat.eqb_refl. cbn.
    eapply drun_cons; [by apply (dk_read _ _ 1)|]. cbn. rewrite Nat.eqb_refl. cbn.
    eapply drun_cons; [eapply (dk_put_buffer _ _ e m1); [by intros [|[|[]]]|cbn; unfold set_tx; rewrite decide_True by done; cbn; lia]|]. cbn.
    eapply drun_cons; [eapply (dk_take _ _ 0 e _ m1 []); [done|cbn; unfold set_tx; by rewrite !decide_True]|]. cbn.
    eapply drun_cons; [eapply (dk_put_buffer _ _ e m2); [by intros [|[|[]]]|cbn; unfold set_tx; rewrite decide_True by done; cbn; lia]|]. cbn.
    eapply drun_cons; [eapply (dk_take _ _ 1 e _ m2 []); [done|cbn; unfold set_tx; by rewrite !decide_True]|]. cbn.
    eapply drun_cons; [by apply (dk_send _ _ 1)|]. cbn.
    apply drun_one. by apply (dk_send _ _ 0). }
  unfold puts, registrations, sent_for. cbn. rewrite !decide_True, Nat.eqb_refl by done. done.
Qed.

(** ** Hand-over *)
Definition hinv (cap : nat) (s : hst) : Prop := forall e,
  h_got s e ++ h_buf s e ++ h_blocked s e = h_handed s e /\ length (h_buf s e) <= cap /\
  (h_blocked s e <> [] -> length (h_buf s e) = cap).
Lemma hinv_run cap ls s : hrun σ cap new_hand ls s -> hinv cap s.
Proof.
  induction 1 as [|ls s l s' H IH Hst]; [intros e; simpl; split_and!; [done|lia|done]|].
  inversion Hst; subst; intros y; destruct (IH y) as (I1 & I2 & I3); simpl; unfold upd;
    try case_decide; subst; try done.
  - split_and!.
    + assert (h_blocked s e = []) as E. { destruct (h_blocked s e); [done|]. exfalso. specialize (I3 ltac:(done)). lia. }
      rewrite E in *. rewrite app_nil_r in *. by rewrite <- I1, app_assoc.
    + rewrite app_length. simpl. lia.
    + intros Hb. specialize (I3 Hb). lia.
  - split_and!; [|done|lia]. by rewrite <- I1, !app_assoc.
  - rewrite H0 in *. simpl in *. rewrite <- app_assoc. simpl. split_and!.
    + rewrite <- I1. do 2 f_equal. rewrite <- app_assoc, take_drop. done.
    + rewrite app_length, take_length. destruct (h_blocked s e) as [|y b]; simpl in *; [lia|]. specialize (I3 ltac:(done)). lia.
    + intros Hb. rewrite app_length, take_length. destruct (h_blocked s e) as [|y b]; simpl in *; [done|]. specialize (I3 ltac:(done)). lia.
  - rewrite H0, H1 in *. simpl in *. split_and!.
    + rewrite <- I1, <- app_assoc. done.
    + lia.
    + intros Hb. by apply I3.
Qed.
Lemma of_conn_app c l1 l2 : of_conn c (l1 ++ l2) = of_conn c l1 ++ of_conn c l2.
Proof. apply omap_app. Qed.
Lemma hand_over cap ls s e : hrun σ cap new_hand ls s ->
  h_got s e ++ h_buf s e ++ h_blocked s e = h_handed s e /\ length (h_buf s e) <= cap /\
  (h_blocked s e <> [] -> length (h_buf s e) = cap) /\
  forall c, exists rest, of_conn c (h_got s e) ++ rest = of_conn c (h_handed s e).
Proof.
  intros H. destruct (hinv_run _ _ _ H e) as (H1 & H2 & H3). split_and!; try done.
  intros c. exists (of_conn c (h_buf s e ++ h_blocked s e)). rewrite <- H1. by rewrite (of_conn_app c (h_got s e)).
Qed.
Lemma hrun_app cap s ls1 s1 ls2 s2 : hrun σ cap s ls1 s1 -> hrun σ cap s1 ls2 s2 -> hrun σ cap s (ls1 ++ ls2) s2.
Proof.
  intros H1 H2. induction H2 as [|ls s3 l s4 H2 IH Hs]; [by rewrite app_nil_r|].
  rewrite app_assoc. econstructor; done.
Qed.
Lemma hrun_one cap s l s' : hstep σ cap s l s' -> hrun σ cap s [l] s'.
Proof. intros H. change [l] with ([] ++ [l]). econstructor; [constructor|done]. Qed.
Lemma hrun_cons cap s l s1 ls s2 : hstep σ cap s l s1 -> hrun σ cap s1 ls s2 -> hrun σ cap s (l :: ls) s2.
Proof. intros H1 H2. change (l :: ls) with ([l] ++ ls). eapply hrun_app; [by apply hrun_one|done]. Qed.
(** A goroutine has at most one message in hand. *)
Lemma found_once cap ls s : hrun σ cap new_hand ls s -> NoDup (fst ∘ snd <$> h_found s).
Proof.
  induction 1 as [|ls s l s' H IH Hst]; [constructor|]. inversion Hst; subst; simpl; try done.
  - rewrite fmap_app. apply NoDup_app. split_and!; [done| |apply NoDup_singleton].
    intros c0 Hc ->%elem_of_list_singleton. apply elem_of_list_fmap in Hc as ([e0 [c1 m0]] & E & Hin). simpl in E. subst.
    destruct H0 as [H0 _]. by eapply H0.
  - rewrite H0 in IH. rewrite fmap_app in *. simpl in IH. apply NoDup_app in IH as (A & B & C). apply NoDup_cons in C as [C D].
    apply NoDup_app. split_and!; [done| |done]. intros z Hz Hz2. apply (B _ Hz). by right.
  - rewrite H0 in IH. rewrite fmap_app in *. simpl in IH. apply NoDup_app in IH as (A & B & C). apply NoDup_cons in C as [C D].
    apply NoDup_app. split_and!; [done| |done]. intros z Hz Hz2. apply (B _ Hz). by right.
Qed.
Lemma found_for_split e s f1 e0 c m f2 : h_found s = f1 ++ (e0, (c, m)) :: f2 ->
  found_for e s = omap (fun p => if decide (fst p = e) then Some (snd p) else None) f1 ++
    (if decide (e0 = e) then [(c, m)] else []) ++ omap (fun p => if decide (fst p = e) then Some (snd p) else None) f2.
Proof. intros H. unfold found_for. rewrite H, omap_app. simpl. by case_decide. Qed.
Lemma of_conn_absent c e (f : list (nat * (nat * nat))) : c ∉ (fst ∘ snd <$> f) ->
  of_conn c (omap (fun p => if decide (fst p = e) then Some (snd p) else None) f) = [].
Proof.
  induction f as [|[e0 [c0 m0]] f IH]; [done|]. rewrite fmap_cons, not_elem_of_cons. intros [H1 H2]. simpl in *.
  case_decide; [|by apply IH]. unfold of_conn in *. simpl. rewrite decide_False by congruence. by apply IH.
Qed.
(** Everything delivered for a session that an endpoint serves is handed to it. *)
Lemma deliver_all cap ls0 s ls s' e k c : hrun σ cap new_hand ls0 s -> hrun σ cap s ls s' -> serves_throughout σ e k s ls ->
  of_conn c (h_handed s' e ++ found_for e s') = of_conn c (h_handed s e ++ found_for e s) ++ delivered c k ls.
Proof.
  intros H0 H [Hs Hl]. 
  assert (σ e = k) as He.
  { assert (In e (List.filter (fun x => (σ x =? k)%Z) (h_served s))) as Hin by (rewrite Hs; by left).
    apply filter_In in Hin as [_ Hin]. by apply Z.eqb_eq. }
  assert (List.filter (fun x => (σ x =? k)%Z) (h_served s') = [e] /\
    of_conn c (h_handed s' e ++ found_for e s') = of_conn c (h_handed s e ++ found_for e s) ++ delivered c k ls) as [_ ?]; [|done].
  induction H as [|ls s1 l s2 H IH Hst]; [split; [done|by rewrite app_nil_r]|].
  destruct IH as [J1 J2]. { intros l0 Hin. apply Hl. apply elem_of_app. by left. }
  assert (delivered c k (ls ++ [l]) = delivered c k ls ++ delivered c k [l]) as -> by (unfold delivered; by rewrite omap_app).
  rewrite app_assoc, <- J2.
  assert (hrun σ cap new_hand (ls0 ++ ls) s1) as Hr by (by eapply hrun_app).
  pose proof (found_once _ _ _ Hr) as Hfo.
  inversion Hst; subst.
  - split; [|by rewrite app_nil_r]. simpl. apply Hl. apply elem_of_app. right. left.
  - split; [done|]. unfold delivered. simpl. case_decide as Hc; [|by rewrite app_nil_r]. destruct Hc as [-> ->]. exfalso.
    apply (H2 e); [|done]. assert (In e (List.filter (fun x => (σ x =? σ e)%Z) (h_served s2))) as Hin by (rewrite J1; by left).
    apply filter_In in Hin as [Hin _]. by apply elem_of_list_In.
  - split; [done|]. unfold found_for at 1. simpl. rewrite omap_app. unfold delivered. simpl. fold (found_for e s1).
    assert (σ e0 = σ e -> e0 = e) as He0.
    { intros E. assert (In e0 (List.filter (fun x => (σ x =? σ e)%Z) (h_served s1))) as Hin.
      { apply filter_In. split; [by apply elem_of_list_In|by apply Z.eqb_eq]. }
      rewrite J1 in Hin. by destruct Hin as [->|[]]. }
    destruct (decide (e0 = e)) as [->|Hne].
    + rewrite app_assoc, of_conn_app. f_equal. unfold of_conn. simpl. repeat case_decide; naive_solver.
    + rewrite app_nil_r. rewrite decide_False by (intros [_ E]; by apply Hne, He0). by rewrite app_nil_r.
  - split; [done|]. unfold delivered. simpl. rewrite app_nil_r. rewrite (found_for_split e s1 _ _ _ _ _ H1). unfold found_for, upd. simpl.
    rewrite omap_app. case_decide; subst; [|by rewrite decide_False by congruence]. rewrite decide_True by done.
    rewrite H1 in Hfo. rewrite fmap_app in Hfo. simpl in Hfo. apply NoDup_app in Hfo as (_ & Hfo & _).
    rewrite !of_conn_app. rewrite <- !app_assoc. f_equal. destruct (decide (c0 = c)) as [->|Hc].
    * rewrite (of_conn_absent c e0 f1); [done|]. intros Hin. apply (Hfo _ Hin). left.
    * unfold of_conn at 1 4. simpl. by rewrite decide_False.
  - split; [done|]. unfold delivered. simpl. rewrite app_nil_r. rewrite (found_for_split e s1 _ _ _ _ _ H1). unfold found_for, upd. simpl.
    rewrite omap_app. case_decide; subst; [|by rewrite decide_False by congruence]. rewrite decide_True by done.
    rewrite H1 in Hfo. rewrite fmap_app in Hfo. simpl in Hfo. apply NoDup_app in Hfo as (_ & Hfo & _).
    rewrite !of_conn_app. rewrite <- !app_assoc. f_equal. destruct (decide (c0 = c)) as [->|Hc].
    * rewrite (of_conn_absent c e0 f1); [done|]. intros Hin. apply (Hfo _ Hin). left.
    * unfold of_conn at 1 4. simpl. by rewrite decide_False.
  - split; [done|]. by rewrite app_nil_r.
  - split; [done|]. by rewrite app_nil_r.
Qed.

(** A goroutine that is blocked at one endpoint delivers nothing to any other. *)
Lemma held_up cap s ls s' e c m : (c, m) ∈ h_blocked s e -> hrun σ cap s ls s' -> HGet e ∉ ls ->
  (c, m) ∈ h_blocked s' e /\ forall k x, HReceive c k x ∉ ls.
Proof.
  intros Hb. induction 1 as [|ls s1 l s2 H IH Hs]; intros Hg; [split; [done|intros; apply not_elem_of_nil]|].
  destruct IH as [IH1 IH2]; [intros ?; apply Hg, elem_of_app; by left|]. split.
  - inversion Hs; subst; simpl; try done; unfold upd; case_decide; subst; try done.
    + apply elem_of_app. by left.
    + exfalso. apply Hg, elem_of_app. right. constructor.
    + exfalso. apply Hg, elem_of_app. right. constructor.
  - intros k x Hin. apply elem_of_app in Hin as [Hin|Hin]; [by apply (IH2 k x)|]. apply elem_of_list_singleton in Hin as <-.
    inversion Hs; subst; rename select (free _ _) into Hf; by apply (proj2 Hf e m).
Qed.
Lemma let_go cap ls0 s e c m l1 l2 : hrun σ cap new_hand ls0 s -> h_blocked s e = l1 ++ (c, m) :: l2 ->
  exists s', hrun σ cap s (replicate (S (length l1)) (HGet e)) s' /\ h_blocked s' e = l2.
Proof.
  revert ls0 s. induction l1 as [|y l1 IH]; intros ls0 s H Hb.
  - assert (exists s', hstep σ cap s (HGet e) s' /\ h_blocked s' e = l2) as (s' & Hs & E).
    { destruct (h_buf s e) as [|x q] eqn:Hq.
      - eexists. split; [by eapply hs_get_direct|]. simpl. unfold upd. by rewrite decide_True.
      - eexists. split; [by eapply hs_get|]. simpl. unfold upd. rewrite decide_True by done. by rewrite Hb. }
    exists s'. split; [by apply hrun_one|done].
  - assert (exists s', hstep σ cap s (HGet e) s' /\ h_blocked s' e = l1 ++ (c, m) :: l2) as (s' & Hs & E).
    { destruct (h_buf s e) as [|x q] eqn:Hq.
      - eexists. split; [by eapply hs_get_direct|]. simpl. unfold upd. by rewrite decide_True.
      - eexists. split; [by eapply hs_get|]. simpl. unfold upd. rewrite decide_True by done. by rewrite Hb. }
    destruct (IH (ls0 ++ [HGet e]) s') as (s2 & H2 & E2); [by econstructor|done|].
    exists s2. split; [|done]. simpl. by eapply hrun_cons.
Qed.
Lemma others_go_on cap s c : 
  (free s c -> forall k x, exists s', hstep σ cap s (HReceive c k x) s') /\
  (forall e x, (e, (c, x)) ∈ h_found s -> exists s', hstep σ cap s (HSend c) s' /\
     (length (h_buf s e) < cap -> (c, x) ∈ h_buf s' e)).
Proof.
  split.
  - intros Hf k x. destruct (decide (Exists (fun e => σ e = k) (h_served s))) as [He|He].
    + apply Exists_exists in He as (e & He & <-). eexists. by eapply hs_find.
    + exists s. apply hs_none; [done|]. intros e He' E. apply He. apply Exists_exists. by exists e.
  - intros e x Hin. pose proof Hin as (f1 & f2 & Hf)%elem_of_list_split.
    destruct (decide (length (h_buf s e) < cap)) as [Hl|Hl].
    + eexists. split; [by eapply hs_hand|]. intros _. simpl. unfold upd. rewrite decide_True by done.
      apply elem_of_app. right. constructor.
    + eexists. split; [eapply hs_block; [done|lia]|]. lia.
Qed.
End sigma.
