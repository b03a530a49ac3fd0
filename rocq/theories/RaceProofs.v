(** * Proofs about unsynchronised accesses *)
From Verif Require Import GoBase RaceModel RaceSpec.

Lemma qrun_app s ls s1 ls2 s2 : qrun s ls s1 -> qrun s1 ls2 s2 -> qrun s (ls ++ ls2) s2.
Proof. intros H. induction 1 as [|l2 x l y H2 IH Hst]; [by rewrite app_nil_r|]. rewrite app_assoc. by econstructor. Qed.
Lemma qrun_one s l s' : qstep s l s' -> qrun s [l] s'.
Proof. intros H. apply (qr_snoc s [] s l s'); [constructor|done]. Qed.
Lemma qrun_cons s l s1 ls s2 : qstep s l s1 -> qrun s1 ls s2 -> qrun s (l :: ls) s2.
Proof. intros H1 H2. change (l :: ls) with ([l] ++ ls). eapply qrun_app; [by apply qrun_one|done]. Qed.
Lemma counted_app l1 l2 : counted (l1 ++ l2) = counted l1 + counted l2.
Proof. unfold counted. by rewrite List.filter_app, app_length. Qed.

Lemma count_bound_inv ls s : qrun new_ctr ls s ->
  (0 <= q_ctr s <= Z.of_nat (counted ls))%Z /\ forall g v, q_reg s g = Some v -> (0 <= v <= Z.of_nat (counted ls))%Z.
Proof.
  induction 1 as [|ls s1 l s2 H [IH1 IH2] Hst]; [split; [simpl; lia|done]|]. rewrite counted_app.
  destruct Hst; simpl in *; unfold counted at 2; simpl.
  - split; [lia|]. intros g' v. destruct (decide (g = g')) as [<-|]; [rewrite fn_lookup_insert; intros [= <-]; lia|].
    rewrite fn_lookup_insert_ne by done. intros Hv. specialize (IH2 _ _ Hv). lia.
  - pose proof (IH2 _ _ H0) as Hv. split.
    + pose proof (Z.mod_pos_bound (v + 1) (2^64)). pose proof (Z.mod_le (v + 1) (2^64)). lia.
    + intros g' v'. destruct (decide (g = g')) as [<-|]; [by rewrite fn_lookup_insert|]. rewrite fn_lookup_insert_ne by done. intros Hv'.
      specialize (IH2 _ _ Hv'). unfold counted at 2; simpl. lia.
Qed.
Lemma never_more ls s : qrun new_ctr ls s -> (0 <= q_ctr s <= Z.of_nat (counted ls))%Z.
Proof. intros H. apply (count_bound_inv _ _ H). Qed.

Lemma loads n gs : forall r, NoDup gs -> (forall g, g ∈ gs -> r g = None) ->
  exists r', qrun (Qst n r) (map QLoad gs) (Qst n r') /\ (forall g, g ∈ gs -> r' g = Some n) /\ (forall g, g ∉ gs -> r' g = r g).
Proof.
  induction gs as [|g gs IH]; intros r N F; [exists r; split; [constructor|]; split; [intros g Hg; by apply elem_of_nil in Hg|done]|].
  inversion N as [|? ? N1 N2]; subst. destruct (IH (<[g := Some n]> r) N2) as (r' & H & H1 & H2).
  { intros h Hh. rewrite fn_lookup_insert_ne by (intros ->; done). apply F. by right. }
  exists r'. split; [simpl; eapply qrun_cons; [|exact H]; constructor; apply F; by left|]. split.
  - intros h [->|Hh]%elem_of_cons; [|by apply H1]. rewrite H2 by done. by rewrite fn_lookup_insert.
  - intros h Hh. apply not_elem_of_cons in Hh as [Hh1 Hh2]. rewrite H2 by done. by rewrite fn_lookup_insert_ne.
Qed.
Lemma stores n gs : forall m r, NoDup gs -> gs <> [] -> (forall g, g ∈ gs -> r g = Some n) ->
  exists r', qrun (Qst m r) (map QStore gs) (Qst ((n + 1) mod 2^64) r') /\ (forall g, g ∈ gs -> r' g = None) /\ (forall g, g ∉ gs -> r' g = r g).
Proof.
  induction gs as [|g gs IH]; intros m r N Hne F; [done|]. inversion N as [|? ? N1 N2]; subst. destruct gs as [|h gs].
  - exists (<[g := None]> r). split; [apply qrun_one; constructor; apply F; by left|]. split.
    + intros h ->%elem_of_list_singleton. by rewrite fn_lookup_insert.
    + intros h Hh. rewrite fn_lookup_insert_ne; [done|]. intros ->. apply Hh. by left.
  - destruct (IH ((n + 1) mod 2^64)%Z (<[g := None]> r) N2) as (r' & H & H1 & H2); [done| |].
    { intros x Hx. rewrite fn_lookup_insert_ne by (intros ->; done). apply F. by right. }
    exists r'. split; [simpl; eapply qrun_cons; [|exact H]; constructor; apply F; by left|]. split.
    + intros x [->|Hx]%elem_of_cons; [|by apply H1]. rewrite H2 by done. by rewrite fn_lookup_insert.
    + intros x Hx. apply not_elem_of_cons in Hx as [Hx1 Hx2]. rewrite H2 by done. by rewrite fn_lookup_insert_ne.
Qed.
Lemma lost_updates s gs : gs <> [] -> NoDup gs -> (forall g, g ∈ gs -> q_reg s g = None) ->
  exists ls s', qrun s ls s' /\ counted ls = length gs /\ q_ctr s' = ((q_ctr s + 1) mod 2^64)%Z.
Proof.
  destruct s as [n r]. simpl. intros Hne N F. destruct (loads n gs r N F) as (r1 & H1 & F1 & _). destruct (stores n gs n r1 N Hne F1) as (r2 & H2 & _).
  exists (map QLoad gs ++ map QStore gs), (Qst ((n + 1) mod 2^64) r2). split; [by eapply qrun_app|]. split; [|done]. rewrite counted_app. unfold counted.
  clear. induction gs as [|g gs IH]; simpl in *; lia.
Qed.
Lemma goes_back s g h k : g <> h -> q_reg s g = None -> q_reg s h = None ->
  exists ls s', qrun s ls s' /\ counted ls = k + 1 /\ q_ctr s' = ((q_ctr s + 1) mod 2^64)%Z.
Proof.
  destruct s as [n r]. simpl. intros Hne Hg Hh.
  assert (exists ls n1 r1, qrun (Qst n (<[g := Some n]> r)) ls (Qst n1 r1) /\ counted ls = k /\ r1 g = Some n /\ r1 h = None) as (ls & n1 & r1 & H & C & R & _).
  { clear -Hne Hh. induction k as [|k (ls & n1 & r1 & H & C & R & R2)].
    - exists [], n, (<[g := Some n]> r). split; [constructor|]. split; [done|]. rewrite fn_lookup_insert. by rewrite fn_lookup_insert_ne.
    - exists (ls ++ [QLoad h; QStore h]), ((n1 + 1) mod 2^64)%Z, (<[h := None]> (<[h := Some n1]> r1)).
      split; [eapply qrun_app; [done|]; eapply qrun_cons; [by constructor|]; apply qrun_one; constructor; by rewrite fn_lookup_insert|].
      split; [rewrite counted_app, C; unfold counted; simpl; lia|]. rewrite !fn_lookup_insert, !fn_lookup_insert_ne by done. done. }
  exists (QLoad g :: ls ++ [QStore g]), (Qst ((n + 1) mod 2^64) (<[g := None]> r1)). split.
  - eapply qrun_cons; [by constructor|]. eapply qrun_app; [done|]. apply qrun_one. by constructor.
  - split; [|done]. change (QLoad g :: ls ++ [QStore g]) with ([QLoad g] ++ ls ++ [QStore g]). rewrite !counted_app, C. unfold counted; simpl. lia.
Qed.

Lemma undisturbed_prefix ls l : undisturbed (ls ++ [l]) -> undisturbed ls.
Proof. intros H l1 g l2 l3 ->. apply (H l1 g l2 (l3 ++ [l])). rewrite <-!app_assoc. simpl. by rewrite <-app_assoc. Qed.
Lemma count_exact ls s : qrun new_ctr ls s -> undisturbed ls -> q_ctr s = (Z.of_nat (counted ls) mod 2^64)%Z.
Proof.
  intros H Hu.
  assert (q_ctr s = (Z.of_nat (counted ls) mod 2^64)%Z /\ forall g v, q_reg s g = Some v ->
    exists l1 l2, ls = l1 ++ QLoad g :: l2 /\ QLoad g ∉ l2 /\ QStore g ∉ l2 /\ (Forall (fun l => ~ is_store l) l2 -> v = q_ctr s)) as [K _]; [|done].
  induction H as [|ls s1 l s2 H IH Hst]; [done|]. pose proof Hu as Hu'. apply undisturbed_prefix in Hu'. destruct (IH Hu') as [IH1 IH2]. clear IH Hu'.
  rewrite counted_app. destruct Hst; simpl in *.
  - split; [unfold counted at 2; simpl; by rewrite Nat.add_0_r|]. intros g' v. destruct (decide (g = g')) as [<-|N].
    + rewrite fn_lookup_insert. intros [= <-]. exists ls, []. split; [done|]. split_and!; try apply not_elem_of_nil. done.
    + rewrite fn_lookup_insert_ne by done. intros Hv. destruct (IH2 _ _ Hv) as (l1 & l2 & -> & N1 & N2 & F). exists l1, (l2 ++ [QLoad g]).
      split; [by rewrite <-app_assoc|]. rewrite !not_elem_of_app, !elem_of_list_singleton. split_and!; try done; [congruence|].
      intros [F1 _]%Forall_app. by apply F.
  - destruct (IH2 _ _ H0) as (l1 & l2 & -> & N1 & N2 & F). assert (v = n) as ->.
    { apply F. apply (Hu l1 g l2 []); [by rewrite <-app_assoc|done|done]. }
    split.
    + unfold counted at 2; simpl. rewrite IH1, Zplus_mod_idemp_l. f_equal. lia.
    + intros g' v'. destruct (decide (g = g')) as [<-|N]; [by rewrite fn_lookup_insert|]. rewrite fn_lookup_insert_ne by done. intros Hv.
      destruct (IH2 _ _ Hv) as (l1' & l2' & E & N1' & N2' & F'). exists l1', (l2' ++ [QStore g]). split; [rewrite E; by rewrite <-app_assoc|].
      rewrite !not_elem_of_app, !elem_of_list_singleton. split_and!; try done; [congruence|]. intros [_ F1]%Forall_app. inversion F1 as [|? ? X]; subst. by destruct X.
Qed.

(** The map. *)
Lemma mrun_app s ls s1 ls2 s2 : mrun s ls s1 -> mrun s1 ls2 s2 -> mrun s (ls ++ ls2) s2.
Proof. intros H. induction 1 as [|l2 x l y H2 IH Hst]; [by rewrite app_nil_r|]. rewrite app_assoc. by econstructor. Qed.
Lemma mrun_one s l s' : mstep s l s' -> mrun s [l] s'.
Proof. intros H. apply (mr_snoc s [] s l s'); [constructor|done]. Qed.
Lemma mrun_cons s l s1 ls s2 : mstep s l s1 -> mrun s1 ls s2 -> mrun s (l :: ls) s2.
Proof. intros H1 H2. change (l :: ls) with ([l] ++ ls). eapply mrun_app; [by apply mrun_one|done]. Qed.
Lemma inside_holds s k : mreach s -> m_acc s k <> AOut -> m_lock s = Some k.
Proof.
  intros (ls & H). revert k. induction H as [|ls s1 l s2 H IH Hst]; [done|]. intros k. destruct Hst; simpl in *; try done.
  - intros Hk. by specialize (IH _ Hk).
  - intros Hk. specialize (IH _ Hk). congruence.
  - destruct (decide (k0 = k)) as [<-|]; [done|]. rewrite fn_lookup_insert_ne by done. apply IH.
  - destruct (decide (k0 = k)) as [<-|]; [done|]. rewrite fn_lookup_insert_ne by done. apply IH.
  - destruct (decide (k0 = k)) as [<-|]; [done|]. rewrite fn_lookup_insert_ne by done. apply IH.
  - apply IH.
  - apply IH.
  - apply IH.
Qed.
Lemma callers_apart s k k' : mreach s -> m_acc s k <> AOut -> m_acc s k' <> AOut -> k = k'.
Proof. intros H H1 H2. pose proof (inside_holds _ _ H H1). pose proof (inside_holds _ _ H H2). congruence. Qed.
Lemma overlap_free s g k b : m_lock s = None -> m_acc s k = AOut -> m_gor s !! g = Some b ->
  exists ls s', mrun s ls s' /\ m_acc s' k = AWriting /\ overlap s'.
Proof.
  destruct s as [o a gs]. simpl. intros -> Hk Hg. destruct b.
  - exists [MLock k; MWrite k], (Mst (Some k) (<[k := AWriting]> a) gs). split.
    + eapply mrun_cons; [constructor|]. apply mrun_one. by constructor.
    + simpl. rewrite fn_lookup_insert. split; [done|]. exists k. simpl. rewrite fn_lookup_insert. split; [done|]. right. by exists g.
  - exists [MLock k; MWrite k; MPeek g], (Mst (Some k) (<[k := AWriting]> a) (<[g := true]> gs)). split.
    + eapply mrun_cons; [constructor|]. eapply mrun_cons; [by constructor|]. apply mrun_one. by constructor.
    + simpl. rewrite fn_lookup_insert. split; [done|]. exists k. simpl. rewrite fn_lookup_insert. split; [done|]. right. exists g. apply list_lookup_insert. by eapply lookup_lt_Some.
Qed.
#[local] Instance acc_eq : EqDecision acc. Proof. solve_decision. Defined.
(** Whoever holds the lock can come out. *)
Lemma lock_freed s : mreach s -> exists ls s', mrun s ls s' /\ m_lock s' = None /\ (forall k, m_acc s' k = AOut) /\ m_gor s' = m_gor s.
Proof.
  intros Hr. pose proof (inside_holds s) as Hin. destruct s as [[k|] a gs]; simpl in *.
  - assert (forall j, j <> k -> a j = AOut) as Ho.
    { intros j Hj. destruct (decide (a j = AOut)) as [|Hn]; [done|]. by injection (Hin j Hr Hn) as ->. }
    destruct (decide (a k = AOut)) as [Ha|Ha].
    + exists [MUnlock k], (Mst None a gs). split; [apply mrun_one; by constructor|]. simpl. split; [done|]. split; [|done].
      intros j. destruct (decide (j = k)) as [->|]; auto.
    + exists [MEnd k; MUnlock k], (Mst None (<[k := AOut]> a) gs). split.
      { eapply mrun_cons; [by constructor|]. apply mrun_one. constructor. by rewrite fn_lookup_insert. }
      simpl. split; [done|]. split; [|done]. intros j. destruct (decide (k = j)) as [->|]; [by rewrite fn_lookup_insert|].
      rewrite fn_lookup_insert_ne by done. auto.
  - exists [], (Mst None a gs). split; [constructor|]. simpl. split; [done|]. split; [|done].
    intros j. destruct (decide (a j = AOut)) as [|Hn]; [done|]. by specialize (Hin j Hr Hn).
Qed.
Lemma overlap_reached s k : mreach s -> exists ls s', mrun s ls s' /\ m_acc s' k = AWriting /\ overlap s'.
Proof.
  intros Hr. destruct (lock_freed s Hr) as (ls & [o a gs] & R & Hl & Ha & Hg). simpl in *. subst o.
  destruct gs as [|b gs].
  - destruct (overlap_free (Mst None a [false]) 0 k false) as (ls2 & s2 & R2 & O); try done.
    exists (ls ++ [MLock k; MSpawn k; MUnlock k] ++ ls2), s2. split; [|done]. eapply mrun_app; [done|]. eapply mrun_app; [|done].
    eapply mrun_cons; [constructor|]. eapply mrun_cons; [by constructor|]. apply mrun_one. by constructor.
  - destruct (overlap_free (Mst None a (b :: gs)) 0 k b) as (ls2 & s2 & R2 & O); try done.
    exists (ls ++ ls2), s2. split; [|done]. by eapply mrun_app.
Qed.
Lemma spawned_none ls s : mrun new_map ls s -> (forall k, MSpawn k ∉ ls) -> m_gor s = [].
Proof.
  induction 1 as [|ls s1 l s2 H IH Hst]; [done|]. intros Hn.
  assert (m_gor s1 = []) as E. { apply IH. intros k Hk. apply (Hn k). apply elem_of_app. by left. }
  destruct Hst; simpl in *; try done; subst; try done. exfalso. apply (Hn k). apply elem_of_app. right. by left.
Qed.
Lemma alone_apart ls s : mrun new_map ls s -> (forall k, MSpawn k ∉ ls) -> ~ overlap s.
Proof.
  intros H Hn (k & Hk & [(k' & Hne & Hk')|(g & Hg)]).
  - apply Hne. eapply callers_apart; [by exists ls|done|]. congruence.
  - by rewrite (spawned_none _ _ H Hn) in Hg.
Qed.

(** ** What callers and goroutines may do next *)
Definition phase_in (s : mst) (k : nat) : phase :=
  match m_acc s k with AOut => if decide (m_lock s = Some k) then PhLocked else PhOut | _ => PhInside end.
Definition gor_in (s : mst) (ls : list mlab) : Prop :=
  length (m_gor s) = started ls /\ forall g, default false (m_gor s !! g) = peeking g ls.
Lemma phase_snoc k ls l : phase_of k (ls ++ [l]) = phase_step k (phase_of k ls) l.
Proof. unfold phase_of. by rewrite fold_left_app. Qed.
Lemma phases ls s : mrun new_map ls s -> forall k, phase_of k ls = phase_in s k.
Proof.
  induction 1 as [|ls s1 l s2 Hr IH Hst]; intros k; [done|]. rewrite phase_snoc, IH.
  assert (forall j, m_acc s1 j <> AOut -> m_lock s1 = Some j) as Hin. { intros j. apply inside_holds. by exists ls. }
  clear Hr IH. unfold phase_in. destruct Hst; cbn [m_acc m_lock phase_step] in *; try done.
  all: destruct (Nat.eqb_spec k0 k) as [->|Hne];
    [rewrite ?fn_lookup_insert|rewrite ?fn_lookup_insert_ne by done]; try (rewrite !decide_True by done); try done.
  - destruct (a k) eqn:E; [done|exfalso; specialize (Hin k); rewrite E in Hin; by discriminate Hin..].
  - destruct (a k) eqn:E; try done. by rewrite !decide_False by congruence.
  - by rewrite H.
  - destruct (a k) eqn:E; try done. by rewrite !decide_False by congruence.
Qed.
Lemma started_snoc ls l : started (ls ++ [l]) = started ls + match l with MSpawn _ => 1 | _ => 0 end.
Proof. unfold started. rewrite List.filter_app, app_length. f_equal. by destruct l. Qed.
Lemma gors ls s : mrun new_map ls s -> gor_in s ls.
Proof.
  induction 1 as [|ls s1 l s2 Hr IH Hst]; [by split; [|intros g]|]. destruct IH as [H1 H2]. split.
  - rewrite started_snoc, <- H1. destruct Hst; cbn [m_gor]; rewrite ?app_length, ?insert_length; simpl; lia.
  - intros g. specialize (H2 g). unfold peeking in *. rewrite fold_left_app. simpl. rewrite <- H2.
    destruct Hst; cbn [m_gor] in *; try done.
    + destruct (decide (g < length gs)); [by rewrite lookup_app_l|]. rewrite lookup_app_r by lia. rewrite (lookup_ge_None_2 gs) by lia.
      by destruct (g - length gs).
    + destruct (Nat.eqb_spec g0 g) as [->|Hne]; [|by rewrite list_lookup_insert_ne].
      rewrite list_lookup_insert; [done|by eapply lookup_lt_Some].
    + destruct (Nat.eqb_spec g0 g) as [->|Hne]; [|by rewrite list_lookup_insert_ne].
      rewrite list_lookup_insert; [done|by eapply lookup_lt_Some].
Qed.
Lemma comes_next ls s l : mrun new_map ls s -> (exists s', mstep s l s') <-> may_come ls l.
Proof.
  intros Hr. pose proof (phases _ _ Hr) as Hph. destruct (gors _ _ Hr) as [Hg1 Hg2].
  assert (forall j, m_acc s j <> AOut -> m_lock s = Some j) as Hin. { intros j. apply inside_holds. by exists ls. }
  split.
  - intros [s' Hst]. unfold phase_in in Hph. destruct Hst; cbn [m_acc m_lock m_gor may_come] in *.
    + intros j. rewrite Hph. destruct (a j) eqn:E; [by rewrite decide_False|exfalso; specialize (Hin j); rewrite E in Hin; by discriminate Hin..].
    + rewrite Hph, H. by rewrite decide_True.
    + rewrite Hph, H. by rewrite decide_True.
    + rewrite Hph, H. by rewrite decide_True.
    + rewrite Hph. by destruct (a k).
    + rewrite Hph, H. by rewrite decide_True.
    + rewrite <- Hg1, <- Hg2, H. split; [by eapply lookup_lt_Some|done].
    + by rewrite <- Hg2, H.
  - intros Hm. unfold phase_in in Hph. destruct s as [o a gs]. cbn [m_acc m_lock m_gor] in *.
    assert (forall k, phase_of k ls = PhLocked -> o = Some k /\ a k = AOut) as HL.
    { intros k Hk. rewrite Hph in Hk. destruct (a k); try done. by case_decide. }
    destruct l as [k|k|k|k|k|k|g|g]; cbn [may_come] in Hm.
    + destruct o as [j|]; [|eexists; constructor]. exfalso. specialize (Hm j). rewrite Hph in Hm. destruct (a j); try done. by rewrite decide_True in Hm.
    + apply HL in Hm as [-> ?]. eexists; by constructor.
    + apply HL in Hm as [-> ?]. eexists; by constructor.
    + apply HL in Hm as [-> ?]. eexists; by constructor.
    + rewrite Hph in Hm. assert (a k <> AOut) as Hk by (destruct (a k); [by case_decide|done..]). rewrite (Hin k Hk). eexists; by constructor.
    + apply HL in Hm as [-> ?]. eexists; by constructor.
    + destruct Hm as [H1 H2]. rewrite <- Hg1 in H1. rewrite <- Hg2 in H2. destruct (lookup_lt_is_Some_2 _ _ H1) as [b Hb]. rewrite Hb in H2. simpl in H2. subst b.
      eexists; by constructor.
    + rewrite <- Hg2 in Hm. destruct (gs !! g) as [b|] eqn:Hb; [|done]. simpl in Hm. subst b. eexists; by constructor.
Qed.
