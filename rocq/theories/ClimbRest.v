(** * More proofs about the goroutines of a stack: every call goes on and ends *)
From Verif Require Import GoBase UBufModel FrameModel StackModel StackSpec StackProofs ClimbModel ClimbSpec ClimbProofs.

Lemma some_way E d i pr x s : keeps_nothing pr ->
  (exists x' s', forall dn up ud, one_call E d i pr dn up ud x s = dn x' s') \/
  (exists x' s', forall dn up ud, one_call E d i pr dn up ud x s = up x' s') \/
  (exists r, forall dn up ud, one_call E d i pr dn up ud x s = Some r).
Proof.
  intros K. destruct pr as [k en]. unfold keeps_nothing in K. simpl in K.
  unfold one_call, on_upper, on_lower, codec_write, codec_read, by_reference, with_buf, head_ignore in *. simpl p_kind. simpl p_enable.
  destruct d, k; try done; subst;
    repeat first
      [ left; do 2 eexists; intros; reflexivity
      | right; left; do 2 eexists; intros; reflexivity
      | right; right; eexists; intros; reflexivity
      | match goal with |- context [match ?c with _ => _ end] => destruct c eqn:? end ].
Qed.

Lemma some_end E d p x s r : memoryless E -> ends E d p x s r -> exists outs, s_out (st_of r) = s_out s ++ outs.
Proof. intros M H. destruct (ends_same _ _ _ _ _ _ M H) as (outs & H1 & _). by exists outs. Qed.
Lemma goes_on E s c : memoryless E -> u_dead s = false -> u_at s c <> None ->
  exists l s', whose l = c /\ is_start l = false /\ ustep E s l s'.
Proof.
  intros M Hd Hat. destruct s as [a at_ dead lg]. simpl in *. subst dead. destruct (at_ c) as [[[d p] x]|] eqn:Ec; [clear Hat|done].
  assert (W : (exists d' p' x' s', calls E d p x a d' p' x' s') \/ (exists r, ends E d p x a r)).
  { destruct p as [[| |i]|].
    - right. destruct d; eexists; constructor.
    - right. destruct d; eexists; constructor.
    - destruct (e_procs E !! i) as [pr|] eqn:Hp.
      + destruct (some_way E d i pr x a (kept _ _ _ M Hp)) as [(x' & s' & H)|[(x' & s' & H)|(r & H)]].
        * left. do 4 eexists. by eapply calls_down.
        * left. do 4 eexists. by eapply calls_up.
        * right. eexists. by eapply ends_proc.
      + right. eexists. by apply ends_none.
    - right. eexists. constructor. }
  destruct W as [(d' & p' & x' & s' & H)|(r & H)].
  - exists (UCall c). eexists. split; [done|]. split; [done|]. by eapply uk_call.
  - destruct r as [x' s'|s'].
    + destruct (some_end _ _ _ _ _ _ M H) as (outs & Ho). exists (UEnd c). eexists. split; [done|]. split; [done|]. by eapply uk_end.
    + exists (UCrash c). eexists. split; [done|]. split; [done|]. by eapply uk_crash.
Qed.

(** Everything that was shown was shown by a goroutine. *)
Lemma all_shown E a ls s : memoryless E -> urun E (new_climb a) ls s -> s_out (u_st s) = s_out a ++ (u_log s).*2.
Proof.
  intros M H. induction H as [|ls s1 l s2 _ IH Hs]; [by rewrite app_nil_r|].
  destruct Hs as [s at_ lg c' j y Hat Hf|s at_ lg c' j Hat Hf|s at_ lg c' d p x d' p' x' s' Hat Hc|s at_ lg c' d p x x' s' outs Hat He Hout|s at_ lg c' d p x s' Hat He]; simpl in *.
  - done.
  - done.
  - destruct (calls_same _ _ _ _ _ _ _ _ _ M Hc) as [-> _]. done.
  - rewrite Hout, IH, fmap_app, <- app_assoc. do 2 f_equal. rewrite <- list_fmap_compose. symmetry. apply list_fmap_id.
  - destruct (ends_same _ _ _ _ _ _ M He) as (outs & H1 & H2 & _). rewrite (H2 _ eq_refl), app_nil_r in H1. simpl in H1. by rewrite H1.
Qed.

(** ** Bounds *)
Lemma only_loopback E i pr x s x' s' : (forall dn up ud, one_call E Down i pr dn up ud x s = up x' s') -> turns_up pr.
Proof.
  intros H. pose proof (H N0 D0 N0) as H1. pose proof (H N0 N0 N0) as H2. clear H. destruct pr as [k en]. unfold turns_up. simpl.
  unfold one_call, on_upper, codec_write, by_reference, with_buf, head_ignore in *. simpl p_kind in *. simpl p_enable in *.
  destruct k; try done; exfalso;
    repeat first
    [ discriminate H1 | discriminate H2
    | match type of H1 with context [match ?c with _ => _ end] => destruct c eqn:? end ].
Qed.
Lemma chain_look lk L k a b : chain lk L -> L !! k = Some a -> L !! S k = Some b -> linked lk a b.
Proof.
  revert k. induction L as [|x [|y L] IH]; intros k Hc Ha Hb; [done|by destruct k|].
  rewrite chain_cons in Hc. destruct Hc as [H1 H2]. destruct k as [|k]; simpl in *; [congruence|]. by apply (IH k).
Qed.
Definition rank (n : nat) (d : dir) (k : nat) : nat := match d with Up => n + 3 + k | Down => n + 2 - k end.
Lemma steps_snoc c ls l : steps_of c (ls ++ [l]) = steps_of c ls + (if decide (whose l = c) then 1 else 0).
Proof. unfold steps_of. rewrite stdpp.list.filter_app, app_length, stdpp.list.filter_cons. simpl. by destruct (decide _). Qed.

Section bound.
  Context (E : env) (ids : list nat) (ps : list proc).
  Context (W : wired E ids ps) (NT : Forall (fun p => ~ turns_up p) (e_procs E)).
  Let L := PUpper :: (PProc <$> ids) ++ [PLower].
  Let n := length ids.
  Local Lemma Lc : chain (e_links E) L.
  Proof. destruct W as (-> & N & _). by apply build_chain. Qed.
  Local Lemma Ln : length L = n + 2.
  Proof. unfold L, n. simpl. rewrite app_length, fmap_length. simpl. lia. Qed.
  Local Lemma Lproc k i : L !! k = Some (PProc i) -> 1 <= k <= n.
  Proof.
    intros H. assert (k < length L) by by eapply lookup_lt_Some. rewrite Ln in *. destruct k as [|k]; [done|].
    destruct (decide (S k = n + 1)) as [Hk|Hk]; [|lia]. unfold L in H. simpl in H. rewrite lookup_app_r in H; rewrite ?fmap_length; [|fold n; lia].
    fold n in H. replace (k - n) with 0 in H by lia. rewrite fmap_length in H. fold n in H. replace (k - n) with 0 in H by lia. done.
  Qed.
  Definition at_rank (s : ust) (c w : nat) : Prop :=
    match u_at s c with
    | None => w = 0
    | Some (d, p, _) => exists k, k <= n + 1 /\ p = L !! k /\ (u_dead s = false -> w = rank n d k) /\ (u_dead s = true -> w = 0)
    end.
  Local Lemma call_rank d p x s d' p' x' s' k : calls E d p x s d' p' x' s' -> p = L !! k -> k <= n + 1 ->
    exists k', k' <= n + 1 /\ p' = L !! k' /\ rank n d' k' < rank n d k.
  Proof.
    intros H. destruct H as [d i pr x s x' s' Hp H|d i pr x s x' s' Hp H]; intros Hk Hk1; symmetry in Hk; destruct (Lproc _ _ Hk) as [K1 K2].
    - destruct (L !! S k) as [b|] eqn:Hb.
      2:{ apply lookup_ge_None in Hb. rewrite Ln in Hb. lia. }
      destruct (chain_look _ _ _ _ _ Lc Hk Hb) as [-> _]. exists (S k). split; [lia|]. split; [done|]. destruct d; simpl; lia.
    - destruct k as [|k]; [lia|]. destruct (L !! k) as [b|] eqn:Hb.
      2:{ apply lookup_ge_None in Hb. rewrite Ln in Hb. lia. }
      destruct (chain_look _ _ _ _ _ Lc Hb Hk) as [_ ->]. exists k. split; [lia|]. split; [done|]. destruct d; simpl; [|lia].
      exfalso. apply (Forall_lookup_1 _ _ _ _ NT Hp). by eapply only_loopback.
  Qed.
  Local Lemma first_rank j d p x : inside ids j -> first_call E j = Some (d, p, x) -> exists k, k <= n + 1 /\ p = L !! k /\ rank n d k <= 2 * n + 3.
  Proof.
    intros Hi H. assert (Hup : l_upper (e_links E) PLower = L !! n).
    { destruct (L !! n) as [b1|] eqn:Hb1.
      2:{ apply lookup_ge_None in Hb1. rewrite Ln in Hb1. lia. }
      assert (Hl : L !! S n = Some PLower).
      { unfold L. simpl. rewrite lookup_app_r; rewrite ?fmap_length; [|done]. by rewrite Nat.sub_diag. }
      by destruct (chain_look _ _ _ _ _ Lc Hb1 Hl) as [_ ->]. }
    destruct j as [c l|c m|z de c m|i tag c]; simpl in H.
    - injection H as <- <- _. exists n. simpl. split; [lia|]. split; [done|lia].
    - injection H as <- <- _. exists n. simpl. split; [lia|]. split; [done|lia].
    - injection H as <- <- _. exists 1. split; [lia|]. split; [|simpl; lia]. destruct (L !! 1) as [b1|] eqn:Hb1.
      2:{ apply lookup_ge_None in Hb1. rewrite Ln in Hb1. lia. }
      by destruct (chain_look _ L 0 PUpper _ Lc eq_refl Hb1) as [-> _].
    - destruct (new_ubuf E) as [ub|]; [|done]. destruct (v_writebyte tag ub); [|done]. injection H as <- <- _.
      simpl in Hi. apply elem_of_list_lookup in Hi as (k & Hk). assert (HL : L !! S k = Some (PProc i)).
      { unfold L. simpl. rewrite lookup_app_l by (rewrite fmap_length; by eapply lookup_lt_Some). by rewrite list_lookup_fmap, Hk. }
      destruct (Lproc _ _ HL) as [K1 K2]. exists (S (S k)). split; [lia|]. split; [|simpl; lia].
      destruct (L !! S (S k)) as [b1|] eqn:Hb1.
      2:{ apply lookup_ge_None in Hb1. rewrite Ln in Hb1. lia. }
      by destruct (chain_look _ _ _ _ _ Lc HL Hb1) as [-> _].
  Qed.
  Lemma bound_inv a ls s c : urun E (new_climb a) ls s -> Forall (inside ids) (jobs_of c ls) ->
    exists w, at_rank s c w /\ steps_of c ls + w <= (2 * n + 4) * length (jobs_of c ls).
  Proof.
    intros H. induction H as [|ls s1 l s2 _ IH Hs].
    { exists 0. split; [done|]. simpl. lia. }
    rewrite steps_snoc, jobs_snoc, app_length. intros F. apply stdpp.list.Forall_app in F as [F1 F2]. destruct (IH F1) as (w & Hw & IH'). clear IH. rename IH' into IH. unfold at_rank in *.
    destruct Hs as [s at_ lg c' j [[d p] x] Hat Hf|s at_ lg c' j Hat Hf|s at_ lg c' d p x d' p' x' s' Hat Hc|s at_ lg c' d p x x' s' outs Hat He Hout|s at_ lg c' d p x s' Hat He]; simpl in *.
    - destruct (decide (c' = c)) as [->|Hn].
      + rewrite Hat in Hw. subst w. rewrite fn_lookup_insert. simpl in F2. apply Forall_inv in F2.
        destruct (first_rank _ _ _ _ F2 Hf) as (k & K1 & K2 & K3). exists (rank n d k). simpl. split; [by exists k|lia].
      + rewrite fn_lookup_insert_ne by done. exists w. split; [done|]. simpl. lia.
    - exists 0. split.
      + destruct (at_ c) as [[[d0 p0] x0]|]; [|done]. destruct Hw as (k & Hk1 & Hk2 & Hk3 & _). by exists k.
      + destruct (decide (c' = c)) as [->|Hn]; simpl; lia.
    - destruct (decide (c' = c)) as [->|Hn].
      + rewrite Hat in Hw. destruct Hw as (k & Hk1 & Hk2 & Hk3 & _). rewrite fn_lookup_insert.
        destruct (call_rank _ _ _ _ _ _ _ _ k Hc Hk2 Hk1) as (k' & K1 & K2 & K3). exists (rank n d' k'). rewrite (Hk3 eq_refl) in IH. simpl. split; [|lia].
        exists k'. done.
      + rewrite fn_lookup_insert_ne by done. exists w. split; [done|]. simpl. lia.
    - destruct (decide (c' = c)) as [->|Hn].
      + rewrite Hat in Hw. destruct Hw as (k & Hk1 & Hk2 & Hk3 & _). rewrite fn_lookup_insert. exists 0. split; [done|].
        rewrite (Hk3 eq_refl) in IH. simpl. unfold rank in IH. destruct d; lia.
      + rewrite fn_lookup_insert_ne by done. exists w. split; [done|]. simpl. lia.
    - exists 0. split.
      + destruct (at_ c) as [[[d0 p0] x0]|]; [|done]. destruct Hw as (k & Hk1 & Hk2 & Hk3 & _). by exists k.
      + destruct (decide (c' = c)) as [->|Hn]; simpl; [|lia]. rewrite Hat in Hw. destruct Hw as (k & Hk1 & Hk2 & Hk3 & _).
        rewrite (Hk3 eq_refl) in IH. unfold rank in IH. destruct d; lia.
  Qed.
  Lemma bounded a ls s c : urun E (new_climb a) ls s -> Forall (inside ids) (jobs_of c ls) -> steps_of c ls <= (2 * length ids + 4) * length (jobs_of c ls).
  Proof. intros H F. destruct (bound_inv a ls s c H F) as (w & _ & H1). fold n. lia. Qed.
End bound.

(** ** Chunks that are whole messages *)
From Verif Require Import StackPath StackFacts StackEnd NetProofs.
Lemma no_caches E s : memoryless E -> caches_idle E s.
Proof. intros M i cap en H. by destruct (kept _ _ _ M H). Qed.
Lemma whole_chunks E ids pre k ps g c a ls s arr :
  wired E ids (pre ++ Proc k true :: ps) -> memoryless E ->
  Forall (fun p => passes_message p = true) pre -> Forall (fun p => carries p = true) ps ->
  e_isref E c = false -> (e_mtu E < 2^32)%Z ->
  Forall (fun y => decodes k (StackSpec.le_bytes y) (le_msg y) /\ StackSpec.le_bytes y <> [] /\
    (Z.of_nat (length (wire_of (le_sess y) ps (StackSpec.le_bytes y))) <= e_mtu E)%Z) arr ->
  urun E (new_climb a) ls s -> u_dead s = false -> u_at s g = None ->
  jobs_of g ls = (fun y => JRead c (wire_of (le_sess y) ps (StackSpec.le_bytes y))) <$> arr ->
  shown_by g s = concat ((fun y => shown E (rx_session ps (le_sess y)) (Some c) (le_msg y)) <$> arr).
Proof.
  intros Hw M Hpre Hps Hc Hm F Hrun Hd Hat Hr. destruct (same_as_alone E a ls s g M Hrun Hd Hat) as (outss & H1 & ->). f_equal.
  rewrite Hr in H1. clear Hr Hrun. revert outss H1. induction F as [|y arr (H1 & H2 & H3) F IH]; intros outss H.
  - by inversion H.
  - apply Forall2_cons_inv_l in H as (o & os & Ho & Hos & ->). rewrite fmap_cons. f_equal; [|by apply IH].
    destruct (Ho a) as (s1 & Hf1).
    destruct (visits_up E ids pre k ps (le_sess y) c (le_msg y) (StackSpec.le_bytes y) a) as (s2 & Hf2 & _); try done; [by apply no_caches|].
    by destruct (finishes_unique _ _ _ _ _ _ Hf1 Hf2) as [-> _].
Qed.

Lemma urun_app E s ls s1 ms s2 : urun E s ls s1 -> urun E s1 ms s2 -> urun E s (ls ++ ms) s2.
Proof. intros H1 H2. induction H2 as [|ms s2 l s3 _ IH Hs]; [by rewrite app_nil_r|]. rewrite app_assoc. by eapply ur_snoc. Qed.
Lemma urun_cons E s l s1 ls s2 : ustep E s l s1 -> urun E s1 ls s2 -> urun E s (l :: ls) s2.
Proof. intros H1 H2. apply (urun_app E s [l] s1 ls s2); [|done]. apply (ur_snoc E s [] s l s1); [constructor|done]. Qed.

(** The same on the sending side. *)
Lemma whole_sends E ids pre k ps g c a ls s (sent : list (Z * option Z * msg * list byte)) :
  wired E ids (pre ++ Proc k true :: ps) -> memoryless E ->
  Forall (fun p => passes_message p = true) pre -> Forall (fun p => sends_on p = true) ps ->
  e_isref E c = false -> (e_mtu E < 2^32)%Z ->
  Forall (fun y => encodes k y.1.2 y.2 /\ y.2 <> [] /\ (Z.of_nat (length y.2) <= e_mtu E - e_overhead E)%Z) sent ->
  urun E (new_climb a) ls s -> u_dead s = false -> u_at s g = None ->
  jobs_of g ls = (fun y => JSend y.1.1.1 y.1.1.2 (Some c) (Some y.1.2)) <$> sent ->
  shown_by g s = concat ((fun y => offered E (s_out a) c (wire_of (dest_of y.1.1.1 y.1.1.2) ps y.2)) <$> sent).
Proof.
  intros Hw M Hpre Hps Hc Hm F Hrun Hd Hat Hr. destruct (same_as_alone E a ls s g M Hrun Hd Hat) as (outss & H1 & ->). f_equal.
  rewrite Hr in H1. clear Hr Hrun. revert outss H1. induction F as [|y arr (H1 & H2 & H3) F IH]; intros outss H.
  - by inversion H.
  - apply Forall2_cons_inv_l in H as (o & os & Ho & Hos & ->). rewrite fmap_cons. f_equal; [|by apply IH].
    destruct (Ho a) as (s1 & Hf1).
    destruct (visits_down E ids pre k ps y.1.1.1 y.1.1.2 c y.1.2 y.2 a) as (s2 & Hf2 & _); try done.
    by destruct (finishes_unique _ _ _ _ _ _ Hf1 Hf2) as [-> _].
Qed.
(** What each step needs. *)
Lemma needs E s l s' : ustep E s l s' ->
  u_dead s = false /\ (u_at s (whose l) = None <-> is_start l = true) /\ (forall c, c <> whose l -> u_at s' c = u_at s c) /\
  (u_dead s' = true <-> is_crash l = true) /\ (is_crash l = false -> u_at s' (whose l) = None <-> exists c, l = UEnd c) /\
  (forall c j, l = UStart c j -> u_st s' = u_st s /\ u_log s' = u_log s /\ u_at s' c = first_call E j) /\ (forall c j, l = UFail c j -> first_call E j = None).
Proof.
  intros H. destruct H as [s at_ lg c' j y Hat Hf|s at_ lg c' j Hat Hf|s at_ lg c' d p x d' p' x' s' Hat Hc|s at_ lg c' d p x x' s' outs Hat He Hout|s at_ lg c' d p x s' Hat He]; simpl;
    rewrite ?fn_lookup_insert, ?Hat; split_and!; try done; try (intros c Hn; by rewrite fn_lookup_insert_ne by congruence);
    try (intros _; split; [done|]; by intros [? ?]); try (intros _; split; [intros _; by exists c'|done]).
  - intros c j0 [= <- <-]. by rewrite fn_lookup_insert.
  - by intros c j0 [= <- <-].
Qed.
(** From every state a job can be started. *)
Lemma starts_any E s c j : u_dead s = false -> u_at s c = None -> exists l s', ustep E s l s' /\ (l = UStart c j \/ l = UFail c j).
Proof.
  intros Hd Ha. destruct s as [a at_ d lg]. simpl in *. subst. destruct (first_call E j) as [y|] eqn:Hf.
  - do 2 eexists. split; [by apply uk_start|by left].
  - do 2 eexists. split; [by apply uk_fail|by right].
Qed.

(** Finishing runs from one computation. *)
Lemma finishes_by E c l s x s' outs f0 : receive f0 E c l s = Some (Done x s') -> s_out s' = s_out s ++ outs ->
  finishes (fun f => receive f E c l s) s outs s'.
Proof. intros H Ho. split; [|done]. exists f0, x. intros f Hf. unfold receive in *. by eapply exec_mono. Qed.
(** Other connections and other schedules make no difference. *)
Lemma no_difference E a ls s a' ls' s' c : memoryless E -> urun E (new_climb a) ls s -> urun E (new_climb a') ls' s' ->
  u_dead s = false -> u_dead s' = false -> u_at s c = None -> u_at s' c = None -> jobs_of c ls = jobs_of c ls' -> shown_by c s = shown_by c s'.
Proof.
  intros M H H' Hd Hd' Ha Ha' Hr. destruct (same_as_alone _ _ _ _ _ M H Hd Ha) as (o & F & ->). destruct (same_as_alone _ _ _ _ _ M H' Hd' Ha') as (o' & F' & ->). f_equal.
  rewrite <- Hr in F'. clear Hr. revert o' F'. induction F as [|l x ls0 xs Hx F IH]; intros o' F'.
  - by inversion F'.
  - apply Forall2_cons_inv_l in F' as (y & ys & Hy & F' & ->). f_equal; [|by apply IH].
    destruct (Hx a) as (s1 & H1). destruct (Hy a) as (s2 & H2). by destruct (finishes_unique _ _ _ _ _ _ H1 H2) as [-> _].
Qed.
(** A goroutine inside can finish by itself; and from the start all can read. *)
Lemma finish_alone E ids ps a ls s c : wired E ids ps -> memoryless E -> Forall (fun p => ~ turns_up p) (e_procs E) -> urun E (new_climb a) ls s -> Forall (inside ids) (jobs_of c ls) ->
  exists ms s', urun E s ms s' /\ Forall (fun l => whose l = c /\ is_start l = false) ms /\ (u_at s' c = None \/ u_dead s' = true).
Proof.
  intros W M NT. remember ((2 * length ids + 4) * length (jobs_of c ls) - steps_of c ls) as N eqn:HN.
  revert ls s HN. induction N as [N IH] using lt_wf_ind. intros ls s HN H F.
  destruct (decide (u_at s c = None)) as [Ha|Ha].
  { exists [], s. split; [constructor|]. split; [constructor|by left]. }
  destruct (u_dead s) eqn:Hd.
  { exists [], s. split; [constructor|]. split; [constructor|by right]. }
  destruct (goes_on E s c M Hd Ha) as (l & s1 & H1 & H2 & H3). pose proof (ur_snoc _ _ _ _ _ _ H H3) as H'.
  assert (R : job_of c l = None) by by destruct l.
  assert (F' : Forall (inside ids) (jobs_of c (ls ++ [l]))) by (rewrite jobs_snoc, R; simpl; by rewrite app_nil_r).
  pose proof (bounded E ids ps W NT _ _ _ c H' F') as B. rewrite steps_snoc, jobs_snoc, app_length in B. rewrite decide_True in B by done.
  rewrite R in B. simpl in B.
  destruct (IH ((2 * length ids + 4) * length (jobs_of c (ls ++ [l])) - steps_of c (ls ++ [l]))) with (ls := ls ++ [l]) (s := s1) as (ms & s2 & K1 & K2 & K3); [|done|done|done|].
  { rewrite steps_snoc, jobs_snoc, app_length, decide_True, R by done. simpl. lia. }
  exists (l :: ms), s2. split; [by eapply urun_cons|]. split; [by constructor|done].
Qed.
Lemma all_start E a (cs : list (nat * job)) : NoDup cs.*1 -> Forall (fun y => first_call E y.2 <> None) cs -> exists s, urun E (new_climb a) ((fun y => UStart y.1 y.2) <$> cs) s /\
  u_dead s = false /\ u_st s = a /\ forall c, u_at s c <> None <-> c ∈ cs.*1.
Proof.
  induction cs as [|[c l] cs IH] using rev_ind; intros N F.
  - exists (new_climb a). split; [constructor|]. split; [done|]. split; [done|]. intros c. split; [done|]. intros H. by inversion H.
  - rewrite fmap_app in N. simpl in N. apply NoDup_app in N as (N1 & N2 & _). apply stdpp.list.Forall_app in F as [F1 F2]. apply Forall_inv in F2. simpl in F2.
    destruct (IH N1 F1) as (s & H1 & H2 & H3 & H4). destruct (first_call E l) as [y|] eqn:Hf; [|done].
    destruct s as [a0 at_ d lg]. simpl in *. subst. assert (Hc : at_ c = None).
    { destruct (at_ c) eqn:Hc; [|done]. exfalso. apply (N2 c); [apply H4; congruence|]. by apply elem_of_list_singleton. }
    eexists. rewrite fmap_app. simpl. split; [eapply ur_snoc; [exact H1|by apply uk_start]|]. simpl. split; [done|]. split; [done|].
    intros c'. rewrite fmap_app, elem_of_app, <- H4. simpl. rewrite elem_of_list_singleton.
    destruct (decide (c' = c)) as [->|Hn]; [rewrite fn_lookup_insert|rewrite fn_lookup_insert_ne by done]; [by split; [right|]|]. tauto.
Qed.
(** Objects over reference connections, received and sent. *)
Lemma whole_objects E ids ps g c a ls s (jobs : list job) :
  wired E ids ps -> memoryless E -> Forall (fun p => passes_reference p = true) ps ->
  e_isref E c = true -> (forall m, e_setref E [] c m = false) -> (0%Z ∈ e_sessions E) ->
  Forall (fun j => (exists m, j = JRef c m) \/ (exists z d m, j = JSend z d (Some c) (Some m))) jobs ->
  urun E (new_climb a) ls s -> u_dead s = false -> u_at s g = None -> jobs_of g ls = jobs ->
  shown_by g s = omap (fun j => match j with JRef c m => Some (ODeliver 0 (Some c) m) | JSend _ _ _ (Some m) => Some (ORef c m) | _ => None end) jobs.
Proof.
  intros Hw M Hps Hc Hset H0 F Hrun Hd Hat Hr. destruct (same_as_alone E a ls s g M Hrun Hd Hat) as (outss & H1 & ->).
  rewrite Hr in H1. clear Hr Hrun. revert outss H1. induction F as [|j jobs Hj F IH]; intros outss H; [by inversion H|].
  apply Forall2_cons_inv_l in H as (o & os & Ho & Hos & ->). destruct (Ho a) as (s1 & Hf1). simpl.
  destruct Hj as [(m & ->)|(z & d & m & ->)]; simpl in *.
  - destruct (refs_end_to_end E E ids ids ps ps 0 None c c m a a) as (s2 & s3 & _ & Hf3); try done; [destruct M as [_ [_ Hs]]; rewrite (Hs _ []); apply Hset|].
    destruct (finishes_unique _ _ _ _ _ _ Hf1 Hf3) as [-> _]. by rewrite (IH _ Hos).
  - destruct (refs_end_to_end E E ids ids ps ps z d c c m a a) as (s2 & s3 & Hf2 & _); try done; [destruct M as [_ [_ Hs]]; rewrite (Hs _ []); apply Hset|].
    destruct (finishes_unique _ _ _ _ _ _ Hf1 Hf2) as [-> _]. by rewrite (IH _ Hos).
Qed.
