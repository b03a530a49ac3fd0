(** * Proofs about when the traffic between two stacks comes to rest *)
From Coq Require Import ZArith Lia.
From Verif Require Import GoBase UBufModel UBufSpec UBufProofs UBufFacts FrameModel FrameSpec FrameProofs
  StackModel StackSpec StackProofs StackPath StackFacts StackEffects StackSpecial StackEnd
  NetModel NetSpec NetProofs DuoModel DuoSpec DuoPath DuoItems DuoProofs HushSpec.
From stdpp Require Import sets list.

(** ** A mute stack writes nothing while it receives *)
Definition quiet (g : callfn) : Prop := forall c x s x' s', g x s = Some (Done x' s') -> written c (s_out s') = written c (s_out s).

Lemma out_set_cache s i c : s_out (set_cache s i c) = s_out s.
Proof. unfold set_cache. by destruct (s_ps s !! i). Qed.
Lemma out_inc_rx s i : s_out (inc_rx s i) = s_out s.
Proof. unfold inc_rx. by destruct (s_ps s !! i). Qed.

Lemma frame_cur_quiet c n i up x s u x' s' : quiet up ->
  frame_cur n i up x s u = Some (Done x' s') -> written c (s_out s') = written c (s_out s).
Proof.
  intros Hu. revert x s u. induction n as [|n IH]; intros x s u; [done|]. cbn [frame_cur].
  destruct (cache_of s i) as [b|]; [|done]. destruct (fd_cur_step b u) as [[[] c'] u'].
  - intros [= <- <-]. by rewrite out_set_cache.
  - intros H. apply (Hu c) in H. by rewrite H, out_set_cache.
  - destruct (up _ _) as [[x1 s1|]|] eqn:Eu; try done. intros H. apply IH in H. apply (Hu c) in Eu. by rewrite H, Eu, out_set_cache.
  - done.
Qed.
Lemma frame_cached_quiet c n i up x s x' s' : quiet up ->
  frame_cached n i up x s = Some (Done x' s') -> written c (s_out s') = written c (s_out s).
Proof.
  intros Hu. revert x s. induction n as [|n IH]; intros x s; [done|]. cbn [frame_cached].
  destruct (cache_of s i) as [b|]; [|done]. destruct (fd_cached_step b) as [[] c'].
  - intros [= <- <-]. by rewrite out_set_cache.
  - intros [= <- <-]. by rewrite out_set_cache.
  - destruct (up _ _) as [[x1 s1|]|] eqn:Eu; try done. intros H. apply IH in H. apply (Hu c) in Eu. by rewrite H, Eu, out_set_cache.
  - done.
Qed.
Lemma frame_recv_quiet c i up x s u x' s' : quiet up ->
  frame_recv i up x s u = Some (Done x' s') -> written c (s_out s') = written c (s_out s).
Proof.
  intros Hu. unfold frame_recv. destruct (cache_of s i) as [b|]; [|done]. destruct (0 <? v_rlen b).
  - destruct (ub_readfrom None b u) as [r [c' u']|[c' u']]; [|done]. intros H. apply (frame_cached_quiet c) in H; [|done].
    by rewrite H, out_set_cache.
  - destruct (frame_cur _ i up x s u) as [[x1 s1|]|] eqn:Ec; try done. intros H. apply (frame_cached_quiet c) in H; [|done].
    apply (frame_cur_quiet c) in Ec; [|done]. congruence.
Qed.

Ltac same_out := solve [by intros [= <- <-]].
Lemma on_lower_quiet E i en d u k : quiet u -> match k with KEcho | KStat => en = false | _ => True end ->
  quiet (on_lower E i en d u k).
Proof.
  intros Hu Hk c x s x' s'. cbn zeta.
  assert (Hread : forall g, (forall l b, g l b = Some (Done x' s') -> written c (s_out s') = written c (s_out s)) ->
    codec_read x s g = Some (Done x' s') -> written c (s_out s') = written c (s_out s)).
  { intros g Hg. unfold codec_read. destruct (cx_buf x) as [b|]; [|same_out].
    destruct (v_read (v_rlen b) b) as [[[|y l] [e|]] b'|]; try done; try same_out. by apply Hg. }
  destruct k as [| | |mar unm|enc dec|enc [dec|]| | |fns|fns| |cap| | | | |]; cbn [on_lower].
  - same_out.
  - destruct en; [|by apply Hu]. apply Hread. intros l b. by apply Hu.
  - destruct en; [|by apply Hu]. apply Hread. intros l b. by apply Hu.
  - destruct en; [|by apply Hu]. apply Hread. intros l b. destruct (unm l); [by apply Hu|same_out].
  - destruct en; [|by apply Hu]. unfold with_buf. destruct (cx_buf x) as [b|]; [|same_out].
    destruct (dec b) as [[m|] b'|]; try done; [by apply Hu|same_out].
  - destruct en; [|by apply Hu]. unfold with_buf. destruct (cx_buf x) as [b|]; [|same_out].
    destruct (dec b) as [[m []] b'|]; try done; [same_out|by apply Hu].
  - destruct en; [same_out|by apply Hu].
  - destruct en; [same_out|by apply Hu].
  - subst en. by apply Hu.
  - destruct en; [|by apply Hu]. destruct (any_fn fns x true) as [[]|]; try done; [by apply Hu|].
    intros [= <- <-]. by rewrite out_inc_rx.
  - destruct en; [|by apply Hu]. destruct (any_fn fns x true) as [[]|]; try done; [|by apply Hu].
    intros [= <- <-]. by rewrite out_inc_rx.
  - by apply Hu.
  - unfold by_reference. destruct (cx_conn x); [|done]. destruct (e_isref E _); [by apply Hu|].
    unfold with_buf. destruct (cx_buf x); [|same_out]. destruct en; [|by apply Hu]. by apply frame_recv_quiet.
  - unfold by_reference. destruct (cx_conn x); [|done]. destruct (e_isref E _); [by apply Hu|].
    unfold with_buf. destruct (cx_buf x) as [b|]; [|same_out].
    destruct (v_readbyte b) as [[t [e|]] b'|]; try done; [same_out|].
    destruct (t =? 131)%Z; [|by apply Hu]. intros [= <- <-]. simpl. rewrite written_app. unfold written at 2. simpl. by rewrite app_nil_r.
  - unfold by_reference. destruct (cx_conn x); [|done]. destruct (e_isref E _); [by apply Hu|].
    unfold with_buf. destruct (cx_buf x) as [b|]; [|same_out].
    destruct (v_readbyte b) as [[t [e|]] b'|]; try done; [same_out|].
    destruct (en && negb (t =? 0)%Z); [same_out|by apply Hu].
  - same_out.
  - destruct en; [|by apply Hu]. unfold with_buf. destruct (cx_buf x); [|same_out].
    destruct (v_readU _ _ _) as [[v0 []] b'|]; try done; [same_out|by apply Hu].
  - subst en. unfold by_reference. destruct (cx_conn x); [|done]. destruct (e_isref E _); [by apply Hu|].
    unfold with_buf. destruct (cx_buf x) as [b|]; [|same_out].
    destruct (v_readbyte b) as [[t [e|]] b'|]; try done; [same_out|]. by apply Hu.
Qed.
Lemma exec_quiet E f p : mute E -> quiet (exec f E Up p).
Proof.
  intros M. revert p. induction f as [|f IH]; intros p c x s x' s'; [done|]. cbn [exec].
  destruct p as [[| |i]|]; [| | |done].
  - intros [= Hx]. revert Hx. unfold upper_recv. destruct (cx_msg x); [|same_out]. destruct (decide _); [|same_out].
    intros [= <- <-]. simpl. rewrite written_app. unfold written at 2. simpl. by rewrite app_nil_r.
  - same_out.
  - destruct (e_procs E !! i) as [[k en]|] eqn:Hi; [|done]. cbn [p_enable p_kind]. intros H.
    pose proof (Forall_lookup_1 _ _ _ _ M Hi) as Hk. simpl in Hk. exact (on_lower_quiet E i en _ _ k (IH _) Hk c _ _ _ _ H).
Qed.
Lemma receive_quiet E c l s outs s' c' : mute E -> finishes (fun f => receive f E c l s) s outs s' -> written c' outs = [].
Proof.
  intros M [(f0 & x' & H) Ho]. specialize (H f0 (le_n _)). unfold receive in H. apply (exec_quiet _ _ _ M c') in H.
  rewrite Ho, written_app in H. apply (f_equal length) in H. rewrite app_length in H. destruct (written c' outs); [done|simpl in H; lia].
Qed.

(** ** Counting *)
Lemma reads_by_snoc b ls l : reads_by b (ls ++ [l]) = reads_by b ls + match l with DRead b' _ => if Bool.eqb b' b then 1 else 0 | _ => 0 end.
Proof. unfold reads_by. rewrite List.filter_app, app_length. f_equal. simpl. destruct l; try done. by destruct (Bool.eqb _ _). Qed.
Lemma passes_snoc ls l : passes (ls ++ [l]) = passes ls + match l with DPass _ => 1 | _ => 0 end.
Proof. unfold passes. rewrite List.filter_app, app_length. f_equal. simpl. by destruct l. Qed.
Lemma reads_snoc ls l : reads (ls ++ [l]) = reads ls + match l with DRead _ _ => 1 | _ => 0 end.
Proof. unfold reads. rewrite !reads_by_snoc. destruct l; try lia. destruct b; simpl; lia. Qed.
Lemma reads_at b ls : reads ls = reads_by b ls + reads_by (negb b) ls.
Proof. unfold reads. destruct b; simpl; lia. Qed.
Lemma on_way_at b s : on_way s = length (d_wire s b) + length (d_wire s (negb b)).
Proof. unfold on_way. destruct b; simpl; lia. Qed.

(** ** Mute stacks *)
Lemma mute_bounds D ok b s ms s' : mute (du_env D b) -> drun D ok s ms s' -> Forall onward ms ->
  reads_by (negb b) ms + length (d_wire s' b) <= length (d_wire s b).
Proof.
  intros M H. induction H as [|ms s1 l s2 H IH Hok Hst]; intros F; [simpl; lia|].
  apply Forall_app in F as [F1 F2]. apply Forall_cons_1 in F2 as [F2 _]. specialize (IH F1). rewrite reads_by_snoc.
  destruct Hst; try done; simpl in *; try lia.
  destruct (decide (b0 = b)) as [->|Hb].
  - rewrite fn_lookup_insert, (receive_quiet _ _ _ _ _ _ _ M H4). simpl. rewrite app_nil_r.
    destruct (Bool.eqb b (negb b)) eqn:E; [|lia]. apply eqb_prop in E. by apply negb_ne in E.
  - rewrite fn_lookup_insert_ne by done. pose proof (other _ _ Hb) as ->. rewrite negb_involutive, fn_lookup_insert in *.
    rewrite eqb_reflx, drop_length. lia.
Qed.
Lemma mutes_bound D ok s ms s' : (forall b, mute (du_env D b)) -> drun D ok s ms s' -> Forall onward ms ->
  reads ms + on_way s' <= on_way s.
Proof.
  intros M H F. pose proof (mute_bounds D ok true s ms s' (M true) H F). pose proof (mute_bounds D ok false s ms s' (M false) H F).
  unfold reads, on_way. simpl in *. lia.
Qed.

(** ** Mirrors *)
Lemma mirror_returns E c l s : mirrors E c -> l <> [] -> (Z.of_nat (length l) <= e_mtu E)%Z ->
  exists s', finishes (fun f => receive f E c l s) s [OWire c l] s'.
Proof.
  intros (ids & pa & W & Hr & Ha & Hm) Hl Hlen.
  destruct (echo_returns E ids pa [] 0 c l s W) as (s' & H); try done; try constructor; [lia|]. simpl in H.
  rewrite offered_accepts in H by done. eauto.
Qed.
Lemma mirror_read D b s n s' : mirrors (du_env D b) (du_conn D b) -> dstep D s (DRead b n) s' ->
  0 < n <= length (d_wire s (negb b)) /\ d_wire s' (negb b) = drop n (d_wire s (negb b)) /\
  d_wire s' b = d_wire s b ++ take n (d_wire s (negb b)) /\ d_up s' b = [].
Proof.
  intros M Hst. inversion Hst as [| | | |tx hd ss w up rx sn ws g ? ? outs st' Hup H0 Hn Hm Hf| | ]; subst.
  simpl in *. assert (length (take n (w (negb b))) = n) as Hl by (rewrite take_length; lia).
  destruct (mirror_returns (du_env D b) (du_conn D b) (take n (w (negb b))) (ss b) M) as (s2 & H).
  { intros E. rewrite E in Hl. simpl in Hl. lia. } { by rewrite Hl. }
  destruct (finishes_unique _ _ _ _ _ _ Hf H) as [-> _]. rewrite written_own. cbn [concat]. rewrite app_nil_r.
  assert (negb b <> b) as Hb by (intros E; symmetry in E; by apply (negb_ne b)).
  split; [done|]. split; [by rewrite fn_lookup_insert_ne, fn_lookup_insert by done|].
  split; [by rewrite fn_lookup_insert|by rewrite fn_lookup_insert].
Qed.
Lemma mirror_bounds D ok b s ms s' : mute (du_env D b) -> mirrors (du_env D (negb b)) (du_conn D (negb b)) ->
  drun D ok s ms s' -> Forall onward ms -> reads ms + on_way s' + length (d_wire s' b) <= on_way s + length (d_wire s b).
Proof.
  intros M Mi H. induction H as [|ms s1 l s2 H IH Hok Hst]; intros F; [simpl; lia|].
  apply Forall_app in F as [F1 F2]. apply Forall_cons_1 in F2 as [F2 _]. specialize (IH F1). rewrite reads_snoc.
  destruct l as [ | | | |b' n| | ]; try done; [|by inversion Hst; subst; unfold on_way in *; simpl in *; lia..].
  destruct (decide (b' = b)) as [->|Hb].
  - pose proof (mute_bounds D ok b s1 [DRead b n] s2 M (drun_one _ _ _ _ _ Hok Hst) ltac:(by repeat constructor)) as Hm.
    rewrite (on_way_at b s2). rewrite (on_way_at b s1) in IH.
    inversion Hst as [| | | |tx hd ss w up rx sn ws g ? ? outs st' Hup H0 Hn Hm' Hf| | ]; subst. simpl in *.
    rewrite fn_lookup_insert, (receive_quiet _ _ _ _ _ _ _ M Hf). simpl. rewrite app_nil_r.
    assert (negb b <> b) as Hb by (intros E; symmetry in E; by apply (negb_ne b)).
    rewrite fn_lookup_insert_ne by done. rewrite fn_lookup_insert, drop_length. simpl in *. lia.
  - pose proof (other _ _ Hb) as ->. destruct (mirror_read _ _ _ _ _ Mi Hst) as (Hn & E1 & E2 & _). rewrite negb_involutive in *.
    rewrite (on_way_at b s2), E1, E2, app_length, drop_length, take_length. rewrite (on_way_at b s1) in IH. lia.
Qed.

(** ** Two mirrors *)
Section mirrors.
Context (D : duo) (Mi : forall b, mirrors (du_env D b) (du_conn D b)).

Lemma mirror_same ok s ms s' : drun D ok s ms s' -> Forall onward ms -> on_way s' = on_way s.
Proof.
  intros H. induction H as [|ms s1 l s2 H IH Hok Hst]; intros F; [done|].
  apply Forall_app in F as [F1 F2]. apply Forall_cons_1 in F2 as [F2 _]. rewrite <- (IH F1).
  destruct l as [ | | | |b n| | ]; try done; [|by inversion Hst; subst..].
  destruct (mirror_read _ _ _ _ _ (Mi b) Hst) as (Hn & E1 & E2 & _).
  rewrite (on_way_at b s2), (on_way_at b s1), E1, E2, app_length, drop_length, take_length. lia.
Qed.
Lemma mirror_up ss ok ls s : drun D ok (new_duo ss) ls s -> (forall b, d_up s b = []) /\ (forall e, d_rx s e = []) /\ d_seen s = [].
Proof.
  intros H. induction H as [|ls s1 l s2 H (I1 & I2 & I3) Hok Hst]; [done|].
  destruct l as [ | | | |b n|b|b z]; try (by inversion Hst; subst).
  - split; [|by inversion Hst; subst]. intros b'. pose proof (mirror_read _ _ _ _ _ (Mi b) Hst) as (_ & _ & _ & Hu).
    destruct (decide (b' = b)) as [->|Hb]; [done|]. inversion Hst; subst. simpl. rewrite fn_lookup_insert_ne by done. apply I1.
  - exfalso. inversion Hst as [| | | | |? ? ? ? up ? ? ? ? ? ? ? ? Hup| ]; subst. specialize (I1 b). simpl in I1. congruence.
  - exfalso. inversion Hst as [| | | | | |? ? ? ? ? rx ? ? ? ? ? ? ? Hrx]; subst. specialize (I2 (b, z)). simpl in I2. congruence.
Qed.
Lemma mirror_step s : (forall b, d_up s b = []) -> 0 < on_way s -> exists b n s', dstep D s (DRead b n) s' /\ forall b, d_up s' b = [].
Proof.
  intros Hu Ht. assert (exists b, 0 < length (d_wire s (negb b))) as (b & Hb).
  { unfold on_way in Ht. destruct (d_wire s true) as [|x l] eqn:E; [exists true; simpl in *; lia|exists false; simpl; rewrite E; simpl; lia]. }
  destruct s as [tx hd ss w up rx sn ws g]. simpl in *.
  destruct (Mi b) as (_ & _ & _ & _ & _ & Hm & _).
  destruct (mirror_returns (du_env D b) (du_conn D b) (take 1 (w (negb b))) (ss b) (Mi b)) as (s2 & H).
  { destruct (w (negb b)); simpl in *; [lia|done]. } { rewrite take_length. lia. }
  exists b, 1. eexists. split; [eapply dk_read; [apply Hu|lia|lia|lia|exact H]|].
  intros b'. simpl. destruct (decide (b' = b)) as [->|Hb']; [by rewrite fn_lookup_insert|rewrite fn_lookup_insert_ne by done; apply Hu].
Qed.
Lemma mirror_on n s : (forall b, d_up s b = []) -> 0 < on_way s ->
  exists ms s', drun D any_reads s ms s' /\ length ms = n /\ Forall reading ms.
Proof.
  revert s. induction n as [|n IH]; intros s Hu Ht; [exists [], s; split_and!; constructor|].
  destruct (mirror_step s Hu Ht) as (b & m & s1 & Hst & Hu1).
  pose proof (mirror_same any_reads s [DRead b m] s1 (drun_one _ _ _ _ _ I Hst) ltac:(by repeat constructor)) as Ht1.
  destruct (IH s1 Hu1 ltac:(lia)) as (ms & s' & H & Hl & F). exists (DRead b m :: ms), s'.
  split; [eapply drun_cons; [done|exact Hst|exact H]|]. split; [simpl; lia|by constructor].
Qed.
Lemma mirror_forever ss ls s : drun D any_reads (new_duo ss) ls s -> 0 < on_way s -> d_seen s = [] /\
  (forall ms s', drun D any_reads s ms s' -> Forall onward ms -> on_way s' = on_way s) /\
  forall n, exists ms s', drun D any_reads s ms s' /\ length ms = n /\ Forall reading ms.
Proof.
  intros H Ht. destruct (mirror_up ss _ ls s H) as (Hu & _ & Hs). split; [done|]. split; [intros ms s'; apply mirror_same|].
  intros n. by apply mirror_on.
Qed.
End mirrors.

(** ** Honest traffic *)
Lemma honest_bounds D k ps ss ls s : paired D k ps -> (forall b, init_st (du_env D b) = Some (ss b)) ->
  drun D (whole_reads (framed ps)) (new_duo ss) ls s -> dall_sendable D k ps ls ->
  reads ls <= passes ls + selfs true 131%Z ls + selfs false 131%Z ls + 2 * (selfs true 16%Z ls + selfs false 16%Z ls).
Proof.
  intros P Hi H Hs.
  assert (exists os i, dinv D k ps ls s os i /\ reads ls + todo os i <= passes ls + selfs true 131%Z ls + selfs false 131%Z ls + 2 * (selfs true 16%Z ls + selfs false 16%Z ls))
    as (os & i & _ & Hb); [|lia].
  induction H as [|ls s1 l s2 H IH Hok Hst].
  { exists (fun _ => []), (fun _ => 0). split; [by apply (dinv_start D k ps)|done]. }
  destruct IH as (os & i & I & Hb); [intros b e x Hx; eapply Hs, elem_of_app; by left|].
  destruct (dinv_step D k ps P _ _ _ _ l s2 I Hok) as (os' & i' & I' & Ht); [|done|].
  { intros b e x ->. apply Hs. apply elem_of_app. right. left. }
  exists os', i'. split; [done|]. rewrite reads_snoc, passes_snoc, !selfs_snoc.
  destruct l as [ | | |b j t|b n| | ]; try lia.
  assert (t = 131%Z \/ t = 16%Z) as [-> | ->].
  { inversion Hst as [| | |tx hd ss' w up rx sn ws g ? ? p ? outs st' Hp Hlow Htag Hf| | | ]; subst.
    destruct (p_kind p); try done; injection Htag as <-; auto. }
  - simpl in *. destruct b; simpl in *; lia.
  - simpl in *. destruct b; simpl in *; lia.
Qed.
