(** * Proofs about the goroutines of several connections *)
From Verif Require Import GoBase UBufModel FrameModel StackModel StackSpec StackProofs ClimbModel ClimbSpec.

Lemma visit_out s i d x : s_out (visit s i d x) = s_out s.
Proof. done. Qed.
Lemma itx_out s i : s_out (inc_tx s i) = s_out s.
Proof. unfold inc_tx, set_ps. by destruct (s_ps s !! i) as [[]|]. Qed.
Lemma irx_out s i : s_out (inc_rx s i) = s_out s.
Proof. unfold inc_rx, set_ps. by destruct (s_ps s !! i) as [[]|]. Qed.

Notation D0 := (fun (x : ctx) (s : st) => Some (Done x s)).
Notation N0 := (fun (_ : ctx) (_ : st) => @None outcome).

Ltac split_calls H :=
  repeat first
    [ discriminate H
    | match type of H with Some _ = Some _ => injection H as ?; subst end
    | match type of H with context [match ?c with _ => _ end] => destruct c eqn:? end ].

Lemma down_same E d i pr x s x' s' : keeps_nothing pr ->
  (forall dn up ud, one_call E d i pr dn up ud x s = dn x' s') ->
  s_out s' = s_out s /\ forall t, exists t', (forall dn up ud, one_call E d i pr dn up ud x t = dn x' t') /\ s_out t' = s_out t.
Proof.
  intros K H. pose proof (H D0 N0 N0) as H1. pose proof (H N0 N0 N0) as H2. clear H.
  destruct pr as [k en]. unfold keeps_nothing in K. simpl in K.
  unfold one_call, on_upper, on_lower, codec_write, codec_read, by_reference, with_buf, head_ignore in *. simpl p_kind in *. simpl p_enable in *.
  destruct d, k; try done; subst;
    repeat first
    [ discriminate H1 | discriminate H2
    | match type of H1 with Some (Done _ _) = Some (Done _ _) => injection H1 as <- <-; split; [by rewrite ?itx_out, ?irx_out|intros t; eexists; split; [intros; reflexivity|by rewrite ?itx_out, ?irx_out]] end
    | match type of H1 with context [match ?c with _ => _ end] => destruct c eqn:? end ].
Qed.
Lemma up_same E d i pr x s x' s' : keeps_nothing pr ->
  (forall dn up ud, one_call E d i pr dn up ud x s = up x' s') ->
  s_out s' = s_out s /\ forall t, exists t', (forall dn up ud, one_call E d i pr dn up ud x t = up x' t') /\ s_out t' = s_out t.
Proof.
  intros K H. pose proof (H N0 D0 N0) as H1. pose proof (H N0 N0 N0) as H2. clear H.
  destruct pr as [k en]. unfold keeps_nothing in K. simpl in K.
  unfold one_call, on_upper, on_lower, codec_write, codec_read, by_reference, with_buf, head_ignore in *. simpl p_kind in *. simpl p_enable in *.
  destruct d, k; try done; subst;
    repeat first
    [ discriminate H1 | discriminate H2
    | match type of H1 with Some (Done _ _) = Some (Done _ _) => injection H1 as <- <-; split; [by rewrite ?itx_out, ?irx_out|intros t; eexists; split; [intros; reflexivity|by rewrite ?itx_out, ?irx_out]] end
    | match type of H1 with context [match ?c with _ => _ end] => destruct c eqn:? end ].
Qed.
(** The state of an outcome; the same kind of outcome. *)
Definition st_of (r : outcome) : st := match r with Done _ s => s | Crash s => s end.
Definition alike (r r' : outcome) : Prop :=
  match r, r' with Done x _, Done x' _ => x = x' | Crash _, Crash _ => True | _, _ => False end.
Lemma end_same E d i pr x s r : keeps_nothing pr ->
  (forall dn up ud, one_call E d i pr dn up ud x s = Some r) ->
  exists outs, s_out (st_of r) = s_out s ++ outs /\ (forall s', r = Crash s' -> outs = []) /\
    forall t, exists r', (forall dn up ud, one_call E d i pr dn up ud x t = Some r') /\ alike r r' /\ s_out (st_of r') = s_out t ++ outs.
Proof.
  intros K H. pose proof (H N0 N0 N0) as H1. clear H.
  destruct pr as [k en]. unfold keeps_nothing in K. simpl in K.
  unfold one_call, on_upper, on_lower, codec_write, codec_read, by_reference, with_buf, head_ignore in *. simpl p_kind in *. simpl p_enable in *.
  destruct d, k; try done; subst;
    repeat first
    [ discriminate H1
    | match type of H1 with Some (Done _ _) = Some _ => injection H1 as <-;
        first [ exists []; rewrite app_nil_r; split; [solve [simpl; by rewrite ?itx_out, ?irx_out]|split; [done|]]; intros t; eexists; split; [intros; reflexivity|]; rewrite app_nil_r; split; [done|simpl; by rewrite ?itx_out, ?irx_out]
              | eexists; split; [simpl; reflexivity|]; split; [done|]; intros t; eexists; split; [intros; reflexivity|]; done ] end
    | match type of H1 with Some (Crash _) = Some _ => injection H1 as <-; exists []; rewrite app_nil_r; split; [done|split; [done|]]; intros t; eexists; split; [intros; reflexivity|]; by rewrite app_nil_r end
    | match type of H1 with context [match ?c with _ => _ end] => destruct c eqn:? end ].
Qed.

(** ** The same from every state *)
Lemma kept E i pr : memoryless E -> e_procs E !! i = Some pr -> keeps_nothing pr.
Proof. intros [F _] H. by apply (Forall_lookup_1 _ _ _ _ F H). Qed.
Lemma calls_same E d p x s d' p' x' s' : memoryless E -> calls E d p x s d' p' x' s' ->
  s_out s' = s_out s /\ forall t, exists t', calls E d p x t d' p' x' t' /\ s_out t' = s_out t.
Proof.
  intros M H. destruct H as [d i pr x s x' s' Hp H|d i pr x s x' s' Hp H].
  - destruct (down_same _ _ _ _ _ _ _ _ (kept _ _ _ M Hp) H) as [H1 H2]. split; [done|]. intros t. destruct (H2 t) as (t' & H3 & H4).
    exists t'. split; [by eapply calls_down|done].
  - destruct (up_same _ _ _ _ _ _ _ _ (kept _ _ _ M Hp) H) as [H1 H2]. split; [done|]. intros t. destruct (H2 t) as (t' & H3 & H4).
    exists t'. split; [by eapply calls_up|done].
Qed.
Lemma send_same E x s : steady E -> let r := lower_send E x s in
  exists outs, s_out (st_of r) = s_out s ++ outs /\ (forall s', r = Crash s' -> outs = []) /\
    forall t, alike r (lower_send E x t) /\ s_out (st_of (lower_send E x t)) = s_out t ++ outs.
Proof.
  intros [Hw Hr] r. subst r. unfold lower_send, close_conn. destruct (cx_conn x) as [c|].
  2:{ exists []. simpl. rewrite app_nil_r. split; [done|]. split; [done|]. intros t. by rewrite app_nil_r. }
  destruct (e_isref E c).
  - destruct (cx_msg x) as [m|]; [|eexists; simpl; split; [reflexivity|]; split; [done|]; done].
    rewrite (Hr (s_out s) [] c m). destruct (e_setref E [] c m) eqn:Er; eexists; simpl; (split; [reflexivity|]); (split; [done|]); intros t; rewrite (Hr (s_out t) [] c m), Er; done.
  - destruct (cx_buf x) as [ub|].
    2:{ exists []. simpl. rewrite app_nil_r. split; [done|]. split; [done|]. intros t. by rewrite app_nil_r. }
    rewrite (Hw (s_out s) [] c). destruct (v_writeto (e_write E [] c) ub) as [[[off n] err] ub'|b] eqn:Ew.
    + destruct off as [l|], err as [e|]; simpl.
      * exists ([OWire c (take n l)] ++ [OClose c; OClosedEvent c]). rewrite <- app_assoc. split; [done|]. split; [done|]. intros t. rewrite (Hw (s_out t) [] c), Ew. simpl. by rewrite <- app_assoc.
      * eexists. split; [reflexivity|]. split; [done|]. intros t. by rewrite (Hw (s_out t) [] c), Ew.
      * eexists. split; [reflexivity|]. split; [done|]. intros t. by rewrite (Hw (s_out t) [] c), Ew.
      * exists []. rewrite app_nil_r. split; [done|]. split; [done|]. intros t. rewrite (Hw (s_out t) [] c), Ew. simpl. by rewrite app_nil_r.
    + exists []. rewrite app_nil_r. split; [done|]. split; [done|]. intros t. rewrite (Hw (s_out t) [] c), Ew. simpl. by rewrite app_nil_r.
Qed.
Lemma ends_same E d p x s r : memoryless E -> ends E d p x s r ->
  exists outs, s_out (st_of r) = s_out s ++ outs /\ (forall s', r = Crash s' -> outs = []) /\
    forall t, exists r', ends E d p x t r' /\ alike r r' /\ s_out (st_of r') = s_out t ++ outs.
Proof.
  intros M H. destruct H as [d x s|d i x s Hn|d i pr x s r Hp H|x s|x s|x s|x s].
  - exists []. rewrite app_nil_r. split; [done|]. split; [done|]. intros t. exists (Crash t). rewrite app_nil_r. split; [constructor|done].
  - exists []. rewrite app_nil_r. split; [done|]. split; [done|]. intros t. exists (Crash t). rewrite app_nil_r. split; [by apply ends_none|done].
  - destruct (end_same _ _ _ _ _ _ _ (kept _ _ _ M Hp) H) as (outs & H1 & H2 & H3). exists outs. split; [done|]. split; [done|].
    intros t. destruct (H3 t) as (r' & H4 & H5). exists r'. split; [by eapply ends_proc|done].
  - unfold upper_recv. destruct (cx_msg x) as [m|] eqn:Em; [destruct (decide (option_int (cx_session x) 0 ∈ e_sessions E)) as [Hd|Hd] eqn:Ed|].
    + eexists. split; [reflexivity|]. split; [done|]. intros t. eexists. split; [apply ends_upper|]. unfold upper_recv. rewrite Em, Ed. done.
    + exists []. rewrite app_nil_r. split; [done|]. split; [done|]. intros t. eexists. split; [apply ends_upper|]. unfold upper_recv. rewrite Em, Ed, app_nil_r. done.
    + exists []. rewrite app_nil_r. split; [done|]. split; [done|]. intros t. eexists. split; [apply ends_upper|]. unfold upper_recv. rewrite Em, app_nil_r. done.
  - exists []. rewrite app_nil_r. split; [done|]. split; [done|]. intros t. exists (Done x t). rewrite app_nil_r. split; [constructor|done].
  - destruct M as [_ S]. destruct (send_same E x s S) as (outs & H1 & H2 & H3). exists outs. split; [done|]. split; [done|].
    intros t. eexists. split; [apply ends_lower|]. apply H3.
  - exists []. rewrite app_nil_r. split; [done|]. split; [done|]. intros t. exists (Done x t). rewrite app_nil_r. split; [constructor|done].
Qed.

(** ** Calls and [exec] *)
Lemma calls_exec E d p x s d' p' x' s' f : calls E d p x s d' p' x' s' -> exec (S f) E d p x s = exec f E d' p' x' s'.
Proof. intros [d0 i pr x0 s0 x1 s1 Hp H|d0 i pr x0 s0 x1 s1 Hp H]; simpl; rewrite Hp; unfold one_call in H; destruct d0; first [exact (H _ _ _)|exact (H _ _ N0)]. Qed.
Lemma ends_exec E d p x s r f : ends E d p x s r -> exec (S f) E d p x s = Some r.
Proof.
  intros H. destruct H as [| |d i pr x s r Hp H| | | |]; try done.
  - simpl. by rewrite H.
  - simpl. rewrite Hp. unfold one_call in H. destruct d; first [exact (H _ _ _)|exact (H _ _ N0)].
Qed.

(** ** What one goroutine does, whatever the others do *)
Definition leads (E : env) (j : job) (d : dir) (p : option pid) (x : ctx) : Prop :=
  exists n, forall t, exists t', s_out t' = s_out t /\ forall f, run_job E j (n + f) t = exec f E d p x t'.
Definition goes (E : env) (c : nat) (ls : list ulab) (s : ust) : Prop :=
  exists outss, shown_by c s = concat outss /\
    match u_at s c with
    | None => exists rs, Forall2 (alone_shows E) rs outss /\ (u_dead s = false -> jobs_of c ls = rs) /\
        (jobs_of c ls = rs \/ exists j, jobs_of c ls = rs ++ [j] /\ alone_crashes E j)
    | Some (d, p, x) => exists rs l, jobs_of c ls = rs ++ [l] /\ Forall2 (alone_shows E) rs outss /\ leads E l d p x
    end.
Lemma first_leads E j d p x : first_call E j = Some (d, p, x) -> leads E j d p x.
Proof.
  intros H. exists 0. intros t. exists t. split; [done|]. intros f. simpl. destruct j as [c l|c m|z de c m|i tag c]; simpl in *; try (by injection H as <- <- <-).
  unfold self_message. destruct (new_ubuf E) as [ub|]; [|done]. destruct (v_writebyte tag ub); [|done]. by injection H as <- <- <-.
Qed.
Lemma first_fails E j : first_call E j = None -> alone_crashes E j.
Proof.
  intros H s. exists 0, s. rewrite app_nil_r. split; [|done]. intros f _. destruct j as [c l|c m|z de c m|i tag c]; simpl in *; try done.
  unfold self_message. destruct (new_ubuf E) as [ub|]; [|done]. by destruct (v_writebyte tag ub).
Qed.
Lemma jobs_snoc c ls l : jobs_of c (ls ++ [l]) = jobs_of c ls ++ option_list (job_of c l).
Proof. unfold jobs_of. rewrite omap_app. simpl. by destruct (job_of c l). Qed.
Lemma shown_snoc c c' lg outs : (filter (fun y : nat * out => y.1 = c) (lg ++ (pair c' <$> outs))).*2 = (filter (fun y => y.1 = c) lg).*2 ++ (if decide (c' = c) then outs else []).
Proof.
  rewrite stdpp.list.filter_app, fmap_app. f_equal. destruct (decide (c' = c)) as [->|Hn]; induction outs as [|o outs IH]; try done;
    rewrite fmap_cons, stdpp.list.filter_cons; simpl.
  - rewrite decide_True by done. rewrite fmap_cons. simpl. by rewrite IH.
  - by rewrite decide_False by done.
Qed.
Lemma leads_call E l d p x s d' p' x' s' : memoryless E -> calls E d p x s d' p' x' s' -> leads E l d p x -> leads E l d' p' x'.
Proof.
  intros M H (n & Hn). exists (S n). intros t. destruct (Hn t) as (t1 & H1 & H2). destruct (calls_same _ _ _ _ _ _ _ _ _ M H) as [_ H3].
  destruct (H3 t1) as (t2 & H4 & H5). exists t2. split; [congruence|]. intros f. replace (S n + f) with (n + S f) by lia. rewrite H2. by apply calls_exec.
Qed.
Lemma leads_end E l d p x s x' s' outs : memoryless E -> ends E d p x s (Done x' s') -> s_out s' = s_out s ++ outs -> leads E l d p x -> alone_shows E l outs.
Proof.
  intros M H Ho (n & Hn) t. destruct (Hn t) as (t1 & H1 & H2). destruct (ends_same _ _ _ _ _ _ M H) as (o & H3 & _ & H4).
  simpl in H3. rewrite Ho in H3. apply app_inv_head in H3. subst o. destruct (H4 t1) as (r & H5 & H6 & H7). destruct r as [x2 s2|s2]; [|done].
  exists s2. split; [|simpl in H7; congruence]. exists (n + 1), x2. intros f Hf. replace f with (n + S (f - n - 1)) by lia. rewrite H2. by apply ends_exec.
Qed.
Lemma leads_crash E l d p x s s' : memoryless E -> ends E d p x s (Crash s') -> leads E l d p x -> alone_crashes E l.
Proof.
  intros M H (n & Hn) t. destruct (Hn t) as (t1 & H1 & H2). destruct (ends_same _ _ _ _ _ _ M H) as (o & H3 & Hc & H4).
  rewrite (Hc s' eq_refl) in *. destruct (H4 t1) as (r & H5 & H6 & H7). destruct r as [x2 s2|s2]; [done|].
  exists (n + 1), s2. split; [|simpl in H7; congruence]. intros f Hf. replace f with (n + S (f - n - 1)) by lia. rewrite H2. by apply ends_exec.
Qed.
Lemma goes_run E a ls s c : memoryless E -> urun E (new_climb a) ls s -> goes E c ls s.
Proof.
  intros M H. induction H as [|ls s1 l s2 _ (outss & Ho & IH) Hs].
  { exists []. split; [done|]. exists []. split; [constructor|]. split; [done|by left]. }
  unfold goes. rewrite jobs_snoc.
  destruct Hs as [s at_ lg c' j [[d p] x] Hat Hf|s at_ lg c' j Hat Hf|s at_ lg c' d p x d' p' x' s' Hat Hc|s at_ lg c' d p x x' s' outs Hat He Hout|s at_ lg c' d p x s' Hat He]; unfold shown_by in *; simpl in *.
  - destruct (decide (c' = c)) as [->|Hn].
    + exists outss. split; [done|]. rewrite fn_lookup_insert. rewrite Hat in IH. destruct IH as (rs & F & Hr & _). exists rs, j. rewrite (Hr eq_refl). split; [done|]. split; [done|]. by apply first_leads.
    + exists outss. split; [done|]. rewrite fn_lookup_insert_ne by done. simpl. by rewrite app_nil_r.
  - destruct (decide (c' = c)) as [->|Hn].
    + exists outss. split; [done|]. rewrite Hat in *. destruct IH as (rs & F & Hr & _). exists rs. rewrite (Hr eq_refl). split; [done|]. split; [done|]. right. exists j. split; [done|]. by apply first_fails.
    + exists outss. split; [done|]. simpl. rewrite app_nil_r. destruct (at_ c) as [[[d p] x]|]; [done|]. destruct IH as (rs & F & Hr & K). exists rs. split; [done|]. split; [done|done].
  - rewrite app_nil_r. exists outss. split; [done|]. destruct (decide (c' = c)) as [->|Hn].
    + rewrite fn_lookup_insert. rewrite Hat in IH. destruct IH as (rs & b & H1 & H2 & H3). exists rs, b. split; [done|]. split; [done|]. by eapply leads_call.
    + by rewrite fn_lookup_insert_ne by done.
  - rewrite app_nil_r, shown_snoc. destruct (decide (c' = c)) as [->|Hn].
    + rewrite fn_lookup_insert. rewrite Hat in IH. destruct IH as (rs & b & H1 & H2 & H3). exists (outss ++ [outs]).
      split; [rewrite Ho, concat_app; simpl; by rewrite app_nil_r|]. rewrite H1. exists (rs ++ [b]). split; [|split; [done|by left]]. apply Forall2_app; [done|]. constructor; [by eapply leads_end|constructor].
    + exists outss. rewrite app_nil_r. split; [done|]. by rewrite fn_lookup_insert_ne by done.
  - rewrite app_nil_r. exists outss. split; [done|]. destruct (at_ c) as [[[d0 p0] x0]|]; [done|]. destruct IH as (rs & F & Hr & K). exists rs. split; [done|]. split; [done|done].
Qed.

Lemma same_as_alone E a ls s c : memoryless E -> urun E (new_climb a) ls s -> u_dead s = false -> u_at s c = None ->
  exists outss, Forall2 (alone_shows E) (jobs_of c ls) outss /\ shown_by c s = concat outss.
Proof. intros M H Hd Hat. destruct (goes_run E a ls s c M H) as (outss & H1 & H2). rewrite Hat in H2. destruct H2 as (rs & F & Hr & _). rewrite (Hr Hd). by exists outss. Qed.
(** Inside a call or crashed, all but the last job have shown what they show alone. *)
Lemma same_inside E a ls s c : memoryless E -> urun E (new_climb a) ls s ->
  exists rs outss, (jobs_of c ls = rs \/ exists j, jobs_of c ls = rs ++ [j]) /\ Forall2 (alone_shows E) rs outss /\ shown_by c s = concat outss.
Proof.
  intros M H. destruct (goes_run E a ls s c M H) as (outss & H1 & H2). destruct (u_at s c) as [[[d p] x]|].
  - destruct H2 as (rs & l & H2 & H3 & _). exists rs, outss. split; [right; by exists l|done].
  - destruct H2 as (rs & F & _ & K). exists rs, outss. split; [|done]. destruct K as [K|(j & K & _)]; [by left|right; by exists j].
Qed.
Lemma crash_alone E a ls s l s' : memoryless E -> urun E (new_climb a) ls s -> ustep E s l s' -> is_crash l = true ->
  exists rs j, jobs_of (whose l) (ls ++ [l]) = rs ++ [j] /\ alone_crashes E j.
Proof.
  intros M H Hs Hl. destruct (goes_run E a ls s (whose l) M H) as (outss & _ & H2). rewrite jobs_snoc.
  inversion Hs as [|s0 at_ lg c0 j Hat Hf| | |s0 at_ lg c0 d p x s1 Hat He]; subst; try done; simpl in *.
  - rewrite decide_True by done. exists (jobs_of c0 ls), j. split; [done|]. by apply first_fails.
  - rewrite Hat in H2. destruct H2 as (rs & l & H2 & _ & H3). exists rs, l. rewrite app_nil_r. split; [done|]. by eapply leads_crash.
Qed.
