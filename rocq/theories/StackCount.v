(** The counters of an enabled StatCounter equal the number of messages that
    passed it, after any sequence of calls (C35). *)
From stdpp Require Import list numbers.
From Coq Require Import ZArith Lia.
From Verif Require Import GoBase UBufModel UBufSpec UBufProofs UBufFacts FrameModel FrameSpec
  StackModel StackSpec StackProofs.

Lemma count_snoc {A} (f : A -> bool) l v : count f (l ++ [v]) = count f l + (if f v then 1 else 0).
Proof. unfold count. rewrite List.filter_app, app_length. simpl. by destruct (f v). Qed.

Definition counted (E : env) (s : st) : Prop :=
  forall i, e_procs E !! i = Some (Proc KStat true) -> exists p, s_ps s !! i = Some p /\
    ps_tx p = (Z.of_nat (count (passed_down E i) (s_visits s)) mod 2^64)%Z /\
    ps_rx p = (Z.of_nat (count (passed_up E i) (s_visits s)) mod 2^64)%Z.

(** What a call must keep. *)
Definition keeps (E : env) (g : callfn) : Prop :=
  forall x s x' s', counted E s -> g x s = Some (Done x' s') -> counted E s'.

Lemma counted_emit E s l : counted E s -> counted E (emit s l).
Proof. done. Qed.
Lemma set_ps_ne s i j p : i <> j -> s_ps (set_ps s i p) !! j = s_ps s !! j.
Proof. intros. simpl. by rewrite list_lookup_insert_ne. Qed.
Lemma counted_set_cache E s i c : counted E s -> counted E (set_cache s i c).
Proof.
  intros H j Hj. destruct (H j Hj) as (p & Hp & Ht & Hr). rewrite visits_set_cache. unfold set_cache.
  destruct (s_ps s !! i) as [p0|] eqn:Ei; [|eauto].
  destruct (decide (i = j)) as [->|Hn].
  - rewrite Hp in Ei. injection Ei as <-. eexists. simpl. rewrite list_lookup_insert; [|by eapply lookup_lt_Some].
    split; [done|]. done.
  - rewrite set_ps_ne by done. eauto.
Qed.
Lemma counted_other E s i d x k en : e_procs E !! i = Some (Proc k en) ->
  (k = KStat -> en = true -> (d = Down -> counts_tx E x = false) /\ (d = Up -> counts_rx E x = false)) ->
  counted E s -> counted E (visit s i d x).
Proof.
  intros Hi Hk H j Hj. destruct (H j Hj) as (p & Hp & Ht & Hr). exists p. split; [done|]. simpl.
  rewrite !count_snoc.
  assert (passed_down E j (i, d, x) = false /\ passed_up E j (i, d, x) = false) as [-> ->].
  { unfold passed_down, passed_up. destruct (decide (i = j)) as [->|Hn].
    - rewrite Hi in Hj. injection Hj as -> ->. destruct (Hk eq_refl eq_refl) as [H1 H2].
      destruct d; [rewrite H1 by done | rewrite H2 by done]; by rewrite andb_false_r.
    - assert ((i =? j) = false) as -> by (by apply Nat.eqb_neq). by destruct d. }
  by rewrite !Nat.add_0_r.
Qed.
Lemma inc64_count n : inc64 (Z.of_nat n mod 2^64) = (Z.of_nat (n + 1) mod 2^64)%Z.
Proof. unfold inc64. rewrite Zplus_mod_idemp_l. f_equal. lia. Qed.
Lemma counted_tx E s i x : e_procs E !! i = Some (Proc KStat true) -> counts_tx E x = true ->
  counted E s -> counted E (inc_tx (visit s i Down x) i).
Proof.
  intros Hi Hx H j Hj. destruct (H j Hj) as (p & Hp & Ht & Hr). rewrite visits_inc_tx. unfold inc_tx.
  cbn [s_ps s_visits visit]. destruct (decide (i = j)) as [->|Hn].
  - rewrite Hp. eexists. cbn [s_ps set_ps]. rewrite list_lookup_insert; [|by eapply lookup_lt_Some].
    split; [done|]. cbn [ps_tx ps_rx]. rewrite !count_snoc. cbn [passed_down passed_up].
    rewrite Nat.eqb_refl, Hx, Nat.add_0_r. cbn [andb]. by rewrite Ht, inc64_count.
  - exists p. rewrite !count_snoc. cbn [passed_down passed_up].
    assert ((i =? j) = false) as -> by (by apply Nat.eqb_neq). cbn [andb]. rewrite !Nat.add_0_r.
    split; [|done]. destruct (s_ps s !! i); [|done]. by rewrite set_ps_ne.
Qed.
Lemma counted_rx E s i x : e_procs E !! i = Some (Proc KStat true) -> counts_rx E x = true ->
  counted E s -> counted E (inc_rx (visit s i Up x) i).
Proof.
  intros Hi Hx H j Hj. destruct (H j Hj) as (p & Hp & Ht & Hr). rewrite visits_inc_rx. unfold inc_rx.
  cbn [s_ps s_visits visit]. destruct (decide (i = j)) as [->|Hn].
  - rewrite Hp. eexists. cbn [s_ps set_ps]. rewrite list_lookup_insert; [|by eapply lookup_lt_Some].
    split; [done|]. cbn [ps_tx ps_rx]. rewrite !count_snoc. cbn [passed_down passed_up].
    rewrite Nat.eqb_refl, Hx, Nat.add_0_r. cbn [andb]. by rewrite Hr, inc64_count.
  - exists p. rewrite !count_snoc. cbn [passed_down passed_up].
    assert ((i =? j) = false) as -> by (by apply Nat.eqb_neq). cbn [andb]. rewrite !Nat.add_0_r.
    split; [|done]. destruct (s_ps s !! i); [|done]. by rewrite set_ps_ne.
Qed.
(** Filters and forwarders count too, in their own fields. *)
Lemma counted_inc E s i k en : e_procs E !! i = Some (Proc k en) -> k <> KStat ->
  counted E s -> counted E (inc_tx s i) /\ counted E (inc_rx s i).
Proof.
  intros Hi Hk H. split; intros j Hj; destruct (H j Hj) as (p & Hp & Ht & Hr);
    (assert (i <> j) by (intros ->; rewrite Hi in Hj; by injection Hj));
    exists p; [rewrite visits_inc_tx; unfold inc_tx|rewrite visits_inc_rx; unfold inc_rx];
    (destruct (s_ps s !! i); [rewrite set_ps_ne by done|]); done.
Qed.

Lemma frame_cur_keeps E n i up x s u x' s' : keeps E up -> counted E s ->
  frame_cur n i up x s u = Some (Done x' s') -> counted E s'.
Proof.
  intros Hu. revert x s u. induction n as [|n IH]; intros x s u H; [done|]. cbn [frame_cur].
  destruct (cache_of s i) as [c|]; [|done]. destruct (fd_cur_step c u) as [[[] c'] u'].
  - intros [= <- <-]. by apply counted_set_cache.
  - apply Hu. by apply counted_set_cache.
  - destruct (up _ _) as [[x1 s1|]|] eqn:Eu; try done. apply IH. eapply Hu; [|exact Eu]. by apply counted_set_cache.
  - done.
Qed.
Lemma frame_cached_keeps E n i up x s x' s' : keeps E up -> counted E s ->
  frame_cached n i up x s = Some (Done x' s') -> counted E s'.
Proof.
  intros Hu. revert x s. induction n as [|n IH]; intros x s H; [done|]. cbn [frame_cached].
  destruct (cache_of s i) as [c|]; [|done]. destruct (fd_cached_step c) as [[] c'].
  - intros [= <- <-]. by apply counted_set_cache.
  - intros [= <- <-]. by apply counted_set_cache.
  - destruct (up _ _) as [[x1 s1|]|] eqn:Eu; try done. apply IH. eapply Hu; [|exact Eu]. by apply counted_set_cache.
  - done.
Qed.
Lemma frame_recv_keeps E i up x s u x' s' : keeps E up -> counted E s ->
  frame_recv i up x s u = Some (Done x' s') -> counted E s'.
Proof.
  intros Hu H. unfold frame_recv. destruct (cache_of s i) as [c|]; [|done].
  destruct (0 <? v_rlen c).
  - destruct (ub_readfrom None c u) as [r [c' u']|[c' u']]; [|done]. apply frame_cached_keeps; [done|].
    by apply counted_set_cache.
  - destruct (frame_cur _ i up x s u) as [[x1 s1|]|] eqn:Ec; try done. apply frame_cached_keeps; [done|].
    by eapply frame_cur_keeps.
Qed.

Lemma codec_write_keeps E l d x s x' s' : keeps E d -> counted E s ->
  codec_write E l d x s = Some (Done x' s') -> counted E s'.
Proof.
  intros Hd H. unfold codec_write. destruct (new_ubuf E); [|done]. destruct (v_write l v) as [[[|n] [e|]] b|]; try done.
  - by intros [= <- <-].
  - by intros [= <- <-].
  - by intros [= <- <-].
  - by apply Hd.
Qed.
Lemma head_ignore_keeps E r x s d x' s' : keeps E d -> counted E s ->
  head_ignore r x s d = Some (Done x' s') -> counted E s'.
Proof. intros Hd H. destruct r; [by apply Hd|done]. Qed.

Ltac same_state := solve [by intros [= <- <-]].

Lemma on_upper_keeps E i en d u w k x s x' s' : keeps E d -> keeps E u -> keeps E w ->
  e_procs E !! i = Some (Proc k en) -> counted E s ->
  on_upper E i en d u w k x (visit s i Down x) = Some (Done x' s') -> counted E s'.
Proof.
  intros Hd Hu Hw Hi H.
  destruct k as [| | |mar unm|enc dec|[enc|] dec| | |fns|fns| |cap| | | | |];
    try (assert (H1 : counted E (visit s i Down x)) by (by apply (counted_other E s i Down x _ en Hi)));
    cbn [on_upper].
  - same_state.
  - destruct en; [|by apply Hd]. destruct (cx_msg x) as [[]|]; try same_state. by apply codec_write_keeps.
  - destruct en; [|by apply Hd]. destruct (cx_msg x) as [[]|]; try same_state. by apply codec_write_keeps.
  - destruct en; [|by apply Hd]. destruct (cx_msg x) as [m|]; [|same_state]. destruct (mar m); [|same_state].
    by apply codec_write_keeps.
  - destruct en; [|by apply Hd]. destruct (cx_msg x) as [m|]; [|same_state]. destruct (new_ubuf E); [|done].
    destruct (enc m v) as [[]|]; try done; [same_state|by apply Hd].
  - destruct en; [|by apply Hd]. destruct (cx_msg x) as [m|]; [|same_state]. destruct (new_ubuf E); [|done].
    destruct (enc m v) as [[]|]; try done; [same_state|by apply Hd].
  - destruct en; [same_state|by apply Hd].
  - by apply Hd.
  - by apply Hd.
  - destruct en; [|by apply Hd]. destruct (any_fn fns x false) as [[]|]; try done; [by apply Hd|].
    intros [= <- <-]. by apply (counted_inc E _ i _ _ Hi).
  - destruct en; [|by apply Hd]. destruct (any_fn fns x false) as [[]|]; try done; [|by apply Hd].
    intros [= <- <-]. by apply (counted_inc E _ i _ _ Hi).
  - by apply Hd.
  - unfold by_reference. destruct (cx_conn x); [|done]. destruct (e_isref E c); [by apply Hw|].
    destruct en; [|by apply Hd]. unfold with_buf. destruct (cx_buf x); [|same_state]. by apply head_ignore_keeps.
  - unfold by_reference. destruct (cx_conn x); [|done]. destruct (e_isref E c); [by apply Hd|].
    unfold with_buf. destruct (cx_buf x); [|same_state]. by apply head_ignore_keeps.
  - unfold by_reference. destruct (cx_conn x); [|done]. destruct (e_isref E c); [by apply Hd|].
    unfold with_buf. destruct (cx_buf x); [|same_state]. by apply head_ignore_keeps.
  - by apply Hu.
  - destruct en; [|by apply Hd]. unfold with_buf. destruct (cx_buf x); [|same_state].
    destruct (v_headU _ _ _ _) as [[]|]; try done; [same_state|by apply Hd].
  - unfold by_reference. destruct (cx_conn x) as [c|] eqn:Ec; [|done].
    assert (Hno : counts_tx E x = false -> counted E (visit s i Down x)).
    { intros Hn. eapply counted_other; [exact Hi| |done]. intros _ _. by split. }
    destruct (e_isref E c) eqn:Er.
    { apply Hd. apply Hno. unfold counts_tx. rewrite Ec, Er. by destruct (cx_buf x). }
    unfold with_buf. destruct (cx_buf x) as [b|] eqn:Eb.
    2: { intros [= <- <-]. apply Hno. unfold counts_tx. by rewrite Ec, Eb. }
    apply head_ignore_keeps; [done|]. destruct en.
    + apply counted_tx; [done| |done]. unfold counts_tx. by rewrite Ec, Eb, Er.
    + by apply (counted_other E s i Down x _ _ Hi).
Qed.

Lemma readbyte_head b t b' : v_readbyte b = Ok (t, None) b' -> exists l, readable b = t :: l.
Proof.
  unfold v_readbyte, readable. destruct (v_rlen b =? 0) eqn:E0; [done|]. apply Nat.eqb_neq in E0.
  destruct (s_get (v_st b) (v_rd b)) as [y|] eqn:Eg; [|done]. intros [= <- <-].
  unfold s_get in Eg.
  assert (arr (v_st b) !! v_rd b = Some y) as Hl by (by repeat case_match).
  destruct (v_rlen b) as [|n]; [done|]. rewrite (drop_S _ _ _ Hl). simpl. eauto.
Qed.
Lemma readbyte_none b t e b' : v_readbyte b = Ok (t, Some e) b' -> readable b = [].
Proof.
  unfold v_readbyte, readable. destruct (v_rlen b =? 0) eqn:E0; [|by destruct (s_get _ _)].
  apply Nat.eqb_eq in E0. by rewrite E0.
Qed.

Lemma on_lower_keeps E i en d u k x s x' s' : keeps E d -> keeps E u ->
  e_procs E !! i = Some (Proc k en) -> counted E s ->
  on_lower E i en d u k x (visit s i Up x) = Some (Done x' s') -> counted E s'.
Proof.
  intros Hd Hu Hi H.
  assert (Hread : counted E (visit s i Up x) -> forall g, (forall l b, counted E (visit s i Up x) -> g l b = Some (Done x' s') -> counted E s') ->
    codec_read x (visit s i Up x) g = Some (Done x' s') -> counted E s').
  { intros H1 g Hg. unfold codec_read. destruct (cx_buf x) as [b|]; [|same_state].
    destruct (v_read (v_rlen b) b) as [[[|y l] [e|]] b'|]; try done; try same_state. by apply Hg. }
  destruct k as [| | |mar unm|enc dec|enc [dec|]| | |fns|fns| |cap| | | | |];
    try (assert (H1 : counted E (visit s i Up x)) by (by apply (counted_other E s i Up x _ en Hi)));
    cbn [on_lower].
  - same_state.
  - destruct en; [|by apply Hu]. apply Hread; [done|]. intros l b _. by apply Hu.
  - destruct en; [|by apply Hu]. apply Hread; [done|]. intros l b _. by apply Hu.
  - destruct en; [|by apply Hu]. apply Hread; [done|]. intros l b _. destruct (unm l); [by apply Hu|same_state].
  - destruct en; [|by apply Hu]. unfold with_buf. destruct (cx_buf x) as [b|]; [|same_state].
    destruct (dec b) as [[m|] b'|]; try done; [by apply Hu|same_state].
  - destruct en; [|by apply Hu]. unfold with_buf. destruct (cx_buf x) as [b|]; [|same_state].
    destruct (dec b) as [[m []] b'|]; try done; [same_state|by apply Hu].
  - destruct en; [same_state|by apply Hu].
  - destruct en; [same_state|by apply Hu].
  - destruct en; [by apply Hd|by apply Hu].
  - destruct en; [|by apply Hu]. destruct (any_fn fns x true) as [[]|]; try done; [by apply Hu|].
    intros [= <- <-]. by apply (counted_inc E _ i _ _ Hi).
  - destruct en; [|by apply Hu]. destruct (any_fn fns x true) as [[]|]; try done; [|by apply Hu].
    intros [= <- <-]. by apply (counted_inc E _ i _ _ Hi).
  - by apply Hu.
  - unfold by_reference. destruct (cx_conn x); [|done]. destruct (e_isref E c); [by apply Hu|].
    unfold with_buf. destruct (cx_buf x); [|same_state]. destruct en; [|by apply Hu]. by apply frame_recv_keeps.
  - unfold by_reference. destruct (cx_conn x); [|done]. destruct (e_isref E c); [by apply Hu|].
    unfold with_buf. destruct (cx_buf x) as [b|]; [|same_state].
    destruct (v_readbyte b) as [[t [e|]] b'|]; try done; [same_state|].
    destruct (t =? 131)%Z; [|by apply Hu]. intros [= <- <-]. by apply counted_emit.
  - unfold by_reference. destruct (cx_conn x); [|done]. destruct (e_isref E c); [by apply Hu|].
    unfold with_buf. destruct (cx_buf x) as [b|]; [|same_state].
    destruct (v_readbyte b) as [[t [e|]] b'|]; try done; [same_state|].
    destruct (en && negb (t =? 0)%Z); [same_state|by apply Hu].
  - same_state.
  - destruct en; [|by apply Hu]. unfold with_buf. destruct (cx_buf x); [|same_state].
    destruct (v_readU _ _ _) as [[v0 []] b'|]; try done; [same_state|by apply Hu].
  - unfold by_reference. destruct (cx_conn x) as [c|] eqn:Ec; [|done].
    assert (Hno : counts_rx E x = false -> counted E (visit s i Up x)).
    { intros Hn. eapply counted_other; [exact Hi| |done]. intros _ _. by split. }
    destruct (e_isref E c) eqn:Er.
    { apply Hu. apply Hno. unfold counts_rx. rewrite Ec, Er. by destruct (cx_buf x). }
    unfold with_buf. destruct (cx_buf x) as [b|] eqn:Eb.
    2: { intros [= <- <-]. apply Hno. unfold counts_rx. by rewrite Ec, Eb. }
    destruct (v_readbyte b) as [[t [e|]] b'|] eqn:Ev; [|  |done].
    { intros [= <- <-]. apply Hno. unfold counts_rx. rewrite Ec, Eb, Er, (readbyte_none _ _ _ _ Ev). done. }
    destruct (readbyte_head _ _ _ Ev) as (l & Hl). destruct en.
    2: { apply Hu. by apply (counted_other E s i Up x _ _ Hi). }
    destruct (t =? 16)%Z eqn:E16.
    { destruct (s_ps (visit s i Up x) !! i); [|done]. destruct (stat_response _ _ _); [|done]. apply Hd. apply Hno.
      unfold counts_rx. by rewrite Ec, Eb, Er, Hl, E16. }
    destruct (t =? 35)%Z eqn:E35.
    { destruct (stat_show b') as [[[nm tx] rx] ub2|]; [|done]. intros [= <- <-]. apply counted_emit, Hno.
      unfold counts_rx. rewrite Ec, Eb, Er, Hl, E35. by rewrite !andb_false_r. }
    apply Hu. apply counted_rx; [done| |done]. unfold counts_rx. by rewrite Ec, Eb, Er, Hl, E16, E35.
Qed.

Lemma exec_keeps E f d p : keeps E (exec f E d p).
Proof.
  revert d p. induction f as [|f IH]; intros d p x s x' s' H; [done|]. cbn [exec].
  destruct p as [[| |i]|]; [| | |done].
  - destruct d; [same_state|]. intros [= Hx]. revert Hx. unfold upper_recv.
    destruct (cx_msg x); [|same_state]. destruct (decide _); [|same_state]. intros [= <- <-]. by apply counted_emit.
  - destruct d; [|same_state]. intros [= Hx]. revert Hx. unfold lower_send, close_conn.
    destruct (cx_conn x); [|same_state]. destruct (e_isref E c).
    + destruct (cx_msg x); [|intros [= <- <-]; by apply counted_emit].
      destruct (e_setref _ _ _ _); intros [= <- <-]; by apply counted_emit.
    + destruct (cx_buf x); [|same_state]. destruct (v_writeto _ _) as [[[o n] [e|]] b'|]; [| |done];
        destruct o; intros [= <- <-]; repeat apply counted_emit; done.
  - destruct (e_procs E !! i) as [[k en]|] eqn:Hi; [|done]. cbn [p_enable p_kind]. destruct d.
    + apply on_upper_keeps; auto.
    + apply on_lower_keeps; auto.
Qed.

Lemma init_counted E s : init_st E = Some s -> counted E s.
Proof.
  unfold init_st. destruct (mapM _ _) as [l|] eqn:Em; [|done]. intros [= <-] i Hi. simpl.
  apply mapM_Some_1 in Em. destruct (Forall2_lookup_l _ _ _ _ _ Em Hi) as (p & Hp & Hip).
  exists p. split; [done|]. unfold init_pst in Hip. simpl in Hip. by injection Hip as <-.
Qed.

Lemma reached_counted E s : reached E s -> counted E s.
Proof.
  induction 1 as [s H|s f session dest c m x' s' _ IH H|s f c l x' s' _ IH H|s f c m x' s' _ IH H|s f i tag c x' s' _ IH H].
  - by apply init_counted.
  - by eapply (exec_keeps E f Down _ _ s).
  - by eapply (exec_keeps E f Up _ _ s).
  - by eapply (exec_keeps E f Up _ _ s).
  - unfold self_message in H. destruct (new_ubuf E); [|done]. destruct (v_writebyte _ _); [|done].
    by eapply (exec_keeps E f Down _ _ s).
Qed.
