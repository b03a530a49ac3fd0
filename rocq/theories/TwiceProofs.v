(** * Proofs about processors appended more than once *)
From Coq Require Import ZArith Lia.
From Verif Require Import GoBase UBufModel UBufSpec UBufProofs UBufFacts FrameModel FrameSpec FrameProofs
  StackModel StackSpec StackProofs StackPath StackFacts TwiceModel TwiceSpec.
From stdpp Require Import sets list.

(** ** The links *)
Lemma pairs_cons i j l lk : link_pairs (i :: j :: l) lk =
  link_pairs (j :: l) (set_upper (set_lower lk (PProc i) (PProc j)) (PProc j) (PProc i)).
Proof. done. Qed.
Lemma pairs_lower p i j q lk : i ∉ j :: q -> l_lower (link_pairs (p ++ i :: j :: q) lk) (PProc i) = Some (PProc j).
Proof.
  intros Hi. revert lk. induction p as [|a p IH]; intros lk.
  - simpl app. rewrite pairs_cons. destruct (link_pairs_other (j :: q)
      (set_upper (set_lower lk (PProc i) (PProc j)) (PProc j) (PProc i)) (PProc i)) as [-> _].
    { by intros k [= ->]. }
    rewrite set_upper_lower. apply lower_same.
  - destruct p as [|b p]; simpl app; rewrite pairs_cons; apply IH.
Qed.
Lemma pairs_upper_head i q lk : i ∉ q -> l_upper (link_pairs (i :: q) lk) (PProc i) = l_upper lk (PProc i).
Proof.
  intros Hi. destruct q as [|j q]; [done|]. rewrite pairs_cons. destruct (link_pairs_other (j :: q)
      (set_upper (set_lower lk (PProc i) (PProc j)) (PProc j) (PProc i)) (PProc i)) as [_ ->].
  { by intros k [= ->]. }
  rewrite upper_ne; [done|]. intros [= ->]. set_solver.
Qed.
Lemma pairs_upper p h i q lk : i ∉ q -> l_upper (link_pairs (p ++ h :: i :: q) lk) (PProc i) = Some (PProc h).
Proof.
  intros Hi. revert lk. induction p as [|a p IH]; intros lk.
  - simpl app. rewrite pairs_cons, pairs_upper_head by done. apply upper_same.
  - destruct p as [|b p]; simpl app; rewrite pairs_cons; apply IH.
Qed.
Lemma build_last (ids : list nat) i : ids <> [] -> exists l n, ids = l ++ [n] /\ List.last ids i = n.
Proof.
  intros H. destruct (exists_last H) as (l & n & ->). exists l, n. split; [done|]. apply list_last_snoc.
Qed.

Lemma build_cons h ids lk : build_links (h :: ids) lk =
  set_upper (set_lower (link_pairs (h :: ids) (set_upper (set_lower lk PUpper (PProc h)) (PProc h) PUpper))
    (PProc (List.last (h :: ids) h)) PLower) PLower (PProc (List.last (h :: ids) h)).
Proof. done. Qed.
Lemma build_lower p i q lk : i ∉ q -> l_lower (build_links (p ++ i :: q) lk) (PProc i) = Some (next_below q).
Proof.
  intros Hi. destruct (p ++ i :: q) as [|h t] eqn:E; [by destruct p|]. rewrite build_cons, set_upper_lower.
  destruct (decide (q = [])) as [->|Hq].
  - assert (List.last (h :: t) h = i) as ->. { rewrite <- E. apply list_last_snoc. } apply lower_same.
  - rewrite lower_ne.
    + rewrite <- E. destruct q as [|j q]; [done|]. by apply pairs_lower.
    + intros Hl. apply Hi. assert (i = List.last (h :: t) h) as Hl' by congruence. rewrite Hl', <- E. destruct (exists_last Hq) as (q0 & n & ->).
      change (p ++ i :: q0 ++ [n]) with (p ++ (i :: q0) ++ [n]). rewrite app_assoc, list_last_snoc. set_solver.
Qed.
Lemma build_upper p i q lk : i ∉ q -> l_upper (build_links (p ++ i :: q) lk) (PProc i) = Some (next_above p).
Proof.
  intros Hi. destruct (p ++ i :: q) as [|h t] eqn:E; [by destruct p|]. rewrite build_cons.
  rewrite upper_ne, set_lower_upper by done. rewrite <- E. unfold next_above.
  destruct (decide (p = [])) as [->|Hp].
  - simpl in E. injection E as <- <-. simpl app. rewrite pairs_upper_head by done. apply upper_same.
  - destruct (exists_last Hp) as (p0 & g & ->). rewrite last_snoc, <- app_assoc. by apply pairs_upper.
Qed.
Lemma build_top ids lk : l_lower (build_links ids lk) PUpper = Some (next_below ids).
Proof.
  destruct ids as [|h t]; [apply lower_same|]. rewrite build_cons, set_upper_lower, lower_ne by done.
  destruct (link_pairs_other (h :: t) (set_upper (set_lower lk PUpper (PProc h)) (PProc h) PUpper) PUpper) as [-> _]; [done|].
  rewrite set_upper_lower. apply lower_same.
Qed.
Lemma build_bottom ids lk : l_upper (build_links ids lk) PLower = Some (next_above ids).
Proof.
  destruct ids as [|h t]; [apply upper_same|]. rewrite build_cons, upper_same. unfold next_above.
  destruct (build_last (h :: t) h) as (l & n & E & ->); [done|]. by rewrite E, last_snoc.
Qed.

Lemma last_place (x : nat) l : x ∈ l -> exists p q, l = p ++ x :: q /\ x ∉ q.
Proof.
  induction l as [|a l IH]; [intros H; by apply elem_of_nil in H|]. intros H. destruct (decide (x ∈ l)) as [Hl|Hl].
  - destruct (IH Hl) as (p & q & -> & Hq). by exists (a :: p), q.
  - assert (x = a) as -> by set_solver. by exists [], l.
Qed.
Lemma last_elem (l : list nat) x : last l = Some x -> x ∈ l.
Proof. intros H. apply last_Some in H as (l' & ->). set_solver. Qed.
Lemma not_nodup (l : list nat) : ~ NoDup l -> exists a i r, l = a ++ i :: r /\ i ∈ r.
Proof.
  induction l as [|x l IH]; intros H; [exfalso; apply H; constructor|]. destruct (decide (x ∈ l)) as [Hx|Hx].
  - by exists [], x, l.
  - destruct IH as (a & i & r & -> & Hi). { intros Hn. apply H. by constructor. } by exists (x :: a), i, r.
Qed.

(** ** Nothing comes out of the circle *)
Section circle.
  Context (E : env) (lk : links) (a : list nat) (i : nat) (r : list nat).
  Context (HE : e_links E = build_links (a ++ i :: r) lk) (Hi : i ∈ r).

  Definition within (p : pid) : Prop := p = PLower \/ exists x, p = PProc x /\ x ∈ r.

  Lemma above_within q : exists x, next_above (a ++ i :: q) = PProc x /\ x ∈ i :: q.
  Proof.
    unfold next_above. rewrite last_app_cons. destruct (last (i :: q)) as [x|] eqn:El.
    - exists x. split; [done|]. by apply last_elem.
    - by apply last_None in El.
  Qed.
  Lemma up_within x : x ∈ r -> exists y, l_upper (e_links E) (PProc x) = Some (PProc y) /\ y ∈ r.
  Proof.
    intros Hx. destruct (last_place x r Hx) as (p & q & Er & Hq). rewrite HE, Er.
    replace (a ++ i :: p ++ x :: q) with ((a ++ i :: p) ++ x :: q) by (by rewrite <- app_assoc).
    rewrite build_upper by done. destruct (above_within p) as (y & -> & Hy). exists y. split; [done|].
    apply elem_of_cons in Hy as [->|Hy]; [by rewrite <- Er|]. set_solver.
  Qed.
  Lemma down_within x : x ∈ r -> exists q, l_lower (e_links E) (PProc x) = Some q /\ within q.
  Proof.
    intros Hx. destruct (last_place x r Hx) as (p & q & Er & Hq). rewrite HE, Er.
    replace (a ++ i :: p ++ x :: q) with ((a ++ i :: p) ++ x :: q) by (by rewrite <- app_assoc).
    rewrite build_lower by done. eexists. split; [done|]. destruct q as [|j q]; [by left|]. right. exists j. split; [done|].
    rewrite Er. set_solver.
  Qed.
  Lemma bottom_within : exists y, l_upper (e_links E) PLower = Some (PProc y) /\ y ∈ r.
  Proof.
    rewrite HE, build_bottom. destruct (above_within r) as (y & -> & Hy). exists y. split; [done|].
    apply elem_of_cons in Hy as [->|Hy]; done.
  Qed.
End circle.

Lemma hands_refl x s : hands_nothing (Done x s) s.
Proof. exists []. by rewrite app_nil_r. Qed.
Lemma hands_crash s : hands_nothing (Crash s) s.
Proof. exists []. by rewrite app_nil_r. Qed.
Lemma hands_trans o x1 s1 s : hands_nothing (Done x1 s1) s -> hands_nothing o s1 -> hands_nothing o s.
Proof.
  intros (o1 & H1 & F1) (o2 & H2 & F2). exists (o1 ++ o2). simpl in H1. rewrite H2, H1, app_assoc. split; [done|].
  by apply stdpp.list.Forall_app.
Qed.
Lemma hands_from o s s' : s_out s = s_out s' -> hands_nothing o s -> hands_nothing o s'.
Proof. intros H (outs & Ho & F). exists outs. by rewrite <- H. Qed.
Definition silent (g : callfn) : Prop := forall x s o, g x s = Some o -> hands_nothing o s.

Lemma out_set_cache s i c : s_out (set_cache s i c) = s_out s.
Proof. unfold set_cache. by destruct (s_ps s !! i). Qed.
Lemma out_inc_rx s i : s_out (inc_rx s i) = s_out s.
Proof. unfold inc_rx. by destruct (s_ps s !! i). Qed.
Lemma out_inc_tx s i : s_out (inc_tx s i) = s_out s.
Proof. unfold inc_tx. by destruct (s_ps s !! i). Qed.
Lemma hands_same o s : s_out (end_state o) = s_out s -> hands_nothing o s.
Proof. intros H. exists []. by rewrite app_nil_r. Qed.
Ltac fin := solve [intros [= <-]; apply hands_same; simpl; rewrite ?out_set_cache, ?out_inc_rx, ?out_inc_tx; done].

Lemma frame_cur_silent n i up x s u o : silent up -> frame_cur n i up x s u = Some o -> hands_nothing o s.
Proof.
  intros Hu. revert x s u. induction n as [|n IH]; intros x s u; [done|]. cbn [frame_cur].
  destruct (cache_of s i) as [b|]; [|fin]. destruct (fd_cur_step b u) as [[[] c'] u']; try fin.
  - intros H. apply Hu in H. revert H. apply hands_from. apply out_set_cache.
  - destruct (up _ _) as [[x1 s1|s1]|] eqn:Eu; [| |done]; apply Hu in Eu; apply (hands_from _ _ s) in Eu; try apply out_set_cache.
    + intros H. apply IH in H. by eapply hands_trans.
    + by intros [= <-].
Qed.
Lemma frame_cached_silent n i up x s o : silent up -> frame_cached n i up x s = Some o -> hands_nothing o s.
Proof.
  intros Hu. revert x s. induction n as [|n IH]; intros x s; [done|]. cbn [frame_cached].
  destruct (cache_of s i) as [b|]; [|fin]. destruct (fd_cached_step b) as [[] c']; try fin.
  destruct (up _ _) as [[x1 s1|s1]|] eqn:Eu; [| |done]; apply Hu in Eu; apply (hands_from _ _ s) in Eu; try apply out_set_cache.
  - intros H. apply IH in H. by eapply hands_trans.
  - by intros [= <-].
Qed.
Lemma frame_recv_silent i up x s u o : silent up -> frame_recv i up x s u = Some o -> hands_nothing o s.
Proof.
  intros Hu. unfold frame_recv. destruct (cache_of s i) as [b|]; [|fin]. destruct (0 <? v_rlen b).
  - destruct (ub_readfrom None b u) as [q [c' u']|[c' u']]; [|fin]. intros H. apply frame_cached_silent in H; [|done].
    revert H. apply hands_from. apply out_set_cache.
  - destruct (frame_cur _ i up x s u) as [[x1 s1|s1]|] eqn:Ec; [| |done]; apply frame_cur_silent in Ec; try done.
    + intros H. apply frame_cached_silent in H; [|done]. by eapply hands_trans.
    + by intros [= <-].
Qed.

Ltac call H := solve [apply H
  | let X := fresh in intros X; apply H in X; revert X; apply hands_from; rewrite ?out_inc_rx, ?out_inc_tx; done].
Lemma on_lower_silent E i en d u k : silent u -> silent d -> silent (on_lower E i en d u k).
Proof.
  intros Hu Hd x s o. cbn zeta.
  assert (Hread : forall g, (forall l b, g l b = Some o -> hands_nothing o s) -> codec_read x s g = Some o -> hands_nothing o s).
  { intros g Hg. unfold codec_read. destruct (cx_buf x) as [b|]; [|fin].
    destruct (v_read (v_rlen b) b) as [[[|y l] [e|]] b'|]; try fin. by apply Hg. }
  destruct k as [| | |mar unm|enc dec|enc [dec|]| | |fns|fns| |cap| | | | |]; cbn [on_lower].
  - fin.
  - destruct en; [|call Hu]. apply Hread. intros l b. call Hu.
  - destruct en; [|call Hu]. apply Hread. intros l b. call Hu.
  - destruct en; [|call Hu]. apply Hread. intros l b. destruct (unm l); [call Hu|fin].
  - destruct en; [|call Hu]. unfold with_buf. destruct (cx_buf x) as [b|]; [|fin].
    destruct (dec b) as [[m|] b'|]; try fin. call Hu.
  - destruct en; [|call Hu]. unfold with_buf. destruct (cx_buf x) as [b|]; [|fin].
    destruct (dec b) as [[m []] b'|]; try fin. call Hu.
  - destruct en; [fin|call Hu].
  - destruct en; [fin|call Hu].
  - destruct en; [call Hd|call Hu].
  - destruct en; [|call Hu]. destruct (any_fn fns x true) as [[]|]; try fin. call Hu.
  - destruct en; [|call Hu]. destruct (any_fn fns x true) as [[]|]; try fin. call Hu.
  - call Hu.
  - unfold by_reference. destruct (cx_conn x); [|fin]. destruct (e_isref E _); [call Hu|].
    unfold with_buf. destruct (cx_buf x); [|fin]. destruct en; [|call Hu]. by apply frame_recv_silent.
  - unfold by_reference. destruct (cx_conn x); [|fin]. destruct (e_isref E _); [call Hu|].
    unfold with_buf. destruct (cx_buf x) as [b|]; [|fin].
    destruct (v_readbyte b) as [[t [e|]] b'|]; try fin.
    destruct (t =? 131)%Z; [|call Hu]. intros [= <-]. eexists [_]. split; [done|]. by repeat constructor.
  - unfold by_reference. destruct (cx_conn x); [|fin]. destruct (e_isref E _); [call Hu|].
    unfold with_buf. destruct (cx_buf x) as [b|]; [|fin].
    destruct (v_readbyte b) as [[t [e|]] b'|]; try fin. destruct (en && negb (t =? 0)%Z); [fin|call Hu].
  - fin.
  - destruct en; [|call Hu]. unfold with_buf. destruct (cx_buf x); [|fin].
    destruct (v_readU _ _ _) as [[v0 []] b'|]; try fin. call Hu.
  - unfold by_reference. destruct (cx_conn x); [|fin]. destruct (e_isref E _); [call Hu|].
    unfold with_buf. destruct (cx_buf x) as [b|]; [|fin].
    destruct (v_readbyte b) as [[t [e|]] b'|]; try fin. destruct en; [|call Hu]. destruct (t =? 16)%Z.
    { destruct (s_ps s !! i); [|fin]. destruct (stat_response _ _ _); [|fin]. call Hd. }
    destruct (t =? 35)%Z; [|call Hu]. destruct (stat_show b') as [[[nm tx] rx] b2|]; [|fin].
    intros [= <-]. eexists [_]. split; [done|]. by repeat constructor.
Qed.
Lemma head_ignore_silent q x s s0 d o : silent d -> s_out s0 = s_out s -> head_ignore q x s0 d = Some o -> hands_nothing o s.
Proof.
  intros Hd H. destruct q; simpl.
  - intros X. apply Hd in X. revert X. by apply hands_from.
  - intros [= <-]. by apply hands_same.
Qed.
Lemma codec_write_silent E l d x s o : silent d -> codec_write E l d x s = Some o -> hands_nothing o s.
Proof.
  intros Hd. unfold codec_write. destruct (new_ubuf E); [|fin]. destruct (v_write l v) as [[[|n] [e|]] b'|]; try fin. call Hd.
Qed.
Lemma on_upper_silent E i en d u w k : silent d -> silent u -> silent w -> silent (on_upper E i en d u w k).
Proof.
  intros Hd Hu Hw x s o. cbn zeta.
  destruct k as [| | |mar unm|enc dec|[enc|] dec| | |fns|fns| |cap| | | | |]; cbn [on_upper].
  - fin.
  - destruct en; [|call Hd]. destruct (cx_msg x) as [[]|]; try fin. by apply codec_write_silent.
  - destruct en; [|call Hd]. destruct (cx_msg x) as [[]|]; try fin. by apply codec_write_silent.
  - destruct en; [|call Hd]. destruct (cx_msg x) as [m|]; [|fin]. destruct (mar m); [|fin]. by apply codec_write_silent.
  - destruct en; [|call Hd]. destruct (cx_msg x) as [m|]; [|fin]. destruct (new_ubuf E); [|fin].
    destruct (enc m v) as [[]|]; try fin. call Hd.
  - destruct en; [|call Hd]. destruct (cx_msg x) as [m|]; [|fin]. destruct (new_ubuf E); [|fin].
    destruct (enc m v) as [[]|]; try fin. call Hd.
  - destruct en; [fin|call Hd].
  - call Hd.
  - call Hd.
  - destruct en; [|call Hd]. destruct (any_fn fns x false) as [[]|]; try fin. call Hd.
  - destruct en; [|call Hd]. destruct (any_fn fns x false) as [[]|]; try fin. call Hd.
  - call Hd.
  - unfold by_reference. destruct (cx_conn x); [|fin]. destruct (e_isref E c); [call Hw|].
    destruct en; [|call Hd]. unfold with_buf. destruct (cx_buf x); [|fin]. by apply head_ignore_silent.
  - unfold by_reference. destruct (cx_conn x); [|fin]. destruct (e_isref E c); [call Hd|].
    unfold with_buf. destruct (cx_buf x); [|fin]. by apply head_ignore_silent.
  - unfold by_reference. destruct (cx_conn x); [|fin]. destruct (e_isref E c); [call Hd|].
    unfold with_buf. destruct (cx_buf x); [|fin]. by apply head_ignore_silent.
  - call Hu.
  - destruct en; [|call Hd]. unfold with_buf. destruct (cx_buf x); [|fin].
    destruct (v_headU _ _ _ _) as [[]|]; try fin. call Hd.
  - unfold by_reference. destruct (cx_conn x) as [c|]; [|fin]. destruct (e_isref E c); [call Hd|].
    unfold with_buf. destruct (cx_buf x) as [b|]; [|fin]. apply head_ignore_silent; [done|].
    destruct en; [apply out_inc_tx|done].
Qed.

Lemma lower_send_silent E x s : hands_nothing (lower_send E x s) s.
Proof.
  unfold lower_send, close_conn. destruct (cx_conn x) as [c|]; [|apply hands_refl]. destruct (e_isref E c).
  - destruct (cx_msg x) as [m|]; [|by eexists; split; [done|repeat constructor]].
    destruct (e_setref E _ c m); eexists; (split; [done|repeat constructor]).
  - destruct (cx_buf x) as [b|]; [|apply hands_refl].
    destruct (v_writeto _ b) as [[[[l|] n] [e|]] b'|]; try (apply hands_same; done).
    + exists ([OWire c (take n l)] ++ [OClose c; OClosedEvent c]). split; [simpl; by rewrite <- app_assoc|]. by repeat constructor.
    + exists [OWire c (take n l)]. split; [done|]. by repeat constructor.
    + exists [OClose c; OClosedEvent c]. split; [done|]. by repeat constructor.
Qed.

Lemma circle_silent E lk a i r f d q : e_links E = build_links (a ++ i :: r) lk -> i ∈ r -> within r q ->
  silent (exec f E d (Some q)).
Proof.
  intros HE Hi. revert d q. induction f as [|f IH]; intros d q Hq x s o; [done|]. cbn [exec].
  destruct Hq as [->|(y & -> & Hy)].
  - destruct d; [|fin]. intros [= <-]. apply lower_send_silent.
  - destruct (e_procs E !! y) as [p|]; [|fin].
    destruct (up_within E lk a i r HE Hi y Hy) as (z & -> & Hz).
    destruct (down_within E lk a i r HE Hi y Hy) as (z' & -> & Hz').
    assert (within r (PProc z)) by (right; eauto).
    destruct d; intros H0.
    + apply on_upper_silent in H0; [|by apply IH..]. revert H0. by apply hands_from.
    + apply on_lower_silent in H0; [|by apply IH..]. revert H0. by apply hands_from.
Qed.

Lemma twice_deaf E lk ids f c l m s o : e_links E = build_links ids lk -> ~ NoDup ids ->
  receive f E c l s = Some o \/ receive_ref f E c m s = Some o -> hands_nothing o s.
Proof.
  intros HE Hn. destruct (not_nodup ids Hn) as (a & i & r & -> & Hi). unfold receive, receive_ref.
  destruct (bottom_within E lk a i r HE Hi) as (y & -> & Hy).
  intros [H|H]; revert H; apply (circle_silent E lk a i r); (done || right; eauto).
Qed.

(** ** Processors that pass everything up *)
Lemma passes_up E i en d u k x s : passes_message (Proc k en) = true -> on_lower E i en d u k x s = u x s.
Proof. unfold passes_message. by destruct k, en. Qed.
Lemma twice_endless E lk a i r c l m s : e_links E = build_links (a ++ i :: r) lk -> i ∈ r ->
  (forall x, x ∈ r -> exists p, e_procs E !! x = Some p /\ passes_message p = true) ->
  never_returns (fun f => receive f E c l s) /\ never_returns (fun f => receive_ref f E c m s).
Proof.
  intros HE Hi Hp. unfold receive, receive_ref.
  destruct (bottom_within E lk a i r HE Hi) as (y & -> & Hy).
  assert (Hx : forall f z x s, z ∈ r -> exec f E Up (Some (PProc z)) x s = None).
  { induction f as [|f IH]; intros z x s0 Hz; [done|]. cbn [exec]. destruct (Hp z Hz) as ([k en] & -> & Hk). cbn [p_enable p_kind].
    rewrite passes_up by done. destruct (up_within E lk a i r HE Hi z Hz) as (z' & -> & Hz'). by apply IH. }
  split; intros f; by apply Hx.
Qed.

(** ** Sending *)
Lemma next_cons (a : list nat) i c : next_below (a ++ i :: c) = next_below (a ++ [i]).
Proof. by destruct a. Qed.
Lemma suffix_below E lk ids c ps : e_links E = build_links ids lk -> (exists p, ids = p ++ c) -> NoDup c ->
  Forall2 (fun i p => e_procs E !! i = Some p) c ps -> StackProofs.below E (next_below c) c ps.
Proof.
  intros HE Hs. revert ps Hs. induction c as [|x c IH]; intros ps (p & Hs) Hn Hf; inversion Hf; subst; [constructor|].
  apply NoDup_cons in Hn as [Hx Hn]. simpl. econstructor; [done| |].
  - rewrite HE. by apply build_lower.
  - apply IH; [|done..]. exists (p ++ [x]). by rewrite <- app_assoc.
Qed.
Lemma twice_below E lk a i b c ps : e_links E = build_links (a ++ i :: b ++ i :: c) lk -> NoDup (a ++ i :: b ++ c) ->
  Forall2 (fun i p => e_procs E !! i = Some p) (a ++ i :: c) ps ->
  StackProofs.below E (next_below (a ++ i :: c)) (a ++ i :: c) ps.
Proof.
  intros HE Hn. assert (NoDup (i :: c)) as Hic.
  { apply NoDup_app in Hn as (_ & _ & Hn). apply NoDup_cons in Hn as [H1 H2]. apply NoDup_app in H2 as (_ & _ & H2).
    constructor; [|done]. set_solver. }
  assert (H : forall a2 ps, (exists a1, a = a1 ++ a2) -> Forall2 (fun i p => e_procs E !! i = Some p) (a2 ++ i :: c) ps ->
    StackProofs.below E (next_below (a2 ++ i :: c)) (a2 ++ i :: c) ps).
  2: { intros Hf. apply H; [by exists []|done]. }
  induction a2 as [|x a2 IH]; intros ps0 (a1 & Ha) Hf.
  - simpl. apply (suffix_below E lk _ (i :: c) ps0 HE); [|done..]. exists (a ++ i :: b). by rewrite <- app_assoc.
  - simpl in Hf |- *. inversion Hf; subst. econstructor; [done| |].
    2: { apply IH; [|done]. exists (a1 ++ [x]). by rewrite <- app_assoc. }
    rewrite HE. replace ((a1 ++ x :: a2) ++ i :: b ++ i :: c) with (a1 ++ x :: (a2 ++ i :: b ++ i :: c)) by (by rewrite <- app_assoc).
    rewrite build_lower. { rewrite (next_cons a2 i (b ++ i :: c)). by rewrite (next_cons a2 i c). }
    rewrite <- app_assoc in Hn. apply NoDup_app in Hn as (_ & _ & Hn). simpl in Hn. apply NoDup_cons in Hn as [Hx _]. set_solver.
Qed.

Lemma send_along E q ids pre k ps session dest c m l s :
  l_lower (e_links E) PUpper = Some q -> StackProofs.below E q ids (pre ++ Proc k true :: ps) ->
  (room (pre ++ Proc k true :: ps) <= e_overhead E)%Z ->
  Forall (fun p => passes_message p = true) pre -> Forall (fun p => sends_on p = true) ps ->
  encodes k m l -> l <> [] -> e_isref E c = false ->
  (Z.of_nat (length l) <= e_mtu E - e_overhead E)%Z -> (e_mtu E < 2^32)%Z ->
  exists s', finishes (fun f => send f E session dest (Some c) (Some m) s) s
      (offered E (s_out s) c (wire_of (dest_of session dest) ps l)) s' /\
    fst <$> s_visits s' = (fst <$> s_visits s) ++ ((fun i => (i, Down)) <$> ids).
Proof.
  intros Hq Hb Ho Hpre Hps He Hl Hr Hfit Hm.
  pose proof (room_nonneg (pre ++ Proc k true :: ps)) as Hn.
  set (x := Ctx (Some c) None (Some m) (Some (OInt (dest_of session dest)))).
  destruct (down_pre E q ids pre _ x s Hb Hpre) as (is1 & is2 & q1 & s1 & -> & L1 & B1 & X1 & O1 & P1 & V1).
  inversion B1 as [|i is' p' ps' q2 Hi Hlow B2]; subst.
  assert (0 < length l) by (by destruct l; simpl; [|lia]).
  destruct (encode_step E k m l He Hl) as (b & Wb & Rb & Hh & Hon); [lia..|].
  rewrite room_app in Ho. simpl in Ho. pose proof (hdrs_room ps). pose proof (room_nonneg pre). pose proof (overhead_nonneg k).
  assert (Hroom : hdrs ps <= v_hlen b) by (rewrite Hh; lia).
  destruct (down_exec E q2 is' ps (set_buf x (Some b)) (visit s1 i Down x) c b (dest_of session dest) (S (length ps)))
    as (x' & s' & Ex & Os & Cs & _ & Vs & _); try done; try lia.
  { rewrite wire_of_hdrs, Rb. lia. }
  exists s'. split.
  - unfold send. rewrite Hq. apply (finishes_exec _ _ _ _ _ x' s' _ (length pre + S (S (length ps)))).
    + fold (dest_of session dest). fold x. rewrite X1. cbn [exec]. rewrite Hi, Hlow, Hon by done. done.
    + rewrite Os. simpl. by rewrite O1, Rb.
  - rewrite Vs. simpl. rewrite fmap_app. rewrite V1. simpl. rewrite fmap_app. simpl.
    by rewrite <- !app_assoc.
Qed.

Lemma twice_send E lk a i b c pa p pb pc pre k ps session dest cn m l s :
  e_links E = build_links (a ++ i :: b ++ i :: c) lk -> NoDup (a ++ i :: b ++ c) ->
  e_overhead E = build_overhead (p_kind <$> pa ++ p :: pb ++ p :: pc) 0 ->
  Forall2 (fun i p => e_procs E !! i = Some p) (a ++ i :: b ++ i :: c) (pa ++ p :: pb ++ p :: pc) ->
  length pa = length a -> length pb = length b -> pa ++ p :: pc = pre ++ Proc k true :: ps ->
  Forall (fun p => passes_message p = true) pre -> Forall (fun p => sends_on p = true) ps ->
  encodes k m l -> l <> [] -> e_isref E cn = false ->
  (Z.of_nat (length l) <= e_mtu E - e_overhead E)%Z -> (e_mtu E < 2^32)%Z ->
  exists s', finishes (fun f => send f E session dest (Some cn) (Some m) s) s
      (offered E (s_out s) cn (wire_of (dest_of session dest) ps l)) s' /\
    fst <$> s_visits s' = (fst <$> s_visits s) ++ ((fun i => (i, Down)) <$> a ++ i :: c).
Proof.
  intros HE Hn Ho Hf La Lb Hsp. intros.
  assert (Hf' : Forall2 (fun i p => e_procs E !! i = Some p) (a ++ i :: c) (pa ++ p :: pc)).
  { apply Forall2_app_inv in Hf as [F1 F2]; [|done]. inversion F2 as [|? ? ? ? P1 F3]; subst.
    apply Forall2_app_inv in F3 as [F3 F4]; [|done]. inversion F4; subst. apply Forall2_app; [done|]. by constructor. }
  apply (send_along E (next_below (a ++ i :: c)) (a ++ i :: c) pre k ps); try done.
  - rewrite HE, build_top. by rewrite (next_cons a i (b ++ i :: c)), (next_cons a i c).
  - rewrite <- Hsp. by apply (twice_below E lk a i b c).
  - rewrite Ho, overhead_room, <- Hsp. rewrite !room_app. simpl. rewrite !room_app. simpl.
    pose proof (room_nonneg pb). pose proof (overhead_nonneg (p_kind p)). pose proof (header_overhead (p_kind p)). lia.
Qed.
