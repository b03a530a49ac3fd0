(** * Proofs about clients that ask a server *)
From Verif Require Import GoBase UBufModel UBufSpec UBufProofs FrameModel FrameSpec FrameProofs StackModel StackSpec StackProofs StackPath StackFacts NetModel NetSpec NetProofs RpcModel RpcSpec.
From stdpp Require Import sets list.

Lemma rrun_app R ok s ls s1 ms s2 : rrun R ok s ls s1 -> rrun R ok s1 ms s2 -> rrun R ok s (ls ++ ms) s2.
Proof.
  intros H1 H2. induction H2 as [|ms s3 l s4 _ IH Hok Hst]; [by rewrite app_nil_r|]. rewrite app_assoc. by econstructor.
Qed.
Lemma rrun_one R (ok : rst -> rlab -> Prop) s l s' : ok s l -> rstep R s l s' -> rrun R ok s [l] s'.
Proof. intros. apply (rr_snoc _ _ _ [] s); [constructor|done|done]. Qed.
Lemma rrun_cons R (ok : rst -> rlab -> Prop) s l s1 ls s2 : ok s l -> rstep R s l s1 -> rrun R ok s1 ls s2 -> rrun R ok s (l :: ls) s2.
Proof. intros H1 H2 H3. apply (rrun_app _ _ _ [l] s1); [by apply rrun_one|done]. Qed.

(** Where the request or the answer of a client is. *)
Inductive place := PIdle | PTx | PHand | POut | PUp | PSrx | PReply | PStx | PShand | PIn | PDn | PRx | PRefused.
#[global] Instance place_eq : EqDecision place.
Proof. solve_decision. Defined.
Definition before (P : place) : bool := match P with PTx | PHand | POut | PUp | PSrx => true | _ => false end.
Definition after (P : place) : bool := match P with PReply | PStx | PShand | PIn | PDn | PRx => true | _ => false end.
Definition rank (P : place) : nat :=
  match P with
  | PIdle | PRefused => 0 | PTx => 11 | PHand => 10 | POut => 9 | PUp => 8 | PSrx => 7 | PReply => 6 | PStx => 5
  | PShand => 4 | PIn => 3 | PDn => 2 | PRx => 1
  end.

Lemma send_keeps N k ps p a : matching N k ps -> good N k ps p -> caches_idle (na N) a ->
  exists a', finishes (fun f => send f (na N) (nsess N (po_from p)) (ml_dest (po_mail p)) (Some (nca N)) (Some (ml_msg (po_mail p))) a) a
    [OWire (nca N) (wirep N ps p)] a' /\ caches_idle (na N) a'.
Proof.
  intros M Hp Hid. pose proof (good_nonempty N k ps p Hp) as Hne. destruct Hp as (He & _ & Hl & Hfit & _).
  destruct M as (idsA & idsB & preA & preB & WA & WB & PA & PB & Hc & RA & Ac & MA & RB & MB).
  destruct (send_fits (na N) idsA preA k ps (nsess N (po_from p)) (ml_dest (po_mail p)) (nca N) (ml_msg (po_mail p)) (po_bytes p) a)
    as (a' & H & Hca & _); try done; [by apply carries_sends|].
  exists a'. rewrite offered_accepts in H by done. split; [done|].
  intros i cap en Hi. destruct (Hid i cap en Hi) as (q & c & ? & ? & ?). exists q, c. by rewrite Hca.
Qed.
Lemma receive_one N k ps p b : matching N k ps -> good N k ps p -> caches_idle (nb N) b ->
  exists b', finishes (fun f => receive f (nb N) (ncb N) (wirep N ps p) b) b
    [ODeliver (zed N p) (Some (ncb N)) (ml_msg (po_mail p))] b' /\ caches_idle (nb N) b'.
Proof.
  intros M Hp Hid. destruct (receive_posts N k ps M [p] b) as (b' & H1 & H2); [by constructor|done|done| |].
  - simpl. rewrite app_nil_r. apply wire_length_room; apply Hp.
  - exists b'. split; [|done]. simpl in H1. by rewrite app_nil_r in H1.
Qed.

Lemma asked_app i l1 l2 : asked i (l1 ++ l2) = asked i l1 ++ asked i l2.
Proof. apply omap_app. Qed.
Lemma calls_app c l1 l2 : calls_of c (l1 ++ l2) = calls_of c l1 ++ calls_of c l2.
Proof. apply omap_app. Qed.
Lemma answered_app R b l1 l2 : answered R b (l1 ++ l2) = answered R b l1 ++ answered R (b ++ l1) l2.
Proof.
  revert b. induction l1 as [|p l1 IH]; intros b; simpl; [by rewrite app_nil_r|]. rewrite IH, <- app_assoc. done.
Qed.
Lemma answers_snoc R c log d m : answers_to R c (log ++ [(d, m)]) =
  answers_to R c log ++ (if decide (d = Some c) then [ml_msg <$> rans R log (d, m)] else []).
Proof.
  unfold answers_to. rewrite answered_app, omap_app. f_equal. simpl. by case_decide.
Qed.

Section facts.
Context (R : rpc) (k : kind) (ps : list proc).
Definition cpost (i : nat) (q : post) : epd mail := (Some (rcc R i), po_mail q).
Definition shape (i : nat) (P : place) (q n : post) (a : st) (g : list msg) : cl :=
  Cl (Some (rcc R i)) (match P with PIdle => false | _ => true end)
    (match P with PTx => [(Some (rcc R i), po_mail q)] | _ => [] end)
    (match P with PHand => Some (Some (rcc R i), po_mail q) | _ => None end) a
    (match P with POut => wirep (up R i) ps q | _ => [] end)
    (match P with PUp => [(Some (rsc R i), ml_msg (po_mail q))] | _ => [] end)
    (match P with PIn => wirep (down R i) ps n | _ => [] end)
    (match P with PDn => [(Some (rcc R i), ml_msg (po_mail n))] | _ => [] end)
    (match P with PRx => [(Some (rcc R i), ml_msg (po_mail n))] | _ => [] end) g.
Definition good_rq (i : nat) (p : post) : Prop := good (up R i) k ps p /\ zed (up R i) p = rss R.
Definition good_an (i : nat) (p : post) : Prop := good (down R i) k ps p /\ zed (down R i) p = rcs R i.
Definition pending_rq (P : place) (q : post) : list msg := if before P then [ml_msg (po_mail q)] else [].
Definition pending_an (P : place) (n : post) : list (option msg) :=
  if after P then [Some (ml_msg (po_mail n))] else match P with PRefused => [None] | _ => [] end.

Record rinv (ls : list rlab) (s : rst) (at_ : nat -> place) (rq an : nat -> post) (oq os : list nat) (rp hd : option nat) : Prop := Rinv {
  iv_shape : forall i, r_cl s i = shape i (at_ i) (rq i) (an i) (c_st (r_cl s i)) (c_got (r_cl s i));
  iv_few : forall i, at_ i <> PIdle -> i < rn R;
  iv_rq : forall i, before (at_ i) = true -> good_rq i (rq i);
  iv_an : forall i, after (at_ i) = true -> good_an i (an i);
  iv_cidle : forall i, i < rn R -> caches_idle (rc R i) (c_st (r_cl s i));
  iv_sidle : caches_idle (rs R) (v_st (r_sv s));
  iv_rx : v_rx (r_sv s) = (fun i => (Some (rsc R i), ml_msg (po_mail (rq i)))) <$> oq;
  iv_oq : NoDup oq /\ forall i, i ∈ oq <-> at_ i = PSrx;
  iv_reply : v_reply (r_sv s) = (fun i => (Some (rsc R i), po_mail (an i))) <$> rp;
  iv_rp : forall i, rp = Some i <-> at_ i = PReply;
  iv_tx : v_tx (r_sv s) = (fun i => (Some (rsc R i), po_mail (an i))) <$> os;
  iv_os : NoDup os /\ forall i, i ∈ os <-> at_ i = PStx;
  iv_hand : v_hand (r_sv s) = (fun i => (Some (rsc R i), po_mail (an i))) <$> hd;
  iv_hd : forall i, hd = Some i <-> at_ i = PShand;
  iv_calls : forall i, i < rn R -> ml_msg <$> asked i ls = calls_of (rsc R i) (v_log (r_sv s)) ++ pending_rq (at_ i) (rq i);
  iv_answers : forall i, i < rn R -> answers_to R (rsc R i) (v_log (r_sv s)) = (Some <$> c_got (r_cl s i)) ++ pending_an (at_ i) (an i);
  iv_log : Forall (fun p : epd msg => exists i, i < rn R /\ fst p = Some (rsc R i)) (v_log (r_sv s)) }.

Hypothesis (F : fitting R k ps).
Hypothesis (AF : answers_fit R k ps).

(** A step of client [i] alone that moves its request or answer from one place
    to another, none of them at the server. *)
Definition local (P : place) : Prop := P <> PSrx /\ P <> PReply /\ P <> PStx /\ P <> PShand.
Lemma queue_move (at_ : nat -> place) i P Q (o : list nat) : (NoDup o /\ forall j, j ∈ o <-> at_ j = Q) -> at_ i <> Q -> P <> Q ->
  NoDup o /\ forall j, j ∈ o <-> <[i := P]> at_ j = Q.
Proof.
  intros [N H] H1 H2. split; [done|]. intros j. rewrite H. destruct (decide (j = i)) as [->|Hj].
  - rewrite fn_lookup_insert. done.
  - by rewrite fn_lookup_insert_ne.
Qed.
Lemma slot_move (at_ : nat -> place) i P Q (o : option nat) : (forall j, o = Some j <-> at_ j = Q) -> at_ i <> Q -> P <> Q ->
  forall j, o = Some j <-> <[i := P]> at_ j = Q.
Proof.
  intros H H1 H2 j. rewrite H. destruct (decide (j = i)) as [->|Hj].
  - rewrite fn_lookup_insert. done.
  - by rewrite fn_lookup_insert_ne.
Qed.

(** The client's part of the invariant after a step of client [i]. *)
Lemma rinv_local ls x v at_ rq an oq os rp hd l i P c a g b : rinv ls (Rst x v) at_ rq an oq os rp hd ->
  i < rn R -> c = shape i P (rq i) (an i) a g -> caches_idle (rc R i) a -> caches_idle (rs R) b ->
  local (at_ i) -> local P ->
  (forall j, asked j (ls ++ [l]) = asked j ls) ->
  before P = before (at_ i) -> (after P = true -> good_an i (an i)) ->
  (Some <$> g) ++ pending_an P (an i) = (Some <$> c_got (x i)) ++ pending_an (at_ i) (an i) ->
  rinv (ls ++ [l]) (Rst (<[i := c]> x) (Srv b (v_rx v) (v_reply v) (v_tx v) (v_hand v) (v_log v)))
    (<[i := P]> at_) rq an oq os rp hd.
Proof.
  intros [I1 I2 I3 I4 I5 I6 I7 I8 I9 I10 I11 I12 I13 I14 I15 I16 I17] Hi -> Ha Hb (L1 & L2 & L3 & L4) (M1 & M2 & M3 & M4) Hask Hbe Haf Hg.
  simpl in *. split; simpl; try done.
  - intros j. destruct (decide (j = i)) as [->|Hj]; [by rewrite !fn_lookup_insert|by rewrite !fn_lookup_insert_ne].
  - intros j. destruct (decide (j = i)) as [->|Hj]; [done|]. rewrite fn_lookup_insert_ne by done. apply I2.
  - intros j. destruct (decide (j = i)) as [->|Hj].
    + rewrite fn_lookup_insert, Hbe. apply I3.
    + rewrite fn_lookup_insert_ne by done. apply I3.
  - intros j. destruct (decide (j = i)) as [->|Hj].
    + rewrite fn_lookup_insert. done.
    + rewrite fn_lookup_insert_ne by done. apply I4.
  - intros j Hj'. destruct (decide (j = i)) as [->|Hj].
    + rewrite fn_lookup_insert. done.
    + rewrite fn_lookup_insert_ne by done. by apply I5.
  - by apply queue_move.
  - by apply slot_move.
  - by apply queue_move.
  - by apply slot_move.
  - intros j Hj'. rewrite Hask, I15 by done. f_equal.
    destruct (decide (j = i)) as [->|Hj].
    + rewrite fn_lookup_insert. unfold pending_rq. by rewrite Hbe.
    + by rewrite fn_lookup_insert_ne.
  - intros j Hj'. rewrite I16 by done. destruct (decide (j = i)) as [->|Hj].
    + rewrite !fn_lookup_insert. done.
    + by rewrite !fn_lookup_insert_ne.
Qed.

Lemma rinv_client ls x v at_ rq an oq os rp hd l i P c a g : rinv ls (Rst x v) at_ rq an oq os rp hd ->
  i < rn R -> c = shape i P (rq i) (an i) a g -> caches_idle (rc R i) a ->
  local (at_ i) -> local P -> (forall j, asked j (ls ++ [l]) = asked j ls) ->
  before P = before (at_ i) -> (after P = true -> good_an i (an i)) ->
  (Some <$> g) ++ pending_an P (an i) = (Some <$> c_got (x i)) ++ pending_an (at_ i) (an i) ->
  rinv (ls ++ [l]) (Rst (<[i := c]> x) v) (<[i := P]> at_) rq an oq os rp hd.
Proof.
  intros I Hi Hc Ha H1 H2 H3 H4 H5 H6. pose proof (rinv_local _ _ _ _ _ _ _ _ _ _ _ _ _ _ _ _ _ I Hi Hc Ha (iv_sidle _ _ _ _ _ _ _ _ _ I) H1 H2 H3 H4 H5 H6) as J.
  by destruct v.
Qed.
Lemma fmap_off {Y} (f : nat -> post) (g : nat -> post -> Y) (o : list nat) i p : i ∉ o ->
  (fun j => g j (<[i := p]> f j)) <$> o = (fun j => g j (f j)) <$> o.
Proof. intros H. apply list_fmap_ext. intros q j Hj. rewrite fn_lookup_insert_ne; [done|]. intros <-. apply H. by eapply elem_of_list_lookup_2. Qed.
Lemma fmap_off_opt {Y} (f : nat -> post) (g : nat -> post -> Y) (o : option nat) i p : o <> Some i ->
  (fun j => g j (<[i := p]> f j)) <$> o = (fun j => g j (f j)) <$> o.
Proof. intros H. destruct o as [j|]; [|done]. simpl. rewrite fn_lookup_insert_ne; [done|]. congruence. Qed.

Lemma rinv_step ls s at_ rq an oq os rp hd l s' : rinv ls s at_ rq an oq os rp hd -> all_there s l ->
  (forall i m, l = RWrite i m -> request R k ps i m) -> rstep R s l s' ->
  exists at' rq' an' oq' os' rp' hd', rinv (ls ++ [l]) s' at' rq' an' oq' os' rp' hd' /\
    (onward l -> exists i, i < rn R /\ rank (at' i) < rank (at_ i) /\ forall j, j <> i -> at' j = at_ j).
Proof.
  intros I Hok Hw Hst. pose proof I as [I1 I2 I3 I4 I5 I6 I7 I8 I9 I10 I11 I12 I13 I14 I15 I16 I17].
  assert (forall i, after (at_ i) = true -> i < rn R) as Fa by (intros i Hi; apply I2; by intros E; rewrite E in Hi).
  assert (forall i, before (at_ i) = true -> i < rn R) as Fb by (intros i Hi; apply I2; by intros E; rewrite E in Hi).
  destruct Hst as [x v i m c tx h a o u n d rx g Hi Hx Hc|x v i c w e tx a o u n d rx g Hx|x v i c w tx e m a o u n d rx g outs a' Hx Hf
    |x v i c w tx h a o n d rx g b srx rep tx' h' lg r outs b' Hx -> H0 Hr Hm Hf|x v i c w tx h a o e u n d rx g b srx rep tx' h' lg Hx -> Hc
    |x b c m srx tx' h' lg|x b srx e tx' h' lg Hc|x b srx rep e tx' lg|x b srx rep tx' c m lg outs b' Hf
    |x v i c w tx h a o u n rx g r outs a' Hx H0 Hr Hm Hf|x v i c w tx h a o u n e d rx g Hx Hc|x v i c tx h a o u n d e m rx g Hx];
    simpl in *.
  - pose proof (I1 i) as S. rewrite Hx in S. unfold shape in S. cbn [c_st c_got] in S. destruct (at_ i) eqn:Ei; try discriminate S; injection S; clear S; intros; subst; simpl in *.
    destruct (Hw i m eq_refl) as [(l & Hl) Hz].
    exists (<[i := PTx]> at_), (<[i := Post 0 m l]> rq), an, oq, os, rp, hd. split; [|done]. split; simpl; try done.
    + intros j. destruct (decide (j = i)) as [->|Hj]; [by rewrite !fn_lookup_insert|rewrite !fn_lookup_insert_ne by done; apply I1].
    + intros j. destruct (decide (j = i)) as [->|Hj]; [rewrite ?fn_lookup_insert; done|rewrite ?fn_lookup_insert_ne by done; apply I2].
    + intros j. destruct (decide (j = i)) as [->|Hj]; [by rewrite !fn_lookup_insert|rewrite !fn_lookup_insert_ne by done; apply I3].
    + intros j. destruct (decide (j = i)) as [->|Hj]; [rewrite ?fn_lookup_insert; done|rewrite ?fn_lookup_insert_ne by done; apply I4].
    + intros j. destruct (decide (j = i)) as [->|Hj]; [rewrite ?fn_lookup_insert; intros _; simpl; pose proof (I5 i Hi) as C; by rewrite Hx in C|rewrite ?fn_lookup_insert_ne by done; apply I5].
    + rewrite I7. symmetry. apply (fmap_off rq (fun j q => (Some (rsc R j), ml_msg (po_mail q)))). destruct I8 as [_ I8]. rewrite I8. congruence.
    + apply queue_move; [done|congruence|done].
    + apply slot_move; [done|congruence|done].
    + apply queue_move; [done|congruence|done].
    + apply slot_move; [done|congruence|done].
    + intros j Hj'. rewrite asked_app, fmap_app, I15 by done. rewrite <- app_assoc. f_equal. simpl.
      destruct (decide (j = i)) as [->|Hj].
      * rewrite !fn_lookup_insert, Ei, decide_True by done. done.
      * rewrite !fn_lookup_insert_ne, decide_False by done. by rewrite app_nil_r.
    + intros j Hj'. rewrite I16 by done. destruct (decide (j = i)) as [->|Hj].
      * rewrite !fn_lookup_insert, Ei, Hx. done.
      * by rewrite !fn_lookup_insert_ne.
  - pose proof (I1 i) as S. rewrite Hx in S. unfold shape in S. cbn [c_st c_got] in S. destruct (at_ i) eqn:Ei; try discriminate S; injection S; clear S; intros; subst; simpl in *.
    assert (i < rn R) as Hi by (apply Fb; by rewrite Ei). pose proof (I5 i Hi) as C. rewrite Hx in C.
    eexists (<[i := PHand]> at_), rq, an, oq, os, rp, hd. split.
    + eapply (rinv_client _ _ _ _ _ _ _ _ _ _ _ i PHand _ a g); try done; rewrite ?Ei, ?Hx; try done; try (intros ?; rewrite asked_app; by rewrite app_nil_r); by split_and!.
    + intros _. exists i. split; [done|]. rewrite fn_lookup_insert, Ei. split; [simpl; lia|]. intros. by rewrite fn_lookup_insert_ne.
  - pose proof (I1 i) as S. rewrite Hx in S. unfold shape in S. cbn [c_st c_got] in S. destruct (at_ i) eqn:Ei; try discriminate S; injection S; clear S; intros; subst; simpl in *.
    assert (i < rn R) as Hi by (apply Fb; by rewrite Ei). pose proof (I5 i Hi) as C. rewrite Hx in C. simpl in C.
    destruct (I3 i) as [G Z]; [by rewrite Ei|].
    destruct (proj1 F i Hi) as [Mu _].
    destruct (send_keeps (up R i) k ps (rq i) a Mu G C) as (a2 & Hf2 & C2).
    destruct (finishes_unique _ _ _ _ _ _ Hf Hf2) as [-> ->].
    eexists (<[i := POut]> at_), rq, an, oq, os, rp, hd. split.
    + eapply (rinv_client _ _ _ _ _ _ _ _ _ _ _ i POut _ a2 g); try done; rewrite ?Ei, ?Hx; try done; try (intros ?; rewrite asked_app; by rewrite app_nil_r); try by split_and!.
      unfold shape, written. simpl. rewrite decide_True by done. simpl. by rewrite app_nil_r.
    + intros _. exists i. split; [done|]. rewrite fn_lookup_insert, Ei. split; [simpl; lia|]. intros. by rewrite fn_lookup_insert_ne.
  - pose proof (I1 i) as S. rewrite Hx in S. unfold shape in S. cbn [c_st c_got] in S. rewrite Hx in Hok. simpl in Hok.
    destruct (at_ i) eqn:Ei; try discriminate S; injection S; clear S; intros; subst; simpl in *; try lia.
    assert (i < rn R) as Hi by (apply Fb; by rewrite Ei). pose proof (I5 i Hi) as C. rewrite Hx in C. simpl in C.
    destruct (I3 i) as [G Z]; [by rewrite Ei|].
    destruct (proj1 F i Hi) as [Mu _].
    destruct (receive_one (up R i) k ps (rq i) b Mu G I6) as (b2 & Hf2 & C2).
    rewrite take_ge in Hf by lia. rewrite drop_ge by lia.
    destruct (finishes_unique _ _ _ _ _ _ Hf Hf2) as [-> ->].
    eexists (<[i := PUp]> at_), rq, an, oq, os, rp, hd. split.
    + apply (rinv_local _ _ _ _ _ _ _ _ _ _ _ i PUp _ a g b2 I); try done; rewrite ?Ei, ?Hx; try done; try (intros ?; rewrite asked_app; by rewrite app_nil_r); try by split_and!.
      unfold shape, mine. simpl. rewrite decide_True by done. done.
    + intros _. exists i. split; [done|]. rewrite fn_lookup_insert, Ei. split; [simpl; lia|]. intros. by rewrite fn_lookup_insert_ne.
  - pose proof (I1 i) as S. rewrite Hx in S. unfold shape in S. cbn [c_st c_got] in S.
    destruct (at_ i) eqn:Ei; try discriminate S; injection S; clear S; intros; subst; simpl in *.
    assert (i < rn R) as Hi by (apply Fb; by rewrite Ei). pose proof (I5 i Hi) as C. rewrite Hx in C. simpl in C.
    eexists (<[i := PSrx]> at_), rq, an, (oq ++ [i]), os, rp, hd. split.
    + split; simpl; try done.
      * intros j. destruct (decide (j = i)) as [->|Hj]; [by rewrite !fn_lookup_insert|rewrite !fn_lookup_insert_ne by done; apply I1].
      * intros j. destruct (decide (j = i)) as [->|Hj]; [rewrite ?fn_lookup_insert; done|rewrite ?fn_lookup_insert_ne by done; apply I2].
      * intros j. destruct (decide (j = i)) as [->|Hj]; [rewrite ?fn_lookup_insert; intros _; apply I3; by rewrite Ei|rewrite ?fn_lookup_insert_ne by done; apply I3].
      * intros j. destruct (decide (j = i)) as [->|Hj]; [rewrite ?fn_lookup_insert; done|rewrite ?fn_lookup_insert_ne by done; apply I4].
      * intros j. destruct (decide (j = i)) as [->|Hj]; [rewrite ?fn_lookup_insert; done|rewrite ?fn_lookup_insert_ne by done; apply I5].
      * by rewrite fmap_app.
      * destruct I8 as [N I8]. split.
        -- apply NoDup_app. split; [done|]. split; [|apply NoDup_singleton]. intros j Hj Hj'. apply elem_of_list_singleton in Hj' as ->.
           apply I8 in Hj. congruence.
        -- intros j. rewrite elem_of_app, I8, elem_of_list_singleton. destruct (decide (j = i)) as [->|Hj].
           ++ rewrite fn_lookup_insert. naive_solver.
           ++ rewrite fn_lookup_insert_ne by done. naive_solver.
      * apply slot_move; [done|congruence|done].
      * apply queue_move; [done|congruence|done].
      * apply slot_move; [done|congruence|done].
      * intros j Hj'. rewrite asked_app, app_nil_r, I15 by done. f_equal. destruct (decide (j = i)) as [->|Hj].
        -- by rewrite fn_lookup_insert, Ei.
        -- by rewrite fn_lookup_insert_ne.
      * intros j Hj'. rewrite I16 by done. destruct (decide (j = i)) as [->|Hj].
        -- rewrite !fn_lookup_insert, Ei, Hx. done.
        -- by rewrite !fn_lookup_insert_ne.
    + intros _. exists i. split; [done|]. rewrite fn_lookup_insert, Ei. split; [simpl; lia|]. intros. by rewrite fn_lookup_insert_ne.
  - destruct oq as [|i oq]; [done|]. rewrite fmap_cons in I7. injection I7 as -> -> ->. simpl in *. destruct rp as [?|]; [done|]. destruct I8 as [N I8].
    assert (at_ i = PSrx) as Ei by (apply I8; by left). assert (i < rn R) as Hi by (apply Fb; by rewrite Ei).
    apply NoDup_cons in N as [Nq N].
    assert (forall j, j < rn R -> j <> i -> rsc R i <> rsc R j) as Hne.
    { intros j Hj' Hj E. apply Hj. symmetry. by apply (proj2 F). }
    set (y := rans R lg (Some (rsc R i), ml_msg (po_mail (rq i)))) in *.
    assert (exists p, forall z, y = Some z -> good_an i p /\ po_mail p = z) as (p & Hp).
    { destruct y as [z|] eqn:E; [|by exists (rq i)].
      destruct (AF lg i (ml_msg (po_mail (rq i))) z Hi E) as [(l & Hl) Hz]. exists (Post 0 z l). intros z' [= <-]. done. }
    set (P := match y with Some _ => PReply | None => PRefused end).
    exists (<[i := P]> at_), rq, (<[i := p]> an), oq, os, (match y with Some _ => Some i | None => None end), hd. split.
    + split; simpl; try done.
      * intros j. destruct (decide (j = i)) as [->|Hj]; [rewrite !fn_lookup_insert|rewrite !fn_lookup_insert_ne by done; apply I1].
        rewrite I1 at 1. rewrite Ei. unfold shape, P. by destruct y.
      * intros j. destruct (decide (j = i)) as [->|Hj]; [rewrite ?fn_lookup_insert; done|rewrite ?fn_lookup_insert_ne by done; apply I2].
      * intros j. destruct (decide (j = i)) as [->|Hj]; [rewrite ?fn_lookup_insert; unfold P; by destruct y|rewrite ?fn_lookup_insert_ne by done; apply I3].
      * intros j. destruct (decide (j = i)) as [->|Hj]; [rewrite !fn_lookup_insert|rewrite !fn_lookup_insert_ne by done; apply I4].
        unfold P. destruct y as [z|] eqn:E; [|done]. intros _. by apply (Hp z).
      * split; [done|]. intros j. destruct (decide (j = i)) as [->|Hj].
        -- rewrite fn_lookup_insert. unfold P. by destruct y.
        -- rewrite fn_lookup_insert_ne by done. rewrite <- I8, elem_of_cons. naive_solver.
      * destruct y as [z|] eqn:E; [|done]. simpl. rewrite fn_lookup_insert. destruct (Hp z eq_refl) as [_ ->]. done.
      * intros j. destruct (decide (j = i)) as [->|Hj].
        -- rewrite fn_lookup_insert. unfold P. by destruct y.
        -- rewrite fn_lookup_insert_ne by done. rewrite <- I10. destruct y; [|done]. split; congruence.
      * rewrite I11. symmetry. apply (fmap_off an (fun j q => (Some (rsc R j), po_mail q))). destruct I12 as [_ I12]. rewrite I12. congruence.
      * apply queue_move; [done|congruence|by unfold P; destruct y].
      * rewrite I13. symmetry. apply (fmap_off_opt an (fun j q => (Some (rsc R j), po_mail q))). rewrite I14. congruence.
      * apply slot_move; [done|congruence|by unfold P; destruct y].
      * intros j Hj'. rewrite asked_app, app_nil_r, I15, calls_app by done. rewrite <- app_assoc. f_equal. simpl.
        destruct (decide (j = i)) as [->|Hj].
        -- rewrite fn_lookup_insert, Ei, decide_True by done. unfold P, pending_rq. by destruct y.
        -- rewrite fn_lookup_insert_ne, decide_False; [done| |done]. intros [=]. by apply (Hne j).
      * intros j Hj'. rewrite answers_snoc, I16 by done. rewrite <- app_assoc. f_equal.
        destruct (decide (j = i)) as [->|Hj].
        -- rewrite !fn_lookup_insert, Ei, decide_True by done. fold y. unfold P, pending_an. destruct y as [z|] eqn:E; [|done].
           destruct (Hp z eq_refl) as [_ <-]. done.
        -- rewrite !fn_lookup_insert_ne, decide_False; [by rewrite app_nil_r| |done|done]. intros [=]. by apply (Hne j).
      * apply Forall_app. split; [done|]. constructor; [|done]. by exists i.
    + intros _. exists i. split; [done|]. rewrite fn_lookup_insert, Ei. split; [unfold P; destruct y; simpl; lia|].
      intros. by rewrite fn_lookup_insert_ne.
  - destruct rp as [i|]; [|done]. injection I9 as ->. simpl in *.
    assert (at_ i = PReply) as Ei by (by apply I10). assert (i < rn R) as Hi by (apply Fa; by rewrite Ei).
    eexists (<[i := PStx]> at_), rq, an, oq, (os ++ [i]), None, hd. split.
    + split; simpl; try done.
      * intros j. destruct (decide (j = i)) as [->|Hj]; [rewrite !fn_lookup_insert|rewrite !fn_lookup_insert_ne by done; apply I1].
        rewrite I1 at 1. by rewrite Ei.
      * intros j. destruct (decide (j = i)) as [->|Hj]; [rewrite ?fn_lookup_insert; done|rewrite ?fn_lookup_insert_ne by done; apply I2].
      * intros j. destruct (decide (j = i)) as [->|Hj]; [rewrite ?fn_lookup_insert; done|rewrite ?fn_lookup_insert_ne by done; apply I3].
      * intros j. destruct (decide (j = i)) as [->|Hj]; [rewrite ?fn_lookup_insert; intros _; apply I4; by rewrite Ei|rewrite ?fn_lookup_insert_ne by done; apply I4].
      * apply queue_move; [done|congruence|done].
      * intros j. destruct (decide (j = i)) as [->|Hj].
        -- by rewrite fn_lookup_insert.
        -- rewrite fn_lookup_insert_ne by done. rewrite <- I10. split; congruence.
      * by rewrite I11, fmap_app.
      * destruct I12 as [N I12]. split.
        -- apply NoDup_app. split; [done|]. split; [|apply NoDup_singleton]. intros j Hj Hj'. apply elem_of_list_singleton in Hj' as ->.
           apply I12 in Hj. congruence.
        -- intros j. rewrite elem_of_app, I12, elem_of_list_singleton. destruct (decide (j = i)) as [->|Hj].
           ++ rewrite fn_lookup_insert. naive_solver.
           ++ rewrite fn_lookup_insert_ne by done. naive_solver.
      * apply slot_move; [done|congruence|done].
      * intros j Hj'. rewrite asked_app, app_nil_r, I15 by done. f_equal. destruct (decide (j = i)) as [->|Hj].
        -- by rewrite fn_lookup_insert, Ei.
        -- by rewrite fn_lookup_insert_ne.
      * intros j Hj'. rewrite I16 by done. destruct (decide (j = i)) as [->|Hj].
        -- by rewrite !fn_lookup_insert, Ei.
        -- by rewrite !fn_lookup_insert_ne.
    + intros _. exists i. split; [done|]. rewrite fn_lookup_insert, Ei. split; [simpl; lia|]. intros. by rewrite fn_lookup_insert_ne.
  - destruct os as [|i os]; [done|]. rewrite fmap_cons in I11. injection I11 as -> ->. simpl in *. destruct hd as [?|]; [done|].
    destruct I12 as [N I12]. apply NoDup_cons in N as [Nq N].
    assert (at_ i = PStx) as Ei by (apply I12; by left). assert (i < rn R) as Hi by (apply Fa; by rewrite Ei).
    eexists (<[i := PShand]> at_), rq, an, oq, os, rp, (Some i). split.
    + split; simpl; try done.
      * intros j. destruct (decide (j = i)) as [->|Hj]; [rewrite !fn_lookup_insert|rewrite !fn_lookup_insert_ne by done; apply I1].
        rewrite I1 at 1. by rewrite Ei.
      * intros j. destruct (decide (j = i)) as [->|Hj]; [rewrite ?fn_lookup_insert; done|rewrite ?fn_lookup_insert_ne by done; apply I2].
      * intros j. destruct (decide (j = i)) as [->|Hj]; [rewrite ?fn_lookup_insert; done|rewrite ?fn_lookup_insert_ne by done; apply I3].
      * intros j. destruct (decide (j = i)) as [->|Hj]; [rewrite ?fn_lookup_insert; intros _; apply I4; by rewrite Ei|rewrite ?fn_lookup_insert_ne by done; apply I4].
      * apply queue_move; [done|congruence|done].
      * apply slot_move; [done|congruence|done].
      * split; [done|]. intros j. destruct (decide (j = i)) as [->|Hj].
        -- by rewrite fn_lookup_insert.
        -- rewrite fn_lookup_insert_ne by done. rewrite <- I12, elem_of_cons. naive_solver.
      * intros j. destruct (decide (j = i)) as [->|Hj].
        -- by rewrite fn_lookup_insert.
        -- rewrite fn_lookup_insert_ne by done. rewrite <- I14. split; congruence.
      * intros j Hj'. rewrite asked_app, app_nil_r, I15 by done. f_equal. destruct (decide (j = i)) as [->|Hj].
        -- by rewrite fn_lookup_insert, Ei.
        -- by rewrite fn_lookup_insert_ne.
      * intros j Hj'. rewrite I16 by done. destruct (decide (j = i)) as [->|Hj].
        -- by rewrite !fn_lookup_insert, Ei.
        -- by rewrite !fn_lookup_insert_ne.
    + intros _. exists i. split; [done|]. rewrite fn_lookup_insert, Ei. split; [simpl; lia|]. intros. by rewrite fn_lookup_insert_ne.
  - destruct hd as [i|]; [|done]. injection I13 as -> ->. simpl in *.
    assert (at_ i = PShand) as Ei by (by apply I14). assert (i < rn R) as Hi by (apply Fa; by rewrite Ei).
    destruct (I4 i) as [G Z]; [by rewrite Ei|].
    destruct (proj1 F i Hi) as [_ Md].
    destruct (send_keeps (down R i) k ps (an i) b Md G I6) as (b2 & Hf2 & C2).
    destruct (finishes_unique _ _ _ _ _ _ Hf Hf2) as [-> ->].
    assert (forall j, j < rn R -> j <> i -> rsc R i <> rsc R j) as Hne.
    { intros j Hj' Hj E. apply Hj. symmetry. by apply (proj2 F). }
    eexists (<[i := PIn]> at_), rq, an, oq, os, rp, None. split.
    + assert (forall j, c_st (spread R [OWire (rsc R i) (wirep (down R i) ps (an i))] x j) = c_st (x j)) as Est.
      { intros j. unfold spread. by destruct (rn R <=? j). }
      assert (forall j, c_got (spread R [OWire (rsc R i) (wirep (down R i) ps (an i))] x j) = c_got (x j)) as Egt.
      { intros j. unfold spread. by destruct (rn R <=? j). }
      split; simpl; try done.
      * intros j. rewrite Est, Egt. unfold spread. destruct (rn R <=? j) eqn:Ej.
        { apply Nat.leb_le in Ej. rewrite fn_lookup_insert_ne by lia. apply I1. }
        apply Nat.leb_gt in Ej. rewrite I1. destruct (decide (j = i)) as [->|Hj].
        -- rewrite fn_lookup_insert, Ei. unfold shape, written. simpl. rewrite decide_True by done. simpl. by rewrite app_nil_r.
        -- rewrite fn_lookup_insert_ne by done. unfold shape, written. simpl.
           rewrite decide_False by (by apply Hne). simpl. by rewrite app_nil_r.
      * intros j. destruct (decide (j = i)) as [->|Hj]; [rewrite ?fn_lookup_insert; done|rewrite ?fn_lookup_insert_ne by done; apply I2].
      * intros j. destruct (decide (j = i)) as [->|Hj]; [rewrite ?fn_lookup_insert; done|rewrite ?fn_lookup_insert_ne by done; apply I3].
      * intros j. destruct (decide (j = i)) as [->|Hj]; [rewrite ?fn_lookup_insert; intros _; apply I4; by rewrite Ei|rewrite ?fn_lookup_insert_ne by done; apply I4].
      * intros j Hj'. rewrite Est. by apply I5.
      * apply queue_move; [done|congruence|done].
      * apply slot_move; [done|congruence|done].
      * apply queue_move; [done|congruence|done].
      * intros j. destruct (decide (j = i)) as [->|Hj].
        -- by rewrite fn_lookup_insert.
        -- rewrite fn_lookup_insert_ne by done. rewrite <- I14. split; congruence.
      * intros j Hj'. rewrite asked_app, app_nil_r, I15 by done. f_equal. destruct (decide (j = i)) as [->|Hj].
        -- by rewrite fn_lookup_insert, Ei.
        -- by rewrite fn_lookup_insert_ne.
      * intros j Hj'. rewrite I16, Egt by done. destruct (decide (j = i)) as [->|Hj].
        -- by rewrite !fn_lookup_insert, Ei.
        -- by rewrite !fn_lookup_insert_ne.
    + intros _. exists i. split; [done|]. rewrite fn_lookup_insert, Ei. split; [simpl; lia|]. intros. by rewrite fn_lookup_insert_ne.
  - pose proof (I1 i) as S. rewrite Hx in S. unfold shape in S. cbn [c_st c_got] in S. rewrite Hx in Hok. simpl in Hok.
    destruct (at_ i) eqn:Ei; try discriminate S; injection S; clear S; intros; subst; simpl in *; try lia.
    assert (i < rn R) as Hi by (apply Fa; by rewrite Ei). pose proof (I5 i Hi) as C. rewrite Hx in C. simpl in C.
    destruct (I4 i) as [G Z]; [by rewrite Ei|].
    destruct (proj1 F i Hi) as [_ Md].
    destruct (receive_one (down R i) k ps (an i) a Md G C) as (a2 & Hf2 & C2).
    rewrite take_ge in Hf by lia. rewrite drop_ge by lia.
    destruct (finishes_unique _ _ _ _ _ _ Hf Hf2) as [-> ->].
    eexists (<[i := PDn]> at_), rq, an, oq, os, rp, hd. split.
    + eapply (rinv_client _ _ _ _ _ _ _ _ _ _ _ i PDn _ a2 g); try done; rewrite ?Ei, ?Hx; try done; try (intros ?; rewrite asked_app; by rewrite app_nil_r); try by split_and!.
      unfold shape, mine. simpl. rewrite decide_True by done. done.
    + intros _. exists i. split; [done|]. rewrite fn_lookup_insert, Ei. split; [simpl; lia|]. intros. by rewrite fn_lookup_insert_ne.
  - pose proof (I1 i) as S. rewrite Hx in S. unfold shape in S. cbn [c_st c_got] in S.
    destruct (at_ i) eqn:Ei; try discriminate S; injection S; clear S; intros; subst; simpl in *.
    assert (i < rn R) as Hi by (apply Fa; by rewrite Ei). pose proof (I5 i Hi) as C. rewrite Hx in C. simpl in C.
    eexists (<[i := PRx]> at_), rq, an, oq, os, rp, hd. split.
    + eapply (rinv_client _ _ _ _ _ _ _ _ _ _ _ i PRx _ a g); try done; rewrite ?Ei, ?Hx; try done; try (intros ?; rewrite asked_app; by rewrite app_nil_r); try by split_and!.
      intros _. apply I4. by rewrite Ei.
    + intros _. exists i. split; [done|]. rewrite fn_lookup_insert, Ei. split; [simpl; lia|]. intros. by rewrite fn_lookup_insert_ne.
  - pose proof (I1 i) as S. rewrite Hx in S. unfold shape in S. cbn [c_st c_got] in S.
    destruct (at_ i) eqn:Ei; try discriminate S; injection S; clear S; intros; subst; simpl in *.
    assert (i < rn R) as Hi by (apply Fa; by rewrite Ei). pose proof (I5 i Hi) as C. rewrite Hx in C. simpl in C.
    eexists (<[i := PIdle]> at_), rq, an, oq, os, rp, hd. split.
    + eapply (rinv_client _ _ _ _ _ _ _ _ _ _ _ i PIdle _ a (g ++ [ml_msg (po_mail (an i))])); try done; rewrite ?Ei, ?Hx; try done; try (intros ?; rewrite asked_app; by rewrite app_nil_r); try by split_and!.
      simpl. rewrite fmap_app, app_nil_r. done.
    + intros _. exists i. split; [done|]. rewrite fn_lookup_insert, Ei. split; [simpl; lia|]. intros. by rewrite fn_lookup_insert_ne.
Qed.

Lemma rinv_start a b p : all_idle R a b -> rinv [] (new_rpc R a b) (fun _ => PIdle) (fun _ => p) (fun _ => p) [] [] None None.
Proof.
  intros [H1 H2]. split; simpl; try done.
  - split; [constructor|]. intros i. split; [intros H; by apply elem_of_nil in H|done].
  - split; [constructor|]. intros i. split; [intros H; by apply elem_of_nil in H|done].
Qed.
Definition total (at_ : nat -> place) : nat := sum_list_with (fun i => rank (at_ i)) (seq 0 (rn R)).
Lemma sum_less (f g : nat -> nat) (l : list nat) i : i ∈ l -> g i < f i -> (forall j, j <> i -> g j = f j) -> sum_list_with g l < sum_list_with f l.
Proof.
  intros Hi Hlt Hle. assert (forall j, g j <= f j) as Hle'.
  { intros j. destruct (decide (j = i)) as [->|Hj]; [lia|]. by rewrite Hle. }
  assert (forall m, sum_list_with g m <= sum_list_with f m) as Hs.
  { induction m as [|j m IH]; simpl; [lia|]. specialize (Hle' j). lia. }
  induction l as [|j l IH]; [by apply elem_of_nil in Hi|]. simpl. apply elem_of_cons in Hi as [<-|Hi].
  - specialize (Hs l). lia.
  - specialize (IH Hi). specialize (Hle' j). lia.
Qed.
Lemma sum_most (f : nat -> nat) (l : list nat) c : (forall j, f j <= c) -> sum_list_with f l <= c * length l.
Proof. intros H. induction l as [|j l IH]; simpl; [lia|]. specialize (H j). lia. Qed.
Lemma total_most at_ : total at_ <= 11 * rn R.
Proof. unfold total. rewrite <- (seq_length (rn R) 0) at 2. apply sum_most. intros j. destruct (at_ j); simpl; lia. Qed.

Lemma rinv_run ls0 s at_ rq an oq os rp hd ls s' : rinv ls0 s at_ rq an oq os rp hd -> rrun R all_there s ls s' -> requests_fit R k ps ls ->
  exists at' rq' an' oq' os' rp' hd', rinv (ls0 ++ ls) s' at' rq' an' oq' os' rp' hd' /\ (Forall onward ls -> length ls + total at' <= total at_).
Proof.
  intros I H. induction H as [|ls s1 l s2 H IH Hok Hst]; intros Hs.
  { rewrite app_nil_r. eexists _, _, _, _, _, _, _. split; [exact I|]. intros _. simpl. lia. }
  destruct IH as (at1 & rq1 & an1 & oq1 & os1 & rp1 & hd1 & I1 & T1); [intros i m Hx; apply Hs, elem_of_app; by left|].
  assert (forall i m, l = RWrite i m -> request R k ps i m) as Hl0.
  { intros i m ->. apply Hs, elem_of_app. right. by left. }
  destruct (rinv_step _ _ _ _ _ _ _ _ _ _ _ I1 Hok Hl0 Hst) as (at2 & rq2 & an2 & oq2 & os2 & rp2 & hd2 & I2 & T2).
  rewrite app_assoc. eexists _, _, _, _, _, _, _. split; [exact I2|]. intros [F1 F2]%Forall_app. specialize (T1 F1).
  inversion F2 as [|? ? Hl _]; subst. destruct (T2 Hl) as (i & Hi & Hr & Ho).
  assert (total at2 < total at1); [|rewrite app_length; simpl; lia].
  apply (sum_less _ _ _ i); [apply elem_of_seq; lia|done|]. intros j Hj. by rewrite Ho.
Qed.
Lemma rinv_reach a b ls s : all_idle R a b -> rrun R all_there (new_rpc R a b) ls s -> requests_fit R k ps ls ->
  exists at_ rq an oq os rp hd, rinv ls s at_ rq an oq os rp hd.
Proof.
  intros H1 H2 H3. destruct (rinv_run _ _ _ _ _ _ _ _ _ _ _ (rinv_start a b (Post 0 (Mail None (MBytes [])) []) H1) H2 H3)
    as (at1 & rq1 & an1 & oq1 & os1 & rp1 & hd1 & I1 & T1). by eexists _, _, _, _, _, _, _.
Qed.

Lemma own_answer a b ls s i : all_idle R a b -> rrun R all_there (new_rpc R a b) ls s -> requests_fit R k ps ls -> i < rn R ->
  exists p q, ml_msg <$> asked i ls = calls_of (rsc R i) (v_log (r_sv s)) ++ p /\
    answers_to R (rsc R i) (v_log (r_sv s)) = (Some <$> c_got (r_cl s i)) ++ q /\
    length p + length q <= 1 /\ (c_wait (r_cl s i) = false -> p = [] /\ q = []).
Proof.
  intros H1 H2 H3 Hi. destruct (rinv_reach _ _ _ _ H1 H2 H3) as (at_ & rq & an & oq & os & rp & hd & I).
  exists (pending_rq (at_ i) (rq i)), (pending_an (at_ i) (an i)). split; [by apply I|]. split; [by apply I|].
  split; [by destruct (at_ i); simpl; lia|]. rewrite (iv_shape _ _ _ _ _ _ _ _ _ I i). simpl. by destruct (at_ i).
Qed.
Lemma answers_same f c log : (forall lg d m, ml_msg <$> rans R lg (d, m) = f m) -> answers_to R c log = f <$> calls_of c log.
Proof.
  intros Hf. induction log as [|[d m] log IH] using rev_ind; [done|].
  rewrite answers_snoc, calls_app, fmap_app, IH. f_equal. simpl. case_decide; [|done]. simpl. by rewrite Hf.
Qed.
Lemma same_answer f a b ls s i : all_idle R a b -> rrun R all_there (new_rpc R a b) ls s -> requests_fit R k ps ls -> i < rn R ->
  (forall log c m, ml_msg <$> rans R log (c, m) = f m) ->
  exists q, f <$> (ml_msg <$> asked i ls) = (Some <$> c_got (r_cl s i)) ++ q /\ length q <= 1.
Proof.
  intros H1 H2 H3 Hi Hf. destruct (own_answer a b ls s i H1 H2 H3 Hi) as (p & q & E1 & E2 & E3 & _).
  rewrite (answers_same f) in E2 by done. exists (q ++ (f <$> p)). rewrite E1, fmap_app, E2, <- app_assoc. split; [done|].
  rewrite app_length, fmap_length. lia.
Qed.
Lemma from_clients a b ls s : all_idle R a b -> rrun R all_there (new_rpc R a b) ls s -> requests_fit R k ps ls ->
  Forall (fun p => exists i, i < rn R /\ fst p = Some (rsc R i)) (v_log (r_sv s)).
Proof. intros H1 H2 H3. destruct (rinv_reach _ _ _ _ H1 H2 H3) as (at_ & rq & an & oq & os & rp & hd & I). apply I. Qed.

Lemma put_free' ms : Forall onward ms -> requests_fit R k ps ms.
Proof. intros H i m Hx. rewrite Forall_forall in H. by apply H in Hx. Qed.
Lemma bounded a b ls s ms s' : all_idle R a b -> rrun R all_there (new_rpc R a b) ls s -> requests_fit R k ps ls ->
  rrun R all_there s ms s' -> Forall onward ms -> length ms <= 11 * rn R.
Proof.
  intros H1 H2 H3 H4 H5. destruct (rinv_reach _ _ _ _ H1 H2 H3) as (at_ & rq & an & oq & os & rp & hd & I).
  destruct (rinv_run _ _ _ _ _ _ _ _ _ _ _ I H4 (put_free' _ H5)) as (at1 & rq1 & an1 & oq1 & os1 & rp1 & hd1 & _ & T).
  specialize (T H5). pose proof (total_most at_). lia.
Qed.

Lemma rest_places ls s at_ rq an oq os rp hd : 0 < rtxcap R -> 0 < rrxcap R -> rinv ls s at_ rq an oq os rp hd -> at_rest R s ->
  forall i, at_ i = PIdle \/ at_ i = PRefused.
Proof.
  intros Ct Cr I Hrest. pose proof I as [I1 I2 I3 I4 I5 I6 I7 I8 I9 I10 I11 I12 I13 I14 I15 I16 I17].
  assert (forall i, after (at_ i) = true -> i < rn R) as Fa by (intros i Hi; apply I2; by intros E; rewrite E in Hi).
  assert (forall i, before (at_ i) = true -> i < rn R) as Fb by (intros i Hi; apply I2; by intros E; rewrite E in Hi).
  destruct s as [x [b srx rep tx' h' lg]]. simpl in *.
  assert (hd = None) as ->.
  { destruct hd as [i|]; [|done]. exfalso. assert (at_ i = PShand) as Ei by (by apply I14).
    destruct (I4 i) as [G Z]; [by rewrite Ei|]. destruct (proj1 F i) as [_ Md]; [apply Fa; by rewrite Ei|].
    destruct (send_keeps (down R i) k ps (an i) b Md G I6) as (b2 & Hf2 & _).
    eapply (Hrest RSrvPass); [done|done|]. rewrite I13. simpl. eapply rk_srv_pass. exact Hf2. }
  assert (os = []) as ->.
  { destruct os as [|i os]; [done|]. exfalso. eapply (Hrest RSrvTake); [done|done|]. rewrite I13, I11. simpl. eapply rk_srv_take. }
  assert (rp = None) as ->.
  { destruct rp as [i|]; [|done]. exfalso. eapply (Hrest RReply); [done|done|]. rewrite I9, I11. simpl. eapply rk_reply. done. }
  assert (oq = []) as ->.
  { destruct oq as [|i oq]; [done|]. exfalso. eapply (Hrest RCall); [done|done|]. rewrite I9, I7. simpl. eapply rk_call. }
  simpl in *. subst. intros i. pose proof (I1 i) as S. unfold shape in S. destruct (at_ i) eqn:Ei; try tauto; exfalso.
  - eapply (Hrest (RTake i)); [done|done|]. eapply rk_take. exact S.
  - destruct (I3 i) as [G Z]; [by rewrite Ei|]. assert (i < rn R) as Hi by (apply Fb; by rewrite Ei).
    destruct (proj1 F i Hi) as [Mu _].
    destruct (send_keeps (up R i) k ps (rq i) (c_st (x i)) Mu G (I5 i Hi)) as (a2 & Hf2 & C2).
    eapply (Hrest (RPass i)); [done|done|]. eapply rk_pass; [exact S|exact Hf2].
  - destruct (I3 i) as [G Z]; [by rewrite Ei|]. assert (i < rn R) as Hi by (apply Fb; by rewrite Ei).
    destruct (proj1 F i Hi) as [Mu _]. destruct (receive_one (up R i) k ps (rq i) b Mu G I6) as (b2 & Hf2 & C2).
    pose proof (good_nonempty _ _ _ _ G) as Hne.
    assert (Z.of_nat (length (wirep (up R i) ps (rq i))) <= e_mtu (rs R))%Z as Hm by (apply wire_length_room; apply G).
    eapply (Hrest (RRead i (length (wirep (up R i) ps (rq i))))); [done|simpl; by rewrite S|].
    eapply rk_read; [exact S|done| |done|done|rewrite take_ge by lia; exact Hf2].
    destruct (wirep (up R i) ps (rq i)); simpl; [done|lia].
  - eapply (Hrest (RDeliver i)); [done|done|]. eapply rk_deliver; [exact S|done|simpl; lia].
  - destruct I8 as [_ I8]. apply I8 in Ei. by apply elem_of_nil in Ei.
  - by apply I10 in Ei.
  - destruct I12 as [_ I12]. apply I12 in Ei. by apply elem_of_nil in Ei.
  - by apply I14 in Ei.
  - destruct (I4 i) as [G Z]; [by rewrite Ei|]. assert (i < rn R) as Hi by (apply Fa; by rewrite Ei).
    destruct (proj1 F i Hi) as [_ Md]. destruct (receive_one (down R i) k ps (an i) (c_st (x i)) Md G (I5 i Hi)) as (b2 & Hf2 & C2).
    pose proof (good_nonempty _ _ _ _ G) as Hne.
    assert (Z.of_nat (length (wirep (down R i) ps (an i))) <= e_mtu (rc R i))%Z as Hm by (apply wire_length_room; apply G).
    eapply (Hrest (RBack i (length (wirep (down R i) ps (an i))))); [done|simpl; by rewrite S|].
    eapply rk_back; [exact S| |done|done|rewrite take_ge by lia; exact Hf2].
    destruct (wirep (down R i) ps (an i)); simpl; [done|lia].
  - eapply (Hrest (RArrive i)); [done|done|]. eapply rk_arrive; [exact S|simpl; lia].
  - eapply (Hrest (RGet i)); [done|done|]. eapply rk_get. exact S.
Qed.
Lemma all_served a b ls s i : 0 < rtxcap R -> 0 < rrxcap R -> all_idle R a b -> rrun R all_there (new_rpc R a b) ls s -> requests_fit R k ps ls ->
  at_rest R s -> i < rn R ->
  ml_msg <$> asked i ls = calls_of (rsc R i) (v_log (r_sv s)) /\
  (c_wait (r_cl s i) = false /\ answers_to R (rsc R i) (v_log (r_sv s)) = Some <$> c_got (r_cl s i) \/
   c_wait (r_cl s i) = true /\ answers_to R (rsc R i) (v_log (r_sv s)) = (Some <$> c_got (r_cl s i)) ++ [None]).
Proof.
  intros Ct Cr H1 H2 H3 Hrest Hi. destruct (rinv_reach _ _ _ _ H1 H2 H3) as (at_ & rq & an & oq & os & rp & hd & I).
  pose proof (iv_calls _ _ _ _ _ _ _ _ _ I i Hi) as E1. pose proof (iv_answers _ _ _ _ _ _ _ _ _ I i Hi) as E2.
  pose proof (iv_shape _ _ _ _ _ _ _ _ _ I i) as S.
  destruct (rest_places _ _ _ _ _ _ _ _ _ Ct Cr I Hrest i) as [E|E]; rewrite E in *; unfold pending_rq, pending_an in *; simpl in *;
    rewrite ?app_nil_r in *; (split; [done|]); [left|right]; (split; [by rewrite S|done]).
Qed.
End facts.

(** ** A request that is read without its last four bytes *)
Lemma rpc_cut R k qs cap i x l m y a b : fitting R k (qs ++ [Proc (KFrame cap) true]) -> answers_fit R k (qs ++ [Proc (KFrame cap) true]) ->
  Forall (fun p => framing p = false) qs -> all_idle R a b -> 0 < rtxcap R -> 0 < rrxcap R -> i < rn R ->
  sendable_as (up R i) k (qs ++ [Proc (KFrame cap) true]) 0 x l -> dest_of (rcs R i) (ml_dest x) = rss R ->
  4 < length l -> decodes k (take (length l - 4) l) m -> rans R [] (Some (rsc R i), m) = Some y ->
  exists n n' s, rrun R any_chunks (new_rpc R a b)
    [RWrite i x; RTake i; RPass i; RRead i n; RDeliver i; RCall; RReply; RSrvTake; RSrvPass; RBack i n'; RArrive i; RGet i] s /\
    v_log (r_sv s) = [(Some (rsc R i), m)] /\ c_got (r_cl s i) = [ml_msg y].
Proof.
  intros F AF Hnf [Hs Hc] Ct Cr Hi Hx Hdest Hl Hdec Hy.
  set (ps := qs ++ [Proc (KFrame cap) true]) in *. set (p := Post 0 x l).
  destruct (proj1 F i Hi) as [Mu Md].
  destruct (send_keeps (up R i) k ps p (a i) Mu Hx (Hc i Hi)) as (a' & Hsend & Hca).
  set (w := wirep (up R i) ps p) in *.
  destruct (AF [] i m y Hi Hy) as [(l' & Hl') Hz'].
  destruct Hx as (He & _ & Hne & Hfit & Hroom & Hz & Hres & Hses). simpl in Hz, Hres, Hses. rewrite Hdest in Hz, Hres, Hses.
  pose proof Mu as (idsA & idsB & preA & preB & WA & WB & PA & PB & Hcar & RA & Ac & MA & RB & MB).
  assert (Z.of_nat (length w) <= e_mtu (rs R))%Z as Lw by (by apply wire_length_room).
  apply Forall_app in Hcar as [Hcar _].
  destruct (receive_cut (rs R) idsB preB k qs cap (rsc R i) (rss R) m l b) as (b' & Hrec & Hb'); try done.
  { fold ps. pose proof Lw as Lw'. unfold w, wirep, p, zed in Lw'. simpl in Lw'. by rewrite Hdest in Lw'. }
  fold ps in Hrec. assert (wire_of (rss R) ps l = w) as Ewr by (unfold w, wirep, zed, p; simpl; by rewrite Hdest).
  rewrite Ewr in Hrec.
  assert (8 < length w) as Lw8.
  { rewrite <- Ewr. assert (wire_of (rss R) ps l = frame (wire_of (rss R) qs l)) as -> by (unfold ps; by rewrite wire_of_app).
    rewrite frame_length. pose proof (wire_of_length (rss R) qs l). lia. }
  assert (shown (rs R) (rx_session qs (rss R)) (Some (rsc R i)) m = [ODeliver (rss R) (Some (rsc R i)) m]) as Esh.
  { rewrite <- (rx_session_snoc_frame qs cap (rss R)). rewrite rx_session_same by done. unfold shown. by rewrite decide_True. }
  rewrite Esh in Hrec.
  set (p' := Post 0 y l'). assert (good (down R i) k ps p') as Hg' by exact Hl'.
  destruct (send_keeps (down R i) k ps p' b' Md Hg' Hb') as (b2 & Hsend2 & Hb2).
  set (w' := wirep (down R i) ps p') in *.
  destruct (receive_one (down R i) k ps p' a' Md Hg' Hca) as (a2 & Hrec2 & _).
  assert (Z.of_nat (length w') <= e_mtu (rc R i))%Z as Lw' by (apply wire_length_room; apply Hg').
  assert (0 < length w') as Lp by (pose proof (good_nonempty _ _ _ _ Hg'); fold w' in H; destruct w'; simpl; [done|lia]).
  exists (length w - 4), (length w'). eexists. split; [|split].
  - eapply rrun_cons; [done|eapply rk_write; [done|done|simpl; lia]|].
    eapply rrun_cons; [done|eapply rk_take; by rewrite fn_lookup_insert|].
    eapply rrun_cons; [done|eapply rk_pass; [by rewrite fn_lookup_insert|exact Hsend]|].
    eapply rrun_cons; [done|eapply (rk_read R _ _ i _ _ _ _ _ w);
      [rewrite fn_lookup_insert; unfold written; simpl; rewrite decide_True by done; simpl; by rewrite app_nil_r
      |done|lia|lia|lia|exact Hrec]|].
    eapply rrun_cons; [done|eapply (rk_deliver R _ _ i _ _ _ _ _ _ (Some (rsc R i), m) []);
      [rewrite fn_lookup_insert; unfold mine; simpl; by rewrite decide_True|done|simpl; lia]|].
    eapply rrun_cons; [done|eapply rk_call|]. rewrite Hy. simpl.
    eapply rrun_cons; [done|eapply rk_reply; simpl; lia|].
    eapply rrun_cons; [done|eapply rk_srv_take|].
    eapply rrun_cons; [done|eapply rk_srv_pass; exact Hsend2|].
    eapply rrun_cons; [done|eapply (rk_back R _ _ i _ _ _ _ _ _ _ w')|].
    + unfold spread. rewrite fn_lookup_insert. rewrite (proj2 (Nat.leb_gt _ _)) by done. unfold written. simpl.
      rewrite decide_True by done. simpl. by rewrite app_nil_r.
    + done.
    + done.
    + done.
    + rewrite take_ge by done. exact Hrec2.
    + eapply rrun_cons; [done|eapply (rk_arrive R _ _ i _ _ _ _ _ _ _ _ (Some (rcc R i), ml_msg y) [])|].
      * rewrite fn_lookup_insert. unfold mine. simpl. rewrite decide_True; [done|]. exact Hz'.
      * simpl. lia.
      * apply rrun_one; [done|]. eapply rk_get. rewrite fn_lookup_insert. done.
  - done.
  - simpl. by rewrite fn_lookup_insert.
Qed.

Lemma rpc_bounded R ok a b ls s : rrun R ok (new_rpc R a b) ls s ->
  length (v_rx (r_sv s)) <= rrxcap R /\ length (v_tx (r_sv s)) <= rtxcap R /\
  forall i, length (c_tx (r_cl s i)) <= rtxcap R /\ length (c_rx (r_cl s i)) <= rrxcap R.
Proof.
  induction 1 as [|ls s1 l s2 H (I1 & I2 & I3) _ Hst]; [simpl; split_and!; lia|].
  assert (forall x i y n m, (forall j : nat, length (c_tx (x j)) <= n /\ length (c_rx (x j)) <= m) -> length (c_tx y) <= n /\ length (c_rx y) <= m ->
    forall j : nat, length (c_tx ((<[i := y]> x) j)) <= n /\ length (c_rx ((<[i := y]> x) j)) <= m) as Hput.
  { intros x i y n m Hx Hy j. destruct (decide (j = i)) as [->|Hj]; [by rewrite fn_lookup_insert|by rewrite fn_lookup_insert_ne]. }
  destruct Hst as [x v i m k tx hd a0 o u n d rx g Hi E Hl|x v i k w e tx a0 o u n d rx g E|x v i k w tx c m a0 o u n d rx g outs a' E Hf
    |x v i k w tx hd a0 o n d rx g b0 srx rp tx' hd' lg r outs b' E Ev H1 H2 H3 Hf|x v i k w tx hd a0 o e u n d rx g b0 srx rp tx' hd' lg E Ev Hl
    |x b0 c m srx tx' hd' lg|x b0 srx e tx' hd' lg Hl|x b0 srx rp e tx' lg|x b0 srx rp tx' c m lg outs b' Hf|x v i k w tx hd a0 o u n rx g r outs a' E H1 H2 H3 Hf
    |x v i k w tx hd a0 o u n e d rx g E Hl|x v i k tx hd a0 o u n d c m rx g E]; simpl in *; try subst v; simpl in *; try rewrite !app_length in *;
    simpl in *; split_and!; try done; try lia; try (apply Hput; [done|]; specialize (I3 i); rewrite E in I3; simpl in *; rewrite ?app_length; simpl; split; lia).
  intros i. specialize (I3 i). unfold spread. by destruct (_ <=? i).
Qed.
