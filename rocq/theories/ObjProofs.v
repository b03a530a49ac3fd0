(** * Proofs about stacks joined by reference transports *)
From Verif Require Import GoBase UBufModel FrameModel StackModel StackSpec StackFacts StackSpecial NetModel NetProofs ObjModel ObjSpec.

Lemma orun_app N s ls s1 ms s2 : orun N s ls s1 -> orun N s1 ms s2 -> orun N s (ls ++ ms) s2.
Proof. intros H. induction 1; [by rewrite app_nil_r|]. rewrite app_assoc. by econstructor. Qed.
Lemma orun_one N s l s' : ostep N s l s' -> orun N s [l] s'.
Proof. intros. eapply (or_snoc N s [] s l); [constructor|done]. Qed.
Lemma orun_cons N s l s1 ls s2 : ostep N s l s1 -> orun N s1 ls s2 -> orun N s (l :: ls) s2.
Proof. intros. eapply (orun_app N s [l]); [by apply orun_one|done]. Qed.

Section facts.
Context (N : objs) (J : joined N).
Implicit Types (o : list (nat * nat * msg * option nat)) (e : nat * nat).

Lemma send_shows e x s outs s' :
  finishes (fun f => send f (ob_env N (fst e)) (ob_sess N e) (ml_dest x) (Some (ob_conn N (fst e))) (Some (ml_msg x)) s) s outs s' ->
  handed (ob_conn N (fst e)) outs = [ml_msg x].
Proof.
  intros H. destruct (J (fst e)) as (ids & ps & W & P & R & O & _).
  destruct (ref_send (ob_env N (fst e)) ids ps (ob_sess N e) (ml_dest x) (ob_conn N (fst e)) (ml_msg x) s) as (s2 & H2); [done..|].
  rewrite O in H2. destruct (finishes_unique _ _ _ _ _ _ H H2) as [-> _]. unfold handed. simpl. by rewrite decide_True.
Qed.
Lemma send_can e x s : exists outs s',
  finishes (fun f => send f (ob_env N (fst e)) (ob_sess N e) (ml_dest x) (Some (ob_conn N (fst e))) (Some (ml_msg x)) s) s outs s'.
Proof.
  destruct (J (fst e)) as (ids & ps & W & P & R & O & _).
  destruct (ref_send (ob_env N (fst e)) ids ps (ob_sess N e) (ml_dest x) (ob_conn N (fst e)) (ml_msg x) s) as (s2 & H2); [done..|].
  eauto.
Qed.
Lemma receive_shows j m s outs s' :
  finishes (fun f => receive_ref f (ob_env N j) (ob_conn N j) m s) s outs s' -> delivered outs = [(0%Z, m)].
Proof.
  intros H. destruct (J j) as (ids & ps & W & P & R & _ & Z).
  destruct (ref_receive (ob_env N j) ids ps (ob_conn N j) m s) as (s2 & H2); [done..|].
  unfold shown in H2. rewrite decide_True in H2 by done. by destruct (finishes_unique _ _ _ _ _ _ H H2) as [-> _].
Qed.
Lemma receive_can j m s : exists outs s', finishes (fun f => receive_ref f (ob_env N j) (ob_conn N j) m s) s outs s'.
Proof.
  destruct (J j) as (ids & ps & W & P & R & _ & Z).
  destruct (ref_receive (ob_env N j) ids ps (ob_conn N j) m s) as (s2 & H2); [done..|]. eauto.
Qed.

(** ** The invariant, for one direction *)
Record oinv (b : bool) (ls : list olab) (s : ost) (o : list (nat * nat * msg * option nat)) : Prop := {
  v_side : Forall (fun p => ob_server N p.1.1.1 = negb b) o;
  v_split : exists o1 o2, o = o1 ++ o2 /\ (fun p => p.1.2) <$> o2 = o_chan s b /\ Forall (fun p => p.2 = None) o2 /\
    Forall (fun p => exists j, p.2 = Some j /\ ob_server N j = b) o1;
  v_from : forall e, ob_server N (fst e) = negb b -> from e o ++ held e s = entrusted e ls;
  v_busy : forall e, o_set s e <> [] -> o_hand s e = None;
  v_got : forall j, ob_server N j = b -> got_by j o = listened j 0 s ++ o_rx s (j, 0%Z) ++ (snd <$> o_up s j);
  v_zero : forall j z, z <> 0%Z -> listened j z s = [] /\ o_rx s (j, z) = [];
  v_up : forall j, Forall (fun p => fst p = 0%Z) (o_up s j) }.

Lemma from_app e o1 o2 : from e (o1 ++ o2) = from e o1 ++ from e o2.
Proof. apply omap_app'. Qed.
Lemma got_app j o1 o2 : got_by j (o1 ++ o2) = got_by j o1 ++ got_by j o2.
Proof. apply omap_app'. Qed.
Lemma entrusted_app e l1 l2 : entrusted e (l1 ++ l2) = entrusted e l1 ++ entrusted e l2.
Proof. apply omap_app'. Qed.
Lemma got_cons j p o : got_by j (p :: o) = (if decide (p.2 = Some j) then [p.1.2] else []) ++ got_by j o.
Proof. unfold got_by. simpl. by destruct (decide _). Qed.
Lemma got_none j o : Forall (fun p => p.2 = None) o -> got_by j o = [].
Proof. induction 1 as [|p o Hp _ IH]; [done|]. unfold got_by. simpl. rewrite Hp, decide_False by done. apply IH. Qed.

Lemma oinv_start b ss : oinv b [] (new_objs ss) [].
Proof. split; try done; [by exists [], []|intros j; simpl; constructor]. Qed.
Lemma listened_app j z tx hd se ss ch up rx sn p :
  listened j z (Ost tx hd se ss ch up rx (sn ++ [p])) = listened j z (Ost tx hd se ss ch up rx sn) ++
    if decide (fst p = j /\ fst (snd p) = z) then [snd (snd p)] else [].
Proof. unfold listened. simpl. rewrite omap_app'. f_equal. simpl. by destruct (decide _). Qed.

Lemma oinv_step b ls s o l s' : oinv b ls s o -> ostep N s l s' -> exists o', oinv b (ls ++ [l]) s' o'.
Proof.
  intros [V1 (o1 & o2 & E1 & E2 & E3 & E4) V3 V4 V5 V6 V7] H.
  inversion H; subst; simpl in *.
  - (* put *) exists (o1 ++ o2). split; try done; simpl.
    + by exists o1, o2.
    + intros e' He. rewrite entrusted_app, <- (V3 e') by done. rewrite <- app_assoc. f_equal. unfold held. simpl.
      unfold entrusted. simpl. destruct (decide (e = e')) as [->|Hn].
      * rewrite fn_lookup_insert, fmap_app. simpl. by rewrite !app_assoc.
      * rewrite fn_lookup_insert_ne by done. by rewrite app_nil_r.
  - (* take *) exists (o1 ++ o2). split; try done; simpl.
    + by exists o1, o2.
    + intros e' He. rewrite entrusted_app, <- (V3 e') by done. unfold entrusted. simpl. rewrite app_nil_r. f_equal.
      unfold held. simpl. destruct (decide (e = e')) as [<-|Hn].
      * rewrite !fn_lookup_insert, H0, H2. done.
      * by rewrite !fn_lookup_insert_ne.
    + intros e' He. destruct (decide (e = e')) as [<-|Hn]; [by rewrite H1 in He|]. rewrite fn_lookup_insert_ne by done. by apply V4.
  - (* pass *) exists (o1 ++ o2). split; try done; simpl.
    + by exists o1, o2.
    + intros e' He. rewrite entrusted_app, <- (V3 e') by done. unfold entrusted. simpl. rewrite app_nil_r. f_equal.
      unfold held. simpl. destruct (decide (e = e')) as [<-|Hn].
      * rewrite !fn_lookup_insert, H0. rewrite (send_shows _ _ _ _ _ H1).
        destruct (se e) eqn:Es; [done|]. rewrite V4 in H0; [done|by rewrite Es].
      * by rewrite !fn_lookup_insert_ne.
    + intros e' He. destruct (decide (e = e')) as [<-|Hn]; [by rewrite fn_lookup_insert|].
      rewrite fn_lookup_insert_ne in He by done. rewrite fn_lookup_insert_ne by done. by apply V4.
  - (* send *)
    assert (forall e', o_set (Ost tx hd (<[e:=q]> se) ss ch up rx sn) e' <> [] -> hd e' = None) as Hb.
    { intros e' He. simpl in He. destruct (decide (e = e')) as [<-|Hn]; [apply V4; by rewrite H0|].
      rewrite fn_lookup_insert_ne in He by done. by apply V4. }
    destruct (decide (b = negb (ob_server N (fst e)))) as [->|Hb'].
    + exists (o1 ++ o2 ++ [(e, m, None)]). rewrite (app_assoc o1). split; try done; simpl.
      * apply Forall_app. split; [done|]. constructor; [|done]. simpl. by rewrite negb_involutive.
      * exists o1, (o2 ++ [(e, m, None)]). split; [by rewrite app_assoc|]. split; [by rewrite fn_lookup_insert, fmap_app, E2|].
        split; [|done]. apply Forall_app. split; [done|]. by constructor.
      * intros e' He. rewrite entrusted_app, <- (V3 e') by done. unfold entrusted. simpl. rewrite app_nil_r, (from_app _ (o1 ++ o2)), <- app_assoc. f_equal.
        unfold held. simpl. unfold from. simpl. destruct (decide (e = e')) as [<-|Hn].
        -- by rewrite !fn_lookup_insert, H0.
        -- by rewrite !fn_lookup_insert_ne.
      * intros j Hj. rewrite got_app, (V5 j) by done. simpl. by rewrite app_nil_r.
    + exists (o1 ++ o2). split; try done; simpl.
      * exists o1, o2. split; [done|]. rewrite fn_lookup_insert_ne by done. done.
      * intros e' He. rewrite entrusted_app, <- (V3 e') by done. unfold entrusted. simpl. rewrite app_nil_r. f_equal.
        unfold held. simpl. destruct (decide (e = e')) as [<-|Hn]; [by destruct b, (ob_server N (fst e))|]. by rewrite !fn_lookup_insert_ne.
  - (* get *)
    pose proof (receive_shows _ _ _ _ _ H2) as Ed.
    destruct (decide (b = ob_server N j)) as [->|Hb'].
    + destruct o2 as [|p o2]; [simpl in E2; congruence|]. simpl in E2. inversion E3 as [|? ? Hp E3']; subst.
      rewrite H1 in E2. injection E2 as Em E2.
      exists (o1 ++ (p.1, Some j) :: o2). split; try done; simpl.
      * apply Forall_app in V1 as [F1 F2]. apply Forall_app. split; [done|]. inversion F2; subst. by constructor.
      * exists (o1 ++ [(p.1, Some j)]), o2. split; [by rewrite <- app_assoc|]. rewrite fn_lookup_insert. split; [done|]. split; [done|].
        apply Forall_app. split; [done|]. constructor; [|done]. by exists j.
      * intros e' He. rewrite entrusted_app, <- (V3 e') by done. unfold entrusted. simpl. rewrite app_nil_r. unfold held. simpl. f_equal.
        rewrite !from_app. f_equal.
      * intros j' Hj. pose proof (V5 j' Hj) as G. rewrite got_app in G |- *. rewrite (got_none j' (p :: o2)), app_nil_r in G by done.
        rewrite got_cons, (got_none j' o2) by done. simpl. destruct (decide (j = j')) as [<-|Hn].
        -- rewrite decide_True by done. rewrite fn_lookup_insert, Ed, G, H0. simpl. rewrite app_nil_r, <- app_assoc. by rewrite Em.
        -- rewrite decide_False by congruence. rewrite fn_lookup_insert_ne by done. rewrite !app_nil_r. apply G.
      * intros j'. destruct (decide (j = j')) as [<-|Hn]; [|rewrite fn_lookup_insert_ne by done; apply V7].
        rewrite fn_lookup_insert, Ed. by constructor.
    + exists (o1 ++ o2). split; try done; simpl.
      * exists o1, o2. by rewrite fn_lookup_insert_ne.
      * intros e' He. rewrite entrusted_app, <- (V3 e') by done. unfold entrusted. simpl. by rewrite app_nil_r.
      * intros j' Hj. rewrite (V5 j') by done. rewrite fn_lookup_insert_ne; [done|]. intros ->. done.
      * intros j'. destruct (decide (j = j')) as [<-|Hn]; [|rewrite fn_lookup_insert_ne by done; apply V7].
        rewrite fn_lookup_insert, Ed. by constructor.
  - (* hand *)
    assert (forall e', o_set (Ost tx hd (<[e:=q]> se) ss ch up rx sn) e' <> [] -> hd e' = None) as Hb.
    { intros e' He. simpl in He. destruct (decide (e = e')) as [<-|Hn]; [apply V4; by rewrite H0|].
      rewrite fn_lookup_insert_ne in He by done. by apply V4. }
    pose proof (receive_shows _ _ _ _ _ H4) as Ed.
    destruct (decide (b = ob_server N j)) as [->|Hb'].
    + assert (o2 = []) as -> by (destruct o2; [done|]; simpl in E2; congruence). rewrite app_nil_r in *.
      exists (o1 ++ [(e, m, Some j)]). split; try done; simpl.
      * apply Forall_app. split; [done|]. constructor; [|done]. simpl. by rewrite H2, negb_involutive.
      * exists (o1 ++ [(e, m, Some j)]), []. rewrite app_nil_r. split; [done|]. rewrite H3. split; [done|]. split; [done|].
        apply Forall_app. split; [done|]. constructor; [|done]. by exists j.
      * intros e' He. rewrite entrusted_app, <- (V3 e') by done. unfold entrusted. simpl. rewrite app_nil_r, (from_app _ o1), <- app_assoc. f_equal.
        unfold held. simpl. unfold from. simpl. destruct (decide (e = e')) as [<-|Hn].
        -- by rewrite !fn_lookup_insert, H0.
        -- by rewrite !fn_lookup_insert_ne.
      * intros j' Hj. rewrite got_app, (V5 j') by done. rewrite got_cons. simpl. destruct (decide (j = j')) as [<-|Hn].
        -- rewrite decide_True by done. rewrite fn_lookup_insert, Ed, H1. simpl. by rewrite app_nil_r, <- app_assoc.
        -- rewrite decide_False by congruence. rewrite fn_lookup_insert_ne by done. by rewrite app_nil_r.
      * intros j'. destruct (decide (j = j')) as [<-|Hn]; [|rewrite fn_lookup_insert_ne by done; apply V7].
        rewrite fn_lookup_insert, Ed. by constructor.
    + exists (o1 ++ o2). split; try done; simpl.
      * by exists o1, o2.
      * intros e' He. rewrite entrusted_app, <- (V3 e') by done. unfold entrusted. simpl. rewrite app_nil_r. f_equal.
        unfold held. simpl. destruct (decide (e = e')) as [<-|Hn]; [by destruct b, (ob_server N (fst e)), (ob_server N j)|]. by rewrite !fn_lookup_insert_ne.
      * intros j' Hj. rewrite (V5 j') by done. rewrite fn_lookup_insert_ne; [done|]. intros ->. done.
      * intros j'. destruct (decide (j = j')) as [<-|Hn]; [|rewrite fn_lookup_insert_ne by done; apply V7].
        rewrite fn_lookup_insert, Ed. by constructor.
  - (* give *)
    assert (z = 0%Z) as -> by (pose proof (V7 j) as G; rewrite H0 in G; by inversion G).
    exists (o1 ++ o2). split; try done; simpl.
    + by exists o1, o2.
    + intros e' He. rewrite entrusted_app, <- (V3 e') by done. unfold entrusted. simpl. by rewrite app_nil_r.
    + intros j' Hj. rewrite (V5 j') by done. f_equal. destruct (decide (j = j')) as [<-|Hn].
      * rewrite !fn_lookup_insert, H0. simpl. by rewrite <- app_assoc.
      * rewrite !fn_lookup_insert_ne by congruence. done.
    + intros j' z Hz. rewrite fn_lookup_insert_ne by congruence. by apply V6.
    + intros j'. destruct (decide (j = j')) as [<-|Hn]; [|rewrite fn_lookup_insert_ne by done; apply V7].
      rewrite fn_lookup_insert. pose proof (V7 j) as G. rewrite H0 in G. by inversion G.
  - (* listen *)
    assert (z = 0%Z) as ->.
    { destruct (decide (z = 0%Z)) as [|Hz]; [done|]. destruct (V6 j z Hz) as [_ G]. congruence. }
    exists (o1 ++ o2). split; try done.
    + by exists o1, o2.
    + intros e' He. rewrite entrusted_app, <- (V3 e') by done. unfold entrusted. simpl. by rewrite app_nil_r.
    + intros j' Hj. rewrite (V5 j') by done. rewrite listened_app. simpl. rewrite <- app_assoc. f_equal.
      destruct (decide (j = j')) as [<-|Hn].
      * rewrite decide_True by (by split). by rewrite fn_lookup_insert, H0.
      * rewrite fn_lookup_insert_ne by congruence. rewrite decide_False by (intros [? _]; done). done.
    + intros j' z Hz. simpl. rewrite listened_app. simpl. rewrite decide_False by (intros [_ <-]; done).
      rewrite app_nil_r. rewrite fn_lookup_insert_ne by congruence. by apply V6.
Qed.
Lemma oinv_run b ls0 s o ls s' : oinv b ls0 s o -> orun N s ls s' -> exists o', oinv b (ls0 ++ ls) s' o'.
Proof.
  intros I. induction 1 as [|ls s1 l s2 H IH Hs]; [exists o; by rewrite app_nil_r|].
  destruct IH as (o' & I'). rewrite app_assoc. by eapply oinv_step.
Qed.
Lemma oinv_reach b ss ls s : orun N (new_objs ss) ls s -> exists o, oinv b ls s o.
Proof. apply (oinv_run b [] _ []), oinv_start. Qed.

Lemma objs_in_order ss ls s b : orun N (new_objs ss) ls s ->
  exists o, Forall (fun p => ob_server N p.1.1.1 = negb b) o /\
    (forall e, ob_server N (fst e) = negb b -> from e o ++ held e s = entrusted e ls) /\
    (forall j, ob_server N j = b -> exists rest, listened j 0 s ++ rest = got_by j o /\ (at_rest s -> rest = [])) /\
    (at_rest s -> Forall (fun p => exists j, p.2 = Some j /\ ob_server N j = b) o).
Proof.
  intros H. destruct (oinv_reach b ss ls s H) as (o & [V1 (o1 & o2 & E1 & E2 & E3 & E4) V3 V4 V5 V6 V7]).
  exists o. split; [done|]. split; [done|]. split.
  - intros j Hj. exists (o_rx s (j, 0%Z) ++ (snd <$> o_up s j)). split; [by rewrite V5|]. intros (_ & U & R). by rewrite U, R.
  - intros (C & _). rewrite C in E2. apply fmap_nil_inv in E2 as ->. subst o. by rewrite app_nil_r.
Qed.
Lemma objs_session_0 ss ls s j z : orun N (new_objs ss) ls s -> z <> 0%Z -> listened j z s = [].
Proof. intros H Hz. destruct (oinv_reach true ss ls s H) as (o & I). by apply (v_zero _ _ _ _ I). Qed.
End facts.

(** ** Everything can be delivered *)
Record kept (j : nat) (s s' : ost) : Prop := {
  k_tx : o_tx s' = o_tx s; k_hand : o_hand s' = o_hand s; k_set : o_set s' = o_set s; k_chan : o_chan s' = o_chan s;
  k_up : forall i, i <> j -> o_up s' i = o_up s i; k_rx : forall i z, i <> j -> o_rx s' (i, z) = o_rx s (i, z) }.
Lemma kept_refl j s : kept j s s. Proof. done. Qed.
Lemma kept_trans j s1 s2 s3 : kept j s1 s2 -> kept j s2 s3 -> kept j s1 s3.
Proof.
  intros [] []. split; try congruence.
  - intros i Hi. rewrite k_up1 by done. by apply k_up0.
  - intros i z Hi. rewrite k_rx1 by done. by apply k_rx0.
Qed.
Section finishing.
Context (N : objs) (J : joined N).
Implicit Types (e : nat * nat).
Lemma hear_all n j s : length (o_rx s (j, 0%Z)) <= n ->
  exists ms s', orun N s ms s' /\ Forall own ms /\ o_rx s' (j, 0%Z) = [] /\ o_up s' = o_up s /\ kept j s s'.
Proof.
  revert s. induction n as [|n IH]; intros s Hn.
  { exists [], s. split; [constructor|]. split; [constructor|]. split; [by destruct (o_rx s (j, 0%Z)); simpl in Hn; [|lia]|]. split; [done|apply kept_refl]. }
  destruct (o_rx s (j, 0%Z)) as [|m q] eqn:E.
  { exists [], s. split; [constructor|]. split; [constructor|]. split; [done|]. split; [done|apply kept_refl]. }
  destruct s as [tx hd se ss ch up rx sn]. simpl in *.
  destruct (IH (Ost tx hd se ss ch up (<[(j, 0%Z) := q]> rx) (sn ++ [(j, (0%Z, m))]))) as (ms & s' & R & F & X & U & K).
  { simpl. rewrite fn_lookup_insert. lia. }
  exists (OListen j 0 :: ms), s'. split; [eapply orun_cons; [by apply ok_listen|done]|]. split; [by constructor|].
  split; [done|]. split; [done|]. eapply kept_trans; [|done]. split; try done. simpl. intros i z Hi. rewrite fn_lookup_insert_ne; congruence.
Qed.
Lemma flush n j s : 0 < ob_rxcap N -> Forall (fun p => fst p = 0%Z) (o_up s j) -> length (o_up s j) <= n ->
  exists ms s', orun N s ms s' /\ Forall own ms /\ o_rx s' (j, 0%Z) = [] /\ o_up s' j = [] /\ kept j s s'.
Proof.
  intros Hc. revert s. induction n as [|n IH]; intros s Z Hn.
  all: destruct (hear_all _ j s (le_n _)) as (ms1 & s1 & R1 & F1 & X1 & U1 & K1).
  { exists ms1, s1. split_and!; try done. rewrite U1. by destruct (o_up s j); simpl in Hn; [|lia]. }
  destruct (o_up s j) as [|[z m] q] eqn:E.
  { exists ms1, s1. split_and!; try done. by rewrite U1. }
  assert (z = 0%Z) as -> by (by inversion Z).
  destruct s1 as [tx hd se ss ch up rx sn]. simpl in *. subst up.
  destruct (IH (Ost tx hd se ss ch (<[j := q]> (o_up s)) (<[(j, 0%Z) := rx (j, 0%Z) ++ [m]]> rx) sn)) as (ms & s' & R & F & X & U & K).
  { simpl. rewrite fn_lookup_insert. by inversion Z. }
  { simpl. rewrite fn_lookup_insert. lia. }
  exists (ms1 ++ OGive j :: ms), s'. split; [eapply orun_app; [done|]; eapply orun_cons; [|done]; eapply ok_give; [done|by rewrite X1]|].
  split; [apply Forall_app; split; [done|by constructor]|]. split; [done|]. split; [done|].
  eapply kept_trans; [done|]. eapply kept_trans; [|done]. split; try done; simpl.
  - intros i Hi. by rewrite fn_lookup_insert_ne.
  - intros i z Hi. rewrite fn_lookup_insert_ne; congruence.
Qed.

(** What the invariant says of both directions. *)
Definition fine (s : ost) : Prop :=
  (forall e, o_set s e <> [] -> o_hand s e = None) /\ (forall j z, z <> 0%Z -> o_rx s (j, z) = []) /\
  forall j, Forall (fun p => fst p = 0%Z) (o_up s j).
Lemma fine_run s ls s' : fine s -> orun N s ls s' -> fine s'.
Proof.
  intros Hf. induction 1 as [|ls s1 l s2 R (F1 & F2 & F3) H]; [done|]. clear Hf.
  inversion H; subst; simpl in *; (split; [|split]); simpl; try done.
  - intros e' He. destruct (decide (e = e')) as [<-|Hn]; [done|]. rewrite fn_lookup_insert_ne by done. by apply F1.
  - intros e' He. destruct (decide (e = e')) as [<-|Hn]; [by rewrite fn_lookup_insert|].
    rewrite fn_lookup_insert_ne in He by done. rewrite fn_lookup_insert_ne by done. by apply F1.
  - intros e' He. destruct (decide (e = e')) as [<-|Hn]; [apply F1; congruence|]. rewrite fn_lookup_insert_ne in He by done. by apply F1.
  - intros j'. destruct (decide (j = j')) as [<-|Hn]; [|rewrite fn_lookup_insert_ne by done; apply F3].
    rewrite fn_lookup_insert. erewrite (receive_shows N J) by done. by constructor.
  - intros e' He. destruct (decide (e = e')) as [<-|Hn]; [apply F1; congruence|]. rewrite fn_lookup_insert_ne in He by done. by apply F1.
  - intros j'. destruct (decide (j = j')) as [<-|Hn]; [|rewrite fn_lookup_insert_ne by done; apply F3].
    rewrite fn_lookup_insert. erewrite (receive_shows N J) by done. by constructor.
  - pose proof (F3 j) as G. rewrite H0 in G. inversion G; subst. simpl in *. subst z.
    intros j' z Hz. rewrite fn_lookup_insert_ne by congruence. by apply F2.
  - intros j'. destruct (decide (j = j')) as [<-|Hn]; [|rewrite fn_lookup_insert_ne by done; apply F3].
    rewrite fn_lookup_insert. pose proof (F3 j) as G. rewrite H0 in G. by inversion G.
  - intros j' z' Hz. destruct (decide ((j, z) = (j', z'))) as [E|Hn].
    + injection E as <- <-. rewrite F2 in H0 by done. done.
    + rewrite fn_lookup_insert_ne by done. by apply F2.
Qed.
Lemma fine_start ss : fine (new_objs ss).
Proof. split; [done|]. split; [done|]. intros j. constructor. Qed.

(** Stack [j] empties its channel. *)
Lemma read_on n j s : 0 < ob_rxcap N -> fine s -> length (o_chan s (ob_server N j)) <= n ->
  exists ms s', orun N s ms s' /\ Forall own ms /\ o_rx s' (j, 0%Z) = [] /\ o_up s' j = [] /\ o_chan s' (ob_server N j) = [] /\
    o_chan s' (negb (ob_server N j)) = o_chan s (negb (ob_server N j)) /\
    o_tx s' = o_tx s /\ o_hand s' = o_hand s /\ o_set s' = o_set s /\
    forall i, i <> j -> o_up s' i = o_up s i /\ forall z, o_rx s' (i, z) = o_rx s (i, z).
Proof.
  intros Hc. revert s. induction n as [|n IH]; intros s Fi Hn.
  all: destruct (flush _ j s Hc (proj2 (proj2 Fi) j) (le_n _)) as (ms1 & s1 & R1 & F1 & X1 & U1 & K1); pose proof K1 as [].
  { exists ms1, s1. split_and!; try done; try congruence; [|intros i Hi; split; [by apply k_up0|by intros; apply k_rx0]].
    rewrite k_chan0. by destruct (o_chan s (ob_server N j)); simpl in Hn; [|lia]. }
  destruct (o_chan s (ob_server N j)) as [|m q] eqn:E.
  { exists ms1, s1. split_and!; try done; try congruence. intros i Hi. split; [by apply k_up0|by intros; apply k_rx0]. }
  pose proof (fine_run _ _ _ Fi R1) as Fi1. destruct s1 as [tx hd se ss ch up rx sn]. simpl in *.
  destruct (receive_can N J j m (ss j)) as (outs & s2 & Hf).
  assert (ostep N (Ost tx hd se ss ch up rx sn) (OGet j)
    (Ost tx hd se (<[j := s2]> ss) (<[ob_server N j := q]> ch) (<[j := delivered outs]> up) rx sn)) as Hs.
  { eapply ok_get; [done|by rewrite k_chan0|done]. }
  pose proof (fine_run _ _ _ Fi1 (orun_one _ _ _ _ Hs)) as Fi2.
  destruct (IH _ Fi2) as (ms & s' & R & F & X & U & C & C' & T & D & S & O).
  { simpl. rewrite fn_lookup_insert. simpl in Hn. lia. }
  simpl in *. rewrite fn_lookup_insert_ne in C' by (by destruct (ob_server N j)).
  exists (ms1 ++ OGet j :: ms), s'. split; [eapply orun_app; [done|]; by eapply orun_cons|].
  split; [apply Forall_app; split; [done|by constructor]|]. split_and!; try done; try congruence.
  intros i Hi. destruct (O i Hi) as [O1 O2]. rewrite fn_lookup_insert_ne in O1 by done. split; [rewrite O1; by apply k_up0|].
  intros z. rewrite O2. by apply k_rx0.
Qed.
(** Endpoint [e] sends everything to stack [j]. *)
Lemma send_on n e j s : 0 < ob_rxcap N -> fine s -> ob_server N j = negb (ob_server N (fst e)) -> length (held e s) <= n ->
  exists ms s', orun N s ms s' /\ Forall own ms /\ held e s' = [] /\ (forall e', e' <> e -> held e' s' = held e' s) /\
    forall i, i <> j -> o_up s' i = o_up s i /\ forall z, o_rx s' (i, z) = o_rx s (i, z).
Proof.
  intros Hc. revert s. induction n as [|n IH]; intros s Fi Hj Hn.
  { exists [], s. split; [constructor|]. split; [constructor|]. split; [by destruct (held e s); simpl in Hn; [|lia]|done]. }
  destruct (held e s) as [|m r] eqn:Eh.
  { exists [], s. split; [constructor|]. by split; [constructor|]. }
  assert (exists ms s1 q, orun N s ms s1 /\ Forall own ms /\ o_set s1 e = m :: q /\ held e s1 = m :: r /\
    (forall e', e' <> e -> held e' s1 = held e' s) /\ (forall i, i <> j -> o_up s1 i = o_up s i /\ forall z, o_rx s1 (i, z) = o_rx s (i, z)))
    as (ms1 & s1 & q & R1 & F1 & S1 & L1 & K1 & O1).
  { destruct (o_set s e) as [|m' q] eqn:Es.
    2: { exists [], s, q. split; [constructor|]. split; [constructor|]. split; [|by split; [|split]].
         unfold held in Eh. rewrite Es in Eh. simpl in Eh. by injection Eh as -> ?. }
    assert (exists ms s1 x, orun N s ms s1 /\ Forall own ms /\ o_set s1 e = [] /\ o_hand s1 e = Some x /\ ml_msg x = m /\ held e s1 = m :: r /\
      (forall e', e' <> e -> held e' s1 = held e' s) /\ o_up s1 = o_up s /\ o_rx s1 = o_rx s) as (ms1 & s1 & x & R1 & F1 & S1 & D1 & M1 & L1 & K1 & U1 & X1).
    { destruct s as [tx hd se ss ch up rx sn]. unfold held in *. simpl in *. rewrite Es in Eh. simpl in Eh. destruct (hd e) as [x|] eqn:Ed.
      - simpl in Eh. injection Eh as Em Er. eexists [], _, x. split; [constructor|]. split; [constructor|]. simpl. rewrite Es, Ed. simpl. by subst.
      - destruct (tx e) as [|x q] eqn:Et; [done|]. simpl in Eh. injection Eh as Em Er. eexists [OTake e], _, x.
        split; [apply orun_one; by eapply ok_take|]. split; [by repeat constructor|]. simpl. rewrite !fn_lookup_insert, Es. simpl. subst.
        split_and!; try done. intros e' He. by rewrite !fn_lookup_insert_ne. }
    destruct s1 as [tx hd se ss ch up rx sn]. unfold held in *. simpl in *. destruct (send_can N J e x (ss (fst e))) as (outs & s2 & Hf).
    eexists (ms1 ++ [OPass e]), _, []. split; [eapply orun_app; [done|]; apply orun_one; by eapply ok_pass|].
    split; [apply Forall_app; split; [done|by repeat constructor]|]. simpl. rewrite !fn_lookup_insert, (send_shows N J e x _ _ _ Hf), M1.
    rewrite S1, D1 in L1. simpl in L1. split; [done|]. split; [by rewrite <- L1, M1|]. split.
    - intros e' He. rewrite !fn_lookup_insert_ne by done. by apply K1.
    - intros i Hi. by subst. }
  pose proof (fine_run _ _ _ Fi R1) as Fi1.
  destruct (read_on _ j s1 Hc Fi1 (le_n _)) as (ms2 & s2 & R2 & F2 & X2 & U2 & C2 & _ & T2 & D2 & S2 & O2).
  pose proof (fine_run _ _ _ Fi1 R2) as Fi2.
  destruct s2 as [tx hd se ss ch up rx sn]. simpl in *. destruct (receive_can N J j m (ss j)) as (outs & s3 & Hf).
  assert (ostep N (Ost tx hd se ss ch up rx sn) (OHand e j)
    (Ost tx hd (<[e := q]> se) (<[j := s3]> ss) ch (<[j := delivered outs]> up) rx sn)) as Hs.
  { eapply ok_hand; [rewrite S2; exact S1|done|done|done|done]. }
  pose proof (fine_run _ _ _ Fi2 (orun_one _ _ _ _ Hs)) as Fi3.
  assert (m :: r = m :: held e (Ost tx hd (<[e := q]> se) (<[j := s3]> ss) ch (<[j := delivered outs]> up) rx sn)) as Er.
  { unfold held in L1 |- *. simpl. rewrite fn_lookup_insert. rewrite S1 in L1. simpl in L1. by rewrite T2, D2, L1. }
  injection Er as Er. destruct (IH _ Fi3 Hj) as (ms & s' & R & F & U & K & O).
  { rewrite <- Er. simpl in Hn. lia. }
  exists (ms1 ++ ms2 ++ OHand e j :: ms), s'.
  split; [eapply orun_app; [done|]; eapply orun_app; [done|]; by eapply orun_cons|].
  split; [apply Forall_app; split; [done|]; apply Forall_app; split; [done|by constructor]|]. split; [done|]. split.
  - intros e' He. rewrite K, <- K1 by done. unfold held. simpl. rewrite fn_lookup_insert_ne by done. by rewrite T2, D2, S2.
  - intros i Hi. destruct (O i Hi) as [A1 A2], (O2 i Hi) as [B1 B2], (O1 i Hi) as [E1 E2]. simpl in *.
    rewrite fn_lookup_insert_ne in A1 by done. split; [congruence|]. intros z. by rewrite A2, B2, E2.
Qed.
Context (rd : bool -> nat) (Hrd : forall b, ob_server N (rd b) = b).
Lemma send_everybody_on (es : list (nat * nat)) s : 0 < ob_rxcap N -> fine s ->
  exists ms s', orun N s ms s' /\ Forall own ms /\ (forall e, e ∈ es \/ held e s = [] -> held e s' = []) /\
    forall i, (forall b, i <> rd b) -> o_up s' i = o_up s i /\ forall z, o_rx s' (i, z) = o_rx s (i, z).
Proof.
  intros Hc. revert s. induction es as [|e es IH]; intros s Fi.
  { exists [], s. split; [constructor|]. split; [constructor|]. split; [|done]. intros e [He|He]; [by apply elem_of_nil in He|done]. }
  destruct (send_on _ e (rd (negb (ob_server N (fst e)))) s Hc Fi (Hrd _) (le_n _)) as (ms1 & s1 & R1 & F1 & U1 & K1 & O1).
  destruct (IH s1) as (ms2 & s2 & R2 & F2 & U2 & O2); [by eapply fine_run|].
  exists (ms1 ++ ms2), s2. split; [by eapply orun_app|]. split; [by apply Forall_app|]. split.
  - intros e' He. apply U2. destruct (decide (e' = e)) as [->|Hn]; [by right|]. rewrite K1 by done.
    destruct He as [He|He]; [|by right]. apply elem_of_cons in He as [->|He]; [done|by left].
  - intros i Hi. destruct (O1 i (Hi _)) as [A1 A2], (O2 i Hi) as [B1 B2]. split; [congruence|]. intros z. by rewrite B2, A2.
Qed.
Definition empty_at (i : nat) (s : ost) : Prop := o_up s i = [] /\ o_rx s (i, 0%Z) = [].
Lemma flush_everybody (js : list nat) s : 0 < ob_rxcap N -> fine s ->
  exists ms s', orun N s ms s' /\ Forall own ms /\ o_tx s' = o_tx s /\ o_hand s' = o_hand s /\ o_set s' = o_set s /\ o_chan s' = o_chan s /\
    forall i, i ∈ js \/ empty_at i s -> empty_at i s'.
Proof.
  intros Hc. revert s. induction js as [|j js IH]; intros s Fi.
  { exists [], s. split; [constructor|]. split; [constructor|]. split_and!; try done. intros i [Hi|Hi]; [by apply elem_of_nil in Hi|done]. }
  destruct (flush _ j s Hc (proj2 (proj2 Fi) j) (le_n _)) as (ms1 & s1 & R1 & F1 & X1 & U1 & K1). pose proof K1 as [].
  destruct (IH s1) as (ms2 & s2 & R2 & F2 & T2 & D2 & S2 & C2 & E2); [by eapply fine_run|].
  exists (ms1 ++ ms2), s2. split; [by eapply orun_app|]. split; [by apply Forall_app|]. split_and!; try congruence.
  intros i Hi. apply E2. destruct (decide (i = j)) as [->|Hn]; [right; by split|].
  destruct Hi as [Hi|[Hi1 Hi2]]; [apply elem_of_cons in Hi as [->|Hi]; [done|by left]|].
  right. split; [rewrite k_up0|rewrite k_rx0]; done.
Qed.
(** The endpoints and stacks that a run has touched. *)
Definition senders (ls : list olab) : list (nat * nat) := omap (fun l => match l with OPut e _ => Some e | _ => None end) ls.
Definition receivers (ls : list olab) : list nat := omap (fun l => match l with OGet j | OHand _ j => Some j | _ => None end) ls.
Lemma untouched ss ls s : orun N (new_objs ss) ls s ->
  (forall e, e ∉ senders ls -> held e s = []) /\ forall i, i ∉ receivers ls -> empty_at i s.
Proof.
  intros R. split.
  - intros e He. destruct (oinv_reach N J (negb (ob_server N (fst e))) ss ls s R) as (o & I).
    pose proof (v_from _ _ _ _ _ I e) as G. rewrite negb_involutive in G. specialize (G eq_refl).
    assert (entrusted e ls = []) as E; [|rewrite E in G; by apply app_eq_nil in G as [_ ?]].
    clear -He. induction ls as [|l ls IH]; [done|]. destruct l; simpl in *; try (by apply IH).
    unfold entrusted. simpl. unfold senders in He. simpl in He. apply not_elem_of_cons in He as [H1 H2].
    rewrite decide_False by done. by apply IH.
  - induction R as [|ls s1 l s2 R IH H]; [done|]. intros i Hi. unfold receivers in Hi. rewrite omap_app' in Hi.
    apply not_elem_of_app in Hi as [Hi1 Hi2]. destruct (IH i Hi1) as [G1 G2].
    inversion H; subst; simpl in *; split; simpl; try done.
    + rewrite fn_lookup_insert_ne; [done|]. intros ->. apply Hi2. by left.
    + rewrite fn_lookup_insert_ne; [done|]. intros ->. apply Hi2. by left.
    + rewrite fn_lookup_insert_ne; [done|]. intros ->. congruence.
    + destruct (decide (i = j)) as [->|Hn]; [congruence|]. rewrite fn_lookup_insert_ne; [done|]. congruence.
    + destruct (decide ((i, 0%Z) = (j, z))) as [E|Hn]; [injection E as <- <-; congruence|]. by rewrite fn_lookup_insert_ne.
Qed.
Lemma objs_finish ss ls s : 0 < ob_rxcap N -> orun N (new_objs ss) ls s ->
  exists ms s', orun N s ms s' /\ Forall own ms /\ at_rest s' /\ all_gone s'.
Proof.
  intros Hc R. pose proof (fine_run _ _ _ (fine_start ss) R) as Fi.
  destruct (untouched ss ls s R) as [Hu1 Hu2].
  destruct (send_everybody_on (senders ls) s Hc Fi) as (ms1 & s1 & R1 & F1 & U1 & O1). pose proof (fine_run _ _ _ Fi R1) as Fi1.
  destruct (read_on _ (rd true) s1 Hc Fi1 (le_n _)) as (ms2 & s2 & R2 & F2 & X2 & V2 & C2 & C2' & T2 & D2 & S2 & O2). pose proof (fine_run _ _ _ Fi1 R2) as Fi2.
  destruct (read_on _ (rd false) s2 Hc Fi2 (le_n _)) as (ms3 & s3 & R3 & F3 & X3 & V3 & C3 & C3' & T3 & D3 & S3 & O3). pose proof (fine_run _ _ _ Fi2 R3) as Fi3.
  destruct (flush_everybody (rd true :: rd false :: receivers ls) s3 Hc Fi3) as (ms4 & s4 & R4 & F4 & T4 & D4 & S4 & C4 & E4).
  pose proof (fine_run _ _ _ Fi3 R4) as (_ & Z4 & _).
  exists (ms1 ++ ms2 ++ ms3 ++ ms4), s4. split; [by do 3 (eapply orun_app; [done|])|]. split; [by repeat (apply Forall_app; split)|].
  rewrite Hrd in C2, C3, C3', C2'. simpl in *.
  assert (forall i, empty_at i s4) as G.
  { intros i. destruct (decide (i ∈ rd true :: rd false :: receivers ls)) as [Hi|Hi]; [apply E4; by left|].
    apply not_elem_of_cons in Hi as [H1 Hi]. apply not_elem_of_cons in Hi as [H2 Hi]. apply E4. right.
    destruct (Hu2 i Hi) as [A1 A2]. destruct (O1 i) as [B1 B2]; [by intros []|]. destruct (O2 i H1) as [D1 D1']. destruct (O3 i H2) as [G1 G2].
    split; congruence. }
  split; [split; [|split]|].
  - intros []; rewrite C4; [|done]. by rewrite C3'.
  - intros j. apply G.
  - intros j z. destruct (decide (z = 0%Z)) as [->|Hz]; [apply G|by apply Z4].
  - intros e. assert (held e s4 = held e s1) as -> by (unfold held; by rewrite S4, S3, S2, D4, D3, D2, T4, T3, T2).
    apply U1. destruct (decide (e ∈ senders ls)); [by left|right; by apply Hu1].
Qed.
End finishing.

(** ** Anyone on the other side may get it *)
Lemma anyone N s e x j : joined N -> 0 < ob_txcap N -> 0 < ob_rxcap N -> at_rest s -> all_gone s ->
  ob_server N j = negb (ob_server N (fst e)) ->
  exists ms s', orun N s (OPut e x :: ms) s' /\ Forall own ms /\ at_rest s' /\ all_gone s' /\
    listened j 0 s' = listened j 0 s ++ [ml_msg x] /\ forall i z, (i, z) <> (j, 0%Z) -> listened i z s' = listened i z s.
Proof.
  intros J Ht Hr (C & U & X) G Hj. destruct s as [tx hd se ss ch up rx sn]. simpl in *.
  assert (se e = [] /\ hd e = None /\ tx e = []) as (G1 & G2 & G3).
  { specialize (G e). unfold held in G. simpl in G. apply app_eq_nil in G as [G1 G]. destruct (hd e); [done|]. split; [done|].
    split; [done|]. simpl in G. by apply fmap_nil_inv in G. }
  destruct (send_can N J e x (ss (fst e))) as (o1 & s1 & H1). pose proof (send_shows N J _ _ _ _ _ H1) as E1.
  destruct (receive_can N J j (ml_msg x) ((<[fst e := s1]> ss) j)) as (o2 & s2 & H2). pose proof (receive_shows N J _ _ _ _ _ H2) as E2.
  eexists [OTake e; OPass e; OHand e j; OGive j; OListen j 0], _. split; [|split; [by repeat constructor|]].
  { eapply orun_cons; [apply ok_put; by rewrite G3|].
    eapply orun_cons; [eapply ok_take; [done|done|by rewrite fn_lookup_insert, G3]|].
    eapply orun_cons; [eapply ok_pass; [by rewrite fn_lookup_insert|exact H1]|].
    eapply orun_cons; [eapply ok_hand; [rewrite fn_lookup_insert; exact E1|done|done|done|exact H2]|].
    eapply orun_cons; [eapply ok_give; [rewrite fn_lookup_insert; exact E2|by rewrite X]|].
    apply orun_one. eapply ok_listen. rewrite fn_lookup_insert, X. done. }
  split; [split; [done|split]|split; [|split]].
  - intros i. simpl. destruct (decide (j = i)) as [<-|Hn]; [by rewrite fn_lookup_insert|]. rewrite !fn_lookup_insert_ne by done. apply U.
  - intros i z. simpl. destruct (decide ((j, 0%Z) = (i, z))) as [E|Hn]; [rewrite E, fn_lookup_insert; done|]. rewrite !fn_lookup_insert_ne by done. apply X.
  - intros e'. specialize (G e'). unfold held in *. simpl in *. destruct (decide (e = e')) as [<-|Hn].
    + by rewrite !fn_lookup_insert.
    + by rewrite !fn_lookup_insert_ne.
  - rewrite listened_app. simpl. rewrite decide_True by (by split). done.
  - intros i z Hn. rewrite listened_app. simpl. rewrite decide_False by (intros [<- <-]; done). by rewrite app_nil_r.
Qed.

(** ** Capacities *)
Lemma objs_bounded N ss ls s : orun N (new_objs ss) ls s ->
  (forall e, length (o_tx s e) <= ob_txcap N) /\ (forall b, length (o_chan s b) <= ob_cap N) /\ forall e, length (o_rx s e) <= ob_rxcap N.
Proof.
  induction 1 as [|ls s1 l s2 H (I1 & I2 & I3) Hst]; [simpl; split_and!; lia|].
  assert (forall {K} `{EqDecision K} {X} (f : K -> list X) (k : K) (l : list X) n, (forall x, length (f x) <= n) -> length l <= n -> forall x, length ((<[k := l]> f) x) <= n) as Hput.
  { intros K ? X f k l' n Hf Hl x. destruct (decide (x = k)) as [->|Hx]; [by rewrite fn_lookup_insert|by rewrite fn_lookup_insert_ne]. }
  assert (forall {X} (f : list X) x q n, length f <= n -> f = x :: q -> length q <= n) as Hpop by (intros X f x q n Hl ->; simpl in Hl; lia).
  destruct Hst; simpl in *; split_and!; try done; apply Hput; try done; try (rewrite app_length; simpl; lia); by eapply Hpop.
Qed.
