(** * Proofs about the endpoints of a stack with a Loopback *)
From stdpp Require Import sets list.
From Verif Require Import GoBase UBufModel FrameModel StackModel StackSpec StackFacts StackEffects LoopModel LoopSpec.
From Verif Require Import NetProofs.

Section facts.
Context (L : lop) (k : kind) (Lo : looped L k).
Notation run := (lrun L).

Lemma lrun_app s ls s1 ms s2 : run s ls s1 -> run s1 ms s2 -> run s (ls ++ ms) s2.
Proof. intros H1. induction 1; [by rewrite app_nil_r|]. rewrite app_assoc. by econstructor. Qed.
Lemma lrun_one s l s1 : lstep L s l s1 -> run s [l] s1.
Proof. intros H. change [l] with ([] ++ [l]). econstructor; [constructor|done]. Qed.
Lemma lrun_cons s l s1 ls s2 : lstep L s l s1 -> run s1 ls s2 -> run s (l :: ls) s2.
Proof. intros H1 H2. change (l :: ls) with ([l] ++ ls). eapply lrun_app; [by apply lrun_one|done]. Qed.

Lemma put_to_app e ls ms : put_to e (ls ++ ms) = put_to e ls ++ put_to e ms.
Proof. apply omap_app. Qed.
Lemma put_none e ls l : put_by e l = None -> put_to e (ls ++ [l]) = put_to e ls.
Proof. intros E. rewrite put_to_app. unfold put_to at 2. simpl. rewrite E. apply app_nil_r. Qed.
Lemma from_app e o o' : from e (o ++ o') = from e o ++ from e o'.
Proof. apply omap_app. Qed.
Lemma meant_app z o o' : meant_for L z (o ++ o') = meant_for L z o ++ meant_for L z o'.
Proof. apply omap_app. Qed.
Lemma from_one e f x : from e [(f, x)] = if decide (f = e) then [x] else [].
Proof. unfold from. simpl. by case_decide. Qed.
Lemma meant_one z f x : meant_for L z [(f, x)] = if decide (goes_to L f x = z) then [pc_msg x] else [].
Proof. unfold meant_for. simpl. by case_decide. Qed.

(** What the call through the processors does. *)
Definition drops (e : nat) (x : parcel) : list (Z * msg) :=
  if decide (goes_to L e x ∈ e_sessions (lenv L)) then [(goes_to L e x, pc_msg x)] else [].
Lemma pass_possible e x s : returnable L k x ->
  exists outs s', finishes (fun f => send f (lenv L) (lsess L e) (pc_dest x) (pc_conn x) (Some (pc_msg x)) s) s outs s' /\
    omap is_delivery outs = drops e x /\ omap no_delivery outs = [].
Proof.
  intros [(l & H1 & H2 & H3 & H4) Hx].
  assert (exists s', finishes (fun f => send f (lenv L) (lsess L e) (pc_dest x) (pc_conn x) (Some (pc_msg x)) s) s
    (shown (lenv L) (dest_of (lsess L e) (pc_dest x)) (pc_conn x) (pc_msg x)) s') as (s' & F).
  { assert (over L k [] -> exists s', finishes (fun f => send f (lenv L) (lsess L e) (pc_dest x) (pc_conn x) (Some (pc_msg x)) s) s
      (shown (lenv L) (dest_of (lsess L e) (pc_dest x)) (pc_conn x) (pc_msg x)) s') as Hd.
    { intros (ids & pre & en & rest & W & Hp).
      exact (loopback_direct _ _ _ _ _ _ (lsess L e) (pc_dest x) (pc_conn x) _ _ _ s W Hp H1 H2 H3 H4). }
    destruct Lo as [D|(ps & (ids & pre & en & rest & W & Hp) & Hc & Hf & Hm & Hs)]; [by apply Hd|].
    destruct Hx as [D|[(c & -> & Hr) Hz]]; [by apply Hd|].
    destruct (loopback_below _ _ _ _ _ _ _ (lsess L e) (pc_dest x) c _ _ _ s W Hp Hc H1 H2 H3 Hr H4 Hm) as (s' & F & _).
    - intros i cap en' E. by apply Hf in E.
    - unfold dest_of. destruct (pc_dest x) as [z|]; [by apply Hz|apply Hs].
    - by exists s'. }
  eexists _, s'. split; [exact F|]. unfold shown, drops, goes_to. by case_decide.
Qed.
Lemma pass_only e x s outs s' : returnable L k x ->
  finishes (fun f => send f (lenv L) (lsess L e) (pc_dest x) (pc_conn x) (Some (pc_msg x)) s) s outs s' ->
  omap is_delivery outs = drops e x /\ omap no_delivery outs = [].
Proof.
  intros H F. destruct (pass_possible e x s H) as (o2 & s2 & F2 & E1 & E2).
  destruct (finishes_unique _ _ _ _ _ _ F F2) as [-> ->]. done.
Qed.

Lemma put_grows e ls ms : put_to e ls <> [] -> put_to e (ls ++ ms) <> [].
Proof. rewrite put_to_app. by destruct (put_to e ls). Qed.

(** ** The invariant *)
Record linv (ls : list llab) (s : lst) (o : list (nat * parcel)) : Prop := {
  lv_sent e : from e o ++ waiting e s = put_to e ls;
  lv_told z : z ∈ e_sessions (lenv L) -> told z s ++ o_rx s z = meant_for L z o;
  lv_none z : z ∉ e_sessions (lenv L) -> o_rx s z = [];
  lv_up e x ds : o_hand s e = HUp x ds -> ds = [] \/ ds = [(goes_to L e x, pc_msg x)] /\ goes_to L e x ∈ e_sessions (lenv L);
  lv_low : o_low s = [];
  lv_busy e : o_hand s e <> HIdle -> put_to e ls <> [] }.
Lemma linv_start a : linv [] (new_loop a) [].
Proof. split; try done. Qed.
Lemma waiting_ok ls s o e x : linv ls s o -> all_returnable L k ls -> o_hand s e = HTook x -> returnable L k x.
Proof.
  intros I A E. apply (A e). rewrite <- (lv_sent _ _ _ I e). apply elem_of_app. right. unfold waiting. rewrite E. simpl. left.
Qed.
Lemma waiting_other e s s' : o_hand s' e = o_hand s e -> o_tx s' e = o_tx s e -> waiting e s' = waiting e s.
Proof. unfold waiting. by intros -> ->. Qed.
Lemma told_snoc z tx hd a rx td sn lo tx' hd' a' rx' td' lo' z' m :
  told z (Lst tx hd a rx td (sn ++ [(z', m)]) lo) = told z (Lst tx' hd' a' rx' td' sn lo') ++ (if decide (z' = z) then [m] else []).
Proof. unfold told. simpl. rewrite omap_app. f_equal. simpl. by case_decide. Qed.

Lemma linv_step ls s o l s' : linv ls s o -> all_returnable L k (ls ++ [l]) -> lstep L s l s' -> exists o', linv (ls ++ [l]) s' o'.
Proof.
  intros I A Hs. assert (all_returnable L k ls) as A0.
  { intros e x Hx. apply (A e). rewrite put_to_app. apply elem_of_app. by left. }
  inversion Hs; subst; pose proof I as [I1 I2 I3 I4 I5 I6]; simpl in *.
  - exists o. split; simpl; try done; try (by intros ??; apply put_grows, I6). intros e'. rewrite put_to_app, <- I1, <- app_assoc. f_equal. unfold put_to, waiting. simpl.
    destruct (decide (e = e')) as [->|Hn].
    + rewrite fn_lookup_insert, <- app_assoc. done.
    + by rewrite fn_lookup_insert_ne, app_nil_r.
  - exists o. split; simpl; try done; try (by intros ??; apply put_grows, I6).
    + intros e'. rewrite put_none, <- I1 by done. f_equal. unfold waiting. simpl. destruct (decide (e = e')) as [->|Hn].
      * rewrite !fn_lookup_insert, H, H0. done.
      * by rewrite !fn_lookup_insert_ne.
    + intros e' y ds E. destruct (decide (e = e')) as [->|Hn]; [by rewrite fn_lookup_insert in E|].
      rewrite fn_lookup_insert_ne in E by done. by eapply I4.
    + intros e' Hb. apply put_grows. destruct (decide (e = e')) as [->|Hn].
      * rewrite <- I1. unfold waiting. simpl. rewrite H, H0. by destruct (from e' o).
      * apply I6. by rewrite fn_lookup_insert_ne in Hb.
  - assert (returnable L k x) as Hr by (by eapply waiting_ok).
    destruct (pass_only _ _ _ _ _ Hr H0) as [E1 E2]. rewrite E1, E2, app_nil_r.
    exists (if decide (goes_to L e x ∈ e_sessions (lenv L)) then o else o ++ [(e, x)]). split; simpl.
    + intros e'. rewrite put_none, <- I1 by done. unfold waiting, drops. simpl. destruct (decide (e = e')) as [->|Hn].
      * rewrite !fn_lookup_insert, H. case_decide; [done|]. rewrite from_app, from_one, decide_True by done. by rewrite <- app_assoc.
      * rewrite !fn_lookup_insert_ne by done. case_decide; [done|]. rewrite from_app, from_one, decide_False by done. by rewrite app_nil_r.
    + intros z Hz. case_decide as D; [exact (I2 z Hz)|]. rewrite meant_app, meant_one, decide_False by congruence. rewrite app_nil_r. exact (I2 z Hz).
    + done.
    + intros e' y ds E. destruct (decide (e = e')) as [->|Hn].
      * rewrite fn_lookup_insert in E. injection E as <- <-. unfold drops. case_decide; [right|left]; done.
      * rewrite fn_lookup_insert_ne in E by done. by eapply I4.
    + done.
    + intros e' Hb. apply put_grows, I6. destruct (decide (e = e')) as [->|Hn]; [by rewrite H|]. by rewrite fn_lookup_insert_ne in Hb.
  - destruct (I4 _ _ _ H) as [?|[Ed Hz]]; [done|]. injection Ed as -> -> ->.
    exists (o ++ [(e, x)]). split; simpl.
    + intros e'. rewrite put_none, <- I1, from_app, from_one, <- app_assoc by done. f_equal. unfold waiting. simpl.
      destruct (decide (e = e')) as [->|Hn].
      * rewrite !fn_lookup_insert, H. done.
      * by rewrite !fn_lookup_insert_ne.
    + intros z Hz'. rewrite meant_app, meant_one, <- (I2 z Hz'). change (told z _) with (omap (fun p => if decide (fst p = z) then Some (snd p) else None) sn) at 1.
      change (told z _) with (omap (fun p => if decide (fst p = z) then Some (snd p) else None) sn).
      rewrite <- app_assoc. f_equal. case_decide as D.
      * rewrite <- D, fn_lookup_insert. done.
      * rewrite fn_lookup_insert_ne by done. by rewrite app_nil_r.
    + intros z Hz'. rewrite fn_lookup_insert_ne by congruence. by apply I3.
    + intros e' y ds' E. destruct (decide (e = e')) as [->|Hn].
      * rewrite fn_lookup_insert in E. injection E as <- <-. by left.
      * rewrite fn_lookup_insert_ne in E by done. by eapply I4.
    + done.
    + intros e' Hb. apply put_grows, I6. destruct (decide (e = e')) as [->|Hn]; [by rewrite H|]. by rewrite fn_lookup_insert_ne in Hb.
  - exists o. split; simpl; try done; try (by intros ??; apply put_grows, I6).
    + intros e'. rewrite put_none, <- I1 by done. f_equal. unfold waiting. simpl. destruct (decide (e = e')) as [->|Hn].
      * rewrite !fn_lookup_insert, H. done.
      * by rewrite !fn_lookup_insert_ne.
    + intros e' y ds E. destruct (decide (e = e')) as [->|Hn]; [by rewrite fn_lookup_insert in E|].
      rewrite fn_lookup_insert_ne in E by done. by eapply I4.
    + intros e' Hb. apply put_grows, I6. destruct (decide (e = e')) as [->|Hn]; [by rewrite H|]. by rewrite fn_lookup_insert_ne in Hb.
  - exists o. split; simpl; try done; try (by intros ??; apply put_grows, I6).
    + intros e'. by rewrite put_none, <- I1 by done.
    + intros z' Hz'. rewrite <- (I2 z' Hz'). erewrite (told_snoc z'). rewrite <- app_assoc. f_equal. case_decide as D.
      * subst z'. rewrite fn_lookup_insert, H0. done.
      * by rewrite fn_lookup_insert_ne.
    + intros z' Hz'. destruct (decide (z = z')) as [->|Hn]; [|rewrite fn_lookup_insert_ne by done; by apply I3].
      rewrite (I3 _ Hz') in H0. discriminate.
  - exists o. split; simpl; try done; try (by intros ??; apply put_grows, I6). intros e'. rewrite put_to_app, <- I1, <- app_assoc. f_equal. unfold put_to, waiting. simpl.
    destruct (decide (e = e')) as [->|Hn].
    + rewrite fn_lookup_insert, <- app_assoc. done.
    + by rewrite fn_lookup_insert_ne, app_nil_r.
Qed.
Lemma linv_reach a ls s : run (new_loop a) ls s -> all_returnable L k ls -> exists o, linv ls s o.
Proof.
  induction 1 as [|ls s1 l s2 R IH St]; intros A; [eexists; apply linv_start|].
  destruct IH as [o I]; [|by eapply linv_step]. intros e x Hx. apply (A e). rewrite put_to_app. apply elem_of_app. by left.
Qed.

Lemma loop_in_order a ls s : run (new_loop a) ls s -> all_returnable L k ls ->
  o_low s = [] /\
  exists o, (forall e, from e o ++ waiting e s = put_to e ls) /\
    (forall z, z ∈ e_sessions (lenv L) -> told z s ++ o_rx s z = meant_for L z o).
Proof. intros R A. destruct (linv_reach _ _ _ R A) as [o I]. split; [apply I|]. exists o. split; apply I. Qed.

(** ** Capacities *)
Lemma loop_bounded a ls s : run (new_loop a) ls s -> (forall e, length (o_tx s e) <= ltxcap L) /\ forall z, length (o_rx s z) <= lrxcap L.
Proof.
  induction 1 as [|ls s1 l s2 R [IH1 IH2] St]; [split; simpl; lia|].
  inversion St; subst; simpl in *; split; try done; intros y.
  - destruct (decide (e = y)) as [->|Hn]; [rewrite fn_lookup_insert, app_length; simpl; lia|by rewrite fn_lookup_insert_ne].
  - destruct (decide (e = y)) as [->|Hn]; [|by rewrite fn_lookup_insert_ne].
    rewrite fn_lookup_insert. specialize (IH1 y). rewrite H0 in IH1. simpl in IH1. lia.
  - destruct (decide (z = y)) as [->|Hn]; [rewrite fn_lookup_insert, app_length; simpl; lia|by rewrite fn_lookup_insert_ne].
  - destruct (decide (z = y)) as [->|Hn]; [|by rewrite fn_lookup_insert_ne].
    rewrite fn_lookup_insert. specialize (IH2 y). rewrite H0 in IH2. simpl in IH2. lia.
  - destruct (decide (e = y)) as [->|Hn]; [rewrite fn_lookup_insert, app_length; simpl; lia|by rewrite fn_lookup_insert_ne].
Qed.

(** ** Silent listeners: everything can be delivered *)
Section silent.
Context (Si : silent L).
Definition good (ls : list llab) (s : lst) : Prop :=
  (exists o, linv ls s o) /\ all_returnable L k ls /\ forall z, o_todo s z = [].
Lemma good_step ls s l s' : good ls s -> lstep L s l s' -> own l -> good (ls ++ [l]) s'.
Proof.
  intros ([o I] & A & T) St Ho. assert (forall e, put_to e (ls ++ [l]) = put_to e ls) as E.
  { intros e. apply put_none. destruct l; try done. inversion St; subst. simpl in T. rewrite T in *. done. }
  assert (all_returnable L k (ls ++ [l])) as A'. { intros e x. rewrite E. apply A. }
  split; [by eapply linv_step|]. split; [done|]. intros z. inversion St; subst; simpl in *; try apply T; try done.
  - destruct (decide (z0 = z)) as [->|Hn]; [rewrite fn_lookup_insert; apply Si|rewrite fn_lookup_insert_ne by done; apply T].
  - rewrite T in *. done.
Qed.
Lemma good_run ls s ms s' : good ls s -> run s ms s' -> Forall own ms -> good (ls ++ ms) s'.
Proof.
  intros G R. induction R as [|ms s1 l s2 R IH St]; intros F; [by rewrite app_nil_r|].
  apply Forall_app in F as [F1 F2]. inversion F2; subst. rewrite app_assoc. eapply good_step; [by apply IH|done..].
Qed.
Lemma listen_all z n : forall ls s, good ls s -> length (o_rx s z) = n ->
  exists ms s', run s ms s' /\ Forall own ms /\ o_rx s' z = [] /\ (forall y, o_rx s y = [] -> o_rx s' y = []) /\
    o_tx s' = o_tx s /\ o_hand s' = o_hand s.
Proof.
  induction n as [|n IH]; intros ls s G E.
  - exists [], s. split; [constructor|]. split; [constructor|]. split; [by apply nil_length_inv|]. done.
  - destruct (o_rx s z) as [|m q] eqn:Ez; [done|]. destruct s as [tx hd a rx td sn lo]. simpl in *.
    pose proof (lk_listen L tx hd a rx td sn lo z m q (proj2 (proj2 G) z) Ez) as St.
    destruct (IH _ _ (good_step _ _ _ _ G St Logic.I)) as (ms & s' & R & F & E1 & E2 & E3 & E4); [simpl; rewrite fn_lookup_insert; lia|].
    exists (LListen z :: ms), s'. split; [by eapply lrun_cons|]. split; [by constructor|]. split; [done|]. split; [|done].
    intros y Hy. apply E2. simpl. destruct (decide (z = y)) as [->|Hn]; [congruence|by rewrite fn_lookup_insert_ne].
Qed.
Lemma empty_hand e ls s : 0 < lrxcap L -> good ls s ->
  exists ms s', run s ms s' /\ Forall own ms /\ o_hand s' e = HIdle /\ o_tx s' = o_tx s /\ forall f, f <> e -> o_hand s' f = o_hand s f.
Proof.
  intros Hc. assert (forall ls s x, good ls s -> o_hand s e = HUp x [] ->
    exists ms s', run s ms s' /\ Forall own ms /\ o_hand s' e = HIdle /\ o_tx s' = o_tx s /\ forall f, f <> e -> o_hand s' f = o_hand s f) as B.
  { clear ls s. intros ls s x G E. destruct s as [tx hd a rx td sn lo]. simpl in *.
    exists [LBack e]. eexists. split; [apply lrun_one; by eapply lk_back|]. split; [by repeat constructor|]. simpl.
    split; [apply fn_lookup_insert|]. split; [done|]. intros f Hf. by rewrite fn_lookup_insert_ne. }
  assert (forall ls s x ds, good ls s -> o_hand s e = HUp x ds ->
    exists ms s', run s ms s' /\ Forall own ms /\ o_hand s' e = HIdle /\ o_tx s' = o_tx s /\ forall f, f <> e -> o_hand s' f = o_hand s f) as C.
  { clear ls s. intros ls s x ds G E. destruct (proj1 G) as [o I]. destruct (lv_up _ _ _ I _ _ _ E) as [->|[-> _]]; [by eapply B|].
    destruct (listen_all (goes_to L e x) _ ls s G eq_refl) as (ms & s1 & R1 & F1 & E1 & _ & T1 & D1).
    pose proof (good_run _ _ _ _ G R1 F1) as G1. rewrite <- D1 in E. destruct s1 as [tx hd a rx td sn lo]. simpl in *.
    pose proof (lk_deliver L tx hd a rx td sn lo e x _ _ _ E) as St. rewrite E1 in St. specialize (St Hc).
    destruct (B _ _ x (good_step _ _ _ _ G1 St Logic.I)) as (ms2 & s2 & R2 & F2 & E2 & T2 & D2); [simpl; apply fn_lookup_insert|].
    exists (ms ++ LDeliver e :: ms2), s2. split; [eapply lrun_app; [done|by eapply lrun_cons]|].
    split; [apply Forall_app; split; [done|by constructor]|]. split; [done|]. split; [simpl in T2; congruence|].
    intros f Hf. rewrite (D2 f Hf). simpl. rewrite fn_lookup_insert_ne by done. by rewrite D1. }
  intros G. destruct (o_hand s e) as [|x|x ds] eqn:E.
  - exists [], s. split; [constructor|]. done.
  - destruct (proj1 G) as [o I]. pose proof (waiting_ok _ _ _ _ _ I (proj1 (proj2 G)) E) as Hr.
    destruct s as [tx hd a rx td sn lo]. simpl in *. destruct (pass_possible e x a Hr) as (outs & a' & Fi & _ & _).
    pose proof (lk_pass L tx hd a rx td sn lo e x outs a' E Fi) as St.
    destruct (C _ _ x (omap is_delivery outs) (good_step _ _ _ _ G St Logic.I)) as (ms & s2 & R2 & F2 & E2 & T2 & D2); [simpl; apply fn_lookup_insert|].
    exists (LPass e :: ms), s2. split; [by eapply lrun_cons|]. split; [by constructor|]. split; [done|]. split; [done|].
    intros f Hf. rewrite (D2 f Hf). simpl. by rewrite fn_lookup_insert_ne.
  - by eapply C.
Qed.
Lemma empty_tx e n : forall ls s, 0 < lrxcap L -> good ls s -> length (o_tx s e) = n ->
  exists ms s', run s ms s' /\ Forall own ms /\ o_hand s' e = HIdle /\ o_tx s' e = [] /\
    forall f, f <> e -> o_hand s' f = o_hand s f /\ o_tx s' f = o_tx s f.
Proof.
  induction n as [|n IH]; intros ls s Hc G E; destruct (empty_hand e ls s Hc G) as (ms & s1 & R1 & F1 & E1 & T1 & D1).
  - exists ms, s1. split; [done|]. split; [done|]. split; [done|]. rewrite T1. split; [by apply nil_length_inv|].
    intros f Hf. split; [by apply D1|done].
  - pose proof (good_run _ _ _ _ G R1 F1) as G1. destruct (o_tx s e) as [|x q] eqn:Ex; [done|].
    destruct s1 as [tx hd a rx td sn lo]. simpl in *. rewrite <- T1 in Ex.
    pose proof (lk_take L tx hd a rx td sn lo e x q E1 Ex) as St.
    destruct (IH _ _ Hc (good_step _ _ _ _ G1 St Logic.I)) as (ms2 & s2 & R2 & F2 & E2 & T2 & D2); [simpl; rewrite fn_lookup_insert; lia|].
    exists (ms ++ LTake e :: ms2), s2. split; [eapply lrun_app; [done|by eapply lrun_cons]|].
    split; [apply Forall_app; split; [done|by constructor]|]. split; [done|]. split; [done|].
    intros f Hf. destruct (D2 f Hf) as [D3 D4]. simpl in D3, D4. rewrite fn_lookup_insert_ne in D3 by done. rewrite fn_lookup_insert_ne in D4 by done.
    rewrite D3, D4, T1. split; [by apply D1|done].
Qed.
Lemma empty_everybody (es : list nat) : forall ls s, 0 < lrxcap L -> good ls s ->
  exists ms s', run s ms s' /\ Forall own ms /\
    forall e, e ∈ es \/ (o_hand s e = HIdle /\ o_tx s e = []) -> o_hand s' e = HIdle /\ o_tx s' e = [].
Proof.
  induction es as [|e es IH]; intros ls s Hc G.
  - exists [], s. split; [constructor|]. split; [constructor|]. intros e [He|He]; [by apply elem_of_nil in He|done].
  - destruct (empty_tx e _ ls s Hc G eq_refl) as (ms & s1 & R1 & F1 & E1 & T1 & D1).
    destruct (IH _ s1 Hc (good_run _ _ _ _ G R1 F1)) as (ms2 & s2 & R2 & F2 & E2).
    exists (ms ++ ms2), s2. split; [by eapply lrun_app|]. split; [by apply Forall_app|].
    intros f Hf. apply E2. destruct (decide (f = e)) as [->|Hn]; [by right|]. destruct (D1 f Hn) as [-> ->].
    destruct Hf as [Hf|Hf]; [|by right]. apply elem_of_cons in Hf as [->|Hf]; [done|by left].
Qed.
Lemma listen_everybody (zs : list Z) : forall ls s, good ls s ->
  exists ms s', run s ms s' /\ Forall own ms /\ (forall z, z ∈ zs \/ o_rx s z = [] -> o_rx s' z = []) /\
    o_tx s' = o_tx s /\ o_hand s' = o_hand s.
Proof.
  induction zs as [|z zs IH]; intros ls s G.
  - exists [], s. split; [constructor|]. split; [constructor|]. split; [|done]. intros e [He|He]; [by apply elem_of_nil in He|done].
  - destruct (listen_all z _ ls s G eq_refl) as (ms & s1 & R1 & F1 & E1 & K1 & T1 & D1).
    destruct (IH _ s1 (good_run _ _ _ _ G R1 F1)) as (ms2 & s2 & R2 & F2 & E2 & T2 & D2).
    exists (ms ++ ms2), s2. split; [by eapply lrun_app|]. split; [by apply Forall_app|]. split; [|split; congruence].
    intros y Hy. apply E2. destruct Hy as [Hy|Hy]; [|right; by apply K1]. apply elem_of_cons in Hy as [->|Hy]; [by right|by left].
Qed.
Lemma silent_todo a ls s : run (new_loop a) ls s -> forall z, o_todo s z = [].
Proof.
  induction 1 as [|ls s1 l s2 R IH St]; [done|]. intros y. inversion St; subst; simpl in *; try apply IH.
  - destruct (decide (z = y)) as [->|Hn]; [rewrite fn_lookup_insert; apply Si|rewrite fn_lookup_insert_ne by done; apply IH].
  - rewrite IH in *. done.
Qed.
Lemma loop_finishes a ls s : 0 < lrxcap L -> run (new_loop a) ls s -> all_returnable L k ls ->
  exists ms s', run s ms s' /\ Forall own ms /\ at_rest s'.
Proof.
  intros Hc R A. assert (good ls s) as G. { split; [by eapply linv_reach|]. split; [done|]. by eapply silent_todo. }
  set (es := omap (fun l => match l with LPut e _ | LSend _ e _ => Some e | _ => None end) ls).
  destruct (empty_everybody es ls s Hc G) as (ms & s1 & R1 & F1 & E1). pose proof (good_run _ _ _ _ G R1 F1) as G1.
  destruct (listen_everybody (e_sessions (lenv L)) _ s1 G1) as (ms2 & s2 & R2 & F2 & E2 & T2 & D2).
  pose proof (good_run _ _ _ _ G1 R2 F2) as G2.
  exists (ms ++ ms2), s2. split; [by eapply lrun_app|]. split; [by apply Forall_app|]. split.
  - intros e. rewrite T2, D2. assert (o_hand s1 e = HIdle /\ o_tx s1 e = []) as [? ?]; [|done]. apply E1.
    destruct (decide (e ∈ es)) as [He|He]; [by left|right]. destruct (proj1 G) as [o I].
    assert (put_to e ls = []) as P.
    { apply elem_of_nil_inv. intros x Hx. apply He. unfold put_to in Hx. apply elem_of_list_omap in Hx as (l & Hl & Ex).
      apply elem_of_list_omap. exists l. split; [done|]. destruct l; try done; simpl in Ex; case_decide; congruence. }
    pose proof (lv_sent _ _ _ I e) as E. rewrite P in E. apply app_eq_nil in E as [_ E]. apply app_eq_nil in E as [_ E].
    split; [|done]. destruct (o_hand s e) eqn:Eh; [done|exfalso..]; eapply (lv_busy _ _ _ I e); try done; by rewrite Eh.
  - intros z. split; [|apply G2]. apply E2. destruct (decide (z ∈ e_sessions (lenv L))) as [Hz|Hz]; [by left|right].
    destruct (proj1 G1) as [o1 I1]. by apply (lv_none _ _ _ I1).
Qed.
End silent.

(** ** Listeners that send at most one message each time *)
Section one.
Lemma idle_dec (h : hand) : {h = HIdle} + {h <> HIdle}.
Proof. destruct h; [by left|by right..]. Qed.
Context (On : one_each L).
Lemma sum_other {A} (f g : A -> nat) es e : NoDup es -> e ∈ es -> (forall x, x <> e -> g x = f x) ->
  sum_list_with g es + f e = sum_list_with f es + g e.
Proof.
  intros Hn He Hx. induction es as [|y es IH]; [by apply elem_of_nil in He|]. apply stdpp.list.NoDup_cons in Hn as [Hy Hn].
  apply elem_of_cons in He as [->|He]; simpl.
  - assert (sum_list_with g es = sum_list_with f es) as ->; [|lia]. clear IH Hn.
    induction es as [|z es IH]; [done|]. simpl. rewrite Hx by (intros ->; apply Hy; left). rewrite IH; [done|].
    intros H. apply Hy. by right.
  - rewrite (Hx y) by congruence. specialize (IH Hn He). lia.
Qed.
Lemma sum_more {A} `{EqDecision A} (f : A -> nat) es e : NoDup es ->
  exists es', NoDup es' /\ e ∈ es' /\ sum_list_with f es <= sum_list_with f es'.
Proof.
  intros Hn. destruct (decide (e ∈ es)) as [He|He]; [by exists es|]. exists (e :: es). split; [by constructor|]. split; [left|simpl; lia].
Qed.
Definition at_e (s : lst) (e : nat) : nat := length (waiting e s).
Definition at_z (s : lst) (z : Z) : nat := length (o_rx s z) + length (o_todo s z).
Lemma puts_snoc ls l : user_puts (ls ++ [l]) = user_puts ls + user_puts [l].
Proof. unfold user_puts. by rewrite omap_app, app_length. Qed.
Lemma step_local ls s o l s' : linv ls s o -> lstep L s l s' -> exists e z,
  (forall f, f <> e -> at_e s' f = at_e s f) /\ (forall y, y <> z -> at_z s' y = at_z s y) /\
  (all_returnable L k ls -> at_e s' e + at_z s' z <= at_e s e + at_z s z + user_puts [l]).
Proof.
  intros I St. inversion St; subst; unfold at_e, at_z, waiting, user_puts; simpl in *.
  - exists e, 0%Z. split; [|split].
    + intros f Hf. by rewrite fn_lookup_insert_ne.
    + done.
    + intros _. rewrite fn_lookup_insert, !app_length. simpl. lia.
  - exists e, 0%Z. split; [|split].
    + intros f Hf. by rewrite !fn_lookup_insert_ne.
    + done.
    + intros _. rewrite !fn_lookup_insert, H, H0. simpl. lia.
  - exists e, 0%Z. split; [|split].
    + intros f Hf. by rewrite fn_lookup_insert_ne.
    + done.
    + intros _. rewrite fn_lookup_insert, H. destruct (omap is_delivery outs); simpl; lia.
  - exists e, z. split; [|split].
    + intros f Hf. by rewrite fn_lookup_insert_ne.
    + intros y Hy. by rewrite fn_lookup_insert_ne.
    + intros _. destruct (lv_up _ _ _ I _ _ _ H) as [?|[Ed _]]; [done|]. injection Ed as -> -> ->.
      rewrite !fn_lookup_insert, H, !app_length. simpl. lia.
  - exists e, 0%Z. split; [|split].
    + intros f Hf. by rewrite fn_lookup_insert_ne.
    + done.
    + intros _. rewrite fn_lookup_insert, H. simpl. lia.
  - exists 0, z. split; [done|split].
    + intros y Hy. by rewrite !fn_lookup_insert_ne.
    + intros _. rewrite !fn_lookup_insert, H, H0. pose proof (On z m). simpl. lia.
  - exists e, z. split; [|split].
    + intros f Hf. by rewrite fn_lookup_insert_ne.
    + intros y Hy. by rewrite fn_lookup_insert_ne.
    + intros _. rewrite !fn_lookup_insert, H, !app_length. simpl. lia.
Qed.
Lemma total_bound a ls s : run (new_loop a) ls s -> all_returnable L k ls ->
  forall es zs, NoDup es -> NoDup zs -> sum_list_with (at_e s) es + sum_list_with (at_z s) zs <= user_puts ls.
Proof.
  induction 1 as [|ls s1 l s2 R IH St]; intros A es zs Ne Nz.
  - assert (forall A (xs : list A), sum_list_with (fun _ => 0) xs = 0) as E by (intros B xs; induction xs; simpl; lia).
    change (at_e (new_loop a)) with (fun _ : nat => 0). change (at_z (new_loop a)) with (fun _ : Z => 0). rewrite !E. lia.
  - assert (all_returnable L k ls) as A0. { intros e x Hx. apply (A e). rewrite put_to_app. apply elem_of_app. by left. }
    destruct (linv_reach _ _ _ R A0) as [o I]. destruct (step_local _ _ _ _ _ I St) as (e & z & H1 & H2 & H3).
    destruct (sum_more (at_e s2) es e Ne) as (es' & Ne' & He & Le). destruct (sum_more (at_z s2) zs z Nz) as (zs' & Nz' & Hz & Lz).
    pose proof (sum_other (at_e s1) (at_e s2) es' e Ne' He H1). pose proof (sum_other (at_z s1) (at_z s2) zs' z Nz' Hz H2).
    specialize (IH A0 es' zs' Ne' Nz'). specialize (H3 A0). rewrite puts_snoc. lia.
Qed.
Lemma loop_never_stuck a ls s : 0 < ltxcap L -> 0 < lrxcap L -> run (new_loop a) ls s -> all_returnable L k ls ->
  user_puts ls <= ltxcap L + lrxcap L + 1 -> busy s -> exists l s', own l /\ lstep L s l s'.
Proof.
  intros Ht Hr R A Hp Hb. destruct (linv_reach _ _ _ R A) as [o I].
  pose proof (fun e z => total_bound _ _ _ R A [e] [z] (NoDup_singleton e) (NoDup_singleton z)) as T.
  destruct s as [tx hd a0 rx td sn lo]. unfold at_e, at_z, waiting in T. simpl in *.
  set (P := exists l s', own l /\ lstep L (Lst tx hd a0 rx td sn lo) l s').
  (* a goroutine that has taken a message, if it cannot go on, waits for a full channel *)
  assert (forall e, hd e <> HIdle -> P \/ exists z, lrxcap L <= length (rx z) /\ length (match hd e with HTook x | HUp x (_ :: _) => [x] | _ => [] end) = 1) as H1.
  { intros e He. destruct (hd e) as [|x|x ds] eqn:E; [done| |].
    - left. destruct (pass_possible e x a0) as (outs & a' & F & _); [by eapply (waiting_ok _ _ _ e x I A)|].
      exists (LPass e). eexists. split; [done|]. by eapply lk_pass.
    - destruct ds as [|[z m] ds]; [left; exists (LBack e); eexists; split; [done|by eapply lk_back]|].
      destruct (decide (length (rx z) < lrxcap L)) as [Hl|Hl]; [|right; exists z; simpl; split; [lia|done]].
      left. exists (LDeliver e). eexists. split; [done|by eapply lk_deliver]. }
  (* a message in a receive channel is taken unless the listener still sends *)
  assert (forall z, rx z <> [] -> P \/ td z <> []) as H2.
  { intros z Hz. destruct (td z) eqn:E; [left|by right]. destruct (rx z) as [|m q] eqn:E2; [done|].
    exists (LListen z). eexists. split; [done|by eapply lk_listen]. }
  assert (forall z, lrxcap L <= length (rx z) -> P \/ td z <> []) as H3.
  { intros z Hz. apply H2. intros E. rewrite E in Hz. simpl in Hz. lia. }
  (* a listener that still sends waits for a full channel, whose goroutine waits *)
  assert (forall z, td z <> [] -> P) as H4.
  { intros z Hz. destruct (td z) as [|[e x] q] eqn:E; [done|].
    destruct (decide (length (tx e) < ltxcap L)) as [Hl|Hl].
    { exists (LSend z e x). eexists. split; [done|by eapply lk_send]. }
    destruct (idle_dec (hd e)) as [Hi|Hi].
    { destruct (tx e) as [|y t] eqn:Et; [simpl in Hl; lia|]. exists (LTake e). eexists. split; [done|by eapply lk_take]. }
    destruct (H1 e Hi) as [Hp'|(z' & Hz' & He)]; [done|]. destruct (H3 z' Hz') as [Hp'|Htd]; [done|].
    specialize (T e z'). rewrite app_length, He in T. destruct (td z'); [done|]. simpl in T. lia. }
  assert (forall e, hd e <> HIdle -> P) as H5.
  { intros e He. destruct (H1 e He) as [?|(z & Hz & _)]; [done|]. destruct (H3 z Hz) as [?|Hd]; [done|by eapply H4]. }
  destruct Hb as [(e & [He|He])|(z & [Hz|Hz])]; [|by eapply H5| |by eapply H4].
  - destruct (idle_dec (hd e)) as [Hi|Hi]; [|by eapply H5]. destruct (tx e) as [|x q] eqn:E; [done|].
    exists (LTake e). eexists. split; [done|by eapply lk_take].
  - destruct (H2 z Hz) as [?|Hd]; [done|by eapply H4].
Qed.
End one.

(** ** A listener that sends to its own endpoint *)
Section stuck.
Context (e : nat) (x y : parcel) (q : list (nat * parcel)).
Notation zz := (goes_to L e x).
Context (Hx : returnable L k x) (Hz : zz ∈ e_sessions (lenv L)) (Hre : lreply L zz (pc_msg x) = (e, y) :: q).
Context (Ht : 0 < ltxcap L) (Hc : 0 < lrxcap L).
Lemma one_round tx hd a rx td sn lo : hd e = HIdle -> tx e = [] -> length (rx zz) < lrxcap L ->
  exists hd' tx' a' lo', run (Lst tx hd a rx td sn lo) [LPut e x; LTake e; LPass e; LDeliver e; LBack e]
    (Lst tx' hd' a' (<[zz := rx zz ++ [pc_msg x]]> rx) td sn lo') /\ hd' e = HIdle /\ tx' e = [].
Proof.
  intros Hh Hte Hl. destruct (pass_possible e x a Hx) as (outs & a' & F & E1 & E2).
  unfold drops in E1. rewrite decide_True in E1 by done. do 4 eexists. split.
  - eapply lrun_cons; [apply lk_put; rewrite Hte; simpl; lia|].
    eapply lrun_cons; [eapply lk_take; [done|by rewrite fn_lookup_insert, Hte]|].
    eapply lrun_cons; [eapply lk_pass; [apply fn_lookup_insert|exact F]|]. rewrite E1.
    eapply lrun_cons; [eapply lk_deliver; [apply fn_lookup_insert|done]|].
    apply lrun_one. eapply lk_back. apply fn_lookup_insert.
  - split; apply fn_lookup_insert.
Qed.
Lemma fill_rx n : forall tx hd a rx td sn lo, hd e = HIdle -> tx e = [] -> length (rx zz) + n <= lrxcap L ->
  exists ls hd' tx' a' rx' lo', run (Lst tx hd a rx td sn lo) ls (Lst tx' hd' a' rx' td sn lo') /\ hd' e = HIdle /\ tx' e = [] /\
    length (rx' zz) = length (rx zz) + n /\ user_puts ls = n /\ (forall f w, LPut f w ∈ ls -> f = e /\ w = x).
Proof.
  induction n as [|n IH]; intros tx hd a rx td sn lo Hh Hte Hl.
  - exists [], hd, tx, a, rx, lo. split; [constructor|]. split; [done|]. split; [done|]. split; [lia|]. split; [done|].
    intros f w Hw. by apply elem_of_nil in Hw.
  - destruct (one_round tx hd a rx td sn lo Hh Hte) as (hd1 & tx1 & a1 & lo1 & R1 & Hh1 & Hte1); [lia|].
    destruct (IH tx1 hd1 a1 (<[zz := rx zz ++ [pc_msg x]]> rx) td sn lo1 Hh1 Hte1) as (ls & hd2 & tx2 & a2 & rx2 & lo2 & R2 & Hh2 & Hte2 & El & Ep & Ew);
      [rewrite fn_lookup_insert, app_length; simpl; lia|].
    eexists _, hd2, tx2, a2, rx2, lo2. split; [eapply lrun_app; [exact R1|exact R2]|]. split; [done|]. split; [done|].
    rewrite fn_lookup_insert, app_length in El. simpl in El. split; [lia|]. split.
    + unfold user_puts in *. rewrite omap_app, app_length, Ep. simpl. lia.
    + intros f w Hw. apply elem_of_app in Hw as [Hw|Hw]; [|by apply Ew].
      apply elem_of_list_In in Hw. cbn in Hw. destruct Hw as [Hw|Hw]; [by injection Hw as <- <-|]. exfalso. intuition discriminate.
Qed.
Lemma fill_tx n : forall tx hd a rx td sn lo, length (tx e) + n <= ltxcap L ->
  exists ls tx', run (Lst tx hd a rx td sn lo) ls (Lst tx' hd a rx td sn lo) /\ length (tx' e) = length (tx e) + n /\
    user_puts ls = n /\ (forall f w, LPut f w ∈ ls -> f = e /\ w = x).
Proof.
  induction n as [|n IH]; intros tx hd a rx td sn lo Hl.
  - exists [], tx. split; [constructor|]. split; [lia|]. split; [done|]. intros f w Hw. by apply elem_of_nil in Hw.
  - destruct (IH (<[e := tx e ++ [x]]> tx) hd a rx td sn lo) as (ls & tx' & R & El & Ep & Ew);
      [rewrite fn_lookup_insert, app_length; simpl; lia|].
    rewrite fn_lookup_insert, app_length in El. simpl in El.
    exists (LPut e x :: ls), tx'. split; [eapply lrun_cons; [apply lk_put; lia|done]|]. split; [lia|]. split; [by rewrite <- Ep|].
    intros f w Hw. apply elem_of_cons in Hw as [Hw|Hw]; [by injection Hw|by apply Ew].
Qed.
(** Nobody can go on at [e] and [zz]. *)
Definition jammed (s : lst) : Prop :=
  ltxcap L <= length (o_tx s e) /\ (exists w m ds, o_hand s e = HUp w ((zz, m) :: ds)) /\
  lrxcap L <= length (o_rx s zz) /\ o_todo s zz = (e, y) :: q.
Lemma jam_step s l s' : jammed s -> lstep L s l s' ->
  jammed s' /\ told zz s' = told zz s /\ (forall w, l <> LPut e w).
Proof.
  intros (J1 & (w & m & ds & J2) & J3 & J4) St. unfold jammed. inversion St; subst; simpl in *.
  - assert (e0 <> e) as Hn by (intros ->; lia). split; [|split; [done|congruence]].
    split; [by rewrite fn_lookup_insert_ne|]. split; [by do 3 eexists|done].
  - assert (e0 <> e) as Hn by congruence. split; [|split; done]. rewrite !fn_lookup_insert_ne by done. split; [done|]. split; [by do 3 eexists|done].
  - assert (e0 <> e) as Hn by congruence. split; [|split; done]. rewrite !fn_lookup_insert_ne by done. split; [done|]. split; [by do 3 eexists|done].
  - assert (z <> zz) as Hz0 by (intros ->; lia). assert (e0 <> e) as Hn by congruence.
    split; [|split; done]. rewrite !fn_lookup_insert_ne by done. split; [done|]. split; [by do 3 eexists|done].
  - assert (e0 <> e) as Hn by congruence. split; [|split; done]. rewrite !fn_lookup_insert_ne by done. split; [done|]. split; [by do 3 eexists|done].
  - assert (z <> zz) as Hz0 by congruence. rewrite !fn_lookup_insert_ne by done. split; [|split; [|done]].
    + split; [done|]. split; [by do 3 eexists|done].
    + unfold told. simpl. rewrite omap_app. simpl. rewrite decide_False by done. by rewrite app_nil_r.
  - assert (e0 <> e) as Hn by (intros ->; lia). assert (z <> zz) as Hz0 by congruence. rewrite !fn_lookup_insert_ne by done.
    split; [|split; done]. split; [done|]. split; [by do 3 eexists|done].
Qed.
Lemma jam_run s ls s' : jammed s -> run s ls s' -> jammed s' /\ told zz s' = told zz s /\ (forall w, LPut e w ∉ ls).
Proof.
  intros J R. induction R as [|ls s1 l s2 R (J1 & E1 & N1) St].
  - split; [done|]. split; [done|]. intros w Hw. by apply elem_of_nil in Hw.
  - destruct (jam_step _ _ _ J1 St) as (J2 & E2 & N2). split; [done|]. split; [congruence|].
    intros w Hw. apply elem_of_app in Hw as [Hw|Hw]; [by eapply N1|]. apply elem_of_list_singleton in Hw. by eapply N2.
Qed.
Lemma loop_stuck a : exists ls s, run (new_loop a) ls s /\ user_puts ls = ltxcap L + lrxcap L + 2 /\
  (forall f w, LPut f w ∈ ls -> f = e /\ w = x) /\
  forall ms s', run s ms s' -> told zz s' = [pc_msg x] /\ forall w, LPut e w ∉ ms.
Proof.
  destruct (one_round (fun _ => []) (fun _ => HIdle) a (fun _ => []) (fun _ => []) [] []) as (hd1 & tx1 & a1 & lo1 & R1 & Hh1 & Ht1); [done|done|simpl; lia|].
  set (rx0 := <[zz := [] ++ [pc_msg x]]> (fun _ : Z => [] : list msg)) in *.
  assert (lstep L (Lst tx1 hd1 a1 rx0 (fun _ => []) [] lo1) (LListen zz)
    (Lst tx1 hd1 a1 (<[zz := []]> rx0) (<[zz := lreply L zz (pc_msg x)]> (fun _ => [])) ([] ++ [(zz, pc_msg x)]) lo1)) as S2.
  { apply lk_listen; [done|]. unfold rx0. by rewrite fn_lookup_insert. }
  destruct (fill_rx (lrxcap L) tx1 hd1 a1 (<[zz := []]> rx0) (<[zz := lreply L zz (pc_msg x)]> (fun _ => [])) ([] ++ [(zz, pc_msg x)]) lo1 Hh1 Ht1)
    as (ls3 & hd3 & tx3 & a3 & rx3 & lo3 & R3 & Hh3 & Ht3 & El3 & Ep3 & Ew3); [rewrite fn_lookup_insert; simpl; lia|].
  rewrite fn_lookup_insert in El3. simpl in El3.
  destruct (pass_possible e x a3 Hx) as (outs & a4 & F & E1 & E2). unfold drops in E1. rewrite decide_True in E1 by done.
  set (td := <[zz := lreply L zz (pc_msg x)]> (fun _ : Z => [] : list (nat * parcel))) in *. set (sn := [] ++ [(zz, pc_msg x)]) in *.
  set (tx4 := <[e := []]> (<[e := [x]]> tx3)). set (hd4 := <[e := HUp x [(zz, pc_msg x)]]> (<[e := HTook x]> hd3)).
  assert (run (Lst tx3 hd3 a3 rx3 td sn lo3) [LPut e x; LTake e; LPass e] (Lst tx4 hd4 a4 rx3 td sn (lo3 ++ omap no_delivery outs))) as R4.
  { eapply lrun_cons; [apply lk_put; rewrite Ht3; simpl; lia|]. rewrite Ht3.
    eapply lrun_cons; [eapply lk_take; [done|by rewrite fn_lookup_insert]|].
    apply lrun_one. unfold hd4. rewrite <- E1. apply (lk_pass L tx4); [apply fn_lookup_insert|exact F]. }
  destruct (fill_tx (ltxcap L) tx4 hd4 a4 rx3 td sn (lo3 ++ omap no_delivery outs)) as (ls5 & tx5 & R5 & El5 & Ep5 & Ew5);
    [unfold tx4; rewrite fn_lookup_insert; simpl; lia|].
  unfold tx4 in El5. rewrite fn_lookup_insert in El5. simpl in El5.
  exists ([LPut e x; LTake e; LPass e; LDeliver e; LBack e] ++ [LListen zz] ++ ls3 ++ [LPut e x; LTake e; LPass e] ++ ls5).
  exists (Lst tx5 hd4 a4 rx3 td sn (lo3 ++ omap no_delivery outs)). split; [|split; [|split]].
  - eapply lrun_app; [exact R1|]. eapply lrun_app; [apply lrun_one; exact S2|]. eapply lrun_app; [exact R3|]. by eapply lrun_app.
  - unfold user_puts in *. rewrite !omap_app, !app_length, Ep3, Ep5. simpl. lia.
  - intros f w Hw. repeat (apply elem_of_app in Hw as [Hw|Hw]); try (by apply Ew3); try (by apply Ew5);
      apply elem_of_list_In in Hw; cbn in Hw; (destruct Hw as [Hw|Hw]; [first [discriminate Hw|by injection Hw as <- <-]|]); exfalso; intuition discriminate.
  - intros ms s' R. destruct (fun J => jam_run _ _ _ J R) as (_ & E & N).
    + split; [simpl; lia|]. split; [|split; [simpl; lia|]].
      * simpl. exists x, (pc_msg x), []. unfold hd4. by rewrite fn_lookup_insert.
      * simpl. unfold td. by rewrite fn_lookup_insert.
    + split; [|done]. rewrite E. unfold told. simpl. by rewrite decide_True.
Qed.
End stuck.
End facts.
