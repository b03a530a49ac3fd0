(** * Executions of concurrent administration, and its properties *)
From Verif Require Import GoBase MgmtModel MgmtSpec MgmtProofs MgmtFacts AdmModel AdmSpec AdmProofs AdmSeq AdmTold.

Lemma ops_cons l ls : omap a_op (l :: ls) = option_list (a_op l) ++ omap a_op ls.
Proof. cbn. by destruct (a_op l). Qed.
Lemma ops_deliver p k : omap a_op (replicate k (ADeliver p)) = [].
Proof. induction k as [|k IH]; [done|]. simpl replicate. rewrite ops_cons, IH. done. Qed.
Lemma arun_trans g s ls1 s1 ls2 s2 : arun g s ls1 s1 -> arun g s1 ls2 s2 -> arun g s (ls1 ++ ls2) s2.
Proof.
  intros H1 H2. induction H2; [by rewrite app_nil_r|]. rewrite app_assoc. by econstructor.
Qed.
Lemma orun_trans g s ls1 s1 ls2 s2 : orun g s ls1 s1 -> orun g s1 ls2 s2 -> orun g s (ls1 ++ ls2) s2.
Proof.
  intros H1 H2. induction H2; [by rewrite app_nil_r|]. rewrite app_assoc. by econstructor.
Qed.
Lemma arun_one g s l s' : astep g s l s' -> arun g s [l] s'.
Proof. intros H. apply (ar_snoc _ _ [] s); [constructor|done]. Qed.
Lemma arun_orun g s ls s' : arun g s ls s' -> omap a_op ls = [] -> orun g s ls s'.
Proof.
  induction 1 as [|ls s1 l s2 _ IH Hs]; intros Ho; [constructor|]. rewrite omap_app in Ho.
  apply app_eq_nil in Ho as [Ho Hl]. econstructor; [by apply IH|done|].
  intros (e & [-> | ->]); done.
Qed.
Lemma orun_begin g s l s' : astep g s l s' -> all_returned s -> orun g s [l] s'.
Proof. intros H Hr. apply (or_snoc _ _ [] s); [constructor|done|done]. Qed.

Section runs.
  Context (g : nat -> nat).

  (** ** Parts of executions *)
  Lemma deliver_exact h eps sv cs p sl : sl_ok h sl -> forall k i ps lg,
    ps !! p = Some (sl, i) -> i + k <= sl_len sl ->
    arun g (Ast h eps sv ps cs lg false) (replicate k (ADeliver p))
      (Ast h eps sv (<[p := (sl, i + k)]> ps) cs (lg ++ (pair p <$> take k (drop i (contents h sl)))) false).
  Proof.
    intros Hok. induction k as [|k IH]; intros i ps lg Hp Hk.
    - rewrite Nat.add_0_r, list_insert_id, take_0 by done. simpl. rewrite app_nil_r. constructor.
    - destruct (array_Some h sl i Hok) as [e He]; [lia|].
      assert (p < length ps) by (by eapply lookup_lt_Some).
      assert (arun g (Ast h eps sv (<[p := (sl, S i)]> ps) cs (lg ++ [(p, e)]) false) (replicate k (ADeliver p))
        (Ast h eps sv (<[p := (sl, S i + k)]> (<[p := (sl, S i)]> ps)) cs ((lg ++ [(p, e)]) ++ (pair p <$> take k (drop (S i) (contents h sl)))) false)) as Hr.
      { apply IH; [by apply list_lookup_insert|lia]. }
      rewrite list_insert_insert in Hr. replace (i + S k) with (S i + k) by lia.
      rewrite (drop_S _ e) by (rewrite contents_look by lia; done). rewrite <- app_assoc in Hr.
      eapply (arun_trans g _ [ADeliver p]); [apply arun_one|exact Hr]. econstructor; [done|lia|done].
  Qed.
  Lemma deliver_some h eps sv cs p sl : sl_ok h sl -> forall k i ps lg,
    ps !! p = Some (sl, i) -> i + k <= sl_len sl ->
    exists ls, omap a_op ls = [] /\
    arun g (Ast h eps sv ps cs lg false) ls
      (Ast h eps sv (<[p := (sl, i + k)]> ps) cs (lg ++ (pair p <$> take k (drop i (contents h sl)))) false).
  Proof.
    intros Hok k i ps lg Hp Hk. exists (replicate k (ADeliver p)). split; [apply ops_deliver|]. by apply deliver_exact.
  Qed.
  Lemma deliver_all h eps sv cs p sl ps lg : sl_ok h sl -> ps !! p = Some (sl, 0) ->
    exists ls, omap a_op ls = [] /\
    arun g (Ast h eps sv ps cs lg false) ls
      (Ast h eps sv (<[p := (sl, sl_len sl)]> ps) cs (lg ++ (pair p <$> contents h sl)) false) /\
    forall c i, AErase c i ∉ ls.
  Proof.
    intros Hok Hp. exists (replicate (sl_len sl) (ADeliver p)).
    pose proof (deliver_exact h eps sv cs p sl Hok (sl_len sl) 0 ps lg Hp) as Hr.
    rewrite drop_0, take_ge in Hr by (by rewrite contents_length). split_and!; [apply ops_deliver|by apply Hr|].
    intros c i Hin. by apply elem_of_replicate in Hin as [Hin _].
  Qed.
  Lemma scan_all h eps sv ps cs lg e sl (add : bool) : sl_ok h sl ->
    let pc i := if add then CAddScan e sl i else CDelScan e sl i in
    forall k i c, cs !! c = Some (pc i) -> i + k <= sl_len sl -> (forall j, i <= j < i + k -> array_of h sl !! j <> Some e) ->
    exists ls, omap a_op ls = [] /\
    arun g (Ast h eps sv ps cs lg false) ls (Ast h eps sv ps (<[c := pc (i + k)]> cs) lg false) /\
    forall l, l ∈ ls -> l = AScan c.
  Proof.
    intros Hok pc. revert cs. intros cs k. revert cs. induction k as [|k IH]; intros cs i c Hc Hk Hne.
    - exists []. split_and!; [done| |by intros ? ?%elem_of_nil]. rewrite Nat.add_0_r, list_insert_id by done. constructor.
    - destruct (array_Some h sl i Hok) as [y Hy]; [lia|].
      assert (c < length cs) by (by eapply lookup_lt_Some).
      destruct (IH (<[c := pc (S i)]> cs) (S i) c) as (ls & Ho & Hr & Hsc).
      { by apply list_lookup_insert. } { lia. } { intros j Hj. apply Hne. lia. }
      exists (AScan c :: ls). split_and!; [done| |by intros ? [-> | ?%Hsc]%elem_of_cons]. rewrite list_insert_insert in Hr. replace (i + S k) with (S i + k) by lia.
      eapply (arun_trans g _ [AScan c]); [apply arun_one|exact Hr]. unfold pc in *. assert (y <> e).
      { intros ->. by apply (Hne i); [lia|]. }
      destruct add; econstructor; try done; lia.
  Qed.

  Lemma add_upto h eps sv ps cs lg e : sl_ok h eps -> e ∉ contents h eps ->
    exists ls, omap a_op ls = [] /\
    arun g (Ast h eps sv ps (cs ++ [CAddScan e eps 0]) lg false) ls
      (Ast h eps (accept e sv) (ps ++ [(eps, sl_len eps)]) (cs ++ [CAddRead e])
           (lg ++ (pair (length ps) <$> contents h eps)) false).
  Proof.
    intros Hok Hn.
    assert (Hlk : forall pc, (cs ++ [pc]) !! length cs = Some pc) by (intros; rewrite lookup_app_r, Nat.sub_diag by done; done).
    assert (Hup : forall pc pc' : apc, <[length cs := pc']> (cs ++ [pc]) = cs ++ [pc']).
    { intros. rewrite insert_app_r_alt, Nat.sub_diag by done. done. }
    destruct (scan_all h eps sv ps (cs ++ [CAddScan e eps 0]) lg e eps true Hok (sl_len eps) 0 (length cs)) as (l1 & Ho1 & Hr1 & _).
    { apply Hlk. } { lia. }
    { intros j Hj Hx. apply Hn. apply elem_of_list_lookup. exists j. rewrite contents_look by lia. done. }
    simpl in Hr1. rewrite Hup in Hr1.
    destruct (deliver_all h eps sv (cs ++ [CAddPub e (length ps)]) (length ps) eps (ps ++ [(eps, 0)]) lg Hok) as (l2 & Ho2 & Hr2 & _).
    { rewrite lookup_app_r, Nat.sub_diag by done. done. }
    rewrite insert_app_r_alt, Nat.sub_diag in Hr2 by done. simpl in Hr2.
    exists (l1 ++ [AScan (length cs)] ++ l2 ++ [ADeck (length cs)]).
    split; [by rewrite !omap_app, Ho1, Ho2|].
    eapply arun_trans; [exact Hr1|]. eapply arun_trans; [apply arun_one|eapply arun_trans; [exact Hr2|apply arun_one]].
    - rewrite <- (Hup (CAddScan e eps (sl_len eps)) (CAddPub e (length ps))). eapply as_scan_end; [apply Hlk|done].
    - rewrite <- (Hup (CAddPub e (length ps)) (CAddRead e)). eapply as_add_deck; [apply Hlk| |reflexivity].
      rewrite lookup_app_r, Nat.sub_diag by done. done.
  Qed.
  Lemma del_upto h eps sv ps cs lg e l1 l2 : sl_ok h eps -> contents h eps = l1 ++ e :: l2 -> e ∉ l1 ->
    exists ls, omap a_op ls = [] /\
    arun g (Ast h eps sv ps (cs ++ [CDelScan e eps 0]) lg false) ls
      (Ast h eps (dismiss e sv) (ps ++ [(eps, sl_len eps)]) (cs ++ [CDelRead e (length l1)])
           (lg ++ (pair (length ps) <$> contents h eps)) false) /\
    forall c i, AErase c i ∉ ls.
  Proof.
    intros Hok Hcon Hn.
    assert (Hlk : forall pc, (cs ++ [pc]) !! length cs = Some pc) by (intros; rewrite lookup_app_r, Nat.sub_diag by done; done).
    assert (Hup : forall pc pc' : apc, <[length cs := pc']> (cs ++ [pc]) = cs ++ [pc']).
    { intros. rewrite insert_app_r_alt, Nat.sub_diag by done. done. }
    assert (Hl : sl_len eps = length l1 + S (length l2)).
    { rewrite <- (contents_length _ _ Hok), Hcon, app_length. done. }
    destruct (scan_all h eps sv ps (cs ++ [CDelScan e eps 0]) lg e eps false Hok (length l1) 0 (length cs)) as (k1 & Ho1 & Hr1 & Hs1).
    { apply Hlk. } { lia. }
    { intros j Hj Hx. apply Hn. apply elem_of_list_lookup. exists j. rewrite <- contents_look, Hcon, lookup_app_l in Hx by lia. done. }
    simpl in Hr1. rewrite Hup in Hr1.
    destruct (deliver_all h eps sv (cs ++ [CDelPub e (length l1) (length ps)]) (length ps) eps (ps ++ [(eps, 0)]) lg Hok) as (k2 & Ho2 & Hr2 & Hs2).
    { rewrite lookup_app_r, Nat.sub_diag by done. done. }
    rewrite insert_app_r_alt, Nat.sub_diag in Hr2 by done. simpl in Hr2.
    exists (k1 ++ [AScan (length cs)] ++ k2 ++ [ADeck (length cs)]).
    split_and!; [by rewrite !omap_app, Ho1, Ho2| |].
    2:{ intros c i. rewrite !elem_of_app, !elem_of_list_singleton. intros [H%Hs1|[H|[H%Hs2|H]]]; done. }
    eapply arun_trans; [exact Hr1|]. eapply arun_trans; [apply arun_one|eapply arun_trans; [exact Hr2|apply arun_one]].
    - rewrite <- (Hup (CDelScan e eps (length l1)) (CDelPub e (length l1) (length ps))). eapply as_find; [apply Hlk|lia|].
      rewrite <- contents_look, Hcon, lookup_app_r, Nat.sub_diag by lia. done.
    - rewrite <- (Hup (CDelPub e (length l1) (length ps)) (CDelRead e (length l1))). eapply as_del_deck; [apply Hlk| |reflexivity].
      rewrite lookup_app_r, Nat.sub_diag by done. done.
  Qed.
End runs.

Lemma accept_in e l : e ∈ accept e l.
Proof. unfold accept. case_decide; [done|]. apply elem_of_app. right. by left. Qed.
Lemma accept_mono x e l : x ∈ l -> x ∈ accept e l.
Proof. unfold accept. case_decide; [done|]. intros. apply elem_of_app. by left. Qed.
Lemma dismiss_in x e l : x ∈ dismiss e l <-> x ∈ l /\ x <> e.
Proof. unfold dismiss. rewrite elem_of_list_filter. naive_solver. Qed.
Lemma reach_ok g ls s : arun g new_ast ls s -> sl_ok (a_heap s) (a_eps s).
Proof. intros Hr. apply (ai_eps _ _ _ (ainv_given _ _ _ Hr)). Qed.
Lemma returned_snoc2 cs : Forall (eq CDone) cs -> forall h eps sv ps lg b,
  all_returned (Ast h eps sv ps (cs ++ [CDone; CDone]) lg b).
Proof.
  intros H h eps sv ps lg b. apply returned_Forall. simpl. apply Forall_app. split; [done|]. by repeat constructor.
Qed.

(** ** C80 *)
Lemma one_at_a_time g ls s : orun g new_ast ls s ->
  a_panic s = false /\
  (all_returned s -> in_order_of_addition (omap a_op ls) (listed s) /\ NoDup (listed s) /\
     forall x, x ∈ a_served s <-> x ∈ listed s).
Proof.
  intros Hr.
  assert (Hseq : seqinv ([], []) (omap a_op ls) s).
  { apply (seq_run g new_ast ls s); [done|done| |done]. by intros ? ?%elem_of_nil. }
  split; [apply Hseq|]. intros Hret. destruct Hseq as (_ & _ & Hn).
  apply now_returned in Hn; [|done].
  pose proof (f_equal fst Hn) as Hl. pose proof (f_equal snd Hn) as Hv. cbn [fst snd] in Hl, Hv.
  assert (Hio : in_order_of_addition (omap a_op ls) (listed s)).
  { rewrite Hl. rewrite both_list. apply set_step_in_order. }
  split_and!; [done|by eapply in_order_nodup|]. intros x. rewrite Hl, Hv. apply both_served.
Qed.
Lemma served_unless_deleted g ls s c e : arun g new_ast ls s -> omap a_op ls !! c = Some (Ins e) ->
  a_calls s !! c = Some CDone -> ADel e ∉ ls -> e ∈ a_served s.
Proof.
  intros Hr Ho Hc Hd. pose proof (ai_calls _ _ _ (ainv_served _ _ _ Hr)) as H.
  apply (Forall2_lookup_lr _ _ _ _ _ _ H Ho Hc). done.
Qed.
Lemma listed_served g ls s e : arun g new_ast ls s -> e ∈ listed s -> ADel e ∉ ls -> e ∈ a_served s.
Proof.
  intros Hr He. destruct (ai_eps _ _ _ (ainv_served _ _ _ Hr)) as [_ H].
  apply elem_of_list_lookup in He as (k & Hk). apply contents_Some in Hk as [??]. eauto.
Qed.

Section two_calls.
  Context (g : nat -> nat) (ls0 : list alab) (s : ast).
  Context (Hreach : arun g new_ast ls0 s) (Hret : all_returned s) (Hpan : a_panic s = false).

  Lemma two_adds e1 e2 : e1 ∉ listed s -> e2 ∉ listed s ->
    exists ls s', arun g s ls s' /\ omap a_op ls = [Ins e1; Ins e2] /\ all_returned s' /\ a_panic s' = false /\
      sl_ok (a_heap s') (a_eps s') /\
      listed s' = listed s ++ [e2] /\ e1 ∈ a_served s' /\ e2 ∈ a_served s'.
  Proof.
    intros H1 H2. pose proof (reach_ok _ _ _ Hreach) as Hok. apply returned_Forall in Hret.
    destruct s as [h eps sv ps cs lg b]; simpl in *. subst b. unfold listed in *. simpl in *.
    destruct (add_upto g h eps sv ps cs lg e1 Hok H1) as (l1 & Ho1 & Hr1).
    match type of Hr1 with arun _ _ _ (Ast _ _ ?sv' ?ps' ?cs' ?lg' _) =>
      destruct (add_upto g h eps sv' ps' cs' lg' e2 Hok H2) as (l2 & Ho2 & Hr2) end.
    destruct (append1 g h eps e1) as [h1 eps1] eqn:E1.
    destruct (append1_spec _ _ _ _ _ _ Hok E1) as (Hok1 & Hcon1 & Hlen1 & _ & Hs1).
    destruct (Hs1 eps Hok ltac:(done)) as (Hok1' & Hcon1' & _).
    destruct (append1 g h1 eps e2) as [h2 eps2] eqn:E2.
    destruct (append1_spec _ _ _ _ _ _ Hok1' E2) as (Hok2 & Hcon2 & _ & _ & Hs2).
    set (c1 := length cs). set (c2 := length (cs ++ [CAddRead e1])).
    assert (Hc2 : c2 = S c1) by (unfold c2, c1; rewrite app_length; simpl; lia).
    assert (L1 : forall x y : apc, (cs ++ [x; y]) !! c1 = Some x).
    { intros. unfold c1. rewrite lookup_app_r, Nat.sub_diag by done. done. }
    assert (L2 : forall x y : apc, (cs ++ [x; y]) !! c2 = Some y).
    { intros. rewrite Hc2. unfold c1. rewrite lookup_app_r by lia. replace (S (length cs) - length cs) with 1 by lia. done. }
    assert (U1 : forall x y x' : apc, <[c1 := x']> (cs ++ [x; y]) = cs ++ [x'; y]).
    { intros. unfold c1. rewrite insert_app_r_alt, Nat.sub_diag by done. done. }
    assert (U2 : forall x y y' : apc, <[c2 := y']> (cs ++ [x; y]) = cs ++ [x; y']).
    { intros. rewrite Hc2. unfold c1. rewrite insert_app_r_alt by lia. replace (S (length cs) - length cs) with 1 by lia. done. }
    rewrite <- (app_assoc cs) in Hr2. rewrite <- (app_assoc cs) in Hr2. simpl in Hr2.
    exists (([AAdd e1] ++ l1) ++ ([AAdd e2] ++ l2) ++ [ARead c1] ++ [ARead c2] ++ [AWrite c1] ++ [AStore c1] ++ [AWrite c2] ++ [AStore c2]).
    eexists. split.
    { eapply arun_trans; [eapply arun_trans; [apply arun_one; constructor|exact Hr1]|].
      eapply arun_trans.
      { eapply arun_trans; [apply arun_one; constructor|]. rewrite <- (app_assoc cs). exact Hr2. }
      eapply arun_trans; [apply arun_one; eapply as_add_read, L1|]. rewrite U1.
      eapply arun_trans; [apply arun_one; eapply as_add_read, L2|]. rewrite U2.
      eapply arun_trans; [apply arun_one; eapply as_add_write; [apply L1|exact E1]|]. rewrite U1.
      eapply arun_trans; [apply arun_one; eapply as_add_store, L1|]. rewrite U1.
      eapply arun_trans; [apply arun_one; eapply as_add_write; [apply L2|exact E2]|]. rewrite U2.
      apply arun_one. eapply as_add_store, L2. }
    rewrite U2. split_and!; simpl.
    - rewrite ?omap_app, ?ops_cons, ?omap_app, Ho1, Ho2. done.
    - by apply returned_snoc2.
    - done.
    - done.
    - by rewrite Hcon2, Hcon1'.
    - apply accept_mono, accept_in.
    - apply accept_in.
  Qed.

  (** The same endpoint twice, one call after the other has looked for it. *)
  Lemma same_twice e : e ∉ listed s ->
    exists ls s', arun g s ls s' /\ omap a_op ls = [Ins e; Ins e] /\ all_returned s' /\ a_panic s' = false /\
      sl_ok (a_heap s') (a_eps s') /\ listed s' = listed s ++ [e; e] /\ e ∈ a_served s'.
  Proof.
    intros H1. pose proof (reach_ok _ _ _ Hreach) as Hok. apply returned_Forall in Hret.
    destruct s as [h eps sv ps cs lg b]; simpl in *. subst b. unfold listed in *. simpl in *.
    destruct (add_upto g h eps sv ps cs lg e Hok H1) as (l1 & Ho1 & Hr1).
    match type of Hr1 with arun _ _ _ (Ast _ _ ?sv' ?ps' ?cs' ?lg' _) =>
      destruct (add_upto g h eps sv' ps' cs' lg' e Hok H1) as (l2 & Ho2 & Hr2) end.
    destruct (append1 g h eps e) as [h1 eps1] eqn:E1.
    destruct (append1_spec _ _ _ _ _ _ Hok E1) as (Hok1 & Hcon1 & Hlen1 & _ & Hs1).
    destruct (append1 g h1 eps1 e) as [h2 eps2] eqn:E2.
    destruct (append1_spec _ _ _ _ _ _ Hok1 E2) as (Hok2 & Hcon2 & _ & _ & Hs2).
    set (c1 := length cs). set (c2 := length (cs ++ [CAddRead e])).
    assert (Hc2 : c2 = S c1) by (unfold c2, c1; rewrite app_length; simpl; lia).
    assert (L1 : forall x y : apc, (cs ++ [x; y]) !! c1 = Some x).
    { intros. unfold c1. rewrite lookup_app_r, Nat.sub_diag by done. done. }
    assert (L2 : forall x y : apc, (cs ++ [x; y]) !! c2 = Some y).
    { intros. rewrite Hc2. unfold c1. rewrite lookup_app_r by lia. replace (S (length cs) - length cs) with 1 by lia. done. }
    assert (U1 : forall x y x' : apc, <[c1 := x']> (cs ++ [x; y]) = cs ++ [x'; y]).
    { intros. unfold c1. rewrite insert_app_r_alt, Nat.sub_diag by done. done. }
    assert (U2 : forall x y y' : apc, <[c2 := y']> (cs ++ [x; y]) = cs ++ [x; y']).
    { intros. rewrite Hc2. unfold c1. rewrite insert_app_r_alt by lia. replace (S (length cs) - length cs) with 1 by lia. done. }
    rewrite <- (app_assoc cs) in Hr2. rewrite <- (app_assoc cs) in Hr2. simpl in Hr2.
    exists (([AAdd e] ++ l1) ++ ([AAdd e] ++ l2) ++ [ARead c1] ++ [AWrite c1] ++ [AStore c1] ++ [ARead c2] ++ [AWrite c2] ++ [AStore c2]).
    eexists. split.
    { eapply arun_trans; [eapply arun_trans; [apply arun_one; constructor|exact Hr1]|].
      eapply arun_trans.
      { eapply arun_trans; [apply arun_one; constructor|]. rewrite <- (app_assoc cs). exact Hr2. }
      eapply arun_trans; [apply arun_one; eapply as_add_read, L1|]. rewrite U1.
      eapply arun_trans; [apply arun_one; eapply as_add_write; [apply L1|exact E1]|]. rewrite U1.
      eapply arun_trans; [apply arun_one; eapply as_add_store, L1|]. rewrite U1.
      eapply arun_trans; [apply arun_one; eapply as_add_read, L2|]. rewrite U2.
      eapply arun_trans; [apply arun_one; eapply as_add_write; [apply L2|exact E2]|]. rewrite U2.
      apply arun_one. eapply as_add_store, L2. }
    rewrite U2. split_and!; simpl.
    - rewrite ?omap_app, ?ops_cons, ?omap_app, Ho1, Ho2. done.
    - by apply returned_snoc2.
    - done.
    - done.
    - rewrite Hcon2, Hcon1, <- app_assoc. done.
    - apply accept_in.
  Qed.

  (** Two deletions. *)
  Lemma two_dels e y l1 l2 l3 : listed s = l1 ++ e :: l2 ++ y :: l3 -> e ∉ l1 -> y ∉ l1 ++ e :: l2 ->
    exists ls s', arun g s ls s' /\ omap a_op ls = [Rem e; Rem y] /\
      match l3 with
      | [] => a_panic s' = true
      | z :: l3' => all_returned s' /\ a_panic s' = false /\ listed s' = l1 ++ l2 ++ y :: l3' /\
          forall x, x ∈ a_served s' <-> x ∈ a_served s /\ x <> e /\ x <> y
      end.
  Proof.
    intros Hl He Hy. pose proof (reach_ok _ _ _ Hreach) as Hok. apply returned_Forall in Hret.
    destruct s as [h eps sv ps cs lg b]; simpl in *. subst b. unfold listed in *. simpl in *.
    assert (Hl' : contents h eps = (l1 ++ e :: l2) ++ y :: l3) by (rewrite <- app_assoc; done).
    destruct (del_upto g h eps sv ps cs lg e _ _ Hok Hl He) as (k1 & Ho1 & Hr1 & _).
    match type of Hr1 with arun _ _ _ (Ast _ _ ?sv' ?ps' ?cs' ?lg' _) =>
      destruct (del_upto g h eps sv' ps' cs' lg' y _ _ Hok Hl' Hy) as (k2 & Ho2 & Hr2 & _) end.
    assert (Hlen : sl_len eps = length l1 + S (length l2 + S (length l3))).
    { rewrite <- (contents_length _ _ Hok), Hl, app_length. simpl. rewrite app_length. done. }
    destruct (remove_at_spec h eps (length l1) Hok) as (h1 & eps1 & E1 & Hok1 & _ & Hlen1 & Hcon1 & _); [lia|].
    rewrite Hl, take_app in Hcon1. rewrite drop_app_ge in Hcon1 by lia.
    replace (S (length l1) - length l1) with 1 in Hcon1 by lia. simpl in Hcon1. rewrite drop_0 in Hcon1.
    set (c1 := length cs). set (c2 := length (cs ++ [CDelRead e (length l1)])).
    assert (Hc2 : c2 = S c1) by (unfold c2, c1; rewrite app_length; simpl; lia).
    assert (L1 : forall x y : apc, (cs ++ [x; y]) !! c1 = Some x).
    { intros. unfold c1. rewrite lookup_app_r, Nat.sub_diag by done. done. }
    assert (L2 : forall x y : apc, (cs ++ [x; y]) !! c2 = Some y).
    { intros. rewrite Hc2. unfold c1. rewrite lookup_app_r by lia. replace (S (length cs) - length cs) with 1 by lia. done. }
    assert (U1 : forall x y x' : apc, <[c1 := x']> (cs ++ [x; y]) = cs ++ [x'; y]).
    { intros. unfold c1. rewrite insert_app_r_alt, Nat.sub_diag by done. done. }
    assert (U2 : forall x y y' : apc, <[c2 := y']> (cs ++ [x; y]) = cs ++ [x; y']).
    { intros. rewrite Hc2. unfold c1. rewrite insert_app_r_alt by lia. replace (S (length cs) - length cs) with 1 by lia. done. }
    rewrite <- (app_assoc cs) in Hr2. rewrite <- (app_assoc cs) in Hr2. simpl in Hr2. set (j := length (l1 ++ e :: l2)) in *.
    assert (Hj : j = length l1 + S (length l2)) by (unfold j; rewrite app_length; done).
    match type of Hr2 with arun _ _ _ (Ast _ _ ?sv' ?ps' _ ?lg' _) =>
    assert (Hpre : arun g (Ast h eps sv ps cs lg false)
      (([ADel e] ++ k1) ++ ([ADel y] ++ k2) ++ [ARead c1] ++ [AErase c1 (length l1)] ++ [AStore c1] ++ [ARead c2])
      (Ast h1 eps1 sv' ps' (cs ++ [CDone; CDelWrite y j eps1]) lg' false)) end.
    { eapply arun_trans; [eapply arun_trans; [apply arun_one; constructor|exact Hr1]|].
      eapply arun_trans.
      { eapply arun_trans; [apply arun_one; constructor|]. rewrite <- (app_assoc cs). exact Hr2. }
      eapply arun_trans; [apply arun_one; eapply as_del_read, L1|]. rewrite U1.
      eapply arun_trans; [apply arun_one; eapply as_del_write; [apply L1|exact E1]|]. rewrite U1.
      eapply arun_trans; [apply arun_one; eapply as_del_store, L1|]. rewrite U1.
      rewrite <- (U2 CDone (CDelRead y j) (CDelWrite y j eps1)). apply arun_one. eapply as_del_read, L2. }
    destruct l3 as [|z l3].
    - eexists _, _. split; [eapply arun_trans; [exact Hpre|apply arun_one; eapply as_del_panic; [apply L2|]]|].
      + unfold remove_at. replace (S j <=? sl_len eps1) with false; [done|]. symmetry. apply Nat.leb_gt. simpl in Hlen. lia.
      + split; [|done]. rewrite ?omap_app, ?ops_cons, ?omap_app, Ho1, Ho2. done.
    - destruct (remove_at_spec h1 eps1 j Hok1) as (h2 & eps2 & E2 & Hok2 & _ & Hlen2 & Hcon2 & _); [simpl in Hlen; lia|].
      eexists _, _. split.
      { eapply arun_trans; [exact Hpre|]. eapply arun_trans; [apply arun_one; eapply as_del_write; [apply L2|exact E2]|].
        rewrite U2. apply arun_one. eapply as_del_store, L2. }
      rewrite U2. split_and!; simpl.
      + rewrite ?omap_app, ?ops_cons, ?omap_app, Ho1, Ho2. done.
      + by apply returned_snoc2.
      + done.
      + rewrite Hcon2, Hcon1.
        replace (l1 ++ l2 ++ y :: z :: l3) with ((l1 ++ l2 ++ [y]) ++ z :: l3) by (rewrite <- !app_assoc; done).
        assert (Hq : length (l1 ++ l2 ++ [y]) = j) by (rewrite !app_length; simpl; lia).
        rewrite take_app_alt by done. rewrite drop_app_ge by lia.
        replace (S j - length (l1 ++ l2 ++ [y])) with 1 by lia. simpl. rewrite <- !app_assoc. done.
      + intros x. rewrite !dismiss_in. naive_solver.
  Qed.
End two_calls.

(** One more call. *)
Lemma delete_unlisted g s ls s' e : a_panic s = false -> sl_ok (a_heap s) (a_eps s) -> all_returned s ->
  e ∉ listed s -> orun g s ls s' -> omap a_op ls = [Rem e] -> all_returned s' ->
  listed s' = listed s /\ a_served s' = a_served s.
Proof.
  intros H1 H2 H3 He Hr Ho Hret. destruct (seq_returned _ _ _ _ H1 H2 H3 Hr Hret) as [_ E]. rewrite Ho in E. simpl in E.
  rewrite index_of_None in E by done. by injection E.
Qed.
Lemma delete_double g s ls s' e l : a_panic s = false -> sl_ok (a_heap s) (a_eps s) -> all_returned s ->
  e ∉ l -> listed s = l ++ [e; e] -> orun g s ls s' -> omap a_op ls = [Rem e] -> all_returned s' ->
  listed s' = l ++ [e] /\ e ∉ a_served s'.
Proof.
  intros H1 H2 H3 He Hl Hr Ho Hret. destruct (seq_returned _ _ _ _ H1 H2 H3 Hr Hret) as [_ E]. rewrite Ho, Hl in E. simpl in E.
  rewrite index_of_split in E by done. injection E as -> ->. split; [|rewrite dismiss_in; naive_solver].
  unfold drop_at. rewrite take_app, drop_app_ge by lia. f_equal. by replace (S (length l) - length l) with 1 by lia.
Qed.

Lemma lost_update g ls0 s e1 e2 : arun g new_ast ls0 s -> all_returned s -> a_panic s = false ->
  e1 ∉ listed s -> e2 ∉ listed s -> e1 <> e2 ->
  exists ls s1, arun g s ls s1 /\ omap a_op ls = [Ins e1; Ins e2] /\ all_returned s1 /\
    listed s1 = listed s ++ [e2] /\ e1 ∈ a_served s1 /\
    forall ls2 s2, orun g s1 ls2 s2 -> omap a_op ls2 = [Rem e1] -> all_returned s2 -> e1 ∈ a_served s2.
Proof.
  intros Hr Hret Hp H1 H2 Hne. destruct (two_adds g ls0 s Hr Hret Hp e1 e2 H1 H2) as (ls & s1 & A1 & A2 & A3 & A4 & A5 & A6 & A7 & A8).
  exists ls, s1. split_and!; [done..|]. intros ls2 s2 B1 B2 B3.
  destruct (delete_unlisted g s1 ls2 s2 e1) as [_ ->]; try done. rewrite A6.
  rewrite not_elem_of_app, elem_of_list_singleton. done.
Qed.
Lemma listed_twice g ls0 s e : arun g new_ast ls0 s -> all_returned s -> a_panic s = false -> e ∉ listed s ->
  exists ls s1, arun g s ls s1 /\ omap a_op ls = [Ins e; Ins e] /\ all_returned s1 /\ listed s1 = listed s ++ [e; e] /\
    forall ls2 s2, orun g s1 ls2 s2 -> omap a_op ls2 = [Rem e] -> all_returned s2 ->
      listed s2 = listed s ++ [e] /\ e ∉ a_served s2.
Proof.
  intros Hr Hret Hp H1. destruct (same_twice g ls0 s Hr Hret Hp e H1) as (ls & s1 & A1 & A2 & A3 & A4 & A5 & A6 & A7).
  exists ls, s1. split_and!; [done..|]. intros ls2 s2 B1 B2 B3. by eapply delete_double.
Qed.

(** ** C81 *)
Lemma told_step p h eps sv ps cs lg b h' eps' sv' ps' cs' b' q l :
  told p (Ast h' eps' sv' ps' cs' (lg ++ (pair q <$> l)) b') =
  told p (Ast h eps sv ps cs lg b) ++ (if decide (q = p) then l else []).
Proof.
  unfold told. simpl. rewrite List.filter_app, fmap_app. f_equal.
  induction l as [|x l IH]; [by case_decide|]. simpl. case_decide as Hd.
  - subst. rewrite Nat.eqb_refl. simpl. f_equal. exact IH.
  - rewrite (proj2 (Nat.eqb_neq q p)) by done. done.
Qed.
(** A publication that has reached [i] when the endpoint at [length l1] is deleted. *)
Lemma one_deletion g ls0 s l1 d l2 i : orun g new_ast ls0 s -> all_returned s ->
  listed s = l1 ++ d :: l2 -> i <= length (listed s) ->
  exists ls s', orun g s (APublish :: ls) s' /\ omap a_op ls = [Rem d] /\ erases_from (length l1) ls /\ all_returned s' /\
    finished (length (a_pubs s)) s' /\
    told (length (a_pubs s)) s' = take i (l1 ++ d :: l2) ++ drop i (l1 ++ l2 ++ drop (length l1 + length l2) (l1 ++ d :: l2)) /\
    listed s' = l1 ++ l2.
Proof.
  intros Hr Hret Hl Hi. destruct (one_at_a_time _ _ _ Hr) as [Hp Hq]. destruct (Hq Hret) as (_ & Hnd & _). clear Hq.
  apply orun_arun in Hr. pose proof (reach_ok _ _ _ Hr) as Hok.
  assert (Ht0 : told (length (a_pubs s)) s = []) by (by eapply told_new).
  destruct s as [h eps sv ps cs lg b]; simpl in *. subst b. unfold listed in *. simpl in *.
  set (n := length ps) in *.
  assert (Hd : d ∉ l1). { rewrite Hl in Hnd. apply NoDup_app in Hnd as (_ & Hnd & _). intros Hin. apply (Hnd _ Hin). by left. }
  assert (Hlen : sl_len eps = length l1 + S (length l2)).
  { rewrite <- (contents_length _ _ Hok), Hl, app_length. done. }
  rewrite contents_length in Hi by done.
  (* first deliveries *)
  assert (Hlk0 : (ps ++ [(eps, 0)]) !! n = Some (eps, 0)) by (unfold n; rewrite lookup_app_r, Nat.sub_diag by done; done).
  assert (Hup0 : forall y, <[n := y]> (ps ++ [(eps, 0)]) = ps ++ [y]) by (intros; unfold n; rewrite insert_app_r_alt, Nat.sub_diag by done; done).
  pose proof (deliver_exact g h eps sv cs n eps Hok i 0 (ps ++ [(eps, 0)]) lg Hlk0 Hi) as Hr1.
  rewrite Hup0, drop_0 in Hr1. simpl in Hr1. rewrite Hl in Hr1.
  (* the deletion *)
  match type of Hr1 with arun _ _ _ (Ast _ _ ?sv' ?ps' ?cs' ?lg' _) =>
    destruct (del_upto g h eps sv' ps' cs' lg' d _ _ Hok Hl Hd) as (k2 & Ho2 & Hr2 & Hd2) end.
  rewrite <- app_assoc in Hr2. simpl in Hr2.
  destruct (remove_at_spec h eps (length l1) Hok) as (h1 & eps1 & E1 & Hok1 & _ & Hlen1 & Hcon1 & Hcon1' & Hokp & _); [lia|].
  rewrite Hl, take_app in Hcon1, Hcon1'. rewrite (drop_app_ge _ _ (S (length l1))) in Hcon1, Hcon1' by lia.
  replace (S (length l1) - length l1) with 1 in Hcon1, Hcon1' by lia. simpl in Hcon1, Hcon1'. rewrite drop_0 in Hcon1, Hcon1'.
  replace (sl_len eps - 1) with (length l1 + length l2) in Hcon1' by lia.
  set (c := length cs).
  assert (L1 : forall x : apc, (cs ++ [x]) !! c = Some x).
  { intros. unfold c. rewrite lookup_app_r, Nat.sub_diag by done. done. }
  assert (U1 : forall x x' : apc, <[c := x']> (cs ++ [x]) = cs ++ [x']).
  { intros. unfold c. rewrite insert_app_r_alt, Nat.sub_diag by done. done. }
  (* the remaining deliveries *)
  match type of Hr2 with arun _ _ _ (Ast _ _ ?sv' ?ps' _ ?lg' _) =>
    pose proof (deliver_exact g h1 eps1 sv' (cs ++ [CDone]) n eps Hokp (sl_len eps - i) i ps' lg') as Hr3 end.
  rewrite (take_ge (drop i (contents h1 eps))) in Hr3 by (rewrite drop_length, contents_length; done).
  exists (replicate i (ADeliver n) ++ (ADel d :: k2) ++ [ARead c; AErase c (length l1); AStore c] ++ replicate (sl_len eps - i) (ADeliver n)).
  eexists. split.
  { change (APublish :: ?a) with ([APublish] ++ a).
    eapply orun_trans; [apply arun_orun; [apply arun_one; constructor|done]|].
    eapply orun_trans; [apply arun_orun; [exact Hr1|apply ops_deliver]|].
    eapply orun_trans.
    { change (ADel d :: k2) with ([ADel d] ++ k2). eapply orun_trans; [apply orun_begin; [constructor|]|apply arun_orun; [exact Hr2|done]].
      intros pc Hpc. by apply Hret. }
    apply arun_orun; [|rewrite omap_app, ops_deliver; done].
    eapply arun_trans; [|apply Hr3; [unfold n; rewrite lookup_app_r, Nat.sub_diag by done; done|lia]].
    eapply (arun_trans g _ [ARead c]); [apply arun_one; eapply as_del_read, L1|]. rewrite U1.
    eapply (arun_trans g _ [AErase c (length l1)]); [apply arun_one; eapply as_del_write; [apply L1|exact E1]|]. rewrite U1.
    rewrite <- (U1 (CDelStore d eps1) CDone). apply arun_one. eapply as_del_store, L1. }
  split_and!.
  - rewrite ?omap_app, ?ops_cons, ?omap_app, ?ops_cons, !ops_deliver, Ho2. done.
  - intros c' i' Hin. rewrite !elem_of_app, !elem_of_cons in Hin.
    destruct Hin as [Hin|[[Hin|Hin]|[[Hin|[Hin|[Hin|Hin]]]|Hin]]]; try done.
    + by apply elem_of_replicate in Hin as [Hin _].
    + by apply Hd2 in Hin.
    + by injection Hin as -> ->.
    + by apply elem_of_nil in Hin.
    + by apply elem_of_replicate in Hin as [Hin _].
  - apply returned_Forall. simpl. apply Forall_app. split; [|by repeat constructor]. by apply returned_Forall in Hret.
  - eexists _, _. simpl. split; [apply list_lookup_insert; unfold n; rewrite !app_length; simpl; lia|]. lia.
  - rewrite (told_step _ h eps sv ps cs _ false), (told_step _ h eps sv ps cs _ false), (told_step _ h eps sv ps cs _ false), Ht0.
    rewrite !(decide_True (P := n = n)) by done. rewrite decide_False by (rewrite app_length; simpl; lia). rewrite app_nil_r. simpl.
    rewrite Hcon1'. done.
  - simpl. rewrite Hcon1. done.
Qed.
Lemma missed g ls0 s l1 d l2 x l3 z : orun g new_ast ls0 s -> all_returned s ->
  listed s = l1 ++ d :: l2 ++ x :: l3 ++ [z] ->
  exists ls s', orun g s (APublish :: ls) s' /\ omap a_op ls = [Rem d] /\ all_returned s' /\
    finished (length (a_pubs s)) s' /\
    told (length (a_pubs s)) s' = l1 ++ d :: l2 ++ l3 ++ [z; z] /\ x ∉ told (length (a_pubs s)) s' /\
    listed s' = l1 ++ l2 ++ x :: l3 ++ [z].
Proof.
  intros Hr Hret Hl. destruct (one_at_a_time _ _ _ Hr) as [Hp Hq]. destruct (Hq Hret) as (_ & Hnd & _). clear Hq.
  assert (Hx : x ∉ l1 ++ d :: l2 ++ l3 ++ [z; z]).
  { rewrite Hl in Hnd. replace (l1 ++ d :: l2 ++ x :: l3 ++ [z]) with ((l1 ++ d :: l2) ++ x :: (l3 ++ [z])) in Hnd by (rewrite <- app_assoc; done).
    apply NoDup_app in Hnd as (_ & Hn1 & Hn2). apply NoDup_cons in Hn2 as [Hn2 _].
    replace (l1 ++ d :: l2 ++ l3 ++ [z; z]) with ((l1 ++ d :: l2) ++ (l3 ++ [z]) ++ [z]) by (rewrite <- !app_assoc; done).
    rewrite !not_elem_of_app in *. rewrite elem_of_list_singleton in Hn2 |- *. split; [|naive_solver].
    rewrite <- not_elem_of_app. intros Hin. apply (Hn1 _ Hin). by left. }
  destruct (one_deletion g ls0 s l1 d (l2 ++ x :: l3 ++ [z]) (length (l1 ++ d :: l2)) Hr Hret Hl) as (ls & s' & A1 & A2 & _ & A3 & A4 & A5 & A6).
  { rewrite Hl, !app_length. simpl. rewrite app_length. lia. }
  exists ls, s'. assert (told (length (a_pubs s)) s' = l1 ++ d :: l2 ++ l3 ++ [z; z]) as Ht.
  { rewrite A5.
    replace (l1 ++ d :: l2 ++ x :: l3 ++ [z]) with ((l1 ++ d :: l2) ++ x :: (l3 ++ [z])) at 1 by (rewrite <- app_assoc; done).
    rewrite take_app. rewrite <- app_assoc. simpl. f_equal. f_equal. f_equal.
    replace (drop (length l1 + length (l2 ++ x :: l3 ++ [z])) (l1 ++ d :: l2 ++ x :: l3 ++ [z])) with [z].
    2:{ replace (l1 ++ d :: l2 ++ x :: l3 ++ [z]) with ((l1 ++ d :: l2 ++ x :: l3) ++ [z]) by (rewrite <- app_assoc; simpl; rewrite <- app_assoc; done).
        symmetry. apply drop_app_alt. rewrite !app_length. simpl. rewrite !app_length. simpl. lia. }
    replace (l1 ++ (l2 ++ x :: l3 ++ [z]) ++ [z]) with ((l1 ++ l2 ++ [x]) ++ l3 ++ [z; z]) by (rewrite <- !app_assoc; simpl; rewrite <- !app_assoc; done).
    apply drop_app_alt. rewrite !app_length. simpl. lia. }
  rewrite Ht. done.
Qed.

(** A publication that begins between the two halves of a deletion. *)
Lemma told_twice g ls0 s l1 d l2 z : orun g new_ast ls0 s -> all_returned s -> listed s = l1 ++ d :: l2 ++ [z] ->
  exists ls1 s1 ls2 s2, orun g s ls1 s1 /\ omap a_op ls1 = [Rem d] /\ erasing s1 /\
    orun g s1 (APublish :: ls2) s2 /\ omap a_op ls2 = [] /\ (forall c i, AErase c i ∉ ls2) /\
    finished (length (a_pubs s1)) s2 /\ told (length (a_pubs s1)) s2 = l1 ++ l2 ++ [z; z].
Proof.
  intros Hr Hret Hl. destruct (one_at_a_time _ _ _ Hr) as [Hp Hq]. destruct (Hq Hret) as (_ & Hnd & _). clear Hq.
  pose proof Hr as Hr0. apply orun_arun in Hr. pose proof (reach_ok _ _ _ Hr) as Hok.
  destruct s as [h eps sv ps cs lg b]; simpl in *. subst b. unfold listed in *. simpl in *.
  assert (Hd : d ∉ l1). { rewrite Hl in Hnd. apply NoDup_app in Hnd as (_ & Hnd & _). intros Hin. apply (Hnd _ Hin). by left. }
  assert (Hlen : sl_len eps = length l1 + S (length l2 + 1)).
  { rewrite <- (contents_length _ _ Hok), Hl, app_length. simpl. rewrite app_length. done. }
  destruct (del_upto g h eps sv ps cs lg d _ _ Hok Hl Hd) as (k2 & Ho2 & Hr2 & _).
  destruct (remove_at_spec h eps (length l1) Hok) as (h1 & eps1 & E1 & Hok1 & _ & Hlen1 & Hcon1 & Hcon1' & Hokp & _); [lia|].
  rewrite Hl, take_app in Hcon1, Hcon1'. rewrite drop_app_ge in Hcon1, Hcon1' by lia.
  replace (S (length l1) - length l1) with 1 in Hcon1, Hcon1' by lia. simpl in Hcon1, Hcon1'. rewrite drop_0 in Hcon1, Hcon1'.
  replace (drop (sl_len eps - 1) (l1 ++ d :: l2 ++ [z])) with [z] in Hcon1'.
  2:{ replace (l1 ++ d :: l2 ++ [z]) with ((l1 ++ d :: l2) ++ [z]) by (rewrite <- app_assoc; done).
      symmetry. apply drop_app_alt. rewrite app_length. simpl. lia. }
  set (c := length cs).
  assert (L1 : forall x : apc, (cs ++ [x]) !! c = Some x).
  { intros. unfold c. rewrite lookup_app_r, Nat.sub_diag by done. done. }
  assert (U1 : forall x x' : apc, <[c := x']> (cs ++ [x]) = cs ++ [x']).
  { intros. unfold c. rewrite insert_app_r_alt, Nat.sub_diag by done. done. }
  match type of Hr2 with arun _ _ _ (Ast _ _ ?sv' ?ps' _ ?lg' _) =>
    set (s1 := Ast h1 eps sv' ps' (cs ++ [CDelStore d eps1]) lg' false);
    assert (Hs1 : orun g (Ast h eps sv ps cs lg false) ((ADel d :: k2) ++ [ARead c; AErase c (length l1)]) s1);
    [|destruct (deliver_all g h1 eps sv' (cs ++ [CDelStore d eps1]) (length ps') eps (ps' ++ [(eps, 0)]) lg' Hokp) as (k3 & Ho3 & Hr3 & Hd3)]
  end.
  { eapply orun_trans.
    { change (ADel d :: k2) with ([ADel d] ++ k2). eapply orun_trans; [apply orun_begin; [constructor|]|apply arun_orun; [exact Hr2|done]].
      intros pc Hpc. by apply Hret. }
    apply arun_orun; [|done].
    eapply (arun_trans g _ [ARead c]); [apply arun_one; eapply as_del_read, L1|]. rewrite U1.
    unfold s1. rewrite <- (U1 (CDelWrite d (length l1) eps) (CDelStore d eps1)). apply arun_one; eapply as_del_write; [apply L1|exact E1]. }
  { rewrite lookup_app_r, Nat.sub_diag by done. done. }
  assert (Ht1 : told (length (a_pubs s1)) s1 = []).
  { eapply told_new; [|done]. apply orun_arun. eapply orun_trans; [exact Hr0|exact Hs1]. }
  eexists _, s1, k3, _. split_and!; [exact Hs1| | | |done|done| |].
  - rewrite omap_app, ops_cons, Ho2. done.
  - exists c, d, eps1. apply L1.
  - change (APublish :: ?a) with ([APublish] ++ a). apply arun_orun; [|by rewrite omap_app, Ho3].
    eapply arun_trans; [apply arun_one; constructor|exact Hr3].
  - eexists _, _. simpl. split; [apply list_lookup_insert; rewrite !app_length; simpl; lia|]. done.
  - unfold s1 in Ht1 |- *. simpl in Ht1 |- *.
    rewrite (told_step _ h1 eps (dismiss d sv) (ps ++ [(eps, sl_len eps)]) (cs ++ [CDelStore d eps1]) _ false).
    rewrite Ht1, decide_True by done. simpl. rewrite Hcon1', <- app_assoc. done.
Qed.

(** Publications never stop in the middle. *)
Lemma publications_go_on g ls s p sl i : arun g new_ast ls s -> a_panic s = false -> a_pubs s !! p = Some (sl, i) -> i < sl_len sl ->
  exists e s', astep g s (ADeliver p) s' /\ a_log s' = a_log s ++ [(p, e)] /\ AAdd e ∈ ls.
Proof.
  intros Hr Hp Hpub Hi. pose proof (ai_pubs _ _ _ (ainv_given _ _ _ Hr)) as Hf.
  apply (proj1 (Forall_lookup _ _) Hf) in Hpub as Hok. destruct Hok as [Hok HP]. simpl in Hok, HP.
  destruct (array_Some _ _ _ Hok Hi) as [e He].
  destruct s as [h eps sv ps cs lg b]; simpl in *. subst b. exists e. eexists. split; [by econstructor|]. split; [done|]. eauto.
Qed.

(** Any list can be brought about by calls made one at a time. *)
Lemma can_list g l : NoDup l -> exists ls s, orun g new_ast ls s /\ all_returned s /\ a_panic s = false /\ listed s = l.
Proof.
  induction l as [|e l IH] using rev_ind; intros Hnd.
  { exists [], new_ast. split_and!; [constructor| |done..]. by intros ? ?%elem_of_nil. }
  apply NoDup_app in Hnd as (Hnd & Hdis & _). destruct (IH Hnd) as (ls & s & Hr & Hret & Hp & Hl).
  assert (He : e ∉ listed s). { rewrite Hl. intros Hin. apply (Hdis _ Hin). by left. }
  pose proof (reach_ok _ _ _ (orun_arun _ _ _ _ Hr)) as Hok.
  destruct s as [h eps sv ps cs lg b]; simpl in *. subst b. unfold listed in *. simpl in *.
  destruct (add_upto g h eps sv ps cs lg e Hok He) as (l1 & Ho1 & Hr1).
  destruct (append1 g h eps e) as [h1 eps1] eqn:E1.
  destruct (append1_spec _ _ _ _ _ _ Hok E1) as (Hok1 & Hcon1 & _).
  set (c := length cs).
  assert (L1 : forall x : apc, (cs ++ [x]) !! c = Some x).
  { intros. unfold c. rewrite lookup_app_r, Nat.sub_diag by done. done. }
  assert (U1 : forall x x' : apc, <[c := x']> (cs ++ [x]) = cs ++ [x']).
  { intros. unfold c. rewrite insert_app_r_alt, Nat.sub_diag by done. done. }
  eexists (ls ++ [AAdd e] ++ l1 ++ [ARead c] ++ [AWrite c] ++ [AStore c]), _. split.
  { eapply orun_trans; [exact Hr|]. eapply orun_trans; [apply orun_begin; [constructor|done]|].
    apply arun_orun; [|by rewrite omap_app, Ho1].
    eapply arun_trans; [exact Hr1|].
    eapply arun_trans; [apply arun_one; eapply as_add_read, L1|]. rewrite U1.
    eapply arun_trans; [apply arun_one; eapply as_add_write; [apply L1|exact E1]|]. rewrite U1.
    apply arun_one; eapply as_add_store, L1. }
  rewrite U1. split_and!; simpl; [|done|by rewrite Hcon1, Hl].
  apply returned_Forall. simpl. apply Forall_app. split; [|by repeat constructor]. by apply returned_Forall in Hret.
Qed.
Lemma orun_split g s ls1 ls2 s2 : orun g s (ls1 ++ ls2) s2 -> exists s1, orun g s ls1 s1 /\ orun g s1 ls2 s2.
Proof.
  revert s2. induction ls2 as [|l ls2 IH] using rev_ind; intros s2 Hr.
  { rewrite app_nil_r in Hr. exists s2. split; [done|constructor]. }
  rewrite app_assoc in Hr. inversion Hr as [E|ls s1 l' s3 Ha Hb Hc E]; subst; [by destruct ((ls1 ++ ls2) ++ [l]) eqn:?; [destruct (ls1 ++ ls2)|]|].
  apply app_inj_tail in E as [-> ->]. destruct (IH _ Ha) as (sm & H1 & H2). exists sm. split; [done|]. by econstructor.
Qed.
Lemma publish_adds g s s' : orun g s [APublish] s' -> a_pubs s' = a_pubs s ++ [(a_eps s, 0)].
Proof.
  intros Hr. inversion Hr as [|ls s1 l' s3 Ha Hb Hc E]; subst. apply (app_inj_tail _ []) in E as [-> ->].
  inversion Ha as [E|? ? ? ? ? ? ? E]; subst; [|by destruct ls]. by inversion Hb.
Qed.
