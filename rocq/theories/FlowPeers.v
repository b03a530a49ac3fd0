(** * Two users who ask each other *)
From Verif Require Export FlowProofs.
From Coq Require Import Lia.

Definition asks (l : list fmsg) : list nat := omap (fun x => match x with Ask m => Some m | _ => None end) l.
Definition answers (l : list fmsg) : list nat := omap (fun x => match x with Answer m => Some m | _ => None end) l.
Lemma asks_app l l' : asks (l ++ l') = asks l ++ asks l'.
Proof. apply omap_app. Qed.
Lemma answers_app l l' : answers (l ++ l') = answers l ++ answers l'.
Proof. apply omap_app. Qed.
Arguments asks : simpl never.
Arguments answers : simpl never.
Lemma asks_ask m l : asks (Ask m :: l) = m :: asks l.
Proof. done. Qed.
Lemma asks_answer m l : asks (Answer m :: l) = asks l.
Proof. done. Qed.
Lemma answers_ask m l : answers (Ask m :: l) = answers l.
Proof. done. Qed.
Lemma answers_answer m l : answers (Answer m :: l) = m :: answers l.
Proof. done. Qed.
Lemma asks_answers l : length (asks l) + length (answers l) = length l.
Proof.
  induction l as [|[m|m] l IH]; [done| |].
  - rewrite asks_ask, answers_ask. simpl. lia.
  - rewrite asks_answer, answers_answer. simpl. lia.
Qed.
Ltac fnb := repeat (rewrite fn_lookup_insert || rewrite fn_lookup_insert_ne by done).

Section peers.
Context (k : bool -> nat) (n : bool -> list nat).
Context (Hk : forall b, 1 <= k b).

Definition ginv (s : gst) : Prop := forall b,
  lineok (caps_listener (k b)) (g_line s b) /\
  g_got s b ++ answers (flat (g_line s (negb b))) ++ asks (flat (g_line s b)) ++ g_todo s b = n b.
Definition gm1 (s : gst) (b : bool) : nat :=
  13 * length (g_todo s b) + wt (g_line s b) + 6 * length (asks (flat (g_line s b))).
Definition gmeasure (s : gst) : nat := gm1 s true + gm1 s false.

Lemma ginv_start : ginv (new_peers k n).
Proof.
  intros b. split.
  - apply lineok_nothing.
  - cbn [new_peers g_got g_line g_todo]. rewrite !flat_nothing. done.
Qed.

Lemma ginv_step s l s' : ginv s -> gstep k s l s' -> ginv s' /\ gmeasure s = S (gmeasure s').
Proof.
  intros I H. destruct H as [l t g b m p l' Ht Hp|l t g b i l' Hm|l t g b m l1 l2 Hx Hp|l t g b m l' Hx].
  - destruct (I b) as [Kb Eb]. destruct (I (negb b)) as [Kn En]. simpl in Kb, Eb, Kn, En.
    rewrite negb_involutive in En.
    destruct (put_facts _ _ _ _ Kb Hp) as (F1 & F2 & F3). rewrite len_listener in F3. split.
    + intros b'. destruct (decide (b' = b)) as [->|Hne]; simpl.
      * fnb. rewrite fn_lookup_insert_ne by (by destruct b). split; [done|].
        rewrite F2, asks_app, asks_ask. rewrite Ht in Eb. rewrite <- app_assoc. exact Eb.
      * assert (b' = negb b) as -> by (by destruct b, b'). rewrite negb_involutive.
        fnb. rewrite ?(fn_lookup_insert_ne _ b (negb b)) by (by destruct b). split; [done|].
        rewrite F2, answers_app, answers_ask. change (answers []) with (@nil nat). rewrite app_nil_r. exact En.
    + unfold gmeasure, gm1. simpl. destruct b; fnb; rewrite F2, F3, Ht, asks_app, app_length; cbn [length];
        change (length (asks [Ask m])) with 1; lia.
  - destruct (I b) as [Kb Eb]. destruct (I (negb b)) as [Kn En]. simpl in Kb, Eb, Kn, En.
    rewrite negb_involutive in En.
    destruct (move_facts _ _ _ _ Kb Hm) as (F1 & F2 & F3). split.
    + intros b'. destruct (decide (b' = b)) as [->|Hne]; simpl.
      * fnb. rewrite fn_lookup_insert_ne by (by destruct b). split; [done|]. by rewrite F2.
      * assert (b' = negb b) as -> by (by destruct b, b'). rewrite negb_involutive.
        fnb. rewrite ?(fn_lookup_insert_ne _ b (negb b)) by (by destruct b). split; [done|]. by rewrite F2.
    + unfold gmeasure, gm1. simpl. destruct b; fnb; rewrite F2, F3; lia.
  - destruct (I b) as [Kb Eb]. destruct (I (negb b)) as [Kn En]. simpl in Kb, Eb, Kn, En.
    rewrite negb_involutive in En.
    destruct (take_facts _ _ _ _ Kb Hx) as (F1 & F2 & F3).
    destruct (put_facts _ _ _ _ Kn Hp) as (G1 & G2 & G3). rewrite len_listener in G3. split.
    + intros b'. destruct (decide (b' = b)) as [->|Hne]; simpl.
      * fnb. rewrite fn_lookup_insert_ne by (by destruct b). fnb. split; [done|].
        rewrite G2, answers_app, answers_answer. change (answers []) with (@nil nat).
        rewrite F2, asks_ask in Eb. rewrite <- !app_assoc. simpl. exact Eb.
      * assert (b' = negb b) as -> by (by destruct b, b'). rewrite negb_involutive.
        fnb. rewrite ?(fn_lookup_insert_ne _ b (negb b)) by (by destruct b). fnb. split; [done|].
        rewrite G2, asks_app, asks_answer. change (asks []) with (@nil nat). rewrite app_nil_r.
        rewrite F2, answers_ask in En. exact En.
    + unfold gmeasure, gm1. simpl. destruct b; simpl in *; fnb; rewrite G2, G3, F2, F3, asks_app, app_length, asks_ask;
        cbn [length]; change (length (asks [Answer m])) with 0; lia.
  - destruct (I b) as [Kb Eb]. destruct (I (negb b)) as [Kn En]. simpl in Kb, Eb, Kn, En.
    rewrite negb_involutive in En.
    destruct (take_facts _ _ _ _ Kb Hx) as (F1 & F2 & F3). split.
    + intros b'. destruct (decide (b' = b)) as [->|Hne]; simpl.
      * fnb. rewrite !fn_lookup_insert_ne by (by destruct b). split; [done|].
        rewrite F2, asks_answer in Eb. exact Eb.
      * assert (b' = negb b) as -> by (by destruct b, b'). rewrite negb_involutive.
        fnb. rewrite ?(fn_lookup_insert_ne _ b (negb b)) by (by destruct b). split; [done|].
        rewrite F2, answers_answer in En. rewrite <- app_assoc. exact En.
    + unfold gmeasure, gm1. simpl. destruct b; simpl in *; fnb; rewrite F2, F3, asks_answer; lia.
Qed.

Lemma ginv_runs tr s : gruns k (new_peers k n) tr s ->
  ginv s /\ length tr + gmeasure s = 13 * (length (n true) + length (n false)).
Proof.
  induction 1 as [|tr s1 l s2 _ IH Hs].
  - split; [exact ginv_start|].
    unfold gmeasure, gm1. cbn [new_peers g_todo g_line length]. rewrite !flat_nothing, !wt_nothing. change (asks []) with (@nil nat). cbn [length]. lia.
  - destruct IH as [I M]. destruct (ginv_step _ _ _ I Hs) as [I' M']. split; [done|].
    rewrite app_length. simpl. lia.
Qed.

Lemma gstuck_moves s b : gstuck k s -> forall i l', ~ lmove (caps_listener (k b)) (g_line s b) i l'.
Proof. destruct s as [l t g]. simpl. intros H i l' Hm. eapply (H (GMove b i)), gk_move, Hm. Qed.

(** If one line holds something and nothing can happen, both are full and a
    question waits at the end of each. *)
Lemma gstuck_other s b : ginv s -> gstuck k s -> flat (g_line s b) <> [] ->
  asks (flat (g_line s b)) <> [] /\ lfull (caps_listener (k (negb b))) (g_line s (negb b)).
Proof.
  intros I H Hne. destruct (I b) as [Kb _]. destruct (I (negb b)) as [Kn _].
  destruct (still_last _ _ (caps_listener_pos _ (Hk b)) Kb (gstuck_moves s b H) Hne) as (x & l' & Hx).
  destruct x as [m|m].
  - split.
    + destruct (take_facts _ _ _ _ Kb Hx) as (_ & F2 & _). rewrite F2, asks_ask. done.
    + apply (still_put _ _ (Answer m) (caps_listener_pos _ (Hk (negb b))) Kn (gstuck_moves s (negb b) H)); [done|].
      intros l2 Hp. destruct s as [l t g]. simpl in *. eapply (H (GListen b)), gk_listen; [exact Hx|exact Hp].
  - exfalso. destruct s as [l t g]. simpl in *. eapply (H (GEnd b)), gk_end, Hx.
Qed.
Lemma gstuck_all s b : ginv s -> gstuck k s -> flat (g_line s b) <> [] ->
  forall b', asks (flat (g_line s b')) <> [] /\ lfull (caps_listener (k b')) (g_line s b').
Proof.
  intros I H Hne.
  destruct (gstuck_other s b I H Hne) as [Ha Hf].
  assert (Hne' : flat (g_line s (negb b)) <> []).
  { exact (lfull_last _ _ (caps_listener_pos _ (Hk (negb b))) ltac:(done) Hf). }
  destruct (gstuck_other s (negb b) I H Hne') as [Ha' Hf']. rewrite negb_involutive in Hf'.
  intros b'. destruct (decide (b' = b)) as [->|Hb]; [done|].
  assert (b' = negb b) as -> by (by destruct b, b'). done.
Qed.
Lemma gstuck_todo s b : ginv s -> gstuck k s -> g_todo s b <> [] -> flat (g_line s b) <> [].
Proof.
  intros I H Hne. destruct (I b) as [Kb _]. destruct (g_todo s b) as [|m p] eqn:Ht; [done|].
  apply (lfull_last _ _ (caps_listener_pos _ (Hk b))); [done|].
  apply (still_put _ _ (Ask m) (caps_listener_pos _ (Hk b)) Kb (gstuck_moves s b H)); [done|].
  intros l' Hp. destruct s as [l t g]. simpl in *. eapply (H (GAsk b)), gk_ask; [exact Ht|exact Hp].
Qed.
Definition gplaces : nat := sum_list (caps_listener (k true)) + sum_list (caps_listener (k false)).
Lemma gstuck_not_done s : ginv s -> gstuck k s -> ~ gdone n s ->
  (forall b, n b <> []) /\ gplaces <= length (n true) + length (n false).
Proof.
  intros I H Hd.
  assert (Hx : exists b, flat (g_line s b) <> []).
  { destruct (decide (flat (g_line s true) = [])) as [E1|]; [|by exists true].
    destruct (decide (flat (g_line s false) = [])) as [E2|]; [|by exists false].
    exfalso. apply Hd. intros b.
    assert (Ht : g_todo s b = []).
    { destruct (decide (g_todo s b = [])) as [|Hne]; [done|].
      pose proof (gstuck_todo s b I H Hne). destruct b; done. }
    split; [done|]. destruct (I b) as [_ E]. rewrite Ht, app_nil_r in E. rewrite <- E.
    destruct b; simpl; rewrite E1, E2; unfold asks, answers; simpl; rewrite app_nil_r; done. }
  destruct Hx as [b Hb]. pose proof (gstuck_all s b I H Hb) as Ha. split.
  - intros b' E. destruct (Ha b') as [Hq _]. destruct (I b') as [_ Eb]. rewrite E in Eb.
    apply app_nil in Eb as [_ Eb]. apply app_nil in Eb as [_ Eb]. apply app_nil in Eb as [Eb _]. done.
  - destruct (Ha true) as [_ Ft]. destruct (Ha false) as [_ Ff].
    apply lfull_sum in Ft, Ff. unfold gplaces. rewrite <- Ft, <- Ff.
    destruct (I true) as [_ Et]. destruct (I false) as [_ Ef]. simpl in Et, Ef.
    rewrite <- Et, <- Ef, !app_length.
    pose proof (asks_answers (flat (g_line s true))). pose proof (asks_answers (flat (g_line s false))). lia.
Qed.
End peers.

(** ** A schedule that fills both lines *)
(** The messages [l], as far to the end of the line as they fit. *)
Fixpoint pack (caps : list nat) (l : list fmsg) : stages :=
  match caps with
  | [] => []
  | c :: cs => drop (sum_list cs) l :: pack cs (take (sum_list cs) l)
  end.
Lemma pack_length caps l : length (pack caps l) = length caps.
Proof. revert l. induction caps as [|c cs IH]; intros l; [done|]. simpl. by rewrite IH. Qed.
Lemma pack_nil caps : pack caps [] = nothing caps.
Proof.
  induction caps as [|c cs IH]; [done|]. change (drop (sum_list cs) [] :: pack cs (take (sum_list cs) []) = [] :: nothing cs).
  rewrite drop_nil, take_nil, IH. done.
Qed.
Lemma pack_full caps l : length l = sum_list caps -> lfull caps (pack caps l).
Proof.
  revert l. induction caps as [|c cs IH]; intros l H; [constructor|].
  change (sum_list (c :: cs)) with (c + sum_list cs) in H. simpl. constructor.
  - rewrite drop_length. lia.
  - apply IH. rewrite take_length. lia.
Qed.
(** The last place holds the first messages. *)
Lemma pack_last caps c l : length l <= sum_list (caps ++ [c]) -> pack (caps ++ [c]) l !! length caps = Some (take c l).
Proof.
  revert l. induction caps as [|c0 cs IH]; intros l H.
  - simpl. change (sum_list ([] ++ [c])) with (c + 0) in H. change (sum_list []) with 0. rewrite drop_0, take_ge by lia. done.
  - change (sum_list ((c0 :: cs) ++ [c])) with (c0 + sum_list (cs ++ [c])) in H.
    simpl. rewrite IH by (rewrite take_length; lia). rewrite take_take. f_equal. f_equal.
    assert (c <= sum_list (cs ++ [c])); [|lia].
    clear. induction cs as [|c1 cs IH].
    + change (sum_list ([] ++ [c])) with (c + 0). lia.
    + change (sum_list ((c1 :: cs) ++ [c])) with (c1 + sum_list (cs ++ [c])). lia.
Qed.

Inductive lmoves (caps : list nat) : stages -> stages -> Prop :=
| lms_nil l : lmoves caps l l
| lms_cons l i l1 l2 : lmove caps l i l1 -> lmoves caps l1 l2 -> lmoves caps l l2.
Lemma lmoves_cons caps c q l l' : lmoves caps l l' -> lmoves (c :: caps) (q :: l) (q :: l').
Proof.
  induction 1 as [|l i l1 l2 Hm _ IH]; [constructor|].
  apply (lms_cons _ _ (S i) (q :: l1)); [|done].
  destruct Hm as [l i x q' r c' Hi Hr Hc Hl].
  exact (lm_move (c :: caps) (q :: l) (S i) x q' r c' Hi Hr Hc Hl).
Qed.
(** A message put into the first place goes as far as it can. *)
Lemma settle caps c l x :
  Forall (fun c => 1 <= c) (c :: caps) -> length l < sum_list (c :: caps) ->
  lput (c :: caps) (pack (c :: caps) l) x (<[0 := drop (sum_list caps) l ++ [x]]> (pack (c :: caps) l)) /\
  lmoves (c :: caps) (<[0 := drop (sum_list caps) l ++ [x]]> (pack (c :: caps) l)) (pack (c :: caps) (l ++ [x])).
Proof.
  revert c l. induction caps as [|c1 cs IH]; intros c l Hc Hl;
    change (sum_list (c :: ?cs)) with (c + sum_list cs) in Hl.
  - split.
    + exists (drop 0 l), c. split_and!; [done|done| |done]. change (sum_list []) with 0 in Hl. rewrite drop_0. lia.
    + simpl. change (sum_list []) with 0. rewrite !drop_0. constructor.
  - inversion Hc as [|? ? Hc0 Hcs]; subst. split.
    + exists (drop (sum_list (c1 :: cs)) l), c. split_and!; [done|done| |done]. rewrite drop_length. lia.
    + destruct (decide (sum_list (c1 :: cs) <= length l)) as [Hge|Hlt].
      * (* stays *)
        change (lmoves (c :: c1 :: cs) ((drop (sum_list (c1 :: cs)) l ++ [x]) :: pack (c1 :: cs) (take (sum_list (c1 :: cs)) l))
                 (drop (sum_list (c1 :: cs)) (l ++ [x]) :: pack (c1 :: cs) (take (sum_list (c1 :: cs)) (l ++ [x])))).
        rewrite drop_app_le, take_app_le by done. constructor.
      * (* goes on *)
        change (lmoves (c :: c1 :: cs) ((drop (sum_list (c1 :: cs)) l ++ [x]) :: pack (c1 :: cs) (take (sum_list (c1 :: cs)) l))
                 (drop (sum_list (c1 :: cs)) (l ++ [x]) :: pack (c1 :: cs) (take (sum_list (c1 :: cs)) (l ++ [x])))).
        rewrite (drop_ge l), (take_ge l), (drop_ge (l ++ [x])), (take_ge (l ++ [x])) by (rewrite ?app_length; simpl; lia).
        destruct (IH c1 l Hcs ltac:(lia)) as [(q & c' & Hq & Hc' & Hr & _) Hms].
        apply (lms_cons _ _ 0 ([] :: <[0 := drop (sum_list cs) l ++ [x]]> (pack (c1 :: cs) l))).
        -- assert (q = drop (sum_list cs) l) as -> by (simpl in Hq; congruence).
           assert (c' = c1) as -> by (simpl in Hc'; congruence).
           exact (lm_move (c :: c1 :: cs) ([x] :: pack (c1 :: cs) l) 0 x [] (drop (sum_list cs) l) c1 eq_refl eq_refl eq_refl Hr).
        -- apply lmoves_cons. exact Hms.
Qed.
Lemma flat_pack caps l : length l <= sum_list caps -> flat (pack caps l) = l.
Proof.
  revert l. induction caps as [|c cs IH]; intros l H.
  - destruct l; [done|simpl in H; change (sum_list []) with 0 in H; lia].
  - change (sum_list (c :: cs)) with (c + sum_list cs) in H. simpl. rewrite IH by (rewrite take_length; lia).
    apply take_drop.
Qed.
Lemma pack_one caps x : Forall (fun c => 1 <= c) caps -> caps <> [] ->
  pack caps [x] !! (length caps - 1) = Some [x] /\ <[length caps - 1 := []]> (pack caps [x]) = nothing caps.
Proof.
  induction caps as [|c cs IH]; intros Hc Hn; [done|]. inversion Hc as [|? ? Hc0 Hcs]; subst.
  destruct cs as [|c1 cs]; [split; done|].
  destruct (IH Hcs ltac:(done)) as [E1 E2].
  assert (Hs : 1 <= sum_list (c1 :: cs)).
  { change (sum_list (c1 :: cs)) with (c1 + sum_list cs). inversion Hcs; subst. lia. }
  assert (Ep : pack (c :: c1 :: cs) [x] = [] :: pack (c1 :: cs) [x]).
  { change (drop (sum_list (c1 :: cs)) [x] :: pack (c1 :: cs) (take (sum_list (c1 :: cs)) [x]) = [] :: pack (c1 :: cs) [x]).
    rewrite drop_ge, take_ge by (simpl; lia). done. }
  rewrite Ep. change (length (c :: c1 :: cs) - 1) with (S (length cs)).
  change (length (c1 :: cs) - 1) with (length cs - 0) in E1, E2. rewrite Nat.sub_0_r in E1, E2. split.
  - exact E1.
  - change ([] :: <[length cs := []]> (pack (c1 :: cs) [x]) = [] :: nothing (c1 :: cs)). f_equal. exact E2.
Qed.
Lemma lfull_noput caps l x l' : lfull caps l -> ~ lput caps l x l'.
Proof.
  intros Hf (q & c & Hq & Hc & Hl & _). destruct (Forall2_lookup_lr _ _ _ _ _ _ Hf Hq Hc) as []. lia.
Qed.
Lemma lfull_nomove caps l i l' : lfull caps l -> ~ lmove caps l i l'.
Proof.
  intros Hf H. destruct H as [l i x q r c Hi Hr Hc Hl].
  destruct (Forall2_lookup_lr _ _ _ _ _ _ Hf Hr Hc) as []. lia.
Qed.
Lemma lfull_ok caps l : lfull caps l -> lineok caps l.
Proof. intros H. eapply Forall2_impl; [exact H|]. simpl. lia. Qed.

Lemma gruns_one k s l s' : gstep k s l s' -> gruns k s [l] s'.
Proof. intros H. apply (gr_snoc k s [] s l s'); [constructor|exact H]. Qed.
Lemma gruns_app k s1 tr1 s2 tr2 s3 : gruns k s1 tr1 s2 -> gruns k s2 tr2 s3 -> gruns k s1 (tr1 ++ tr2) s3.
Proof.
  intros H1 H2. induction H2 as [|tr s l s' _ IH Hs]; [by rewrite app_nil_r|].
  rewrite app_assoc. eapply gr_snoc; [exact IH|exact Hs].
Qed.

Section fill.
Context (k : bool -> nat) (Hk : forall b, 1 <= k b).
Local Notation caps b := (caps_listener (k b)).

(** What the lines of [b] and of the other one hold, packed, and what both
    still ask. *)
Definition holds (b : bool) (s : gst) (lb ln : list fmsg) (tb tn : list nat) : Prop :=
  g_line s b = pack (caps b) lb /\ g_line s (negb b) = pack (caps (negb b)) ln /\
  g_todo s b = tb /\ g_todo s (negb b) = tn.
Lemma holds_swap b s lb ln tb tn : holds b s lb ln tb tn <-> holds (negb b) s ln lb tn tb.
Proof. unfold holds. rewrite negb_involutive. naive_solver. Qed.

Lemma run_moves b s l : lmoves (caps b) (g_line s b) l ->
  exists tr s', gruns k s tr s' /\ g_line s' b = l /\ g_line s' (negb b) = g_line s (negb b) /\
    g_todo s' = g_todo s.
Proof.
  intros H. remember (g_line s b) as l0 eqn:E. revert s E.
  induction H as [l|l i l1 l2 Hm _ IH]; intros s E.
  - exists [], s. split; [constructor|done].
  - destruct s as [ls t g]. simpl in E. subst l.
    pose proof (gk_move k ls t g b i l1 Hm) as Hs.
    destruct (IH (Gst (<[b := l1]> ls) t g)) as (tr & s' & Hr & F1 & F2 & F3).
    { simpl. by rewrite fn_lookup_insert. }
    exists ([GMove b i] ++ tr), s'. split; [eapply gruns_app; [apply gruns_one; exact Hs|exact Hr]|].
    split; [done|]. split; [|exact F3]. rewrite F2. simpl. rewrite fn_lookup_insert_ne by (by destruct b). done.
Qed.

Lemma caps_cons b : exists c cs, caps b = c :: cs.
Proof. unfold caps_listener. eauto. Qed.
Lemma run_ask b s lb ln m tb tn :
  holds b s lb ln (m :: tb) tn -> length lb < sum_list (caps b) ->
  exists tr s', gruns k s tr s' /\ holds b s' (lb ++ [Ask m]) ln tb tn.
Proof.
  intros (E1 & E2 & E3 & E4) Hl.
  pose proof (caps_listener_pos _ (Hk b)) as Hc. destruct (caps_cons b) as (c & cs & Ec).
  rewrite Ec in *. destruct (settle cs c lb (Ask m) Hc Hl) as [Hp Hms].
  destruct s as [l t g]. simpl in *.
  rewrite <- E1 in Hp at 1. rewrite <- Ec in Hp.
  pose proof (gk_ask k l t g b m tb _ E3 Hp) as Hs.
  destruct (run_moves b (Gst (<[b := <[0 := drop (sum_list cs) lb ++ [Ask m]]> (pack (c :: cs) lb)]> l) (<[b := tb]> t) g)
              (pack (c :: cs) (lb ++ [Ask m]))) as (tr & s' & Hr & F1 & F2 & F3).
  { simpl. rewrite fn_lookup_insert, Ec. exact Hms. }
  simpl in F2, F3. rewrite fn_lookup_insert_ne in F2 by (by destruct b).
  eexists _, s'. split; [eapply gruns_app; [apply gruns_one; exact Hs|exact Hr]|].
  unfold holds. rewrite Ec, F1, F2, F3, fn_lookup_insert, fn_lookup_insert_ne by (by destruct b). done.
Qed.
Lemma run_asks b s lb ln ms tb tn :
  holds b s lb ln (ms ++ tb) tn -> length lb + length ms <= sum_list (caps b) ->
  exists tr s', gruns k s tr s' /\ holds b s' (lb ++ (Ask <$> ms)) ln tb tn.
Proof.
  revert s lb. induction ms as [|m ms IH]; intros s lb H Hl.
  - exists [], s. split; [constructor|]. cbn. by rewrite app_nil_r.
  - cbn [length] in Hl. destruct (run_ask b s lb ln m (ms ++ tb) tn H ltac:(lia)) as (tr1 & s1 & R1 & H1).
    destruct (IH s1 (lb ++ [Ask m]) H1) as (tr2 & s2 & R2 & H2).
    { rewrite app_length. cbn [length]. lia. }
    exists (tr1 ++ tr2), s2. split; [eapply gruns_app; [exact R1|exact R2]|].
    rewrite <- app_assoc in H2. exact H2.
Qed.
Lemma run_answer b s lb m tb tn :
  holds b s lb [Ask m] tb tn -> length lb < sum_list (caps b) ->
  exists tr s', gruns k s tr s' /\ holds b s' (lb ++ [Answer m]) [] tb tn.
Proof.
  intros (E1 & E2 & E3 & E4) Hl.
  destruct (pack_one (caps (negb b)) (Ask m) (caps_listener_pos _ (Hk (negb b))) ltac:(done)) as [P1 P2].
  pose proof (caps_listener_pos _ (Hk b)) as Hc. destruct (caps_cons b) as (c & cs & Ec).
  rewrite Ec in *. destruct (settle cs c lb (Answer m) Hc Hl) as [Hp Hms].
  destruct s as [l t g]. simpl in *.
  rewrite <- E1 in Hp at 1. rewrite <- Ec in Hp.
  assert (Ht : ltake (caps (negb b)) (l (negb b)) (Ask m) (nothing (caps (negb b)))).
  { exists []. rewrite E2. split; [exact P1|]. symmetry. exact P2. }
  rewrite <- (negb_involutive b) in Hp at 1 2.
  pose proof (gk_listen k l t g (negb b) m _ _ Ht Hp) as Hs. rewrite negb_involutive in Hs.
  match type of Hs with gstep _ _ _ ?x => set (s1 := x) in * end.
  destruct (run_moves b s1 (pack (c :: cs) (lb ++ [Answer m]))) as (tr & s' & Hr & F1 & F2 & F3).
  { subst s1. simpl. rewrite fn_lookup_insert_ne by (by destruct b). rewrite fn_lookup_insert, Ec. exact Hms. }
  subst s1. simpl in F2, F3. rewrite fn_lookup_insert in F2.
  eexists _, s'. split; [eapply gruns_app; [apply gruns_one; exact Hs|exact Hr]|].
  unfold holds. rewrite Ec, F1, F2, F3, pack_nil. done.
Qed.
Lemma run_answered b s lb ms tb tn :
  holds b s lb [] tb (ms ++ tn) -> length lb + length ms <= sum_list (caps b) ->
  exists tr s', gruns k s tr s' /\ holds b s' (lb ++ (Answer <$> ms)) [] tb tn.
Proof.
  revert s lb. induction ms as [|m ms IH]; intros s lb H Hl.
  - exists [], s. split; [constructor|]. cbn. by rewrite app_nil_r.
  - cbn [length] in Hl. apply holds_swap in H.
    assert (Hs : 1 <= sum_list (caps (negb b))) by (rewrite sum_listener; lia).
    destruct (run_ask (negb b) s [] lb m (ms ++ tn) tb H ltac:(simpl; lia)) as (tr1 & s1 & R1 & H1).
    apply holds_swap in H1.
    destruct (run_answer b s1 lb m tb (ms ++ tn) H1 ltac:(lia)) as (tr2 & s2 & R2 & H2).
    destruct (IH s2 (lb ++ [Answer m]) H2) as (tr3 & s3 & R3 & H3).
    { rewrite app_length. cbn [length]. lia. }
    exists (tr1 ++ tr2 ++ tr3), s3. split; [eapply gruns_app; [exact R1|eapply gruns_app; [exact R2|exact R3]]|].
    rewrite <- app_assoc in H3. exact H3.
Qed.

(** Both lines full, a question at the end of each. *)
Lemma full_stuck b s m lb m' ln tb tn :
  holds b s (Ask m :: lb) (Ask m' :: ln) tb tn ->
  length (Ask m :: lb) = sum_list (caps b) -> length (Ask m' :: ln) = sum_list (caps (negb b)) ->
  gstuck k s.
Proof.
  intros (E1 & E2 & E3 & E4) H1 H2.
  assert (Hf : forall b', lfull (caps b') (g_line s b')).
  { intros b'. destruct (decide (b' = b)) as [->|Hne].
    - rewrite E1. by apply pack_full.
    - assert (b' = negb b) as -> by (by destruct b, b'). rewrite E2. by apply pack_full. }
  assert (Hh : forall b' x l', ltake (caps b') (g_line s b') x l' -> exists m0, x = Ask m0).
  { intros b' x l' Hx. destruct (take_facts _ _ _ _ (lfull_ok _ _ (Hf b')) Hx) as (_ & F & _).
    destruct (decide (b' = b)) as [->|Hne].
    - rewrite E1, flat_pack in F by lia. injection F as <- _. by exists m.
    - assert (b' = negb b) as -> by (by destruct b, b').
      rewrite E2, flat_pack in F by lia. injection F as <- _. by exists m'. }
  intros l s' H. destruct H as [l t g b0 m0 p l' Ht Hp|l t g b0 i l' Hm|l t g b0 m0 l1 l2 Hx Hp|l t g b0 m0 l' Hx];
    simpl in *.
  - exact (lfull_noput _ _ _ _ (Hf b0) Hp).
  - exact (lfull_nomove _ _ _ _ (Hf b0) Hm).
  - exact (lfull_noput _ _ _ _ (Hf (negb b0)) Hp).
  - destruct (Hh b0 _ _ Hx) as [m1 E]. done.
Qed.

Lemma fill b n :
  n b <> [] -> sum_list (caps b) - length (n b) + sum_list (caps (negb b)) <= length (n (negb b)) ->
  exists tr s, gruns k (new_peers k n) tr s /\ gstuck k s /\ flat (g_line s b) <> [].
Proof.
  intros Hn Hl. pose proof (sum_listener (k b)) as S1. pose proof (sum_listener (k (negb b))) as S2.
  assert (P1 : 1 <= sum_list (caps b)) by lia. assert (P2 : 1 <= sum_list (caps (negb b))) by lia.
  clear S1 S2.
  set (A := sum_list (caps b)) in *. set (B := sum_list (caps (negb b))) in *.
  set (ms := take A (n b)). set (ds := take (A - length (n b)) (n (negb b))).
  set (es := take B (drop (A - length (n b)) (n (negb b)))).
  assert (L1 : length ms = A `min` length (n b)) by apply take_length.
  assert (L2 : length ds = A - length (n b)) by (unfold ds; rewrite take_length; lia).
  assert (L3 : length es = B) by (unfold es; rewrite take_length, drop_length; lia).
  assert (H0 : holds b (new_peers k n) [] [] (ms ++ drop A (n b)) (n (negb b))).
  { unfold holds. cbn [new_peers g_line g_todo]. rewrite !pack_nil. unfold ms. rewrite take_drop. done. }
  destruct (run_asks b _ _ _ _ _ _ H0) as (tr1 & s1 & R1 & H1). { rewrite L1. cbn [length]. fold A. lia. }
  simpl in H1.
  assert (E : n (negb b) = ds ++ es ++ drop B (drop (A - length (n b)) (n (negb b)))).
  { unfold ds, es. rewrite take_drop. rewrite take_drop. done. }
  rewrite E in H1.
  destruct (run_answered b _ _ _ _ _ H1) as (tr2 & s2 & R2 & H2). { rewrite fmap_length, L1, L2. fold A. lia. }
  apply holds_swap in H2.
  destruct (run_asks (negb b) _ _ _ _ _ _ H2) as (tr3 & s3 & R3 & H3). { rewrite L3. cbn [length]. fold B. lia. }
  simpl in H3. apply holds_swap in H3.
  exists (tr1 ++ tr2 ++ tr3), s3. split.
  { eapply gruns_app; [exact R1|eapply gruns_app; [exact R2|exact R3]]. }
  assert (Hm : exists m ms', ms = m :: ms').
  { destruct ms as [|m ms']; [|by eauto]. exfalso. simpl in L1. destruct (n b); [done|]. simpl in L1. lia. }
  assert (He : exists m es', es = m :: es').
  { destruct es as [|m es']; [|by eauto]. exfalso. simpl in L3. lia. }
  destruct Hm as (m & ms' & Em). destruct He as (e & es' & Ee).
  assert (Ll : length ((Ask <$> ms) ++ (Answer <$> ds)) = A) by (rewrite app_length, !fmap_length; lia).
  rewrite Em in H3, Ll. rewrite Ee in H3, L3. cbn [fmap list_fmap app] in H3, Ll. split.
  - apply (full_stuck b s3 _ _ _ _ _ _ H3); [exact Ll|]. cbn [length] in L3 |- *. rewrite fmap_length. exact L3.
  - destruct H3 as (H3 & _). rewrite H3, flat_pack; [done|]. fold A. rewrite Ll. done.
Qed.
End fill.
