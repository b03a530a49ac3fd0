(** * Lines of places, questions and answers *)
From Verif Require Export FlowSpec.
From Coq Require Import Lia.

(** ** One line *)
Fixpoint flat (l : stages) : list fmsg := match l with [] => [] | q :: l' => flat l' ++ q end.
Fixpoint wt (l : stages) : nat := match l with [] => 0 | q :: l' => length q * S (length l') + wt l' end.
Definition lineok (caps : list nat) (l : stages) : Prop := Forall2 (fun q c => length q <= c) l caps.
Definition lfull (caps : list nat) (l : stages) : Prop := Forall2 (fun q c => length q = c) l caps.

Lemma lineok_length caps l : lineok caps l -> length l = length caps.
Proof. apply Forall2_length. Qed.
Lemma lineok_nothing caps : lineok caps (nothing caps).
Proof. unfold nothing. induction caps; constructor; simpl; [lia|done]. Qed.
Lemma flat_nothing caps : flat (nothing caps) = [].
Proof. induction caps as [|c cs IH]; [done|]. change (flat (nothing cs) ++ [] = []). by rewrite IH. Qed.
Lemma wt_nothing caps : wt (nothing caps) = 0.
Proof. induction caps as [|c cs IH]; [done|]. change (0 * S (length (nothing cs)) + wt (nothing cs) = 0). rewrite IH. lia. Qed.

Lemma lineok_insert caps l i q c :
  lineok caps l -> caps !! i = Some c -> length q <= c -> lineok caps (<[i := q]> l).
Proof.
  intros H. revert i. induction H as [|q0 c0 l cs H0 H IH]; intros i Hi Hq; [done|].
  destruct i as [|i]; simpl in *.
  - injection Hi as ->. constructor; [done|done].
  - constructor; [done|]. exact (IH i Hi Hq).
Qed.
Lemma lineok_lookup caps l i q : lineok caps l -> l !! i = Some q -> exists c, caps !! i = Some c /\ length q <= c.
Proof.
  intros H Hi. destruct (Forall2_lookup_l _ _ _ _ _ H Hi) as (c & Hc & Hl). exists c. done.
Qed.

Lemma flat_put l q x : l !! 0 = Some q -> flat (<[0 := q ++ [x]]> l) = flat l ++ [x].
Proof. destruct l as [|q0 l]; [done|]. intros H. injection H as ->. simpl. by rewrite app_assoc. Qed.
Lemma wt_put l q x : l !! 0 = Some q -> wt (<[0 := q ++ [x]]> l) = wt l + length l.
Proof. destruct l as [|q0 l]; [done|]. intros H. injection H as ->. simpl. rewrite app_length. simpl. lia. Qed.
Lemma flat_move l i x q r :
  l !! i = Some (x :: q) -> l !! S i = Some r -> flat (<[S i := r ++ [x]]> (<[i := q]> l)) = flat l.
Proof.
  revert i. induction l as [|q0 l IH]; intros i Hi Hr; [done|].
  destruct i as [|i].
  - injection Hi as ->. destruct l as [|r0 l]; [done|]. injection Hr as ->. simpl. rewrite <- !app_assoc. done.
  - simpl in Hi, Hr. change (flat (<[S i := r ++ [x]]> (<[i := q]> l)) ++ q0 = flat l ++ q0).
    f_equal. exact (IH i Hi Hr).
Qed.
Lemma wt_move l i x q r :
  l !! i = Some (x :: q) -> l !! S i = Some r -> wt l = S (wt (<[S i := r ++ [x]]> (<[i := q]> l))).
Proof.
  revert i. induction l as [|q0 l IH]; intros i Hi Hr; [done|].
  destruct i as [|i].
  - injection Hi as ->. destruct l as [|r0 l]; [done|]. injection Hr as ->.
    simpl. rewrite app_length. simpl. lia.
  - simpl in Hi, Hr.
    change (wt (q0 :: l) = S (wt (q0 :: <[S i := r ++ [x]]> (<[i := q]> l)))).
    assert (E : wt l = S (wt (<[S i := r ++ [x]]> (<[i := q]> l)))) by exact (IH i Hi Hr).
    cbn [wt]. rewrite !insert_length. lia.
Qed.
Lemma flat_take l i x q : i = length l - 1 -> l !! i = Some (x :: q) -> flat l = x :: flat (<[i := q]> l).
Proof.
  revert i. induction l as [|q0 l IH]; intros i Hi Hx; [done|].
  destruct l as [|q1 l].
  - simpl in Hi. subst i. simpl in *. injection Hx as ->. done.
  - destruct i as [|i]; [simpl in Hi; lia|]. simpl in Hx.
    change (flat (q1 :: l) ++ q0 = x :: flat (<[i := q]> (q1 :: l)) ++ q0).
    rewrite (IH i); [done|simpl in Hi |- *; lia|done].
Qed.
Lemma wt_take l i x q : i = length l - 1 -> l !! i = Some (x :: q) -> wt l = S (wt (<[i := q]> l)).
Proof.
  revert i. induction l as [|q0 l IH]; intros i Hi Hx; [done|].
  destruct l as [|q1 l].
  - simpl in Hi. subst i. simpl in *. injection Hx as ->. simpl. lia.
  - destruct i as [|i]; [simpl in Hi; lia|]. simpl in Hx.
    assert (E : wt (q1 :: l) = S (wt (<[i := q]> (q1 :: l)))) by (apply (IH i); [simpl in Hi |- *; lia|done]).
    change (length q0 * S (length (q1 :: l)) + wt (q1 :: l) =
            S (length q0 * S (length (<[i := q]> (q1 :: l))) + wt (<[i := q]> (q1 :: l)))).
    rewrite insert_length. lia.
Qed.

(** The three steps of a line. *)
Lemma put_facts caps l x l' : lineok caps l -> lput caps l x l' ->
  lineok caps l' /\ flat l' = flat l ++ [x] /\ wt l' = wt l + length caps.
Proof.
  intros Hk (q & c & Hq & Hc & Hl & ->). split_and!.
  - apply (lineok_insert caps l 0 _ c); [done|done|]. rewrite app_length. simpl. lia.
  - by apply flat_put.
  - rewrite <- (lineok_length caps l Hk). by apply wt_put.
Qed.
Lemma move_facts caps l i l' : lineok caps l -> lmove caps l i l' ->
  lineok caps l' /\ flat l' = flat l /\ wt l = S (wt l').
Proof.
  intros Hk H. destruct H as [l i x q r c Hi Hr Hc Hl].
  destruct (lineok_lookup caps l i _ Hk Hi) as (c' & Hc' & Hx). simpl in Hx.
  split_and!.
  - apply (lineok_insert caps _ (S i) _ c); [|done|rewrite app_length; simpl; lia].
    apply (lineok_insert caps l i q c'); [done|done|lia].
  - by apply flat_move.
  - by apply wt_move.
Qed.
Lemma take_facts caps l x l' : lineok caps l -> ltake caps l x l' ->
  lineok caps l' /\ flat l = x :: flat l' /\ wt l = S (wt l').
Proof.
  intros Hk (q & Hx & ->).
  destruct (lineok_lookup caps l _ _ Hk Hx) as (c' & Hc' & Hx'). simpl in Hx'.
  split_and!.
  - apply (lineok_insert caps l _ q c'); [done|done|lia].
  - apply flat_take; [|done]. rewrite (lineok_length caps l Hk). done.
  - apply wt_take with x; [|done]. rewrite (lineok_length caps l Hk). done.
Qed.

Lemma lineok_sum caps l : lineok caps l -> length (flat l) <= sum_list caps.
Proof.
  induction 1 as [|q c l cs H0 H IH]; [done|]. cbn [flat]. rewrite app_length.
  change (sum_list (c :: cs)) with (c + sum_list cs). lia.
Qed.
Lemma lfull_sum caps l : lfull caps l -> length (flat l) = sum_list caps.
Proof.
  induction 1 as [|q c l cs H0 H IH]; [done|]. cbn [flat]. rewrite app_length.
  change (sum_list (c :: cs)) with (c + sum_list cs). lia.
Qed.

(** If nothing can move. *)
Lemma still_tail caps c l q :
  (forall i l', ~ lmove (c :: caps) (q :: l) i l') -> forall i l', ~ lmove caps l i l'.
Proof.
  intros H i l' Hm. destruct Hm as [l i x q' r c' Hi Hr Hc Hl].
  eapply (H (S i)), lm_move; [exact Hi|exact Hr|exact Hc|exact Hl].
Qed.
Lemma still_full caps l q0 :
  Forall (fun c => 1 <= c) caps -> lineok caps l -> (forall i l', ~ lmove caps l i l') ->
  l !! 0 = Some q0 -> q0 <> [] -> lfull (tail caps) (tail l).
Proof.
  intros Hc Hk. revert q0. induction Hk as [|q c l cs H0 Hk IH]; intros q0 Hs Hq Hne; [done|].
  injection Hq as <-. simpl. inversion Hc as [|? ? Hc1 Hc2]; subst.
  destruct Hk as [|q1 c1 l cs H1 Hk]; [constructor|].
  assert (Hf : length q1 = c1).
  { destruct (decide (length q1 < c1)) as [Hlt|Hge]; [|lia].
    destruct q as [|x q]; [done|].
    exfalso. eapply (Hs 0), lm_move; [reflexivity|reflexivity|reflexivity|exact Hlt]. }
  constructor; [done|].
  apply (IH Hc2) with q1.
  - exact (still_tail _ _ _ _ Hs).
  - done.
  - inversion Hc2; subst. destruct q1; [simpl in *; lia|done].
Qed.
Lemma still_last caps l :
  Forall (fun c => 1 <= c) caps -> lineok caps l -> (forall i l', ~ lmove caps l i l') ->
  flat l <> [] -> exists x l', ltake caps l x l'.
Proof.
  intros Hc Hk. induction Hk as [|q c l cs H0 Hk IH]; intros Hs Hne; [done|].
  inversion Hc as [|? ? Hc1 Hc2]; subst.
  destruct Hk as [|q1 c1 l cs H1 Hk].
  { destruct q as [|x q]; [done|]. exists x, [q]. exists q. done. }
  assert (Hne' : flat (q1 :: l) <> []).
  { intros E. change (flat (q1 :: l) ++ q <> []) in Hne. rewrite E in Hne.
    destruct q as [|x q]; [done|].
    assert (Hf : lfull (tail (c :: c1 :: cs)) (tail ((x :: q) :: q1 :: l))).
    { eapply still_full; [exact Hc|constructor; [done|by constructor]|exact Hs|reflexivity|done]. }
    simpl in Hf. pose proof (lfull_sum _ _ Hf) as Hs'. rewrite E in Hs'. simpl in Hs'.
    inversion Hc2; subst. lia. }
  destruct (IH Hc2 (still_tail _ _ _ _ Hs) Hne') as (x & l' & q' & Hx & ->).
  exists x, (<[length (c :: c1 :: cs) - 1 := q']> (q :: q1 :: l)). exists q'. split; [|done].
  simpl in Hx |- *. rewrite Nat.sub_0_r in Hx. done.
Qed.
Lemma still_put caps l x :
  Forall (fun c => 1 <= c) caps -> lineok caps l -> (forall i l', ~ lmove caps l i l') ->
  caps <> [] -> (forall l', ~ lput caps l x l') -> lfull caps l.
Proof.
  intros Hc Hk Hs Hn Hp. pose proof (still_full caps l) as Hsf.
  destruct Hk as [|q c l cs H0 Hk]; [done|].
  inversion Hc as [|? ? Hc1 Hc2]; subst.
  assert (Hf : length q = c).
  { destruct (decide (length q < c)) as [Hlt|Hge]; [|lia].
    exfalso. eapply Hp. exists q, c. done. }
  constructor; [done|].
  apply (Hsf q); [done|by constructor|done|done|]. destruct q; [simpl in *; lia|done].
Qed.

Definition capok (k : nat) := 1 <= k.
Lemma caps_listener_pos k : 1 <= k -> Forall (fun c => 1 <= c) (caps_listener k).
Proof. intros. unfold caps_listener. repeat constructor; lia. Qed.
Lemma caps_channel_pos k : 1 <= k -> Forall (fun c => 1 <= c) (caps_channel k).
Proof. intros. unfold caps_channel. repeat constructor; lia. Qed.
Lemma sum_listener k : sum_list (caps_listener k) = 1027 + k.
Proof. unfold caps_listener. unfold sum_list. cbn [sum_list_with id]. unfold id. lia. Qed.
Lemma sum_channel k : sum_list (caps_channel k) = 1026 + k.
Proof. unfold caps_channel. unfold sum_list. cbn [sum_list_with id]. unfold id. lia. Qed.

(** ** Asking *)
Lemma asked_app p q : asked (p ++ q) = asked p ++ asked q.
Proof. unfold asked. apply omap_app. Qed.
Lemma takes_app p q : takes (p ++ q) = takes p + takes q.
Proof. unfold takes. rewrite filter_app, app_length. done. Qed.
Lemma ahead_app p q : ahead (p ++ q) = (ahead p + ahead q)%Z.
Proof. unfold ahead. rewrite asked_app, takes_app, app_length. lia. Qed.

Definition total (os : list (list uop)) : nat := sum_list (takes <$> os).
Lemma total_insert os u o o' : os !! u = Some o -> total (<[u := o']> os) + takes o = total os + takes o'.
Proof.
  unfold total. revert u. induction os as [|o1 os IH]; intros u Hu; [done|].
  destruct u as [|u].
  - injection Hu as ->. change (takes o' + sum_list (takes <$> os) + takes o = takes o + sum_list (takes <$> os) + takes o'). lia.
  - change (takes o1 + sum_list (takes <$> <[u := o']> os) + takes o = takes o1 + sum_list (takes <$> os) + takes o').
    specialize (IH u Hu). lia.
Qed.
Lemma total_nil os : total os = 0 -> Forall (fun o => takes o = 0) os.
Proof.
  induction os as [|o os IH]; [done|]. intros H. change (takes o + total os = 0) in H.
  constructor; [lia|]. apply IH. lia.
Qed.

Lemma lfull_last caps l : Forall (fun c => 1 <= c) caps -> caps <> [] -> lfull caps l -> flat l <> [].
Proof.
  intros Hc Hn Hf E. pose proof (lfull_sum _ _ Hf) as F. rewrite E in F. simpl in F.
  destruct caps as [|c cs]; [done|]. inversion Hc; subst. change (sum_list (c :: cs)) with (c + sum_list cs) in F. lia.
Qed.
Definition places (k1 k2 : nat) : nat := sum_list (caps_listener k1) + sum_list (caps_channel k2).
Arguments places : simpl never.
Arguments caps_listener : simpl never.
Arguments caps_channel : simpl never.
Arguments sum_list_with : simpl never.
Lemma len_listener k : length (caps_listener k) = 6.
Proof. done. Qed.
Lemma len_channel k : length (caps_channel k) = 5.
Proof. done. Qed.
Section ask.
Context (k1 k2 : nat) (p0 : list uop) (os0 : list (list uop)).
Context (Hk1 : 1 <= k1) (Hk2 : 1 <= k2).
Context (Hos : Forall (fun o => asked o = []) os0).
Local Notation C := (places k1 k2).

Record cinv (s : cst) (d p : list uop) (os : list (list uop)) (r a : list nat) : Prop := Cinv {
  ci_users : c_users s = p :: os;
  ci_prog : p0 = d ++ p;
  ci_len : length os = length os0;
  ci_other : Forall (fun o => asked o = []) os;
  ci_takes : length (c_got s) + total os = takes d + total os0;
  ci_ok1 : lineok (caps_listener k1) (c_req s);
  ci_ok2 : lineok (caps_channel k2) (c_ans s);
  ci_req : flat (c_req s) = Ask <$> r;
  ci_ans : c_got s ++ flat (c_ans s) = Answer <$> a;
  ci_all : a ++ r = asked d;
  ci_ahead : os0 = [] -> at_most_ahead C d }.
Definition cmeasure (s : cst) (p : list uop) : nat :=
  12 * length (asked p) + (wt (c_req s) + 5 * length (flat (c_req s))) + wt (c_ans s).

Lemma cinv_start : cinv (new_ask k1 k2 (p0 :: os0)) [] p0 os0 [] [].
Proof.
  constructor; try done.
  - apply lineok_nothing.
  - apply lineok_nothing.
  - intros _ q1 q2 E. symmetry in E. apply app_nil in E as [-> ->]. unfold ahead. simpl. lia.
Qed.
Lemma counts s d p os r a : cinv s d p os r a ->
  length (asked d) = length (c_got s) + length (flat (c_req s)) + length (flat (c_ans s)).
Proof.
  intros I. destruct I as [Iu Ip In Io It Ik1 Ik2 Ir Ia Il Ih].
  assert (Hl : length (c_got s) + length (flat (c_ans s)) = length a).
  { rewrite <- app_length, Ia, fmap_length. done. }
  rewrite <- Il, app_length, <- Hl, Ir, fmap_length. lia.
Qed.
Lemma in_flight s d p os r a : cinv s d p os r a -> os0 = [] ->
  ahead d = Z.of_nat (length (flat (c_req s)) + length (flat (c_ans s))).
Proof.
  intros I E. pose proof (counts _ _ _ _ _ _ I) as Hc.
  destruct I as [Iu Ip In Io It Ik1 Ik2 Ir Ia Il Ih].
  rewrite E in In. destruct os; [|done]. rewrite E in It. change (total []) with 0 in It.
  unfold ahead. lia.
Qed.
Lemma fits s d p os r a : cinv s d p os r a ->
  length (flat (c_req s)) + length (flat (c_ans s)) <= C.
Proof.
  intros [Iu Ip In Io It Ik1 Ik2 Ir Ia Il Ih].
  pose proof (lineok_sum _ _ Ik1) as F1. pose proof (lineok_sum _ _ Ik2) as F2.
  unfold places. lia.
Qed.

Lemma cinv_step s l s' d p os r a : cinv s d p os r a -> cstep k1 k2 s l s' ->
  exists d' p' os' r' a', cinv s' d' p' os' r' a' /\ cmeasure s p = S (cmeasure s' p').
Proof.
  intros [Iu Ip In Io It Ik1 Ik2 Ir Ia Il Ih] H. destruct H; simpl in *.
  - (* ask *)
    destruct (put_facts _ _ _ _ Ik1 H0) as (F1 & F2 & F3).
    subst us. destruct u as [|u].
    2:{ exfalso. simpl in H. pose proof (Forall_lookup_1 _ _ _ _ Io H) as E. done. }
    simpl in H. injection H as ->.
    assert (I : os0 = [] -> at_most_ahead C (d ++ [UAsk m])).
    { intros E. rewrite E in In. destruct os; [|done].
      intros q1 q2 Eq. destruct (decide (q2 = [])) as [->|Hne].
      - rewrite app_nil_r in Eq. subst q1. rewrite ahead_app. unfold ahead.
        rewrite E in It. change (total []) with 0 in It.
        pose proof (lineok_sum _ _ F1) as G1. pose proof (lineok_sum _ _ Ik2) as G2.
        rewrite F2, app_length, Ir, fmap_length in G1.
        assert (Hl : length g + length (flat a0) = length a) by (rewrite <- app_length, Ia, fmap_length; done).
        rewrite <- Il, app_length. change (length (asked [UAsk m])) with 1. change (takes [UAsk m]) with 0.
        cbn [length] in G1. unfold places. lia.
      - destruct (exists_last Hne) as (q3 & o' & ->). rewrite app_assoc in Eq.
        apply app_inj_tail in Eq as [Eq _]. exact (Ih E q1 q3 Eq). }
    exists (d ++ [UAsk m]), p1, os, (r ++ [m]), a. split.
    + constructor; simpl; try done.
      * rewrite Ip, <- app_assoc. done.
      * rewrite takes_app. unfold takes at 2. simpl. lia.
      * rewrite F2, Ir, fmap_app. done.
      * rewrite app_assoc, Il, asked_app. done.
    + unfold cmeasure. simpl. rewrite F3, F2, app_length, len_listener. cbn [length asked omap list_omap]. lia.
  - (* towards the listener *)
    destruct (move_facts _ _ _ _ Ik1 H) as (F1 & F2 & F3).
    exists d, p, os, r, a. split.
    + constructor; simpl; try done. by rewrite F2.
    + unfold cmeasure. simpl. rewrite F3, F2. lia.
  - (* the listener *)
    destruct (take_facts _ _ _ _ Ik1 H) as (F1 & F2 & F3).
    destruct (put_facts _ _ _ _ Ik2 H0) as (G1 & G2 & G3).
    rewrite F2 in Ir. destruct r as [|m' r]; [done|]. cbn in Ir. injection Ir as -> Ir.
    exists d, p, os, r, (a ++ [m']). split.
    + constructor; simpl; try done.
      * rewrite G2, app_assoc, Ia, fmap_app. done.
      * rewrite <- app_assoc. done.
    + unfold cmeasure. simpl. rewrite F3, F2, G3, len_channel. cbn [length]. lia.
  - (* back *)
    destruct (move_facts _ _ _ _ Ik2 H) as (F1 & F2 & F3).
    exists d, p, os, r, a. split.
    + constructor; simpl; try done. by rewrite F2.
    + unfold cmeasure. simpl. rewrite F3. lia.
  - (* take *)
    destruct (take_facts _ _ _ _ Ik2 H0) as (F1 & F2 & F3).
    rewrite F2 in Ia. subst us. destruct u as [|u].
    + simpl in H. injection H as ->.
      exists (d ++ [UTake]), p1, os, r, a. split.
      * constructor; simpl; try done.
        -- rewrite Ip, <- app_assoc. done.
        -- rewrite takes_app, app_length. unfold takes at 2. simpl. lia.
        -- rewrite <- app_assoc. done.
        -- rewrite asked_app. simpl. rewrite app_nil_r. done.
        -- intros E q1 q2 Eq. destruct (decide (q2 = [])) as [->|Hne].
           ++ rewrite app_nil_r in Eq. subst q1. rewrite ahead_app.
              pose proof (Ih E d [] ltac:(by rewrite app_nil_r)). unfold ahead at 2. simpl. lia.
           ++ destruct (exists_last Hne) as (q3 & o' & ->). rewrite app_assoc in Eq.
              apply app_inj_tail in Eq as [Eq _]. exact (Ih E q1 q3 Eq).
      * unfold cmeasure. simpl. rewrite F3. unfold asked at 1. simpl. unfold asked. lia.
    + simpl in H.
      exists d, p, (<[u := p1]> os), r, a. split.
      * constructor; simpl; try done.
        -- rewrite insert_length. done.
        -- apply Forall_insert; [done|]. pose proof (Forall_lookup_1 _ _ _ _ Io H) as E. done.
        -- pose proof (total_insert os u _ p1 H) as E. rewrite app_length.
           assert (E' : takes (UTake :: p1) = S (takes p1)) by done. rewrite E' in E. simpl. lia.
        -- rewrite <- app_assoc. done.
      * unfold cmeasure. simpl. rewrite F3. lia.
Qed.

Lemma cinv_runs tr s : cruns k1 k2 (new_ask k1 k2 (p0 :: os0)) tr s ->
  exists d p os r a, cinv s d p os r a /\ length tr + cmeasure s p = 12 * length (asked p0).
Proof.
  induction 1 as [|tr s1 l s2 _ IH Hs].
  - exists [], p0, os0, [], []. split; [exact cinv_start|].
    unfold cmeasure. simpl. lia.
  - destruct IH as (d & p & os & r & a & I & M).
    destruct (cinv_step _ _ _ _ _ _ _ _ I Hs) as (d' & p' & os' & r' & a' & I' & M').
    exists d', p', os', r', a'. split; [exact I'|]. rewrite app_length. simpl. lia.
Qed.

(** If nothing can happen any more. *)
Lemma cstuck_moves s : cstuck k1 k2 s ->
  (forall i l', ~ lmove (caps_listener k1) (c_req s) i l') /\
  (forall i l', ~ lmove (caps_channel k2) (c_ans s) i l').
Proof.
  destruct s as [r a us g]. simpl. intros H. split; intros i l' Hm.
  - eapply (H (CReq i)), ck_req, Hm.
  - eapply (H (CAns i)), ck_ans, Hm.
Qed.
(** either all is empty behind the first place that holds something, or full. *)
Lemma cstuck_some s d p os r a : cinv s d p os r a -> cstuck k1 k2 s ->
  flat (c_req s) <> [] -> lfull (caps_channel k2) (c_ans s).
Proof.
  intros I H Hne. destruct (cstuck_moves s H) as [Hm1 Hm2].
  destruct I as [Iu Ip In Io It Ik1 Ik2 Ir Ia Il Ih].
  destruct (still_last _ _ (caps_listener_pos k1 Hk1) Ik1 Hm1 Hne) as (x & l' & Hx).
  destruct (take_facts _ _ _ _ Ik1 Hx) as (F1 & F2 & F3).
  rewrite F2 in Ir. destruct r as [|m r]; [done|]. cbn in Ir. injection Ir as -> _.
  apply (still_put _ _ (Answer m) (caps_channel_pos k2 Hk2) Ik2 Hm2); [done|].
  intros a' Ha. destruct s as [r0 a0 us g]. simpl in *.
  eapply (H CListen), ck_listen; [exact Hx|exact Ha].
Qed.
Lemma cstuck_take s d p os r a : cinv s d p os r a -> cstuck k1 k2 s ->
  flat (c_req s) <> [] \/ flat (c_ans s) <> [] -> forall u q, c_users s !! u <> Some (UTake :: q).
Proof.
  intros I H Hne u q Hu.
  assert (Ha : flat (c_ans s) <> []).
  { destruct Hne as [Hne|Hne]; [|done].
    pose proof (cstuck_some _ _ _ _ _ _ I H Hne) as Hf.
    exact (lfull_last _ _ (caps_channel_pos k2 Hk2) ltac:(done) Hf). }
  destruct (cstuck_moves s H) as [Hm1 Hm2].
  destruct I as [Iu Ip In Io It Ik1 Ik2 Ir Ia Il Ih].
  destruct (still_last _ _ (caps_channel_pos k2 Hk2) Ik2 Hm2 Ha) as (x & l' & Hx).
  destruct s as [r0 a0 us g]. simpl in *.
  eapply (H (CTake u)), ck_take; [exact Hu|exact Hx].
Qed.
Lemma cstuck_ask s d p os r a : cinv s d p os r a -> cstuck k1 k2 s ->
  forall u m q, c_users s !! u = Some (UAsk m :: q) ->
  length (flat (c_req s)) + length (flat (c_ans s)) = C /\ flat (c_ans s) <> [].
Proof.
  intros I H u m q Hu. destruct (cstuck_moves s H) as [Hm1 Hm2].
  assert (Hf : lfull (caps_listener k1) (c_req s)).
  { destruct I as [Iu Ip In Io It Ik1 Ik2 Ir Ia Il Ih].
    apply (still_put _ _ (Ask m) (caps_listener_pos k1 Hk1) Ik1 Hm1); [done|].
    intros r' Hr. destruct s as [r0 a0 us g]. simpl in *.
    eapply (H (CAsk u)), ck_ask; [exact Hu|exact Hr]. }
  pose proof (lfull_last _ _ (caps_listener_pos k1 Hk1) ltac:(done) Hf) as Hne.
  pose proof (cstuck_some _ _ _ _ _ _ I H Hne) as Hf2.
  split.
  - rewrite (lfull_sum _ _ Hf), (lfull_sum _ _ Hf2). unfold places. lia.
  - exact (lfull_last _ _ (caps_channel_pos k2 Hk2) ltac:(done) Hf2).
Qed.
End ask.
