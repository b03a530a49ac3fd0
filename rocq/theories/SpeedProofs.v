(** * Proofs about the speed test *)
From Verif Require Import FlowProofs SpeedSpec.
From Coq Require Import Lia.

Lemma times_app l tr tr' : times l (tr ++ tr') = times l tr + times l tr'.
Proof. unfold times. by rewrite List.filter_app, app_length. Qed.
Lemma times_one l x : times l [x] = if decide (x = l) then 1 else 0.
Proof. unfold times. simpl. case_bool_decide; case_decide; done. Qed.
Definition is_req (x : splab) : bool := match x with SpReq _ => true | _ => false end.
Definition is_ans (x : splab) : bool := match x with SpAns _ => true | _ => false end.
Definition cntp (f : splab -> bool) (tr : list splab) : nat := length (List.filter f tr).
Lemma cntp_app f tr tr' : cntp f (tr ++ tr') = cntp f tr + cntp f tr'.
Proof. unfold cntp. by rewrite List.filter_app, app_length. Qed.
Lemma cntp_one f x : cntp f [x] = if f x then 1 else 0.
Proof. unfold cntp. simpl. by destruct (f x). Qed.
Lemma incr_wrapped n : incr (wrapped n) = wrapped (S n).
Proof. unfold incr, wrapped. rewrite Z.add_mod_idemp_l by lia. f_equal. lia. Qed.

(** ** Lines *)
Lemma wt_flat l : wt l <= length l * length (flat l).
Proof. induction l as [|q l IH]; [done|]. cbn [wt flat length]. rewrite app_length. nia. Qed.
Lemma lost_facts caps l i x q : lineok caps l -> l !! i = Some (x :: q) ->
  lineok caps (<[i := q]> l) /\ length (flat l) = S (length (flat (<[i := q]> l))).
Proof.
  intros Hk Hi. destruct (lineok_lookup caps l i _ Hk Hi) as (c & Hc & Hl). simpl in Hl. split.
  - apply (lineok_insert caps l i q c); [done|done|lia].
  - clear Hk Hc Hl. revert i Hi. induction l as [|q0 l IH]; intros [|i] Hi; try done.
    + injection Hi as ->. cbn. rewrite !app_length. simpl. lia.
    + change (l !! i = Some (x :: q)) in Hi. change (length (flat l ++ q0) = S (length (flat (<[i:=q]> l) ++ q0))). pose proof (IH i Hi) as E. unfold stages in *. rewrite !app_length. lia.
Qed.
Lemma move_keeps caps l i l' : lmove caps l i l' -> (exists y p, l !! (length caps - 1) = Some (y :: p)) ->
  length l = length caps -> exists y p, l' !! (length caps - 1) = Some (y :: p).
Proof.
  intros H (y & p & Hy) Hlen. destruct H as [l i x q r c Hi Hr Hc Hl]. unfold stages in *.
  pose proof (lookup_lt_Some _ _ _ Hr) as Hlt.
  destruct (decide (S i = length caps - 1)) as [E|E].
  - rewrite <- E in Hy |- *. rewrite list_lookup_insert by (rewrite insert_length; done). rewrite Hr in Hy. injection Hy as ->. by eexists _, _.
  - rewrite list_lookup_insert_ne by done. rewrite list_lookup_insert_ne by lia. by eexists _, _.
Qed.
Lemma last_of_full caps l : Forall (fun c => 1 <= c) caps -> caps <> [] -> lfull caps l -> exists y p, l !! (length caps - 1) = Some (y :: p).
Proof.
  intros Hc Hn Hf. destruct (Forall2_lookup_r _ _ _ (length caps - 1) (List.last caps 0) Hf) as (q & Hq & Hl).
  { destruct (exists_last Hn) as (cs & c & ->). rewrite app_length, last_last. simpl. rewrite lookup_app_r by lia.
    replace (length cs + 1 - 1 - length cs) with 0 by lia. done. }
  destruct q as [|y q]; [|by eexists _, _]. simpl in Hl.
  destruct (exists_last Hn) as (cs & c & ->). rewrite last_last in Hl. apply Forall_app in Hc as [_ Hc]. inversion Hc; subst. lia.
Qed.

Section test.
Context (okc oks : bool) (k1 k2 : nat).
Notation spruns := (spruns okc oks k1 k2).
Notation spstep := (spstep okc oks k1 k2).
Notation new_speed := (new_speed k1 k2).
Notation C1 := (caps_listener k1).
Notation C2 := (caps_listener k2).
Definition heard (p : sphase) : nat := match p with SpIdle => 0 | _ => 1 end.
Definition putted (p : sphase) : nat := match p with SpPut => 1 | _ => 0 end.

(** ** Counters *)
Lemma counters tr s : spruns new_speed tr s ->
  sp_ctx s = wrapped (times SpCount tr) /\ sp_crx s = wrapped (times SpGot tr) /\ sp_stx s = wrapped (times SpReturn tr) /\ sp_srx s = wrapped (times SpHear tr).
Proof.
  induction 1 as [|tr s1 l s2 H IH Hst]; [done|]. rewrite !times_app, !times_one.
  inversion Hst; subst; simpl in *; destruct IH as (-> & -> & -> & ->); rewrite ?Nat.add_0_r, ?Nat.add_1_r, ?incr_wrapped; done.
Qed.

(** ** Where the messages are *)
Record spinv (tr : list splab) (s : spst) : Prop := Spinv {
  i_k1 : lineok C1 (sp_req s);
  i_k2 : lineok C2 (sp_ans s);
  i_puts : times SpPutReq tr = times SpCount tr + (if sp_owes s then 1 else 0);
  i_req : times SpPutReq tr = length (flat (sp_req s)) + times SpReturn tr + times SpLostReq tr;
  i_hear : times SpHear tr = times SpReturn tr + heard (sp_phase s);
  i_reply : times SpReply tr = times SpReturn tr + putted (sp_phase s);
  i_ans : times SpReply tr = length (flat (sp_ans s)) + times SpGot tr + times SpLostAns tr;
  i_hand : sp_phase s <> SpIdle -> exists y p, sp_req s !! (length C1 - 1) = Some (y :: p) }.
Lemma spinv_start : spinv [] new_speed.
Proof. split; simpl; rewrite ?flat_nothing; try done; apply lineok_nothing. Qed.
Lemma last5 : length C1 - 1 = 5.
Proof. done. Qed.
Lemma spinv_step tr s l s' : spinv tr s -> spstep s l s' -> spinv (tr ++ [l]) s'.
Proof.
  intros [I1 I2 I3 I4 I5 I6 I7 I8] Hst.
  destruct Hst; simpl in *; rewrite ?last5 in *.
  - destruct (put_facts _ _ _ _ I1 H) as (F1 & F2 & F3).
    split; simpl; rewrite ?times_app, ?times_one; simpl; rewrite ?F2, ?app_length; simpl; try done; try lia.
    intros Hp. destruct (I8 Hp) as (y & p & Hy). destruct H as (q & c & Hq & Hc & Hl & ->). exists y, p. unfold stages in *. by rewrite list_lookup_insert_ne.
  - split; simpl; rewrite ?times_app, ?times_one; simpl; try done; lia.
  - destruct (move_facts _ _ _ _ I1 H) as (F1 & F2 & F3).
    split; simpl; rewrite ?times_app, ?times_one; simpl; rewrite ?F2; try done; try lia.
    intros Hp. exact (move_keeps C1 _ _ _ H (I8 Hp) (lineok_length _ _ I1)).
  - destruct (lost_facts _ _ _ _ _ I1 H0) as (F1 & F2).
    split; simpl; rewrite ?times_app, ?times_one; simpl; try done; try lia.
    intros Hp. destruct (I8 Hp) as (y & p & Hy). exists y, p. unfold stages in *. by rewrite list_lookup_insert_ne.
  - split; simpl; rewrite ?times_app, ?times_one; simpl; try done; try lia. intros _. by exists x, q.
  - destruct (put_facts _ _ _ _ I2 H) as (F1 & F2 & F3).
    split; simpl; rewrite ?times_app, ?times_one; simpl; rewrite ?F2, ?app_length; simpl; try done; try lia. intros _. by apply I8.
  - destruct (take_facts _ _ _ _ I1 H) as (F1 & F2 & F3). rewrite F2 in I4. simpl in I4.
    split; simpl; rewrite ?times_app, ?times_one; simpl; try done; lia.
  - destruct (move_facts _ _ _ _ I2 H) as (F1 & F2 & F3).
    split; simpl; rewrite ?times_app, ?times_one; simpl; rewrite ?F2; try done; lia.
  - destruct (lost_facts _ _ _ _ _ I2 H0) as (F1 & F2).
    split; simpl; rewrite ?times_app, ?times_one; simpl; try done; lia.
  - destruct (take_facts _ _ _ _ I2 H) as (F1 & F2 & F3). rewrite F2 in I7. simpl in I7.
    split; simpl; rewrite ?times_app, ?times_one; simpl; try done; lia.
Qed.
Lemma spinv_runs tr s : spruns new_speed tr s -> spinv tr s.
Proof. induction 1 as [|tr s1 l s2 H IH Hst]; [apply spinv_start|by eapply spinv_step]. Qed.

Lemma in_order tr s : spruns new_speed tr s ->
  times SpCount tr <= times SpPutReq tr <= S (times SpCount tr) /\ times SpReturn tr <= times SpReply tr <= S (times SpReturn tr) /\
  times SpGot tr <= times SpReply tr /\ times SpReply tr <= times SpHear tr /\ times SpHear tr <= times SpPutReq tr.
Proof.
  intros H. destruct (spinv_runs _ _ H) as [I1 I2 I3 I4 I5 I6 I7 I8].
  assert (heard (sp_phase s) <= length (flat (sp_req s))) as Hh.
  { assert (sp_phase s = SpIdle \/ sp_phase s <> SpIdle) as [->|Hn] by (destruct (sp_phase s); auto); [simpl; lia|]. destruct (I8 Hn) as (y & p & Hy).
    destruct (lost_facts _ _ _ _ _ I1 Hy) as (_ & F). destruct (sp_phase s); simpl; lia. }
  destruct (sp_owes s), (sp_phase s); simpl in *; lia.
Qed.

(** ** Nothing is lost if the messages fit *)
Lemma no_loss tr s : spruns new_speed tr s -> (okc = true -> times SpLostReq tr = 0) /\ (oks = true -> times SpLostAns tr = 0).
Proof.
  induction 1 as [|tr s1 l s2 H IH Hst]; [done|]. destruct IH as [IH1 IH2]. rewrite !times_app, !times_one.
  split; intros E; [rewrite (IH1 E)|rewrite (IH2 E)]; destruct Hst; simpl; congruence.
Qed.
Lemma under_way tr s : okc = true -> oks = true -> spruns new_speed tr s ->
  times SpPutReq tr <= times SpHear tr + (1027 + k1) /\ times SpReply tr <= times SpGot tr + (1027 + k2) /\
  times SpPutReq tr <= times SpGot tr + (2054 + k1 + k2).
Proof.
  intros E1 E2 H. destruct (no_loss _ _ H) as [N1 N2]. specialize (N1 E1). specialize (N2 E2).
  destruct (spinv_runs _ _ H) as [I1 I2 I3 I4 I5 I6 I7 I8].
  pose proof (lineok_sum _ _ I1) as S1. pose proof (lineok_sum _ _ I2) as S2. rewrite sum_listener in S1, S2. lia.
Qed.

(** ** Steps *)
Lemma steps_count tr s : okc = true -> oks = true -> spruns new_speed tr s ->
  wt (sp_req s) + cntp is_req tr + times SpReturn tr = 6 * times SpPutReq tr /\
  wt (sp_ans s) + cntp is_ans tr + times SpGot tr = 6 * times SpReply tr /\
  length tr = times SpPutReq tr + times SpCount tr + cntp is_req tr + times SpHear tr + times SpReply tr + times SpReturn tr + cntp is_ans tr + times SpGot tr.
Proof.
  intros E1 E2. induction 1 as [|tr s1 l s2 H IH Hst]; [done|]. destruct IH as (IH1 & IH2 & IH3).
  destruct (spinv_runs _ _ H) as [I1 I2 _ _ _ _ _ _]. rewrite app_length. rewrite !times_app, !cntp_app, !times_one, !cntp_one.
  destruct Hst; simpl in *; try congruence.
  - destruct (put_facts _ _ _ _ I1 H0) as (F1 & F2 & F3). rewrite len_listener in F3. lia.
  - lia.
  - destruct (move_facts _ _ _ _ I1 H0) as (F1 & F2 & F3). lia.
  - lia.
  - destruct (put_facts _ _ _ _ I2 H0) as (F1 & F2 & F3). rewrite len_listener in F3. lia.
  - destruct (take_facts _ _ _ _ I1 H0) as (F1 & F2 & F3). lia.
  - destruct (move_facts _ _ _ _ I2 H0) as (F1 & F2 & F3). lia.
  - destruct (take_facts _ _ _ _ I2 H0) as (F1 & F2 & F3). lia.
Qed.
Lemma spruns_app s tr s1 tr' s2 : spruns s tr s1 -> spruns s1 tr' s2 -> spruns s (tr ++ tr') s2.
Proof. intros H1 H2. induction H2 as [|tr' s2 l s3 H2 IH Hst]; [by rewrite app_nil_r|]. rewrite app_assoc. by eapply sr_snoc. Qed.
Lemma length_between tr s : okc = true -> oks = true -> spruns new_speed tr s ->
  16 * times SpGot tr <= length tr + 7 /\ length tr <= 16 * times SpGot tr + (1 + 12 * 2054 + 8 * k1 + 16 * k2).
Proof.
  intros E1 E2 H. destruct (steps_count _ _ E1 E2 H) as (L1 & L2 & L3). destruct (in_order _ _ H) as (O1 & O2 & O3 & O4 & O5).
  destruct (under_way _ _ E1 E2 H) as (U1 & U2 & U3). destruct (no_loss _ _ H) as [N1 N2]. specialize (N1 E1). specialize (N2 E2).
  destruct (spinv_runs _ _ H) as [I1 I2 I3 I4 I5 I6 I7 I8].
  pose proof (wt_flat (sp_req s)) as W1. pose proof (wt_flat (sp_ans s)) as W2.
  rewrite (lineok_length _ _ I1), len_listener in W1. rewrite (lineok_length _ _ I2), len_listener in W2.
  assert (heard (sp_phase s) <= 1) by (destruct (sp_phase s); simpl; lia). assert (putted (sp_phase s) <= heard (sp_phase s)) by (destruct (sp_phase s); simpl; lia).
  clear I1 I2 I8 H. destruct (sp_owes s); lia.
Qed.
Lemma answers_keep_coming tr s tr' s' : okc = true -> oks = true -> spruns new_speed tr s -> spruns s tr' s' -> times SpGot tr' = 0 ->
  length tr' <= 8 + 12 * 2054 + 8 * k1 + 16 * k2.
Proof.
  intros E1 E2 H H' Hg. destruct (length_between _ _ E1 E2 H) as [A _].
  destruct (length_between _ _ E1 E2 (spruns_app _ _ _ _ _ H H')) as [_ B]. rewrite app_length, times_app in B. lia.
Qed.
Lemma never_stuck tr s : okc = true -> oks = true -> 1 <= k1 -> 1 <= k2 -> spruns new_speed tr s -> ~ (forall l s', ~ spstep s l s').
Proof.
  intros E1 E2 K1 K2 H St. destruct (spinv_runs _ _ H) as [I1 I2 I3 I4 I5 I6 I7 I8]. clear H.
  destruct s as [r a ow ph ctx crx stx srx]. simpl in *.
  destruct ow; [by eapply (St SpCount), pk_count|].
  assert (lfull C1 r) as Hf.
  { apply (still_put _ _ (Ask 0) (caps_listener_pos k1 K1) I1); [|done|].
    - intros i l' Hm. eapply (St (SpReq i)), pk_req; [exact Hm|by left].
    - intros l' Hp. eapply (St SpPutReq), pk_put, Hp. }
  destruct (last_of_full _ _ (caps_listener_pos k1 K1) ltac:(done) Hf) as (y & p & Hy).
  destruct ph.
  - eapply (St SpHear), pk_hear, Hy.
  - assert (lfull C2 a) as Hf2.
    { apply (still_put _ _ (Answer 0) (caps_listener_pos k2 K2) I2); [|done|].
      - intros i l' Hm. eapply (St (SpAns i)), pk_ans; [exact Hm|by left].
      - intros l' Hp. eapply (St SpReply), pk_reply, Hp. }
    destruct (last_of_full _ _ (caps_listener_pos k2 K2) ltac:(done) Hf2) as (y2 & p2 & Hy2).
    eapply (St SpGot), pk_got. exists p2. split; [exact Hy2|done].
  - eapply (St SpReturn), pk_return. exists p. split; [exact Hy|done].
Qed.

(** ** Messages that do not fit *)
Lemma quiet_req tr s : okc = false -> spruns new_speed tr s ->
  (forall i q, 2 <= i -> sp_req s !! i = Some q -> q = []) /\ sp_phase s = SpIdle /\ times SpHear tr = 0.
Proof.
  intros E. induction 1 as [|tr s1 l s2 H IH Hst].
  - split_and!; [|done|done]. intros i q Hi Hq. unfold SpeedModel.new_speed, nothing in Hq. simpl in Hq.
    do 6 (destruct i as [|i]; [simpl in Hq; congruence|]). done.
  - destruct IH as (Q & P & T). rewrite times_app, times_one, T.
    destruct Hst as [r r' a ph ctx crx stx srx Hp| |r r' a ow ph ctx crx stx srx i Hm Hi|r a ow ph ctx crx stx srx x q Ho Hq|r a ow ctx crx stx srx x q Hq| | |r a a' ow ph ctx crx stx srx i Hm Hi| |]; simpl in *; try done.
    + split_and!; try done. destruct Hp as (q & c & Hq & Hc & Hl & ->). intros i q' Hi Hq'. unfold stages in *; rewrite list_lookup_insert_ne in Hq' by lia. by eapply Q.
    + split_and!; try done. destruct Hi as [Hi|Hi]; [congruence|]. destruct Hm as [l i x q r' c H1 H2 Hc Hl].
      destruct (decide (i = 0)) as [->|Hn].
      * intros j q' Hj Hq'. unfold stages in *; rewrite !list_lookup_insert_ne in Hq' by lia. by eapply Q.
      * assert (x :: q = []) as Hx by (eapply (Q i); [lia|exact H1]). done.
    + split_and!; try done. intros j q' Hj Hq'. unfold stages in *; rewrite list_lookup_insert_ne in Hq' by lia. by eapply Q.
    + assert (x :: q = []) as Hx by (eapply (Q 5); [lia|exact Hq]). done.
Qed.
Lemma quiet_ans tr s : oks = false -> spruns new_speed tr s ->
  (forall i q, 2 <= i -> sp_ans s !! i = Some q -> q = []) /\ times SpGot tr = 0.
Proof.
  intros E. induction 1 as [|tr s1 l s2 H IH Hst].
  - split_and!; [|done]. intros i q Hi Hq. unfold SpeedModel.new_speed, nothing in Hq. simpl in Hq.
    do 6 (destruct i as [|i]; [simpl in Hq; congruence|]). done.
  - destruct IH as (Q & T). rewrite times_app, times_one, T.
    destruct Hst as [| | | | |r a a' ow ctx crx stx srx Hp| |r a a' ow ph ctx crx stx srx i Hm Hi|r a ow ph ctx crx stx srx x q Ho Hq|r a a' ow ph ctx crx stx srx x Ht]; simpl in *; try done.
    + split_and!; try done. destruct Hp as (q & c & Hq & Hc & Hl & ->). intros i q' Hi Hq'. unfold stages in *; rewrite list_lookup_insert_ne in Hq' by lia. by eapply Q.
    + split_and!; try done. destruct Hi as [Hi|Hi]; [congruence|]. destruct Hm as [l i x q r' c H1 H2 Hc Hl].
      destruct (decide (i = 0)) as [->|Hn].
      * intros j q' Hj Hq'. unfold stages in *; rewrite !list_lookup_insert_ne in Hq' by lia. by eapply Q.
      * assert (x :: q = []) as Hx by (eapply (Q i); [lia|exact H1]). done.
    + split_and!; try done. intros j q' Hj Hq'. unfold stages in *; rewrite list_lookup_insert_ne in Hq' by lia. by eapply Q.
    + destruct Ht as (q & Hq & _). assert (x :: q = []) as Hx by (eapply (Q 5); [lia|exact Hq]). done.
Qed.
End test.
