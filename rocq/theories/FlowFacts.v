(** * What follows for whole executions *)
From Verif Require Export FlowProofs FlowPeers.
From Coq Require Import Lia.

Lemma places_eq k1 k2 : places k1 k2 = 2053 + k1 + k2.
Proof. unfold places. rewrite sum_listener, sum_channel. lia. Qed.
Lemma gplaces_eq k : gplaces k = 2054 + k true + k false.
Proof. unfold gplaces. rewrite !sum_listener. lia. Qed.

Lemma prefix_got k1 k2 p0 os0 s d p os r a :
  cinv k1 k2 p0 os0 s d p os r a -> c_got s = Answer <$> take (length (c_got s)) (asked p0).
Proof.
  intros [Iu Ip In Io It Ik1 Ik2 Ir Ia Il Ih].
  assert (E : c_got s = Answer <$> take (length (c_got s)) a).
  { rewrite fmap_take, <- Ia, take_app. done. }
  assert (Hl : length (c_got s) <= length a).
  { pose proof (f_equal length Ia) as F. rewrite app_length, fmap_length in F. lia. }
  rewrite Ip, asked_app, <- Il, <- app_assoc, take_app_le by done. exact E.
Qed.

Section one.
Context (k1 k2 : nat) (Hk1 : 1 <= k1) (Hk2 : 1 <= k2).
Lemma ask_bounded p tr s : cruns k1 k2 (new_ask k1 k2 [p]) tr s -> length tr <= 12 * length (asked p).
Proof.
  intros H. destruct (cinv_runs k1 k2 p [] Hk1 Hk2 (Forall_nil_2 _) tr s H) as (d & p' & os & r & a & I & M). lia.
Qed.
Lemma ask_done p tr s :
  takes_answers p -> at_most_ahead (places k1 k2) p -> cruns k1 k2 (new_ask k1 k2 [p]) tr s ->
  cstuck k1 k2 s -> cdone s.
Proof.
  intros Ht Hm H Hs. destruct (cinv_runs k1 k2 p [] Hk1 Hk2 (Forall_nil_2 _) tr s H) as (d & p' & os & r & a & I & M).
  pose proof (in_flight _ _ _ _ Hk1 Hk2 _ _ _ _ _ _ I eq_refl) as Hf.
  pose proof (cstuck_ask k1 k2 p [] Hk1 Hk2 s d p' os r a I Hs) as Ha.
  pose proof (cstuck_take k1 k2 p [] Hk1 Hk2 s d p' os r a I Hs) as Htk.
  destruct I as [Iu Ip In Io It Ik1 Ik2 Ir Ia Il Ih].
  destruct os as [|? ?]; [|done]. unfold cdone. rewrite Iu. constructor; [|constructor].
  destruct p' as [|[m|] p']; [done| |]; exfalso.
  - destruct (Ha 0 m p') as [Hc _]; [by rewrite Iu|].
    assert (E : p = (d ++ [UAsk m]) ++ p') by (rewrite <- app_assoc; exact Ip).
    pose proof (Hm _ _ E) as F. rewrite ahead_app, Hf, Hc in F.
    change (ahead [UAsk m]) with 1%Z in F. lia.
  - assert (E : p = (d ++ [UTake]) ++ p') by (rewrite <- app_assoc; exact Ip).
    pose proof (Ht _ _ E) as F. rewrite ahead_app, Hf in F. change (ahead [UTake]) with (-1)%Z in F.
    refine (Htk _ 0 p' _); [|by rewrite Iu].
    destruct (flat (c_req s)); [|by left]. destruct (flat (c_ans s)); [|by right]. simpl in F. lia.
Qed.
Lemma ask_got p tr s : cruns k1 k2 (new_ask k1 k2 [p]) tr s ->
  c_got s = Answer <$> take (length (c_got s)) (asked p) /\ (cdone s -> length (c_got s) = takes p).
Proof.
  intros H. destruct (cinv_runs k1 k2 p [] Hk1 Hk2 (Forall_nil_2 _) tr s H) as (d & p' & os & r & a & I & M).
  split; [exact (prefix_got _ _ _ _ _ _ _ _ _ _ I)|].
  destruct I as [Iu Ip In Io It Ik1 Ik2 Ir Ia Il Ih]. unfold cdone. rewrite Iu. intros Hd.
  inversion Hd as [|? ? Hp' _]; subst. destruct os; [|done]. change (total []) with 0 in It. rewrite app_nil_r. lia.
Qed.
Lemma ask_blocked p tr s :
  ~ at_most_ahead (places k1 k2) p -> cruns k1 k2 (new_ask k1 k2 [p]) tr s -> ~ cdone s.
Proof.
  intros Hn H Hd. apply Hn.
  destruct (cinv_runs k1 k2 p [] Hk1 Hk2 (Forall_nil_2 _) tr s H) as (d & p' & os & r & a & I & M).
  destruct I as [Iu Ip In Io It Ik1 Ik2 Ir Ia Il Ih]. unfold cdone in Hd. rewrite Iu in Hd.
  inversion Hd as [|? ? Hp' _]; subst. rewrite app_nil_r. exact (Ih eq_refl).
Qed.

Lemma asked_all ms : asked (UAsk <$> ms) = ms.
Proof. unfold asked. induction ms as [|m ms IH]; [done|]. cbn. f_equal. exact IH. Qed.
Lemma asked_takes n : asked (replicate n UTake) = [].
Proof. unfold asked. induction n as [|n IH]; [done|]. exact IH. Qed.
Lemma takes_takes n : takes (replicate n UTake) = n.
Proof. unfold takes. induction n as [|n IH]; [done|]. simpl. by rewrite IH. Qed.
Lemma takes_asks ms : takes (UAsk <$> ms) = 0.
Proof. unfold takes. induction ms as [|m ms IH]; [done|]. exact IH. Qed.
Lemma suffix_asks d p ms : UAsk <$> ms = d ++ p -> exists ms1 ms2, d = UAsk <$> ms1 /\ p = UAsk <$> ms2 /\ ms = ms1 ++ ms2.
Proof.
  revert ms. induction d as [|o d IH]; intros ms E.
  - by exists [], ms.
  - destruct ms as [|m ms]; [done|]. cbn in E. injection E as <- E.
    destruct (IH ms E) as (ms1 & ms2 & -> & -> & ->). by exists (m :: ms1), ms2.
Qed.
Lemma two_goroutines ms tr s :
  cruns k1 k2 (new_ask k1 k2 [UAsk <$> ms; replicate (length ms) UTake]) tr s ->
  length tr <= 12 * length ms /\ c_got s = Answer <$> take (length (c_got s)) ms /\
  (cstuck k1 k2 s -> cdone s /\ c_got s = Answer <$> ms).
Proof.
  intros H.
  assert (Ho : Forall (fun o => asked o = []) [replicate (length ms) UTake]) by (constructor; [apply asked_takes|constructor]).
  destruct (cinv_runs k1 k2 (UAsk <$> ms) [replicate (length ms) UTake] Hk1 Hk2 Ho tr s H) as (d & p' & os & r & a & I & M).
  rewrite asked_all in M.
  pose proof (prefix_got _ _ _ _ _ _ _ _ _ _ I) as Hp. rewrite asked_all in Hp.
  split; [lia|]. split; [exact Hp|]. intros Hs.
  pose proof (counts _ _ _ _ Hk1 Hk2 _ _ _ _ _ _ I) as Hc.
  pose proof (cstuck_ask k1 k2 _ _ Hk1 Hk2 s d p' os r a I Hs) as Ha.
  pose proof (cstuck_take k1 k2 _ _ Hk1 Hk2 s d p' os r a I Hs) as Htk.
  destruct I as [Iu Ip In Io It Ik1 Ik2 Ir Ia Il Ih].
  destruct (suffix_asks _ _ _ Ip) as (ms1 & ms2 & -> & -> & ->).
  destruct os as [|o [|? ?]]; [done| |done].
  rewrite takes_asks in It. rewrite asked_all in Hc.
  change (total [?x]) with (takes x + 0) in It. rewrite takes_takes in It. rewrite app_length in It.
  assert (Hu1 : c_users s !! 1 = Some o) by (by rewrite Iu).
  (* the taking goroutine is at a take or done *)
  assert (Hto : o = [] \/ exists q, o = UTake :: q).
  { destruct o as [|[m|] q]; [by left| |right; by eauto].
    apply Forall_inv in Io. done. }
  assert (He : o <> [] -> flat (c_req s) = [] /\ flat (c_ans s) = []).
  { intros Hne. destruct Hto as [->|[q ->]]; [done|].
    split; [destruct (flat (c_req s)) eqn:E; [done|]|destruct (flat (c_ans s)) eqn:E; [done|]]; exfalso.
    - exact (Htk ltac:(by left) 1 q Hu1).
    - exact (Htk ltac:(by right) 1 q Hu1). }
  assert (Hms2 : ms2 = []).
  { destruct ms2 as [|m ms2]; [done|]. exfalso.
    destruct (Ha 0 m (UAsk <$> ms2)) as [_ Hne]; [by rewrite Iu|].
    destruct Hto as [->|[q ->]].
    - change (takes []) with 0 in It. cbn [length] in It. lia.
    - destruct (He ltac:(done)) as [_ E]. done. }
  subst ms2. rewrite app_nil_r in *. cbn [length] in It.
  assert (Ho' : o = []).
  { destruct Hto as [->|[q ->]]; [done|]. exfalso. destruct (He ltac:(done)) as [E1 E2].
    rewrite E1, E2 in Hc. cbn [length] in Hc. assert (takes (UTake :: q) = S (takes q)) as Eq by done. lia. }
  subst o. split.
  - unfold cdone. rewrite Iu. repeat constructor.
  - change (takes []) with 0 in It. rewrite Hp. rewrite take_ge by lia. done.
Qed.
End one.

Section peers.
Context (k : bool -> nat) (Hk : forall b, 1 <= k b).
Lemma peers_bounded n tr s : gruns k (new_peers k n) tr s -> length tr <= 13 * (length (n true) + length (n false)).
Proof. intros H. destruct (ginv_runs k n tr s H) as [_ M]. lia. Qed.
Lemma peers_got n tr s b : gruns k (new_peers k n) tr s -> exists rest, n b = g_got s b ++ rest.
Proof. intros H. destruct (ginv_runs k n tr s H) as [I _]. destruct (I b) as [_ E]. rewrite <- E. eauto. Qed.
Lemma peers_done n tr s :
  n true = [] \/ n false = [] \/ length (n true) + length (n false) < gplaces k ->
  gruns k (new_peers k n) tr s -> gstuck k s -> gdone n s.
Proof.
  intros Hn H Hs. destruct (ginv_runs k n tr s H) as [I _].
  assert (Hd : {gdone n s} + {~ gdone n s}).
  { assert (X : forall b, {g_todo s b = [] /\ g_got s b = n b} + {~ (g_todo s b = [] /\ g_got s b = n b)}) by (intros b; apply (decide _)).
    destruct (X true) as [Xt|Xt]; [|right; intros F; exact (Xt (F true))].
    destruct (X false) as [Xf|Xf]; [|right; intros F; exact (Xf (F false))].
    left. intros [|]; done. }
  destruct Hd as [|Hd]; [done|]. exfalso.
  destruct (gstuck_not_done k n Hk s I Hs Hd) as [F1 F2].
  destruct Hn as [Hn|[Hn|Hn]]; [exact (F1 true Hn)|exact (F1 false Hn)|lia].
Qed.
Lemma peers_blocked n :
  n true <> [] -> n false <> [] -> gplaces k <= length (n true) + length (n false) ->
  exists tr s, gruns k (new_peers k n) tr s /\ gstuck k s /\ ~ gdone n s.
Proof.
  intros Ht Hf Hl. unfold gplaces in Hl.
  assert (Hb : exists b, n b <> [] /\
    sum_list (caps_listener (k b)) - length (n b) + sum_list (caps_listener (k (negb b))) <= length (n (negb b))).
  { destruct (decide (sum_list (caps_listener (k false)) <= length (n false))) as [Hd|Hd].
    - exists true. split; [done|]. cbn [negb]. lia.
    - exists false. split; [done|]. cbn [negb]. lia. }
  destruct Hb as (b & Hb & Hc). destruct (fill k Hk b n Hb Hc) as (tr & s & R & S & N).
  exists tr, s. split; [exact R|]. split; [exact S|]. intros Hd.
  destruct (ginv_runs k n tr s R) as [I _].
  destruct (gstuck_all k n Hk s b I S N b) as [Ha _]. destruct (I b) as [_ E]. destruct (Hd b) as [E1 E2].
  rewrite E2 in E. apply (f_equal length) in E. rewrite !app_length in E.
  destruct (asks (flat (g_line s b))); [done|]. cbn [length] in E. lia.
Qed.
End peers.
