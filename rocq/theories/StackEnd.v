(** Two stacks talking to each other, and the forms of the facts used by
    Props_Stack. *)
From stdpp Require Import list numbers.
From Coq Require Import ZArith Lia.
From Verif Require Import GoBase UBufModel UBufSpec UBufProofs UBufFacts FrameModel FrameSpec FrameProofs
  StackModel StackSpec StackProofs StackPath StackFacts StackEffects StackSpecial StackCount.

(** ** Wiring *)
Lemma visits_down E ids pre k ps session dest c m l s :
  wired E ids (pre ++ Proc k true :: ps) ->
  Forall (fun p => passes_message p = true) pre -> Forall (fun p => sends_on p = true) ps ->
  encodes k m l -> l <> [] -> e_isref E c = false ->
  (Z.of_nat (length l) <= e_mtu E - e_overhead E)%Z -> (e_mtu E < 2^32)%Z ->
  exists s', finishes (fun f => send f E session dest (Some c) (Some m) s) s
      (offered E (s_out s) c (wire_of (dest_of session dest) ps l)) s' /\
    fst <$> s_visits s' = (fst <$> s_visits s) ++ ((fun i => (i, Down)) <$> ids).
Proof.
  intros. destruct (send_fits E ids pre k ps session dest c m l s) as (s' & Ha & _ & Hb); try done. eauto.
Qed.
Lemma visits_up E ids pre k ps sess c m l s :
  wired E ids (pre ++ Proc k true :: ps) ->
  Forall (fun p => passes_message p = true) pre -> Forall (fun p => carries p = true) ps ->
  decodes k l m -> l <> [] -> e_isref E c = false ->
  (Z.of_nat (length (wire_of sess ps l)) <= e_mtu E)%Z -> (e_mtu E < 2^32)%Z -> caches_idle E s ->
  exists s', finishes (fun f => receive f E c (wire_of sess ps l) s) s
      (shown E (rx_session ps sess) (Some c) m) s' /\
    fst <$> s_visits s' = (fst <$> s_visits s) ++ ((fun i => (i, Up)) <$> rev ids).
Proof.
  intros. destruct (receive_wire E ids pre k ps sess c m l s) as (s' & Ha & _ & Hb); try done. eauto.
Qed.

Lemma overhead_sum E ids ps : wired E ids ps -> e_overhead E = room ps.
Proof. apply wired_overhead. Qed.

(** ** End to end *)
Lemma end_to_end A B idsA idsB preA preB k ps cA cB (ls : list letter) sA sB :
  wired A idsA (preA ++ Proc k true :: ps) -> wired B idsB (preB ++ Proc k true :: ps) ->
  Forall (fun p => passes_message p = true) preA -> Forall (fun p => passes_message p = true) preB ->
  Forall (fun p => carries p = true) ps ->
  e_isref A cA = false -> accepts A cA -> (e_mtu A < 2^32)%Z ->
  e_isref B cB = false -> (e_mtu B < 2^32)%Z -> caches_idle B sB ->
  Forall (fun x => encodes k (le_msg x) (le_bytes x) /\ decodes k (le_bytes x) (le_msg x) /\ le_bytes x <> [] /\
    (Z.of_nat (length (le_bytes x)) <= e_mtu A - e_overhead A)%Z /\
    (Z.of_nat (length (le_bytes x)) + room ps <= e_mtu B)%Z /\
    (0 <= le_sess x < 2^32)%Z /\ (existsb resolves ps = true \/ le_sess x = 0%Z) /\
    le_sess x ∈ e_sessions B) ls ->
  let w x := wire_of (le_sess x) ps (le_bytes x) in
  exists sA' sB',
    finish_all ((fun x f s => send f A (le_sess x) None (Some cA) (Some (le_msg x)) s) <$> ls) sA
      ((fun x => OWire cA (w x)) <$> ls) sA' /\
    finish_all ((fun x f s => receive f B cB (w x) s) <$> ls) sB
      ((fun x => ODeliver (le_sess x) (Some cB) (le_msg x)) <$> ls) sB'.
Proof.
  intros WA WB PA PB Hc RA Ac MA RB MB Id Hl w.
  destruct (send_letters A idsA preA k ps cA ls sA) as (sA' & HA); try done.
  { by apply carries_sends. }
  { eapply Forall_impl; [exact Hl|]. intros x (?&?&?&?&?). auto. }
  destruct (receive_letters B idsB preB k ps cB ls sB) as (sB' & HB & _); try done.
  { eapply Forall_impl; [exact Hl|]. intros x (?&?&?&?&?&?). split_and!; auto. by apply wire_length_room. }
  exists sA', sB'. split; [done|].
  assert (concat ((fun x => shown B (rx_session ps (le_sess x)) (Some cB) (le_msg x)) <$> ls) =
          (fun x => ODeliver (le_sess x) (Some cB) (le_msg x)) <$> ls) as <-; [|done].
  clear HA HB. induction Hl as [|x ls Hx Hl IH]; [done|]. rewrite !fmap_cons. cbn [concat]. rewrite IH.
  destruct Hx as (_&_&_&_&_&Hr&He&Hs). rewrite rx_session_same by done. unfold shown. by rewrite decide_True.
Qed.
Lemma end_to_end_coalesced A B idsA idsB preA preB k ps cap cA cB (ls : list letter) sA sB :
  let all := ps ++ [Proc (KFrame cap) true] in
  wired A idsA (preA ++ Proc k true :: all) -> wired B idsB (preB ++ Proc k true :: all) ->
  Forall (fun p => passes_message p = true) preA -> Forall (fun p => passes_message p = true) preB ->
  Forall (fun p => carries p = true) ps ->
  e_isref A cA = false -> accepts A cA -> (e_mtu A < 2^32)%Z ->
  e_isref B cB = false -> (e_mtu B < 2^32)%Z -> caches_idle B sB ->
  Forall (fun x => encodes k (le_msg x) (le_bytes x) /\ decodes k (le_bytes x) (le_msg x) /\ le_bytes x <> [] /\
    (Z.of_nat (length (le_bytes x)) <= e_mtu A - e_overhead A)%Z /\
    (0 <= le_sess x < 2^32)%Z /\ (existsb resolves ps = true \/ le_sess x = 0%Z) /\
    le_sess x ∈ e_sessions B) ls ->
  let w x := wire_of (le_sess x) all (le_bytes x) in
  (Z.of_nat (length (concat (w <$> ls))) <= e_mtu B)%Z ->
  exists sA' sB',
    finish_all ((fun x f s => send f A (le_sess x) None (Some cA) (Some (le_msg x)) s) <$> ls) sA
      ((fun x => OWire cA (w x)) <$> ls) sA' /\
    finishes (fun f => receive f B cB (concat (w <$> ls)) sB) sB
      ((fun x => ODeliver (le_sess x) (Some cB) (le_msg x)) <$> ls) sB'.
Proof.
  intros all WA WB PA PB Hc RA Ac MA RB MB Id Hl w Hm.
  destruct (send_letters A idsA preA k all cA ls sA) as (sA' & HA); try done.
  { apply carries_sends. apply Forall_app. split; [done|]. by repeat constructor. }
  { eapply Forall_impl; [exact Hl|]. intros x (?&?&?&?&?). auto. }
  destruct (receive_group B idsB preB k ps cap cB ls sB) as (sB' & HB & _); try done.
  { eapply Forall_impl; [exact Hl|]. intros x (?&?&?&?&?&?). auto. }
  exists sA', sB'. split; [done|].
  assert (concat ((fun x => shown B (rx_session ps (le_sess x)) (Some cB) (le_msg x)) <$> ls) =
          (fun x => ODeliver (le_sess x) (Some cB) (le_msg x)) <$> ls) as <-; [|done].
  clear HA HB Hm. induction Hl as [|x ls Hx Hl IH]; [done|]. rewrite !fmap_cons. cbn [concat]. rewrite IH.
  destruct Hx as (_&_&_&_&Hr&He&Hs). rewrite rx_session_same by done. unfold shown. by rewrite decide_True.
Qed.

(** ** Sessions *)
Lemma session_kept E ids pre k ps z c m l s :
  wired E ids (pre ++ Proc k true :: ps) ->
  Forall (fun p => passes_message p = true) pre -> Forall (fun p => carries p = true) ps ->
  decodes k l m -> l <> [] -> e_isref E c = false ->
  (Z.of_nat (length (wire_of z ps l)) <= e_mtu E)%Z -> (e_mtu E < 2^32)%Z -> caches_idle E s ->
  existsb resolves ps = true -> (0 <= z < 2^32)%Z -> z ∈ e_sessions E ->
  exists s', finishes (fun f => receive f E c (wire_of z ps l) s) s [ODeliver z (Some c) m] s'.
Proof.
  intros W Hp Hc Hd Hl Hr Hm1 Hm2 Hs He Hz Hin.
  destruct (visits_up E ids pre k ps z c m l s) as (s' & H & _); try done. exists s'.
  rewrite rx_session_same in H by auto. unfold shown in H. by rewrite decide_True in H.
Qed.
Lemma session_lost E ids pre k ps z c m l s :
  wired E ids (pre ++ Proc k true :: ps) ->
  Forall (fun p => passes_message p = true) pre -> Forall (fun p => carries p = true) ps ->
  decodes k l m -> l <> [] -> e_isref E c = false ->
  (Z.of_nat (length (wire_of z ps l)) <= e_mtu E)%Z -> (e_mtu E < 2^32)%Z -> caches_idle E s ->
  ~ (0 <= z < 2^32)%Z \/ (existsb resolves ps = false /\ z <> 0%Z) ->
  exists outs s', finishes (fun f => receive f E c (wire_of z ps l) s) s outs s' /\
    forall c' m', ODeliver z c' m' ∉ outs.
Proof.
  intros W Hp Hc Hd Hl Hr Hm1 Hm2 Hs Hz.
  destruct (visits_up E ids pre k ps z c m l s) as (s' & H & _); try done. eexists _, s'. split; [exact H|].
  intros c' m' Hin. unfold shown in Hin.
  destruct (decide (rx_session ps z ∈ e_sessions E)); [|by apply elem_of_nil in Hin].
  apply elem_of_list_singleton in Hin. injection Hin as Hz' _ _. unfold rx_session in Hz'.
  pose proof (Z.mod_pos_bound z (2^32) ltac:(lia)).
  destruct (existsb resolves ps); destruct Hz as [Hz|[Hz ?]]; try done; lia.
Qed.

(** ** Disabled processors *)
Lemma tagged_not_transparent E f i k x s c b :
  e_procs E !! i = Some (Proc k false) -> k = KHeartbeat \/ k = KLoadBalancer \/ k = KStat ->
  cx_conn x = Some c -> e_isref E c = false -> cx_buf x = Some b -> reachable b -> 1 <= v_hlen b ->
  exists b', readable b' = 0%Z :: readable b /\
    exec (S f) E Down (Some (PProc i)) x s =
    exec f E Down (l_lower (e_links E) (PProc i)) (set_buf x (Some b')) (visit s i Down x).
Proof. intros. eapply tagged_off_down; try done. by apply reachable_wf. Qed.
Lemma tagged_takes_byte E f i k x s c b t l :
  e_procs E !! i = Some (Proc k false) -> k = KHeartbeat \/ k = KLoadBalancer \/ k = KStat ->
  cx_conn x = Some c -> e_isref E c = false -> cx_buf x = Some b -> reachable b -> readable b = t :: l ->
  k = KHeartbeat /\ t = 131%Z \/
  exists b', readable b' = l /\
    exec (S f) E Up (Some (PProc i)) x s =
    exec f E Up (l_upper (e_links E) (PProc i)) (set_buf x (Some b')) (visit s i Up x).
Proof. intros. eapply tagged_off_up; try done. by apply reachable_wf. Qed.
Lemma loopback_not_transparent E f i x s : e_procs E !! i = Some (Proc KLoopback false) ->
  exec (S f) E Down (Some (PProc i)) x s = exec f E Up (l_upper (e_links E) (PProc i)) x (visit s i Down x) /\
  exec (S f) E Up (Some (PProc i)) x s = Some (Done x (visit s i Up x)).
Proof. apply loopback_any. Qed.
Lemma disabled_transparent E f i k d x s : e_procs E !! i = Some (Proc k false) ->
  switchable k = true \/
    (exists cap c b, k = KFrame cap /\ cx_conn x = Some c /\ e_isref E c = false /\ cx_buf x = Some b) ->
  exec (S f) E d (Some (PProc i)) x s = exec f E d (next_of E d i) x (visit s i d x).
Proof.
  intros Hi [Hk|(cap & c & b & -> & Hc & Hr & Hb)].
  - rewrite (switched_off E f i k) by done. by destruct d.
  - rewrite (frame_off E f i cap d x s c b) by done. by destruct d.
Qed.

(** ** Discarder *)
Lemma flow_transparent E f i en d x s : e_procs E !! i = Some (Proc KFlow en) ->
  exec (S f) E d (Some (PProc i)) x s = exec f E d (next_of E d i) x (visit s i d x).
Proof. intros. rewrite (flow_any E f i en) by done. by destruct d. Qed.
Lemma discarder_hands_up_nothing E a i b pa pb sess c l s :
  wired E (a ++ i :: b) (pa ++ Proc KDiscarder true :: pb) -> length a = length pa ->
  Forall (fun p => carries p = true) pb -> e_isref E c = false -> l <> [] ->
  (Z.of_nat (length (wire_of sess pb l)) <= e_mtu E)%Z -> (e_mtu E < 2^32)%Z -> caches_idle E s ->
  exists s', finishes (fun f => receive f E c (wire_of sess pb l) s) s [] s' /\ caches_idle E s' /\
    fst <$> s_visits s' = (fst <$> s_visits s) ++ ((fun i => (i, Up)) <$> (rev b ++ [i])).
Proof.
  intros W La Hc Hr Hl Hm1 Hm2 Hs. pose proof (wired_at _ _ _ _ _ _ _ W La) as Hi.
  destruct (receive_to E a i b pa _ pb sess c l s 1 (sess_after (rev pb) sess None) (fun _ => []) [(i, Up)]
    (fun _ => True) W La Hc Hl Hr Hm1 Hm2 Hs I) as (s' & H1 & H2 & H3).
  - intros j _ ?. done.
  - intros x s0 b0 H4 H5 H6 H7 H8 _ _. destruct (discarder_on E 0 i x s0 Hi) as [_ ->].
    eexists _, _. split; [done|]. split_and!; try done.
    + simpl. by rewrite app_nil_r.
    + simpl. by rewrite fmap_app.
    + intros j ? ? Hj. by apply elem_of_nil in Hj.
  - exists s'. split; [done|]. split; [done|]. rewrite H3, fmap_app. done.
Qed.

(** ** LoadBalancer *)
Lemma balancer_pair A B idsA idsB preA paB k pa pb session cA cB m l sA sB :
  let all := pa ++ Proc KLoadBalancer true :: pb in
  wired A idsA (preA ++ Proc k true :: all) -> wired B idsB (paB ++ Proc KLoadBalancer true :: pb) ->
  Forall (fun p => passes_message p = true) preA ->
  Forall (fun p => sends_on p = true) pa -> Forall (fun p => carries p = true) pb ->
  e_isref A cA = false -> accepts A cA -> (e_mtu A < 2^32)%Z ->
  e_isref B cB = false -> (e_mtu B < 2^32)%Z -> caches_idle B sB ->
  encodes k m l -> l <> [] -> (Z.of_nat (length l) <= e_mtu A - e_overhead A)%Z ->
  (Z.of_nat (length l) + room all <= e_mtu B)%Z ->
  exists w sA' sB', finishes (fun f => send f A session None (Some cA) (Some m) sA) sA [OWire cA w] sA' /\
    finishes (fun f => receive f B cB w sB) sB [] sB'.
Proof.
  intros all WA WB PA Hpa Hpb RA Ac MA RB MB Id He Hl Hf1 Hf2.
  destruct (send_fits A idsA preA k all session None cA m l sA) as (sA' & HA & _); try done.
  { apply Forall_app. split; [done|]. constructor; [done|]. by apply carries_sends. }
  rewrite offered_accepts in HA; [|done|by apply wire_nonempty].
  assert (Hw : wire_of session all l = wire_of session (Proc KLoadBalancer true :: pb) (wire_of session pa l)).
  { unfold all. by rewrite wire_of_app. }
  simpl dest_of in HA.
  destruct (balancer_loses B idsB paB pb session cB (wire_of session pa l) sB) as (sB' & HB & _); try done.
  { rewrite <- Hw. by apply wire_length_room. }
  rewrite <- Hw in HB. eauto.
Qed.

(** ** References *)
Lemma refs_end_to_end A B idsA idsB psA psB session dest cA cB m sA sB :
  wired A idsA psA -> wired B idsB psB ->
  Forall (fun p => passes_reference p = true) psA -> Forall (fun p => passes_reference p = true) psB ->
  e_isref A cA = true -> e_isref B cB = true -> e_setref A (s_out sA) cA m = false -> (0%Z ∈ e_sessions B) ->
  exists sA' sB', finishes (fun f => send f A session dest (Some cA) (Some m) sA) sA [ORef cA m] sA' /\
    finishes (fun f => receive_ref f B cB m sB) sB [ODeliver 0 (Some cB) m] sB'.
Proof.
  intros WA WB PA PB RA RB Hs H0.
  destruct (ref_send A idsA psA session dest cA m sA) as (sA' & HA); try done. rewrite Hs in HA.
  destruct (ref_receive B idsB psB cB m sB) as (sB' & HB); try done. unfold shown in HB.
  rewrite decide_True in HB by done. eauto.
Qed.

(** ** Heartbeats *)
Lemma heartbeat_end_to_end A B aA iA bA paA enA aB iB bB paB enB pb cA cB sA sB :
  wired A (aA ++ iA :: bA) (paA ++ Proc KHeartbeat enA :: pb) -> length aA = length paA ->
  wired B (aB ++ iB :: bB) (paB ++ Proc KHeartbeat enB :: pb) -> length aB = length paB ->
  Forall (fun p => carries p = true) pb ->
  e_isref A cA = false -> accepts A cA -> (e_overhead A < e_mtu A < 2^32)%Z ->
  e_isref B cB = false -> (1 + room pb <= e_mtu B < 2^32)%Z -> caches_idle B sB ->
  exists w sA' sB', finishes (fun f => self_message f A iA 131%Z cA sA) sA [OWire cA w] sA' /\
    finishes (fun f => receive f B cB w sB) sB [ORefresh iB cB] sB' /\
    fst <$> s_visits sB' = (fst <$> s_visits sB) ++ ((fun i => (i, Up)) <$> (rev bB ++ [iB])).
Proof.
  intros WA LA WB LB Hc RA Ac MA RB MB Id.
  destruct (self_sends A aA iA bA paA (Proc KHeartbeat enA) pb 131%Z cA sA) as (sA' & HA & _); try done.
  { by apply carries_sends. }
  rewrite offered_accepts in HA; [|done|by apply wire_nonempty].
  destruct (heartbeat_refreshes B aB iB bB paB enB pb 0 cB sB) as (sB' & HB & _ & HV); try done.
  { apply wire_length_room. simpl. lia. } { lia. }
  exists (wire_of 0 pb [131%Z]), sA', sB'. done.
Qed.

(** ** Statistics *)
Lemma stat_counts E s i : reached E s -> e_procs E !! i = Some (Proc KStat true) ->
  exists p, s_ps s !! i = Some p /\
    ps_tx p = (Z.of_nat (count (passed_down E i) (s_visits s)) mod 2^64)%Z /\
    ps_rx p = (Z.of_nat (count (passed_up E i) (s_visits s)) mod 2^64)%Z.
Proof. intros H. exact (reached_counted E s H i). Qed.
Lemma stat_response_counts E a i b pa pb sess c s :
  wired E (a ++ i :: b) (pa ++ Proc KStat true :: pb) -> length a = length pa ->
  Forall (fun p => carries p = true) pb -> e_isref E c = false ->
  (Z.of_nat (length (wire_of sess pb [16%Z])) <= e_mtu E)%Z -> (e_mtu E < 2^32)%Z -> caches_idle E s ->
  (16 + Z.of_nat (length (e_name E)) <= e_mtu E - e_overhead E)%Z -> reached E s ->
  exists s', finishes (fun f => receive f E c (wire_of sess pb [16%Z]) s) s
    (offered E (s_out s) c (wire_of sess pb (stat_bytes
       (Z.of_nat (count (passed_down E i) (s_visits s)) mod 2^64)
       (Z.of_nat (count (passed_up E i) (s_visits s)) mod 2^64) (e_name E)))) s'.
Proof.
  intros W La Hc Hr Hm1 Hm2 Hs Hn HR.
  destruct (stat_counts E s i HR (wired_at _ _ _ _ _ _ _ W La)) as (p & Hp & Ht & Hx).
  destruct (stat_answers E a i b pa pb sess c s p) as (s' & H & _); try done.
  rewrite Ht, Hx in H. eauto.
Qed.

(** ** After Run *)
Lemma init_idle E s : init_st E = Some s -> caches_idle E s.
Proof.
  unfold init_st. destruct (mapM _ _) as [l|] eqn:Em; [|done]. intros [= <-] i cap en Hi.
  apply mapM_Some_1 in Em. destruct (Forall2_lookup_l _ _ _ _ _ Em Hi) as (p & Hp & Hip).
  unfold init_pst in Hip. cbn [p_kind] in Hip.
  destruct (v_alloc (option_int cap (2 * e_mtu E)) 0) as [c|] eqn:Ea; [|done]. injection Hip as <-.
  exists (Z.to_nat (option_int cap (2 * e_mtu E))), c. unfold cache_of. simpl. rewrite Hp. simpl.
  revert Ea. unfold v_alloc. destruct (option_int cap (2 * e_mtu E) <=? 0)%Z eqn:E0; [done|].
  apply Z.leb_gt in E0. destruct (0 >? option_int cap (2 * e_mtu E))%Z eqn:E1; [done|]. intros [= <-].
  split; [lia|]. split; [done|]. unfold idle. simpl. unfold v_cap, scap. simpl. by rewrite replicate_length.
Qed.
