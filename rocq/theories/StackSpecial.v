(** * Echo, filters, references, self messages *)
From stdpp Require Import sets.
From Verif Require Import GoBase UBufModel UBufSpec UBufProofs UBufFacts FrameModel FrameSpec FrameProofs
  StackModel StackSpec StackProofs StackPath StackFacts StackEffects.
Arguments frame : simpl never.
Arguments digits : simpl never.

(** ** Echo *)
Lemma framing_is_frame p : framing p = is_frame p.
Proof. done. Qed.
Lemma up_prefix E t q is rs x s c b sess l :
  path_up E t q is rs -> Forall (fun p => carries p = true) rs -> Forall (fun p => framing p = false) rs ->
  cx_conn x = Some c -> e_isref E c = false -> cx_buf x = Some b -> wf b ->
  readable b = foldr (put sess) l rs ->
  exists b' s',
    (forall f, exec (length rs + f) E Up (Some q) x s =
       exec f E Up (Some t) (set_session (set_buf x (Some b')) (sess_after rs sess (cx_session x))) s') /\
    wf b' /\ readable b' = l /\ v_hlen b' = v_hlen b + hdrs rs /\ s_out s' = s_out s /\
    (forall j, cache_of s' j = cache_of s j).
Proof.
  intros Hp. revert x s b. induction Hp as [|i is p rs q Hi Hup Hp IH]; intros x s b Hca Hfr Hc Hr Hb W R.
  - exists b, s. simpl in *. unfold sess_after. simpl. rewrite Nat.add_0_r. split_and!; try done.
    intros f. f_equal. destruct x; simpl in *. by rewrite Hb.
  - inversion Hca as [|? ? Hc1 Hc2]; subst. inversion Hfr as [|? ? Hf1 Hf2]; subst. simpl in R.
    destruct (carries_step E i p x (visit s i Up x) c b sess (foldr (put sess) l rs))
      as (b1 & s1 & so1 & Hon & W1 & R1 & -> & H1 & O1 & V1 & C1 & _); try done.
    set (x1 := set_session (set_buf x (Some b1)) (if resolves p then Some (OInt (sess mod 2^32)%Z) else cx_session x)) in *.
    destruct (IH x1 s1 b1) as (b' & s' & X & W' & R' & H' & O' & C'); try done.
    exists b', s'. split_and!; try done.
    + intros f. simpl plus. cbn [exec]. rewrite Hi, Hup, Hon, X. rewrite sess_after_cons. done.
    + rewrite H', H1. simpl. lia.
    + by rewrite O', O1.
    + intros j. rewrite C', C1. done.
Qed.

Lemma put_session s1 s2 p l : (resolves p = true -> (s1 mod 2^32 = s2 mod 2^32)%Z) -> put s1 p l = put s2 p l.
Proof. intros H. unfold put. destruct p as [k en]. unfold resolves in H. destruct k; try done. destruct en; [|done]. simpl in *. by rewrite H. Qed.
Lemma wire_of_session s1 s2 ps l : (existsb resolves ps = true -> (s1 mod 2^32 = s2 mod 2^32)%Z) ->
  wire_of s1 ps l = wire_of s2 ps l.
Proof.
  revert l. induction ps as [|p ps IH]; intros l H; [done|]. rewrite !wire_of_cons. simpl in H.
  rewrite (put_session s1 s2) by (intros Hr; apply H; by rewrite Hr). apply IH.
  intros Hr. apply H. rewrite Hr. by rewrite orb_true_r.
Qed.
Lemma wire_of_rx ps sess l : wire_of (rx_session ps sess) ps l = wire_of sess ps l.
Proof.
  apply wire_of_session. intros H. unfold rx_session. rewrite H. by rewrite Zmod_mod.
Qed.

Lemma hdrs_rev ps : hdrs (rev ps) = hdrs ps.
Proof.
  assert (Ha : forall l r, hdrs (l ++ r) = hdrs l + hdrs r).
  { intros l r. induction l as [|x l IH]; simpl; [done|]. lia. }
  induction ps as [|p ps IH]; [done|]. simpl rev. rewrite Ha. simpl. lia.
Qed.

Lemma echo_returns E ids pa pb sess c l s :
  wired E ids (pa ++ Proc KEcho true :: pb) ->
  Forall (fun p => carries p = true) pb -> Forall (fun p => framing p = false) pb ->
  e_isref E c = false -> (Z.of_nat (length (wire_of sess pb l)) <= e_mtu E)%Z -> (e_mtu E < 2^32)%Z ->
  exists s', finishes (fun f => receive f E c (wire_of sess pb l) s) s
    (offered E (s_out s) c (wire_of sess pb l)) s'.
Proof.
  intros W Hps Hfr Hr Hlen Hm.
  destruct (wired_split1 _ _ _ _ _ W) as (a & i & b & -> & La & Lb).
  destruct (wired_up_to _ _ _ _ _ _ _ W La) as (q & Hq & Hp).
  destruct (wired_below_at _ _ _ _ _ _ _ W La) as (q2 & Hq2 & Hb).
  pose proof (wired_at _ _ _ _ _ _ _ W La) as Hi.
  destruct (rx_chunk_wf (Z.to_nat (e_mtu E)) (wire_of sess pb l)) as (Wc & Rc & _); [lia|].
  set (u := rx_chunk (Z.to_nat (e_mtu E)) (wire_of sess pb l)) in *.
  set (x := Ctx (Some c) (Some u) None None).
  destruct (up_prefix E (PProc i) q (rev b) (rev pb) x s c u sess l) as (b' & s' & X & W' & R' & H' & O' & C'); try done.
  { by apply Forall_rev. } { by apply Forall_rev. } { by rewrite Rc, wire_of_rev. }
  set (x1 := set_session (set_buf x (Some b')) (sess_after (rev pb) sess (cx_session x))) in *.
  assert (Hs1 : option_int (cx_session x1) 0 = rx_session pb sess) by (simpl; apply sess_after_rx).
  destruct (down_exec E q2 b pb x1 (visit s' i Up x1) c b' (rx_session pb sess) (S (length pb)))
    as (x' & s2 & Ex & Os & _); try done; try lia.
  { by apply carries_sends. }
  { rewrite H', hdrs_rev. lia. }
  { rewrite R', wire_of_rx. lia. }
  exists s2. unfold receive. rewrite Hq. fold u. fold x.
  apply (finishes_exec _ _ _ _ _ x' _ _ (length (rev pb) + S (S (length pb)))).
  - rewrite X. cbn [exec]. rewrite Hi, Hq2. cbn [p_enable p_kind on_lower]. exact Ex.
  - rewrite Os, R', wire_of_rx. simpl. by rewrite O'.
Qed.

(** Over a frame decoder the echo has lost its head room. *)
Lemma readfrom_rd w dst src a d' s' : ub_readfrom w dst src = Ok a (d', s') -> v_rd d' = v_rd dst.
Proof.
  unfold ub_readfrom, v_readfrom_body. destruct (v_tlen dst =? 0); [by intros [= _ <- _]|].
  destruct (v_read _ src) as [[l e] src'|src']; [|done].
  destruct (s_from _ _); [|done]. destruct e; intros [= _ <- _]; done.
Qed.
Lemma fd_cut_hlen e u nb u' : fd_cut e u = Some (Some nb, u') -> v_hlen nb = 0.
Proof.
  unfold fd_cut, v_alloc. destruct (_ || _ || _)%bool; [done|].
  destruct (v_readU BE W32 u); [|done]. unfold ub_copyn.
  destruct (ub_readfrom _ _ _) as [[k er] [nb1 s1]|] eqn:Er; [|done]. apply readfrom_rd in Er. simpl in Er.
  destruct er; [done|]. destruct (k =? _); [|done]. intros [= <- _]. done.
Qed.
Lemma fd_cur_new_hlen c u nb c' u' : fd_cur_step c u = (FdNew nb, c', u') -> v_hlen nb = 0.
Proof.
  unfold fd_cur_step. destruct (_ <? 4); [by destruct (ub_readfrom None c u) as [? []|[]]|].
  destruct (v_peekU BE W32 u) as [[ex [|]] ?|]; [done| |done].
  destruct (_ >? _)%Z; [by destruct (ub_readfrom None c u) as [? []|[]]|].
  destruct (_ =? _)%Z; [by destruct (v_readU BE W32 u)|].
  destruct (fd_cut ex u) as [[[nb'|] u1]|] eqn:Ec; try done. apply fd_cut_hlen in Ec. by intros [= <- _ _].
Qed.

Lemma echo_frame_raw E ids pa cap c l s :
  wired E ids (pa ++ [Proc KEcho true; Proc (KFrame cap) true]) ->
  e_isref E c = false -> l <> [] -> (Z.of_nat (length (frame l)) <= e_mtu E)%Z -> (e_mtu E < 2^32)%Z ->
  caches_idle E s ->
  exists s', finishes (fun f => receive f E c (frame l) s) s (offered E (s_out s) c l) s'.
Proof.
  intros W Hr Hl Hlen Hm Hid.
  destruct (wired_split1 _ _ _ _ _ W) as (a & i & b & -> & La & Lb).
  destruct b as [|j [|]]; [done| |done]. clear Lb.
  destruct (wired_up_to _ _ _ _ _ _ _ W La) as (q & Hq & Hp).
  destruct (wired_below_at _ _ _ _ _ _ _ W La) as (q2 & Hq2 & Hb).
  pose proof (wired_at _ _ _ _ _ _ _ W La) as Hi.
  simpl in Hp. inversion Hp as [|j' is p rs q3 Hj Hup Hp3]; subst. inversion Hp3; subst.
  inversion Hb as [|j' is p rs q4 Hj' Hlow Hb4]; subst. inversion Hb4; subst.
  destruct (rx_chunk_wf (Z.to_nat (e_mtu E)) (frame l)) as (Wu & Ru & Lu); [lia|].
  set (u := rx_chunk (Z.to_nat (e_mtu E)) (frame l)) in *.
  set (x := Ctx (Some c) (Some u) None None).
  destruct (Hid j cap true Hj) as (k & cc & Hk & Ecc & Ik).
  destruct (idle_wf k cc Ik) as (Wc & Rc & Tc).
  pose proof (readable_length cc Wc) as Lc. rewrite Rc in Lc. simpl in Lc.
  rewrite frame_length in Hlen, Lu.
  assert (Hlp : 0 < length l) by (destruct l; simpl; [done|lia]).
  pose proof (cur_step_spec cc u Wc Wu ltac:(lia)) as S. cbv zeta in S. rewrite Ru in S.
  pose proof (frame_announced l [] ltac:(lia)) as An. rewrite app_nil_r in An.
  rewrite An, frame_length in S.
  destruct ((4 + length l <? 4) || (Z.of_nat (4 + length l) <? Z.of_nat (length l))%Z) eqn:E1.
  { apply orb_true_iff in E1 as [E1|E1]; [cleq; lia|]. apply Z.ltb_lt in E1. lia. }
  destruct (Z.of_nat (length l) =? Z.of_nat (4 + length l))%Z eqn:E2; [apply Z.eqb_eq in E2; lia|].
  destruct (Z.of_nat (length l) <=? 0)%Z eqn:E3; [apply Z.leb_le in E3; lia|].
  destruct (4 + Z.of_nat (length l) <=? Z.of_nat (4 + length l))%Z eqn:E4; [|apply Z.leb_gt in E4; lia].
  destruct S as (nb & u' & Es & Wn & Wu' & Rn & Ru').
  pose proof (fd_cur_new_hlen _ _ _ _ _ Es) as Hn.
  rewrite Nat2Z.id in Rn, Ru'. rewrite <- (app_nil_r (frame l)) in Rn, Ru'. rewrite frame_payload in Rn.
  rewrite frame_rest in Ru'.
  set (x1 := set_buf x (Some nb)).
  set (s1 := set_cache (visit s j Up x) j cc).
  destruct (lower_send_offered E x1 (visit (visit s1 i Up x1) j Down x1) c nb eq_refl Hr eq_refl Wn)
    as (x2 & s2 & El & Os & _ & Ps & Hc2 & Hso2).
  set (up := exec 3 E Up (Some (PProc i))).
  assert (Hupx : up x1 s1 = Some (Done x2 s2)).
  { unfold up. cbn [exec]. rewrite Hi. cbn [p_enable p_kind on_lower]. rewrite Hq2. rewrite Hj.
    cbn [p_enable p_kind on_upper]. unfold by_reference, with_buf, head_ignore. simpl cx_conn. cbn iota.
    rewrite Hr. simpl cx_buf. cbn iota. rewrite headU_full by lia. rewrite Hlow.
    rewrite set_buf_same by done. by rewrite El. }
  destruct (frame_cur_handles E j up c [] (fun _ => True) [] None None (fun _ => []) [] (v_rlen u) x2 s2 u' cap true)
    as (x3 & s3 & E5 & Hc3 & _ & O3 & _ & Id3 & _ & _); try done.
  - constructor.
  - set_solver.
  - rewrite <- (readable_length u' Wu'), Ru'. simpl. lia.
  - rewrite <- (readable_length u' Wu'), Ru', Lu. simpl. lia.
  - intros t cap' en' Ht Htp. assert (t = j) as -> by set_solver. exists k, cc. split_and!; try done.
    unfold cache_of. rewrite Ps. change (cache_of s1 j = Some cc). unfold s1.
    by rewrite (cache_set_same _ _ _ cc).
  - destruct (Id3 j cap true) as (k3 & cc3 & Hk3 & Ecc3 & Ik3); [set_solver|done|].
    destruct (frame_cached_idle j up k3 cc3 (Datatypes.S (v_rlen cc3)) x3 s3) as (c4 & E6 & _); [lia|done|done|].
    exists (set_cache s3 j c4). unfold receive. rewrite Hq. fold u. fold x.
    apply (finishes_exec _ _ _ _ _ x3 _ _ 4).
    + cbn [exec]. rewrite Hj, Hup. cbn [p_enable p_kind on_lower]. unfold by_reference, with_buf.
      simpl cx_conn. cbn iota. rewrite Hr. simpl cx_buf. cbn iota.
      change (fun x s => match e_procs E !! i with _ => _ end) with up in *.
      unfold frame_recv. rewrite cache_of_visit, Ecc. rewrite <- Lc. cbn [Nat.ltb Nat.leb].
      cbn [frame_cur]. rewrite cache_of_visit, Ecc, Es. fold x1. fold s1.
      match goal with |- context [match ?g x1 s1 with _ => _ end] => change (g x1 s1) with (up x1 s1) end.
      rewrite Hupx.
      match goal with |- context [frame_cur _ j ?g x2 s2 u'] => change g with up end.
      rewrite E5, Ecc3. exact E6.
    + rewrite out_set_cache, O3, Os. simpl. rewrite app_nil_r. unfold s1. rewrite out_set_cache. simpl. by rewrite Rn.
Qed.

(** ** Filter and Forwarder *)
Lemma fresh_filter_crashes E f i k fns d x s : e_procs E !! i = Some (Proc k true) ->
  k = new_filter fns \/ k = new_forwarder fns ->
  exec (S f) E d (Some (PProc i)) x s = Some (Crash (visit s i d x)).
Proof. intros Hi Hk. cbn [exec]. rewrite Hi. by destruct Hk as [->| ->], d. Qed.

Lemma any_fn_existsb fns x up : any_fn (Some <$> fns) x up = Some (existsb (fun f => f x up) fns).
Proof. induction fns as [|g fns IH]; [done|]. simpl. destruct (g x up); [done|]. apply IH. Qed.


Lemma alter_insert {A} (f : A -> A) (l : list A) i : alter f i l = match l !! i with Some x => <[i := f x]> l | None => l end.
Proof. revert i. induction l as [|y l IH]; intros [|i]; try done. cbn. rewrite IH. by destruct (l !! i). Qed.
Lemma bump_down s i : bump Down s i = inc_tx s i.
Proof. unfold bump, inc_tx, set_ps, inc64. rewrite alter_insert. destruct s as [ps o v]. cbn. by destruct (ps !! i). Qed.
Lemma bump_up s i : bump Up s i = inc_rx s i.
Proof. unfold bump, inc_rx, set_ps, inc64. rewrite alter_insert. destruct s as [ps o v]. cbn. by destruct (ps !! i). Qed.

Lemma filter_on E f i fns d x s : e_procs E !! i = Some (Proc (KFilter (Some <$> fns)) true) ->
  exec (S f) E d (Some (PProc i)) x s =
  if existsb (fun g => g x (is_up d)) fns then exec f E d (next_of E d i) x (visit s i d x)
  else Some (Done x (bump d (visit s i d x) i)).
Proof.
  intros Hi. cbn [exec]. rewrite Hi. cbn [p_enable p_kind].
  destruct d; cbn [on_upper on_lower]; rewrite any_fn_existsb; cbn [is_up next_of]; rewrite ?bump_down, ?bump_up; by destruct (existsb _ fns).
Qed.
Lemma forwarder_on E f i fns d x s : e_procs E !! i = Some (Proc (KForwarder (Some <$> fns)) true) ->
  exec (S f) E d (Some (PProc i)) x s =
  if existsb (fun g => g x (is_up d)) fns then Some (Done x (bump d (visit s i d x) i))
  else exec f E d (next_of E d i) x (visit s i d x).
Proof.
  intros Hi. cbn [exec]. rewrite Hi. cbn [p_enable p_kind].
  destruct d; cbn [on_upper on_lower]; rewrite any_fn_existsb; cbn [is_up next_of]; rewrite ?bump_down, ?bump_up; by destruct (existsb _ fns).
Qed.

(** ** LoadBalancer *)
Lemma balancer_loses E ids pa pb sess c l s :
  wired E ids (pa ++ Proc KLoadBalancer true :: pb) -> Forall (fun p => carries p = true) pb ->
  e_isref E c = false ->
  (Z.of_nat (length (wire_of sess (Proc KLoadBalancer true :: pb) l)) <= e_mtu E)%Z -> (e_mtu E < 2^32)%Z ->
  caches_idle E s ->
  exists s', finishes (fun f => receive f E c (wire_of sess (Proc KLoadBalancer true :: pb) l) s) s [] s' /\
    caches_idle E s'.
Proof.
  intros W Hps Hr Hlen Hm Hid. destruct (wired_split1 _ _ _ _ _ W) as (a & i & b & -> & La & Lb).
  pose proof (wired_at _ _ _ _ _ _ _ W La) as Hi. rewrite wire_of_cons in *. cbn [put p_kind p_enable] in *.
  destruct (receive_to E a i b pa _ pb sess c (17%Z :: l) s 1 (sess_after (rev pb) sess None) (fun _ => []) [(i, Up)] (fun _ => True) W La)
    as (s' & Hf & Hid' & _); try done; [|by exists s'].
  intros x s0 b0 Hc Hb W0 R0 Hso _ _. destruct (readbyte_ok 17%Z l b0 W0 R0) as (b' & Eb & _).
  exists (set_buf x (Some b')), (visit s0 i Up x). cbn [exec]. rewrite Hi. cbn [p_enable p_kind on_lower].
  unfold by_reference, with_buf. rewrite Hc, Hr, Hb, Eb. split_and!; try done.
  - simpl. by rewrite app_nil_r.
  - simpl. rewrite fmap_app. done.
  - intros j cap en Hj. set_solver.
Qed.

(** ** Heartbeats *)
Lemma heartbeat_refreshes E a i b pa en pb sess c s :
  wired E (a ++ i :: b) (pa ++ Proc KHeartbeat en :: pb) -> length a = length pa ->
  Forall (fun p => carries p = true) pb -> e_isref E c = false ->
  (Z.of_nat (length (wire_of sess pb [131%Z])) <= e_mtu E)%Z -> (e_mtu E < 2^32)%Z -> caches_idle E s ->
  exists s', finishes (fun f => receive f E c (wire_of sess pb [131%Z]) s) s [ORefresh i c] s' /\ caches_idle E s' /\
    fst <$> s_visits s' = (fst <$> s_visits s) ++ ((fun i => (i, Up)) <$> (rev b ++ [i])).
Proof.
  intros W La Hps Hr Hlen Hm Hid. pose proof (wired_at _ _ _ _ _ _ _ W La) as Hi.
  destruct (receive_to E a i b pa _ pb sess c [131%Z] s 1 (sess_after (rev pb) sess None) (fun _ => [ORefresh i c]) [(i, Up)] (fun _ => True) W La)
    as (s' & Hf & Hid' & V); try done.
  - intros x s0 b0 Hc Hb W0 R0 Hso _ _. destruct (readbyte_ok 131%Z [] b0 W0 R0) as (b' & Eb & _).
    exists (set_buf x (Some b')), (emit (visit s0 i Up x) [ORefresh i c]). cbn [exec]. rewrite Hi. cbn [p_enable p_kind on_lower].
    unfold by_reference, with_buf. rewrite Hc, Hr, Hb, Eb. split_and!; try done.
    + simpl. rewrite fmap_app. done.
    + intros j cap en' Hj. set_solver.
  - exists s'. split_and!; try done. rewrite V, fmap_app. done.
Qed.

(** ** Statistics requests *)
Lemma headbyte_room c b : wf b -> 1 <= v_hlen b ->
  exists b', v_headbyte c b = Ok None b' /\ wf b' /\ readable b' = c :: readable b /\
             v_hlen b' = v_hlen b - 1 /\ v_tlen b' = v_tlen b.
Proof.
  intros W H. destruct (step_spec (OpHeadByte c) b W I) as (b' & E & W' & _ & S1 & S2 & S3).
  cbn [q_step absq q_head] in *. unfold v_hlen in *. destruct (v_rd b <? 1) eqn:E0; cleq; [lia|].
  exists b'. cbn [v_step] in E. destruct (v_headbyte c b); simpl in E; [|done]. by injection E as -> ->.
Qed.
Lemma writeU_room o w v b : wf b -> wbytes w <= v_tlen b ->
  exists b', v_writeU o w v b = Ok None b' /\ wf b' /\ readable b' = readable b ++ digits o w v /\
             v_hlen b' = v_hlen b /\ v_tlen b' = v_tlen b - wbytes w.
Proof.
  intros W H. destruct (step_spec (OpWriteU o w v) b W I) as (b' & E & W' & _ & S1 & S2 & S3).
  cbn [q_step absq q_tail] in *. destruct (v_tlen b <? wbytes w) eqn:E0; cleq; [lia|].
  exists b'. cbn [v_step] in E. destruct (v_writeU o w v b); simpl in E; [|done]. injection E as -> ->.
  cbn [snd q_append q_data q_head q_tail absq] in *. rewrite enc_length in S3. rewrite <- enc_digits. done.
Qed.

Lemma write_nil_same b : wf b ->
  exists e b', v_write [] b = Ok (0, e) b' /\ wf b' /\ readable b' = readable b /\ v_hlen b' = v_hlen b.
Proof.
  intros W. destruct (step_spec (OpWrite []) b W I) as (b' & E & W' & _ & S1 & S2 & _).
  cbn [q_step absq q_tail] in *. cbn [v_step] in E.
  destruct (v_write [] b) as [[n e] b1|]; simpl in E; [|done].
  destruct (v_tlen b =? 0); simpl in E, S1, S2; injection E; intros; subst; eexists _, _;
    cbn [absq q_data q_head q_append fst snd] in *; rewrite ?app_nil_r in S2; done.
Qed.
Lemma stat_response_ok E tx rx : (1 <= e_overhead E)%Z ->
  (16 + Z.of_nat (length (e_name E)) <= e_mtu E - e_overhead E)%Z ->
  exists b, stat_response E tx rx = Ok tt b /\ wf b /\ v_hlen b = Z.to_nat (e_overhead E) - 1 /\
    readable b = stat_bytes tx rx (e_name E).
Proof.
  intros H2 H3. destruct (new_ubuf_ok E) as (b & Hb & W & R & Hh & Ht); [lia..|].
  unfold stat_response. rewrite Hb.
  destruct (headbyte_room 35%Z b W) as (b1 & -> & W1 & R1 & H1 & T1); [lia|].
  destruct (writeU_room BE W64 tx b1 W1) as (b2 & -> & W2 & R2 & H2' & T2); [cbn [wbytes]; lia|].
  destruct (writeU_room BE W64 rx b2 W2) as (b3 & -> & W3 & R3 & H3' & T3); [cbn [wbytes] in *; lia|].
  cbn [wbytes] in *. rewrite R2, R1, R in R3.
  destruct (decide (e_name E = [])) as [En|En].
  - rewrite En. destruct (write_nil_same b3 W3) as (e & b4 & -> & W4 & R4 & H4). exists b4.
    split_and!; try done; try lia. rewrite R4, R3. unfold stat_bytes. by rewrite app_nil_r.
  - destruct (write_ok (e_name E) b3 W3 En) as (b4 & -> & W4 & R4 & H4 & _); [lia|].
    exists b4. split_and!; try done; try lia.
    rewrite R4, R3. unfold stat_bytes. cbn [app]. by rewrite <- !app_assoc.
Qed.

Lemma stat_answers E a i b pa pb sess c s p :
  wired E (a ++ i :: b) (pa ++ Proc KStat true :: pb) -> length a = length pa ->
  Forall (fun p => carries p = true) pb -> e_isref E c = false ->
  (Z.of_nat (length (wire_of sess pb [16%Z])) <= e_mtu E)%Z -> (e_mtu E < 2^32)%Z -> caches_idle E s ->
  (16 + Z.of_nat (length (e_name E)) <= e_mtu E - e_overhead E)%Z ->
  s_ps s !! i = Some p ->
  exists s', finishes (fun f => receive f E c (wire_of sess pb [16%Z]) s) s
    (offered E (s_out s) c (wire_of sess pb (stat_bytes (ps_tx p) (ps_rx p) (e_name E)))) s' /\ caches_idle E s' /\
    s_ps s' !! i = Some p.
Proof.
  intros W La Hps Hr Hlen Hm Hid Hfit Hp. pose proof (wired_at _ _ _ _ _ _ _ W La) as Hi.
  pose proof (wired_overhead _ _ _ W) as Ho. rewrite room_app in Ho. simpl in Ho.
  pose proof (room_nonneg pa). pose proof (room_nonneg pb). pose proof (hdrs_room pb).
  destruct (stat_response_ok E (ps_tx p) (ps_rx p)) as (rb & Er & Wr & Hr1 & Rr); [lia|lia|].
  assert (Hsl : length (stat_bytes (ps_tx p) (ps_rx p) (e_name E)) = 17 + length (e_name E)).
  { unfold stat_bytes. cbn [length]. rewrite !app_length, !digits_length. cbn [wbytes]. lia. }
  destruct (wired_below_at _ _ _ _ _ _ _ W La) as (q & Hq & Hb).
  pose proof (wired_nodup _ _ _ W) as N. apply NoDup_app in N as (_ & _ & N). apply NoDup_cons in N as [N _].
  set (K := fun s : st => s_ps s !! i = Some p).
  assert (Hh : handles E (exec (S (S (length pb))) E Up (Some (PProc i))) c [16%Z] (sess_after (rev pb) sess None)
    (sess_after (rev pb) sess None)
    (fun h => offered E h c (wire_of sess pb (stat_bytes (ps_tx p) (ps_rx p) (e_name E))))
    ((i, Up) :: ((fun i => (i, Down)) <$> b)) [] K).
  { intros x s0 b0 Hc Hb0 W0 R0 Hso _ HK. destruct (readbyte_ok 16%Z [] b0 W0 R0) as (b' & Eb & _).
    set (x1 := set_buf (set_buf x (Some b')) (Some rb)).
    assert (Hs1 : option_int (cx_session x1) 0 = rx_session pb sess) by (simpl; rewrite Hso; apply sess_after_rx).
    destruct (down_exec E q b pb x1 (visit s0 i Up x) c rb (rx_session pb sess) (S (length pb)))
      as (x' & s' & Ex & Os & Cs & Ps & Vs & Hc' & Hso'); try done; try lia.
    { by apply carries_sends. }
    { rewrite wire_of_hdrs, Rr, Hsl. lia. }
    exists x', s'. cbn [exec]. rewrite Hi. cbn [p_enable p_kind on_lower]. unfold by_reference, with_buf.
    rewrite Hc, Hr, Hb0, Eb. simpl (s_ps _). unfold K in HK. rewrite HK, Er, Hq.
    change (16 =? 16)%Z with true. cbn iota. split_and!; try done.
    - simpl in Hso'. congruence.
    - rewrite Os. by rewrite Rr, wire_of_rx.
    - rewrite Vs. simpl. rewrite fmap_app. simpl. by rewrite <- app_assoc.
    - intros j cap en Hj. set_solver.
    - unfold K. rewrite Ps by done. done.
    - intros j _. by rewrite Cs. }
  pose proof (wired_nodup _ _ _ W) as N'.
  destruct (wired_up_to _ _ _ _ _ _ _ W La) as (q0 & Hq0 & Hpth).
  eapply (up_path E (PProc i) q0 (rev b) (rev pb)) with (sess := sess) (so := None) in Hh; try done.
  - rewrite <- wire_of_rev in Hh.
    destruct (rx_chunk_wf (Z.to_nat (e_mtu E)) (wire_of sess pb [16%Z])) as (Wc & Rc & _); [lia|].
    destruct (Hh (Ctx (Some c) (Some (rx_chunk (Z.to_nat (e_mtu E)) (wire_of sess pb [16%Z]))) None None) s _ eq_refl eq_refl Wc Rc eq_refl)
      as (x' & s' & Ex & _ & _ & Os & Vs & Id & HK & Cs); [by apply caches_idle_in|done|].
    exists s'. split_and!; [|by eapply caches_idle_back|done].
    unfold receive. rewrite Hq0. by eapply finishes_exec.
  - by apply Forall_rev.
  - rewrite app_nil_r. apply NoDup_app in N' as (_ & _ & N'). apply NoDup_cons in N' as [_ N'].
    by apply nodup_rev.
  - intros j Hj s0 s1 Hs HK. unfold K in *. rewrite Hs; [done|]. intros ->.
    apply N. by apply elem_of_list_In, in_rev, elem_of_list_In.
  - rewrite <- wire_of_rev. lia.
Qed.

(** ** References *)
Lemma ref_down E x c i p d u w s : cx_conn x = Some c -> e_isref E c = true -> passes_reference p = true ->
  on_upper E i (p_enable p) d u w (p_kind p) x s = d x s.
Proof.
  intros Hc Hr Hp. unfold passes_reference in Hp. apply orb_true_iff in Hp as [Hp|Hp]; [by apply passes_down|].
  destruct p as [k en]. simpl in *. destruct k; try done; unfold on_upper, by_reference; by rewrite Hc, Hr.
Qed.
Lemma ref_up E x c i p d u s : cx_conn x = Some c -> e_isref E c = true -> passes_reference p = true ->
  on_lower E i (p_enable p) d u (p_kind p) x s = u x s.
Proof.
  intros Hc Hr Hp. unfold passes_reference in Hp. apply orb_true_iff in Hp as [Hp|Hp]; [by apply passes_up|].
  destruct p as [k en]. simpl in *. destruct k; try done; unfold on_lower, by_reference; by rewrite Hc, Hr.
Qed.

Lemma ref_send E ids ps session dest c m s :
  wired E ids ps -> Forall (fun p => passes_reference p = true) ps -> e_isref E c = true ->
  exists s', finishes (fun f => send f E session dest (Some c) (Some m) s) s
    (if e_setref E (s_out s) c m then [OClose c; OClosedEvent c] else [ORef c m]) s'.
Proof.
  intros W Hp Hr. destruct (wired_from E ids [] ps [] ids W) as (q & Hq & Hb); [done..|]. simpl in Hq.
  set (x := Ctx (Some c) None (Some m) (Some (OInt (dest_of session dest)))).
  rewrite <- (app_nil_r ps) in Hb.
  destruct (down_same E (fun p => passes_reference p = true) x q ids ps [] s) as (is1 & is2 & q1 & s1 & -> & L1 & B1 & X1 & O1 & P1 & V1); try done.
  { intros. by apply (ref_down E x c). }
  inversion B1; subst. eexists. unfold send. rewrite Hq. fold (dest_of session dest). fold x.
  eapply (finishes_exec _ _ _ _ _ x _ _ (length ps + 1)).
  - rewrite X1. cbn [exec]. unfold lower_send. simpl cx_conn. cbn iota. rewrite Hr. simpl cx_msg. cbn iota.
    instantiate (1 := emit s1 (if e_setref E (s_out s1) c m then [OClose c; OClosedEvent c] else [ORef c m])).
    by destruct (e_setref E (s_out s1) c m).
  - simpl. by rewrite O1.
Qed.
Lemma ref_receive E ids ps c m s :
  wired E ids ps -> Forall (fun p => passes_reference p = true) ps -> e_isref E c = true ->
  exists s', finishes (fun f => receive_ref f E c m s) s (shown E 0 (Some c) m) s'.
Proof.
  intros W Hp Hr. destruct (wired_all_above E ids ps W) as (q & Hq & Hb).
  set (x := Ctx (Some c) None (Some m) None).
  destruct (up_same E (fun p => passes_reference p = true) x PUpper q (rev ids) (rev ps) s) as (s1 & X1 & O1 & P1 & V1); try done.
  { intros. by apply (ref_up E x c). }
  { by apply Forall_rev. }
  eexists. unfold receive_ref. rewrite Hq. fold x.
  eapply (finishes_exec _ _ _ _ _ x _ _ (length (rev ps) + 1)).
  - rewrite X1. cbn [exec]. unfold upper_recv. simpl.
    instantiate (1 := emit s1 (shown E 0 (Some c) m)). unfold shown.
    destruct (decide _); [done|]. f_equal. f_equal. destruct s1. unfold emit. simpl. by rewrite app_nil_r.
  - simpl. by rewrite O1.
Qed.

(** A frame decoder calls upwards instead of downwards. *)
Lemma ref_frame_spins E i j p cap en x c f s :
  e_procs E !! i = Some p -> e_procs E !! j = Some (Proc (KFrame cap) en) ->
  l_lower (e_links E) (PProc i) = Some (PProc j) -> l_upper (e_links E) (PProc j) = Some (PProc i) ->
  passes_reference p = true -> cx_conn x = Some c -> e_isref E c = true ->
  exec f E Down (Some (PProc j)) x s = None.
Proof.
  intros Hi Hj Hl Hu Hp Hc Hr. revert s. induction f as [f IH] using lt_wf_ind. intros s.
  destruct f as [|f]; [done|]. cbn [exec]. rewrite Hj. cbn [p_enable p_kind on_upper].
  unfold by_reference. rewrite Hc, Hr, Hu. destruct f as [|f]; [done|]. cbn [exec]. rewrite Hi.
  rewrite (ref_down E x c) by done. rewrite Hl. apply IH. lia.
Qed.
Lemma ref_frame_never E ids pa p cap en pb session dest c m s :
  wired E ids (pa ++ p :: Proc (KFrame cap) en :: pb) ->
  Forall (fun p => passes_reference p = true) (pa ++ [p]) -> e_isref E c = true ->
  never_returns (fun f => send f E session dest (Some c) (Some m) s).
Proof.
  intros W Hp Hr. destruct (wired_split1 _ _ _ _ _ W) as (a & i & b & -> & La & Lb).
  destruct b as [|j b]; [done|].
  destruct (wired_below_at _ _ _ _ _ _ _ W La) as (q1 & Hq1 & Hb1). 
  assert (q1 = PProc j /\ e_procs E !! j = Some (Proc (KFrame cap) en)) as [-> Hj] by (by inversion Hb1).
  destruct (wired_between E a i [] j b pa p [] _ pb W La eq_refl) as (q5 & Hu2 & Hp2).
  assert (q5 = PProc i) as -> by (by inversion Hp2).
  pose proof (wired_at _ _ _ _ _ _ _ W La) as Hi.
  destruct (wired_from E (a ++ i :: j :: b) [] (pa ++ p :: Proc (KFrame cap) en :: pb) [] (a ++ i :: j :: b) W) as (q & Hq & Hb); [done..|].
  simpl in Hq. set (x := Ctx (Some c) None (Some m) (Some (OInt (dest_of session dest)))).
  change (pa ++ p :: Proc (KFrame cap) en :: pb) with (pa ++ [p] ++ Proc (KFrame cap) en :: pb) in Hb.
  rewrite app_assoc in Hb.
  destruct (down_same E (fun p => passes_reference p = true) x q _ (pa ++ [p]) _ s
    ltac:(intros; by apply (ref_down E x c)) Hb Hp) as (is1 & is2 & q1 & s1 & Es & L1 & B1 & X1 & O1 & P1 & V1).
  assert (q1 = PProc j) as ->.
  { change (a ++ i :: j :: b) with (a ++ [i] ++ j :: b) in Es. rewrite app_assoc in Es.
    apply app_inj_1 in Es as [<- <-]; [by inversion B1|]. rewrite L1, !app_length. simpl. lia. }
  intros f. unfold send. rewrite Hq. fold (dest_of session dest). fold x.
  destruct (exec f E Down (Some q) x s) as [r|] eqn:Ef; [|done].
  apply (exec_mono f (length (pa ++ [p]) + f)) in Ef; [|lia]. rewrite X1 in Ef.
  rewrite (ref_frame_spins E i j p cap en x c) in Ef; try done.
  by apply Forall_app in Hp as [_ Hp]; inversion Hp.
Qed.
Lemma ref_frame_top E ids cap en pb session dest c m s :
  wired E ids (Proc (KFrame cap) en :: pb) -> e_isref E c = true ->
  exists s', finishes (fun f => send f E session dest (Some c) (Some m) s) s [] s' /\ s_ps s' = s_ps s.
Proof.
  intros W Hr. destruct (wired_split1 E ids [] _ _ W) as (a & j & b & -> & La & Lb).
  destruct a; [|done]. simpl in W.
  destruct (wired_from E (j :: b) [] (Proc (KFrame cap) en :: pb) [] (j :: b) W) as (q & Hq & Hb); [done..|].
  simpl in Hq. assert (q = PProc j /\ e_procs E !! j = Some (Proc (KFrame cap) en)) as [-> Hj] by (by inversion Hb).
  destruct (wired_above E [] j b [] _ pb W eq_refl) as (q2 & Hu & Hp). assert (q2 = PUpper) as -> by (by inversion Hp).
  set (x := Ctx (Some c) None (Some m) (Some (OInt (dest_of session dest)))).
  exists (visit s j Down x). split; [|done]. unfold send. rewrite Hq. fold (dest_of session dest). fold x.
  apply (finishes_exec _ _ _ _ _ x _ _ 2); [|simpl; by rewrite app_nil_r].
  cbn [exec]. rewrite Hj. cbn [p_enable p_kind on_upper]. unfold by_reference. simpl cx_conn. cbn iota.
  rewrite Hr, Hu. done.
Qed.

(** ** Self messages on reference connections *)
Lemma self_on_reference E a i b pa p pb tag c s :
  wired E (a ++ i :: b) (pa ++ p :: pb) -> length a = length pa ->
  Forall (fun p => passes_reference p = true) pb -> e_isref E c = true ->
  (0 < e_mtu E)%Z -> (e_overhead E <= e_mtu E)%Z ->
  exists s', finishes (fun f => self_message f E i tag c s) s [OClose c; OClosedEvent c] s'.
Proof.
  intros W La Hp Hr H1 H2. destruct (wired_below_at _ _ _ _ _ _ _ W La) as (q & Hq & Hb).
  pose proof (wired_overhead _ _ _ W) as Ho. pose proof (room_nonneg (pa ++ p :: pb)) as Hn. rewrite <- Ho in Hn.
  destruct (new_ubuf_ok E) as (b0 & Hb0 & W0 & R0 & Hh & Ht); [lia..|].
  assert (exists e b1, v_writebyte tag b0 = Ok e b1) as (e & b1 & Ew).
  { destruct (decide (v_tlen b0 = 0)) as [Hz|Hz]; [rewrite writebyte_full by done; eauto|].
    destruct (writebyte_ok tag b0 W0) as (b1 & -> & _); [lia|eauto]. }
  set (x := Ctx (Some c) (Some b1) None None). rewrite <- (app_nil_r pb) in Hb.
  destruct (down_same E (fun p => passes_reference p = true) x q b pb [] s
    ltac:(intros; by apply (ref_down E x c)) Hb Hp) as (is1 & is2 & q1 & s1 & Es & L1 & B1 & X1 & O1 & P1 & V1).
  inversion B1; subst. exists (close_conn c s1). unfold self_message. rewrite Hb0, Ew, Hq. fold x.
  apply (finishes_exec _ _ _ _ _ x _ _ (length pb + 1)); [|simpl; by rewrite O1].
  rewrite X1. cbn [exec]. unfold lower_send. simpl cx_conn. cbn iota. by rewrite Hr.
Qed.

(** ** Messages without a connection *)
Lemma no_conn_crashes E ids pa p pb session dest m s :
  wired E ids (pa ++ p :: pb) -> Forall (fun p => passes_message p = true) pa ->
  asks_connection (p_kind p) = true -> crashes (fun f => send f E session dest None m s) s [].
Proof.
  intros W Hp Hk. destruct (wired_from E ids [] (pa ++ p :: pb) [] ids W) as (q & Hq & Hb); [done..|].
  simpl in Hq. set (x := Ctx None None m (Some (OInt (dest_of session dest)))).
  destruct (down_pre E q ids pa _ x s Hb Hp) as (is1 & is2 & q1 & s1 & -> & L1 & B1 & X1 & O1 & P1 & V1).
  inversion B1 as [|i is' p' ps' q2 Hi Hlow B2]; subst.
  exists (length pa + 1), (visit s1 i Down x). split; [|simpl; by rewrite O1, app_nil_r]. intros f Hf. unfold send. rewrite Hq.
  fold (dest_of session dest). fold x. eapply exec_mono; [exact Hf|]. rewrite X1. cbn [exec]. rewrite Hi.
  by destruct (p_kind p).
Qed.
Lemma no_conn_codec_crashes E ids pre k ps p rest session dest m l s :
  wired E ids (pre ++ Proc k true :: ps ++ p :: rest) -> Forall (fun p => passes_message p = true) pre ->
  Forall (fun p => passes_message p = true) ps ->
  encodes k m l -> l <> [] -> (Z.of_nat (length l) <= e_mtu E - e_overhead E)%Z ->
  asks_connection (p_kind p) = true -> crashes (fun f => send f E session dest None (Some m) s) s [].
Proof.
  intros W Hp1 Hp2 He Hl Hfit Hk.
  pose proof (wired_overhead _ _ _ W) as Ho. pose proof (room_nonneg (pre ++ Proc k true :: ps ++ p :: rest)) as Hn.
  rewrite <- Ho in Hn.
  destruct (wired_from E ids [] (pre ++ Proc k true :: ps ++ p :: rest) [] ids W) as (q & Hq & Hb); [done..|].
  simpl in Hq. set (x := Ctx None None (Some m) (Some (OInt (dest_of session dest)))).
  destruct (down_pre E q ids pre _ x s Hb Hp1) as (is1 & is2 & q1 & s1 & -> & L1 & B1 & X1 & O1 & P1 & V1).
  inversion B1 as [|i is' p' ps' q2 Hi Hlow B2]; subst.
  assert (0 < length l) by (by destruct l; simpl; [|lia]).
  destruct (encode_step E k m l He Hl) as (b & Wb & Rb & Hh & Hon); [lia..|].
  set (x1 := set_buf x (Some b)).
  destruct (down_pre E q2 is' ps _ x1 (visit s1 i Down x) B2 Hp2) as (is3 & is4 & q3 & s3 & -> & L3 & B3 & X3 & O3 & _).
  inversion B3 as [|i3 is5 p5 ps5 q5 Hi5 Hlow5 B5]; subst.
  exists (length pre + S (length ps + 1)), (visit s3 i3 Down x1). split; [|simpl; by rewrite O3; simpl; rewrite O1, app_nil_r]. intros f Hf. unfold send. rewrite Hq.
  fold (dest_of session dest). fold x. eapply exec_mono; [exact Hf|]. rewrite X1. cbn [exec]. rewrite Hi, Hlow.
  cbn [p_enable p_kind]. rewrite Hon by done. fold x1. rewrite X3. cbn [exec]. rewrite Hi5. by destruct (p_kind p).
Qed.

Lemma no_conn_quiet_exec E q is ps x s :
  below E q is ps -> Forall (fun p => connectionless p = true) ps ->
  cx_conn x = None -> (forall b, cx_buf x = Some b -> wf b) ->
  (0 < e_mtu E)%Z -> (0 <= e_overhead E <= e_mtu E)%Z ->
  exists x' s', exec (length ps + 1) E Down (Some q) x s = Some (Done x' s') /\ s_out s' = s_out s /\ s_ps s' = s_ps s.
Proof.
  intros Hb. revert x s. induction Hb as [|i is p ps q Hi Hlow Hb IH]; intros x s Hp Hc Hw H1 H2.
  - exists x, s. cbn [length plus exec]. unfold lower_send. by rewrite Hc.
  - inversion Hp as [|? ? Hp1 Hp2]; subst. simpl plus. cbn [exec]. rewrite Hi, Hlow.
    assert (Hdown : forall x1, cx_conn x1 = None -> (forall b, cx_buf x1 = Some b -> wf b) ->
      exists x' s', exec (length ps + 1) E Down (Some q) x1 (visit s i Down x) = Some (Done x' s') /\ s_out s' = s_out s /\ s_ps s' = s_ps s).
    { intros x1 Hc1 Hw1. destruct (IH x1 (visit s i Down x)) as (x' & s' & E' & O' & P'); try done. by exists x', s'. }
    assert (Hstop : exists x' s', Some (Done x (visit s i Down x)) = Some (Done x' s') /\ s_out s' = s_out s /\ s_ps s' = s_ps s).
    { by eexists _, _. }
    assert (Hcw : forall l, exists x' s', codec_write E l (exec (length ps + 1) E Down (Some q)) x (visit s i Down x) = Some (Done x' s') /\ s_out s' = s_out s /\ s_ps s' = s_ps s).
    { intros l. destruct (decide (l = [] \/ (e_mtu E - e_overhead E < Z.of_nat (length l))%Z)) as [Hn|Hn].
      - by rewrite codec_write_nothing.
      - destruct (codec_write_ok E l H1) as (b' & Wb & _ & _ & Hcw); [lia|tauto|lia|]. rewrite Hcw.
        apply Hdown; [done|]. intros b [= <-]. done. }
    destruct p as [k en]. unfold connectionless in Hp1. cbn [p_enable p_kind] in *.
    destruct k; try done; cbn [on_upper]; try (exact Hstop); try (destruct en; [done|]); try (by apply Hdown).
    + destruct en; [|by apply Hdown]. destruct (cx_msg x) as [[]|]; first [exact Hstop|apply Hcw].
    + destruct en; [|by apply Hdown]. destruct (cx_msg x) as [[]|]; first [exact Hstop|apply Hcw].
    + destruct en; [|by apply Hdown]. destruct (cx_msg x) as [m|]; [|exact Hstop]. destruct (marshal m); [apply Hcw|exact Hstop].
    + destruct en; [|by apply Hdown]. unfold with_buf. destruct (cx_buf x) as [b|] eqn:Eb; [|done].
      specialize (Hw b eq_refl). destruct (decide (4 <= v_hlen b)) as [Hh|Hh].
      * destruct (headU_ok (option_int (cx_session x) 0 mod 2^32)%Z b Hw Hh) as (b' & -> & Wb & _).
        apply Hdown; [done|]. by intros b1 [= <-].
      * rewrite headU_full by lia. by eexists _, _.
Qed.
Lemma no_conn_quiet E ids ps session dest m s :
  wired E ids ps -> Forall (fun p => connectionless p = true) ps -> (0 < e_mtu E)%Z -> (e_overhead E <= e_mtu E)%Z ->
  exists s', finishes (fun f => send f E session dest None m s) s [] s' /\ s_ps s' = s_ps s.
Proof.
  intros W Hp H1 H2. destruct (wired_from E ids [] ps [] ids W) as (q & Hq & Hb); [done..|].
  pose proof (wired_overhead _ _ _ W) as Ho. pose proof (room_nonneg ps) as Hn. rewrite <- Ho in Hn.
  simpl in Hq. set (x := Ctx None None m (Some (OInt (dest_of session dest)))).
  destruct (no_conn_quiet_exec E q ids ps x s Hb Hp) as (x' & s' & E' & O' & P'); try done.
  exists s'. split; [|done]. unfold send. rewrite Hq. fold (dest_of session dest). fold x.
  apply (finishes_exec _ _ _ _ _ x' _ _ (length ps + 1)); [done|]. by rewrite O', app_nil_r.
Qed.

(** ** Ignored messages *)
Lemma codec_ignores_down E f i k x s : e_procs E !! i = Some (Proc k true) ->
  (0 < e_mtu E)%Z -> (0 <= e_overhead E <= e_mtu E)%Z -> unsendable k (cx_msg x) ->
  exec (S f) E Down (Some (PProc i)) x s = Some (Done x (visit s i Down x)).
Proof.
  intros Hi H1 H2 Hk. destruct (new_ubuf_ok E H1 H2) as (b & Hb & _). cbn [exec]. rewrite Hi. cbn [p_enable p_kind].
  pose proof (codec_write_nothing E [] H1 H2 (or_introl eq_refl)) as Hn.
  destruct k as [| | |mar unm|en de|[en|] de| | | | | | | | | | |]; try done; cbn [on_upper].
  - destruct (cx_msg x) as [[l| |]|]; try done. rewrite (Hk l eq_refl). apply Hn.
  - destruct (cx_msg x) as [[|l|]|]; try done. rewrite (Hk l eq_refl). apply Hn.
  - destruct (cx_msg x) as [m|]; [|done]. destruct (Hk m eq_refl) as [-> | ->]; [done|apply Hn].
  - destruct (cx_msg x) as [m|]; [|done]. rewrite Hb. by destruct (Hk m eq_refl b) as (b' & ->).
  - destruct (cx_msg x) as [m|]; [|done]. rewrite Hb. by destruct (Hk m eq_refl b) as (b' & ->).
Qed.
Lemma codec_ignores_up E f i k x s : e_procs E !! i = Some (Proc k true) -> refuses_nothing k ->
  (forall b, cx_buf x = Some b -> wf b /\ readable b = []) ->
  exists x', exec (S f) E Up (Some (PProc i)) x s = Some (Done x' (visit s i Up x)).
Proof.
  intros Hi Hk Hb. cbn [exec]. rewrite Hi. cbn [p_enable p_kind].
  assert (Hr : forall g, exists x', codec_read x (visit s i Up x) g = Some (Done x' (visit s i Up x))).
  { intros g. unfold codec_read. destruct (cx_buf x) as [b|]; [|by eexists].
    destruct (Hb b eq_refl) as [W R]. rewrite (read_none b W R). by eexists. }
  destruct k as [| | |mar unm|en de|en [de|]| | | | | | | | | | |]; try done; cbn [on_lower]; try apply Hr; unfold with_buf.
  - destruct (cx_buf x) as [b|]; [|by eexists]. destruct (Hk b) as (b' & ->); [by apply Hb|]. by eexists.
  - destruct (cx_buf x) as [b|]; [|by eexists]. destruct (Hk b) as (m & b' & ->); [by apply Hb|]. by eexists.
  - by eexists.
Qed.

Lemma send_ignored E ids pre k ps session dest c m s :
  wired E ids (pre ++ Proc k true :: ps) -> Forall (fun p => passes_message p = true) pre ->
  (0 < e_mtu E)%Z -> (e_overhead E <= e_mtu E)%Z -> unsendable k m ->
  exists s', finishes (fun f => send f E session dest c m s) s [] s' /\ s_ps s' = s_ps s.
Proof.
  intros W Hpre H1 H2 Hm.
  pose proof (wired_overhead _ _ _ W) as Ho. pose proof (room_nonneg (pre ++ Proc k true :: ps)) as Hn. rewrite <- Ho in Hn.
  destruct (wired_from E ids [] (pre ++ Proc k true :: ps) [] ids W) as (q & Hq & Hb); [done..|].
  simpl in Hq. set (x := Ctx c None m (Some (OInt (dest_of session dest)))).
  destruct (down_pre E q ids pre _ x s Hb Hpre) as (is1 & is2 & q1 & s1 & -> & L1 & B1 & X1 & O1 & P1 & V1).
  inversion B1 as [|i is' p' ps' q2 Hi Hlow B2]; subst.
  exists (visit s1 i Down x). split; [|done]. unfold send. rewrite Hq. fold (dest_of session dest). fold x.
  apply (finishes_exec _ _ _ _ _ x _ _ (length pre + 1)); [|simpl; by rewrite O1, app_nil_r].
  rewrite X1. apply (codec_ignores_down E 0 i k x s1); done.
Qed.
Lemma receive_ignored E ids pre k ps sess c s :
  wired E ids (pre ++ Proc k true :: ps) -> refuses_nothing k ->
  Forall (fun p => carries p = true) ps -> Forall (fun p => framing p = false) ps -> e_isref E c = false ->
  (Z.of_nat (length (wire_of sess ps [])) <= e_mtu E)%Z ->
  exists s', finishes (fun f => receive f E c (wire_of sess ps []) s) s [] s' /\ (forall j, cache_of s' j = cache_of s j).
Proof.
  intros W Hk Hc Hf Hr Hm. destruct (wired_split1 _ _ _ _ _ W) as (a & i & b & -> & La & Lb).
  destruct (wired_up_to _ _ _ _ _ _ _ W La) as (q & Hq & Hp).
  pose proof (wired_at _ _ _ _ _ _ _ W La) as Hi.
  set (x := Ctx (Some c) (Some (rx_chunk (Z.to_nat (e_mtu E)) (wire_of sess ps []))) None None).
  destruct (rx_chunk_wf (Z.to_nat (e_mtu E)) (wire_of sess ps [])) as (Wb & Rb & _); [lia|].
  rewrite wire_of_rev in Rb at 2.
  destruct (up_prefix E (PProc i) q (rev b) (rev ps) x s c _ sess [] Hp (Forall_rev Hc) (Forall_rev Hf)
    eq_refl Hr eq_refl Wb Rb) as (b' & s1 & X1 & W1 & R1 & H1 & O1 & C1).
  set (x1 := set_session (set_buf x (Some b')) (sess_after (rev ps) sess (cx_session x))) in *.
  destruct (codec_ignores_up E 0 i k x1 s1 Hi Hk) as (x' & Hx'). { by intros b1 [= <-]. }
  exists (visit s1 i Up x1). split; [|done]. unfold receive. rewrite Hq. fold x.
  apply (finishes_exec _ _ _ _ _ x' _ _ (length (rev ps) + 1)); [|simpl; by rewrite O1, app_nil_r].
  by rewrite X1.
Qed.
