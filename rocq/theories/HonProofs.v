(** * Proofs about honest traffic (C89) *)
From Verif Require Import GoBase UBufModel UBufSpec UBufProofs FrameModel FrameSpec FrameProofs StackModel StackSpec StackPath StackFacts StackProofs StackSpecial StackEnd NetModel NetSpec NetProofs SafeSpec SafeProofs HonSpec.
From stdpp Require Import list.

(** Caches larger than any chunk stay empty whatever arrives, or the program ends. *)
Definition fit_bytes (mtu : Z) (l : list byte) : Prop := Forall byte_ok l /\ (Z.of_nat (length l) <= mtu)%Z.
Lemma fit_decoder mtu : (mtu < 2^32)%Z -> decoder_ok (spare_cache mtu) (fit_bytes mtu) True.
Proof.
  intros Hmtu. split.
  - intros x l B (H1 & H2). split; [by eapply block_byte_ok|]. pose proof (block_length _ _ B). lia.
  - intros cc u (k & Ik & Hk) Wu (Bu & Lu). pose proof (readable_length u Wu) as Eu.
    destruct (idle_wf k cc Ik) as (Wc & Rc & Tc).
    pose proof (cur_step_spec cc u Wc Wu ltac:(lia)) as S. cbv zeta in S.
    assert (spare_cache mtu cc) as HC by (by exists k).
    destruct ((_ <? 4) || _) eqn:E1.
    { destruct S as (c' & u' & -> & W' & H1 & H2 & H3 & H4). exists k. split; [|done].
      rewrite Rc in H4. simpl in H4. assert (readable c' = []) as R'.
      { rewrite H4. unfold accepted. rewrite Tc. destruct (k <=? _) eqn:Ek; cleq; [lia|done]. }
      destruct Ik as (I1 & I2 & I3 & I4 & I5). rewrite <- I4, <- H3. apply wf_idle; congruence. }
    destruct (_ =? _)%Z eqn:E2 in S.
    { destruct S as (u' & -> & Wu' & R'). split; [done|]. split; [done|]. rewrite R'. split; [by apply Forall_drop|].
      rewrite drop_length. lia. }
    apply orb_false_iff in E1 as [E1 _]. cleq.
    destruct (_ <=? 0)%Z eqn:E3 in S; [by rewrite S|].
    apply Z.leb_gt in E3.
    destruct (_ <=? _)%Z eqn:E4 in S.
    + destruct S as (nb & u' & -> & Wn & Wu' & R1 & R2). rewrite <- (readable_length u' Wu'), <- (readable_length u Wu), R1, R2.
      split_and!; try done.
      * split; [by apply Forall_take, Forall_drop|]. rewrite take_length, drop_length. lia.
      * split; [by apply Forall_drop|]. rewrite drop_length. lia.
      * rewrite drop_length. lia.
    + destruct S as (u' & ->). exists k. split; [|done]. destruct Ik as (I1 & I2 & I3 & I4 & I5). rewrite <- I4.
      by apply reset_idle.
  - intros cc (k & Ik & Hk). destruct (idle_wf k cc Ik) as (Wc & Rc & Tc).
    pose proof (cached_step_spec cc Wc) as S. cbv zeta in S. rewrite Rc in S. simpl in S. rewrite S.
    exists k. split; [|done]. destruct Ik as (I1 & I2 & I3 & I4 & I5). rewrite <- I4. by apply reset_idle.
  - intros cc u (k & Ik & Hk) _ _ H. destruct (idle_wf k cc Ik) as (Wc & Rc & Tc).
    rewrite <- (readable_length cc Wc), Rc in H. simpl in H. lia.
Qed.
Lemma receive_fit E ids ps c l s : wired E ids ps -> Forall sturdy ps -> legal_mtu E -> e_isref E c = false ->
  chunk E l -> ready E (spare_cache (e_mtu E)) s ->
  (exists outs s', finishes (fun f => receive f E c l s) s outs s' /\ ready E (spare_cache (e_mtu E)) s') \/
  (exists outs, crashes (fun f => receive f E c l s) s outs).
Proof.
  intros Wd St Hm Hc Hl R. assert (e_mtu E < 2^32)%Z as H32 by apply Hm.
  destruct (receive_any E ids ps (spare_cache (e_mtu E)) (fit_bytes (e_mtu E)) True c l s) as [H|[_ H]]; try done; [..|by left|by right].
  - intros. by apply fit_decoder.
  - apply (do_block _ _ _ (fit_decoder _ H32)).
Qed.
Lemma crashes_not run s o1 s1 o2 : finishes run s o1 s1 -> crashes run s o2 -> False.
Proof.
  intros [(f0 & x' & H) _] (f1 & s' & H' & _). specialize (H (max f0 f1) ltac:(lia)). rewrite (H' (max f0 f1) ltac:(lia)) in H. done.
Qed.

Section runs.
Context (N : net) (ps : list proc) (ids : list nat).
Notation run := (nrun N any_read).
Context (Hw : wired (nb N) ids ps) (Hst : Forall sturdy ps) (Hm : legal_mtu (nb N)) (Hc : e_isref (nb N) (ncb N) = false).

Lemma nrun_one' s l s' : nstep N s l s' -> run s [l] s'.
Proof. intros H. by apply (nr_snoc N any_read s [] s l s'); [constructor| |]. Qed.
Lemma nrun_app' s ls s1 ms s2 : run s ls s1 -> run s1 ms s2 -> run s (ls ++ ms) s2.
Proof. intros H. induction 1 as [|ms x l y H2 IH Hok Hst']; [by rewrite app_nil_r|]. rewrite app_assoc. by econstructor. Qed.
Lemma nrun_cons' s l s1 ls s2 : nstep N s l s1 -> run s1 ls s2 -> run s (l :: ls) s2.
Proof. intros H1 H2. change (l :: ls) with ([l] ++ ls). eapply nrun_app'; [by apply nrun_one'|done]. Qed.

(** The wire holds the end of the stream. *)
Lemma wire_end a b ls s : run (new_net a b) ls s -> exists r, stream s = r ++ n_wire s.
Proof.
  induction 1 as [|ls s1 l s2 H IH _ Hs]; [by exists []|]. destruct IH as (r & E). unfold stream in *.
  destruct Hs as [| |tx hd a1 w b1 up rx sn ws g e x outs a' Hh Hf|tx hd a1 w b1 rx sn ws g n outs b' H1 H2 H3 H4| |]; simpl in *; try by exists r.
  - exists r. by rewrite concat_app, E, app_assoc.
  - exists (r ++ take n w). by rewrite E, <- app_assoc, take_drop.
Qed.
Lemma bytes_wire a b ls s : run (new_net a b) ls s -> Forall byte_ok (stream s) -> Forall byte_ok (n_wire s).
Proof. intros H HF. destruct (wire_end _ _ _ _ H) as (r & E). rewrite E in HF. by apply Forall_app in HF as [_ HF]. Qed.
Lemma stream_grows s l s' : nstep N s l s' -> exists r, stream s' = stream s ++ r.
Proof. unfold stream. destruct 1; simpl; try (exists []; by rewrite app_nil_r). rewrite concat_app. by eexists. Qed.

Lemma ready_run a b ls s : default_caches (nb N) -> init_st (nb N) = Some b -> run (new_net a b) ls s -> Forall byte_ok (stream s) ->
  ready (nb N) (spare_cache (e_mtu (nb N))) (n_b s).
Proof.
  intros Hd Hi. induction 1 as [|ls s1 l s2 H IH _ Hs]; intros HB; [by eapply init_ready|].
  assert (Forall byte_ok (stream s1)) as HB1.
  { destruct (stream_grows _ _ _ Hs) as (r & E). rewrite E in HB. by apply Forall_app in HB as [HB _]. }
  specialize (IH HB1). pose proof (bytes_wire _ _ _ _ H HB1) as Hwb.
  destruct Hs as [| | |tx hd a1 w b1 rx sn ws g n outs b' H1 H2 H3 H4| |]; simpl in *; try done.
  destruct (receive_fit (nb N) ids ps (ncb N) (take n w) b1) as [(o2 & b2 & F2 & R2)|(o2 & C2)]; try done.
  { split; [by apply Forall_take|]. rewrite take_length. lia. }
  - by destruct (finishes_unique _ _ _ _ _ _ H4 F2) as [_ ->].
  - exfalso. by eapply crashes_not.
Qed.
Lemma never_fatal a b ls s n : default_caches (nb N) -> init_st (nb N) = Some b -> run (new_net a b) ls s ->
  Forall byte_ok (stream s) -> ~ zero_field (stream s) -> may_read N s n ->
  (exists s', nstep N s (NRead n) s') /\ ~ fatal N s n.
Proof.
  intros Hd Hi H HB HZ (Hu & H1 & H2 & H3). pose proof (ready_run _ _ _ _ Hd Hi H HB) as R. pose proof (bytes_wire _ _ _ _ H HB) as Hwb.
  destruct (wire_end _ _ _ _ H) as (r & E).
  destruct (receive_clean (nb N) ids ps (ncb N) (take n (n_wire s)) (n_b s)) as (o & b' & F & _); try done.
  { split; [by apply Forall_take|]. rewrite take_length. lia. }
  { eapply block_nozero; [|exact HZ]. exists r, (drop n (n_wire s)). by rewrite take_drop. }
  split.
  - destruct s as [tx hd a1 w b1 up rx sn ws g]. simpl in *. subst up. eexists. by eapply nk_read.
  - intros [_ (o2 & C)]. by eapply crashes_not.
Qed.
End runs.

(** ** The lowest decoder hands nothing up *)
Lemma quiet_cached fuel c1 c2 n i up x s : fd_cached fuel c1 = Some ([], c2, false) -> cache_of s i = Some c1 ->
  frame_cached (S n) i up x s = Some (Done x (set_cache s i c2)).
Proof.
  intros H E. destruct fuel as [|fu]; [done|]. cbn [fd_cached] in H. cbn [frame_cached]. rewrite E.
  destruct (fd_cached_step c1) as [[| |nb|] c'] eqn:Ec; try done; try (by injection H as ->).
  by destruct (fd_cached fu c') as [[[? ?] ?]|].
Qed.
Lemma quiet_recv fuel cc c2 u i up x s : fd_recv fuel cc u = Some ([], c2, false) -> cache_of s i = Some cc ->
  exists s', frame_recv i up x s u = Some (Done x s') /\ cache_of s' i = Some c2 /\ s_out s' = s_out s.
Proof.
  intros H E. unfold fd_recv in H. unfold frame_recv. rewrite E.
  destruct (fd_current fuel cc u) as [[[l1 c1] [|]]|] eqn:Ecur; [done| |done].
  destruct (fd_cached fuel c1) as [[[l2 c3] p]|] eqn:Eca; [|done]. injection H as El -> ->. apply app_eq_nil in El as [-> ->].
  assert (forall r, cache_of (set_cache s i r) i = Some r) as Hset by (intros r; by apply (cache_set_same _ _ _ cc)).
  assert ((if 0 <? v_rlen cc then match ub_readfrom None cc u with
      | Ok _ (c', _) => Some (Done x (set_cache s i c')) | Panic (c', _) => Some (Crash (set_cache s i c')) end
    else frame_cur (S (v_rlen u)) i up x s u) = Some (Done x (set_cache s i c1))) as ->.
  { unfold fd_current in Ecur. destruct (0 <? v_rlen cc).
    - destruct (ub_readfrom None cc u) as [? [? ?]|[? ?]]; [by injection Ecur as ->|done].
    - destruct fuel as [|fu]; [done|]. cbn [fd_cur] in Ecur. cbn [frame_cur]. rewrite E.
      destruct (fd_cur_step cc u) as [[[| |nb|] c'] u'] eqn:Ec; try done; [by injection Ecur as ->|].
      by destruct (fd_cur fu c' u') as [[[? ?] ?]|]. }
  rewrite Hset. exists (set_cache (set_cache s i c1) i c2). split_and!.
  - by eapply quiet_cached.
  - by apply (cache_set_same _ _ _ c1).
  - by rewrite !out_set_cache.
Qed.
Lemma quiet_receive E ids qs cap c l s i cc c2 fuel : wired E ids (qs ++ [Proc (KFrame cap) true]) -> e_isref E c = false ->
  last ids = Some i -> cache_of s i = Some cc ->
  fd_recv fuel cc (rx_chunk (Z.to_nat (e_mtu E)) l) = Some ([], c2, false) ->
  exists s', finishes (fun f => receive f E c l s) s [] s' /\ cache_of s' i = Some c2.
Proof.
  intros Wd Hc Hl Hca Hf.
  destruct (wired_split1 _ _ _ _ _ Wd) as (a & j & b & -> & La & Lb). simpl in Lb. destruct b; [|done].
  rewrite last_snoc in Hl. injection Hl as ->.
  destruct (wired_all_above _ _ _ Wd) as (q & Hq & Hp). rewrite !rev_app_distr in Hp. simpl in Hp.
  inversion Hp as [|? ? ? ? q1 Hi Hup Hp']; subst.
  set (u := rx_chunk (Z.to_nat (e_mtu E)) l) in *. set (x := Ctx (Some c) (Some u) None None).
  destruct (quiet_recv fuel cc c2 u i (exec 0 E Up (next_of E Up i)) x (visit s i Up x)) as (s' & E1 & E2 & E3); [done|exact Hca|].
  exists s'. split; [|done]. unfold receive. rewrite Hq. fold u. fold x.
  apply (finishes_exec _ _ _ _ _ x s' [] 1).
  - cbn [exec]. rewrite Hi. cbn [p_enable p_kind on_lower]. unfold by_reference, with_buf. cbn [cx_conn cx_buf x]. rewrite Hc.
    exact E1.
  - rewrite app_nil_r. exact E3.
Qed.

(** ** One byte at a time *)
Lemma one_byte fuel k mtu c b : idle k c -> 1 < k -> 1 <= mtu -> byte_ok b -> 1 < fuel ->
  exists c', fd_recv fuel c (rx_chunk mtu [b]) = Some ([], c', false) /\ idle k c'.
Proof.
  intros Ic Hk Hmt Hb Hf. destruct (recv_stateless fuel k mtu c [b] Ic) as (bs & c' & cr & E & Ic' & Ho); [|done|].
  { split_and!; simpl; try lia; try done. by constructor. }
  destruct (chunk_out_unique [b] (readable <$> bs) cr [] false Ho) as [E1 ->].
  { exists [], [b]. split; [|done]. constructor. left. simpl. lia. }
  destruct bs; [|done]. by exists c'.
Qed.

Lemma wired_lowest E ids qs p : wired E ids (qs ++ [p]) -> exists i, last ids = Some i /\ e_procs E !! i = Some p.
Proof.
  intros Wd. destruct (wired_split1 _ _ _ _ _ Wd) as (a & i & b & -> & La & Lb). destruct b; [|done].
  exists i. rewrite last_snoc. split; [done|]. by eapply wired_at.
Qed.

Section low.
Context (N : net) (ids : list nat) (qs : list proc) (cap : option oval) (i : nat).
Context (Wd : wired (nb N) ids (qs ++ [Proc (KFrame cap) true])) (Hc : e_isref (nb N) (ncb N) = false) (Hl : last ids = Some i)
  (Hmtu : (0 < e_mtu (nb N))%Z).

Lemma skip_bytes x k : forall s d c, 1 < k -> n_up s = [] -> n_wire s = x ++ d -> Forall byte_ok x ->
  cache_of (n_b s) i = Some c -> idle k c ->
  exists s' c', nrun N any_read s (replicate (length x) (NRead 1)) s' /\ n_up s' = [] /\ n_wire s' = d /\
    cache_of (n_b s') i = Some c' /\ idle k c' /\ n_writes s' = n_writes s.
Proof.
  induction x as [|b x IH]; intros s d c Hk Hu Hw Hb Ecc Ik.
  - exists s, c. split_and!; try done. constructor.
  - apply Forall_cons_1 in Hb as [Hb Hx].
    destruct (one_byte 2 k (Z.to_nat (e_mtu (nb N))) c b Ik Hk) as (c' & E & Ik'); [lia|done|lia|].
    destruct (quiet_receive (nb N) ids qs cap (ncb N) [b] (n_b s) i c c' 2 Wd Hc Hl Ecc E) as (b' & F & Ec').
    destruct s as [tx hd a w b0 up rx sn ws g]. simpl in *. subst up w.
    pose (s1 := Nst tx hd a (x ++ d) b' [] rx sn ws (g + 1)).
    destruct (IH s1 d c') as (s' & c2 & R & U & W2 & C2 & I2 & S2); try done.
    exists s', c2. split_and!; try done.
    eapply nrun_cons'; [|exact R]. change (x ++ d) with (drop 1 (b :: x ++ d)) in s1.
    apply (nk_read N tx hd a (b :: x ++ d) b0 rx sn ws g 1 [] b'); simpl; try lia. by rewrite take_0.
Qed.

(** A wedged decoder stays so, and nothing is handed up. *)
Lemma wedged_run s ls s' c : nrun N any_read s ls s' -> n_up s = [] -> cache_of (n_b s) i = Some c -> wedged c ->
  n_up s' = [] /\ cache_of (n_b s') i = Some c /\ NDeliver ∉ ls.
Proof.
  intros R Hu Hca Hwd. induction R as [|ls s1 l s2 H IH _ Hs]; [split_and!; try done; apply not_elem_of_nil|].
  destruct IH as (U & C & D).
  assert (n_up s2 = [] /\ cache_of (n_b s2) i = Some c /\ l <> NDeliver) as (? & ? & ?).
  { destruct Hs as [| | |tx hd a1 w b1 rx sn ws g n outs b' H1 H2 H3 H4| |]; simpl in *; try done.
    destruct (quiet_receive (nb N) ids qs cap (ncb N) (take n w) b1 i c c 1 Wd Hc Hl C) as (b2 & F & Ec').
    { by apply wedged_recv; [|lia]. }
    by destruct (finishes_unique _ _ _ _ _ _ H4 F) as [-> ->]. }
  split_and!; try done. intros [?|?%elem_of_list_singleton]%elem_of_app; congruence.
Qed.
Lemma wedge_now s d k c : n_up s = [] -> n_wire s = d -> cache_of (n_b s) i = Some c -> idle k c ->
  4 <= k -> (Z.of_nat k <= e_mtu (nb N))%Z -> k <= length d -> (Z.of_nat k < announced d < 2^32)%Z ->
  exists s' c', nstep N s (NRead k) s' /\ n_up s' = [] /\ cache_of (n_b s') i = Some c' /\ wedged c'.
Proof.
  intros Hu Hw Hca Ik H4 Hkm Hkd Ha.
  assert (length (take k d) = k) as Lt by (rewrite take_length; lia).
  assert (announced (take k d) = announced d) as Et.
  { destruct k as [|[|[|[|k]]]]; try lia. by destruct d as [|? [|? [|? [|? d]]]]. }
  destruct (becomes_wedged 1 k (Z.to_nat (e_mtu (nb N))) c (take k d)) as (c' & E & Wg); try done; rewrite ?Lt, ?Et; try lia.
  destruct (quiet_receive (nb N) ids qs cap (ncb N) (take k d) (n_b s) i c c' 1 Wd Hc Hl Hca E) as (b' & F & Ec').
  destruct s as [tx hd a w b0 up rx sn ws g]. simpl in *. subst up w.
  eexists _, c'. split; [apply (nk_read N tx hd a d b0 rx sn ws g k [] b'); try done; lia|]. done.
Qed.
End low.

Lemma init_cache E s i k : init_st E = Some s -> e_procs E !! i = Some (Proc (KFrame (Some (OInt (Z.of_nat k)))) true) ->
  exists c, cache_of s i = Some c /\ idle k c.
Proof.
  intros Hs Hi. unfold init_st in Hs. destruct (mapM _ _) as [l|] eqn:Em; [|done]. injection Hs as <-.
  apply mapM_Some_1 in Em. destruct (Forall2_lookup_l _ _ _ _ _ Em Hi) as (p & Hp & Hip).
  unfold init_pst in Hip. cbn [p_kind option_int] in Hip.
  destruct (v_alloc _ 0) as [c|] eqn:Ea; [|done]. injection Hip as <-.
  exists c. unfold cache_of. simpl. rewrite Hp. split; [done|]. by apply alloc_idle.
Qed.
Lemma sending_run N ls s s' : nrun N any_read s ls s' -> Forall sending ls -> n_b s' = n_b s /\ n_up s' = n_up s /\ n_got s' = n_got s.
Proof.
  induction 1 as [|ls s1 l s2 H IH _ Hs]; intros HF; [done|]. apply Forall_app in HF as [HF Hl]. apply Forall_cons_1 in Hl as [Hl _].
  destruct (IH HF) as (E1 & E2 & E3). by destruct Hs.
Qed.

Section claims.
Context (N : net) (qs : list proc) (cap : option oval) (a b : st).
Context (Hr : receiver N (qs ++ [Proc (KFrame cap) true])) (Hi : init_st (nb N) = Some b).

Lemma crash_on_zeros ls s x y : Forall sturdy qs -> default_caches (nb N) -> (4 <= e_mtu (nb N))%Z ->
  nrun N any_read (new_net a b) ls s -> Forall byte_ok (stream s) -> n_up s = [] -> n_wire s = x ++ [0; 0; 0; 0]%Z ++ y ->
  exists s', nrun N any_read s (replicate (length x) (NRead 1)) s' /\ stream s' = stream s /\ fatal N s' 4.
Proof.
  intros Hst Hd Hm4 R HB Hu Hw. destruct Hr as ((ids & Wd) & Hm & Hc).
  assert (Forall sturdy (qs ++ [Proc (KFrame cap) true])) as Hst' by (apply Forall_app; split; [done|]; by constructor).
  pose proof (ready_run N _ ids Wd Hst' Hm Hc a b ls s Hd Hi R HB) as [_ Hrd].
  destruct (wired_lowest _ _ _ _ Wd) as (i & Hl & Hp). destruct (Hrd i cap Hp) as (c & Ecc & k & Ik & Hk).
  pose proof (bytes_wire N a b ls s R HB) as Hwb. rewrite Hw in Hwb. apply Forall_app in Hwb as [Hxb Hyb].
  destruct (skip_bytes N ids qs cap i Wd Hc Hl ltac:(lia) x k s ([0; 0; 0; 0]%Z ++ y) c) as (s' & c' & R' & U' & W' & C' & I' & S'); try done; [lia|].
  exists s'. split; [done|]. split; [unfold stream; by rewrite S'|].
  assert (nrun N any_read (new_net a b) (ls ++ replicate (length x) (NRead 1)) s') as R2 by (by eapply nrun_app').
  assert (stream s' = stream s) as Es by (unfold stream; by rewrite S').
  split; [unfold may_read; rewrite W'; simpl; split_and!; try done; lia|].
  exists []. rewrite W'. change (take 4 ([0; 0; 0; 0]%Z ++ y)) with ([0; 0; 0; 0]%Z ++ [] : list byte).
  apply (zero_chunk _ ids qs cap); try done.
  - split; [by repeat constructor|]. simpl. lia.
  - eapply (ready_run N _ ids Wd Hst' Hm Hc a b _ s' Hd Hi R2). by rewrite Es.
Qed.
Lemma silenced ls s x d k : cap = Some (OInt (Z.of_nat k)) -> nrun N any_read (new_net a b) ls s -> Forall sending ls ->
  Forall byte_ok (stream s) -> n_wire s = x ++ d ->
  4 <= k -> (Z.of_nat k <= e_mtu (nb N))%Z -> k <= length d -> (Z.of_nat k < announced d)%Z ->
  exists s', nrun N any_read s (replicate (length x) (NRead 1) ++ [NRead k]) s' /\ silent N s'.
Proof.
  intros -> R HF HB Hw H4 Hkm Hkd Ha. destruct Hr as ((ids & Wd) & Hm & Hc).
  destruct (wired_lowest _ _ _ _ Wd) as (i & Hl & Hp). destruct (init_cache _ _ _ _ Hi Hp) as (c & Ecc & Ik).
  destruct (sending_run _ _ _ _ R HF) as (Eb & Eu & _). simpl in Eb, Eu.
  pose proof (bytes_wire N a b ls s R HB) as Hwb. rewrite Hw in Hwb. apply Forall_app in Hwb as [Hxb Hdb].
  destruct (skip_bytes N ids qs _ i Wd Hc Hl ltac:(lia) x k s d c) as (s1 & c1 & R1 & U1 & W1 & C1 & I1 & S1); try done; [lia|by rewrite Eb|].
  assert (announced d < 2^32)%Z as Hd32. { apply announced_range; [done|lia]. }
  destruct (wedge_now N ids qs _ i Wd Hc Hl ltac:(lia) s1 d k c1) as (s2 & c2 & St & U2 & C2 & G2); try done.
  exists s2. split; [eapply nrun_app'; [done|by apply nrun_one']|].
  intros ms s3 R3. by destruct (wedged_run N ids qs _ i Wd Hc Hl s2 ms s3 c2) as (_ & _ & ?).
Qed.
End claims.

(** ** A new connection *)
Lemma ready_idle E mtu s : default_caches E -> (0 < e_mtu E)%Z -> (forall i cap en, e_procs E !! i = Some (Proc (KFrame cap) en) -> en = true) ->
  ready E (spare_cache mtu) s -> (0 <= mtu)%Z -> caches_idle E s.
Proof.
  intros Hd Hm Hen [_ R] H0 i cap en Hi. pose proof (Hen i cap en Hi) as ->. destruct (R i cap Hi) as (c & Ec & k & Ik & Hk).
  exists k, c. split_and!; try done. lia.
Qed.
Lemma recovers_net N k ps a b ls s a' ms s' : matching N k ps -> legal_mtu (nb N) -> default_caches (nb N) ->
  (forall i cap en, e_procs (nb N) !! i = Some (Proc (KFrame cap) en) -> en = true) ->
  (exists qs, receiver N qs /\ Forall sturdy qs) -> init_st (nb N) = Some b ->
  nrun N any_read (new_net a b) ls s -> Forall byte_ok (stream s) ->
  nrun N (whole_read (framed ps)) (new_net a' (n_b s)) ms s' -> all_sendable N k ps ms ->
  exists o, (forall e, mails_of e o ++ unsent e s' = given e ms) /\
    forall z, exists rest, heard z s' ++ rest = mails_for N z o /\ (settled s' -> rest = []).
Proof.
  intros M Hm Hd Hen (qs & ((ids & Wd) & _ & Hc) & Hst) Hi R HB R' Hs.
  eapply (net_in_order N k ps M a' (n_b s)); try done.
  eapply (ready_idle _ (e_mtu (nb N))); try done; [apply Hm| |destruct Hm; lia].
  by eapply (ready_run N qs ids).
Qed.

(** ** One message is enough *)
Lemma byte_ok_digits z : Forall byte_ok (digits BE W32 z).
Proof. unfold digits, digits_be. apply Forall_fmap, Forall_true. intros i. unfold byte_ok. simpl. apply Z.mod_pos_bound. lia. Qed.
Lemma put_bytes z p l : Forall byte_ok l -> Forall byte_ok (StackSpec.put z p l).
Proof.
  intros H. unfold StackSpec.put, frame. destruct (p_kind p); try done; try (destruct (p_enable p)); try done;
    try (apply Forall_app; split; [apply byte_ok_digits|done]); by constructor.
Qed.
Lemma wire_bytes z ps l : Forall byte_ok l -> Forall byte_ok (wire_of z ps l).
Proof. revert l. induction ps as [|p ps IH]; intros l H; [done|]. apply IH, put_bytes, H. Qed.
Lemma put_block z p l : exists h, StackSpec.put z p l = h ++ l.
Proof.
  unfold StackSpec.put, frame. destruct (p_kind p); try (by exists []); try (by eexists [_]); destruct (p_enable p); try (by exists []); by eexists.
Qed.
Lemma wire_block z ps l : exists h, wire_of z ps l = h ++ l.
Proof.
  revert l. induction ps as [|p ps IH]; intros l; [by exists []|].
  destruct (put_block z p l) as (h & E). destruct (IH (h ++ l)) as (h' & E'). exists (h' ++ h). unfold wire_of in *. simpl. by rewrite E, E', app_assoc.
Qed.
(** Reasons why there are four zero bytes in a row. *)
Lemma zeros_behind h l : zero_field l -> zero_field (h ++ l).
Proof. intros (u & v & ->). exists (h ++ u), v. by rewrite app_assoc. Qed.
Lemma wire_zeros_tag z p1 q p2 l : (0 <= z < 256)%Z -> p_kind q = KHeartbeat \/ p_kind q = KStat ->
  zero_field (wire_of z (p1 ++ Proc KSession true :: q :: p2) l).
Proof.
  intros Hz Hq. rewrite wire_of_app. set (l1 := wire_of z p1 l).
  change (wire_of z (Proc KSession true :: q :: p2) l1) with (wire_of z p2 (StackSpec.put z q (digits BE W32 (z mod 2^32) ++ l1))).
  destruct (wire_block z p2 (StackSpec.put z q (digits BE W32 (z mod 2^32) ++ l1))) as (h & ->). apply zeros_behind.
  rewrite Z.mod_small by lia. exists [], (z :: l1). unfold StackSpec.put.
  assert (digits BE W32 z = [0; 0; 0; z]%Z) as ->.
  { unfold digits, digits_be. simpl. rewrite Z.div_1_r, (Z.mod_small z) by lia. rewrite !Z.div_small by lia. done. }
  by destruct Hq as [-> | ->].
Qed.
Lemma wire_zeros z ps l : zero_field l \/ z = 0%Z /\ existsb resolves ps = true -> zero_field (wire_of z ps l).
Proof.
  intros [H|[-> H]].
  - destruct (wire_block z ps l) as (h & ->). destruct H as (u & v & ->). exists (h ++ u), v. by rewrite app_assoc.
  - apply existsb_exists in H as (p & Hp%elem_of_list_In & Hr). apply elem_of_list_split in Hp as (p1 & p2 & ->).
    rewrite wire_of_app. unfold wire_of at 1. cbn [foldl]. fold (wire_of 0 p1 l). fold (wire_of 0 p2 (StackSpec.put 0 p (wire_of 0 p1 l))).
    destruct (wire_block 0 p2 (StackSpec.put 0 p (wire_of 0 p1 l))) as (h & ->).
    unfold resolves in Hr. unfold StackSpec.put. destruct (p_kind p); try done. rewrite Hr.
    exists h, (wire_of 0 p1 l). done.
Qed.
Lemma message_fatal N k pre qs cap e x l a b : matching N k (qs ++ [Proc (KFrame cap) true]) ->
  receiver N (pre ++ Proc k true :: qs ++ [Proc (KFrame cap) true]) -> Forall sturdy (pre ++ Proc k true :: qs) ->
  default_caches (nb N) -> init_st (nb N) = Some b -> 0 < ntxcap N ->
  sendable_as N k (qs ++ [Proc (KFrame cap) true]) e x l -> Forall byte_ok l ->
  zero_field (wire_of (dest_of (nsess N e) (ml_dest x)) (qs ++ [Proc (KFrame cap) true]) l) ->
  exists n s, nrun N any_read (new_net a b) ([NPut e x; NTake e; NPass e] ++ replicate n (NRead 1)) s /\ fatal N s 4.
Proof.
  intros M Hr Hst Hd Hi Ht Hx Hb Hz. set (ps := qs ++ [Proc (KFrame cap) true]) in *. set (p := Post e x l).
  destruct (send_post N k ps M p a Hx) as (a' & Hsend). set (w := wirep N ps p) in *. set (z := dest_of (nsess N e) (ml_dest x)) in *.
  assert (written (nca N) [OWire (nca N) w] = [w]) as Ew by (unfold written; simpl; by rewrite decide_True).
  assert (zero_field w) as (u & v & Ez) by exact Hz.
  assert (Forall byte_ok w) as Hwb by (by apply wire_bytes).
  assert (4 <= e_mtu (nb N))%Z as H4.
  { destruct Hx as (_ & _ & _ & _ & Hroom & _). pose proof (wire_length_room z ps l _ Hroom) as Lw.
    change (wire_of z ps l) with w in Lw. rewrite Ez, !app_length in Lw. simpl in Lw. lia. }
  assert (exists s, nrun N any_read (new_net a b) [NPut e x; NTake e; NPass e] s /\ stream s = w /\ n_wire s = w /\ n_up s = []) as (s & R & E1 & E2 & E3).
  { eexists. split.
    - eapply nrun_cons'; [apply nk_put; simpl; lia|].
      eapply nrun_cons'; [apply nk_take; [done|by rewrite fn_lookup_insert]|].
      eapply nrun_one'. eapply nk_pass; [by rewrite fn_lookup_insert|exact Hsend].
    - unfold stream. rewrite Ew. simpl. by rewrite app_nil_r. }
  unfold ps in Hr. rewrite app_comm_cons, app_assoc in Hr.
  destruct (crash_on_zeros N (pre ++ Proc k true :: qs) cap a b Hr Hi [NPut e x; NTake e; NPass e] s u v) as (s' & R' & _ & F); try done.
  { by rewrite E1. }
  { by rewrite E2. }
  exists (length u), s'. split; [|done]. by eapply nrun_app'.
Qed.
Lemma message_silences N kd pre qs k e x l u d a b : matching N kd (qs ++ [Proc (KFrame (Some (OInt (Z.of_nat k)))) true]) ->
  receiver N (pre ++ Proc kd true :: qs ++ [Proc (KFrame (Some (OInt (Z.of_nat k)))) true]) ->
  init_st (nb N) = Some b -> 0 < ntxcap N ->
  sendable_as N kd (qs ++ [Proc (KFrame (Some (OInt (Z.of_nat k)))) true]) e x l -> Forall byte_ok l ->
  l = u ++ d -> 4 <= k -> k <= length d -> (Z.of_nat k < announced d)%Z ->
  exists n s, nrun N any_read (new_net a b) ([NPut e x; NTake e; NPass e] ++ replicate n (NRead 1) ++ [NRead k]) s /\ silent N s.
Proof.
  intros M Hr Hi Ht Hx Hb -> Hk Hkd Ha. set (cap := Some (OInt (Z.of_nat k))) in *.
  set (ps := qs ++ [Proc (KFrame cap) true]) in *. set (p := Post e x (u ++ d)).
  destruct (send_post N kd ps M p a Hx) as (a' & Hsend). set (w := wirep N ps p) in *. set (z := dest_of (nsess N e) (ml_dest x)) in *.
  assert (written (nca N) [OWire (nca N) w] = [w]) as Ew by (unfold written; simpl; by rewrite decide_True).
  destruct (wire_block z ps (u ++ d)) as (h & Eh). change (wire_of z ps (u ++ d)) with w in Eh.
  assert (Forall byte_ok w) as Hwb by (by apply wire_bytes).
  assert (Z.of_nat k <= e_mtu (nb N))%Z as Hkm.
  { destruct Hx as (_ & _ & _ & _ & Hroom & _). rewrite app_length in Hroom. pose proof (room_nonneg ps). lia. }
  assert (exists s, nrun N any_read (new_net a b) [NPut e x; NTake e; NPass e] s /\ stream s = w /\ n_wire s = w) as (s & R & E1 & E2).
  { eexists. split.
    - eapply nrun_cons'; [apply nk_put; simpl; lia|].
      eapply nrun_cons'; [apply nk_take; [done|by rewrite fn_lookup_insert]|].
      eapply nrun_one'. eapply nk_pass; [by rewrite fn_lookup_insert|exact Hsend].
    - unfold stream. rewrite Ew. simpl. by rewrite app_nil_r. }
  unfold ps in Hr. rewrite app_comm_cons, app_assoc in Hr.
  destruct (silenced N (pre ++ Proc kd true :: qs) cap a b Hr Hi [NPut e x; NTake e; NPass e] s (h ++ u) d k) as (s' & R' & F); try done.
  { by repeat constructor. }
  { by rewrite E1. }
  { rewrite E2, Eh. by rewrite <- app_assoc. }
  exists (length (h ++ u)), s'. split; [|done]. by eapply nrun_app'.
Qed.
