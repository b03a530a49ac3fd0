(** * What each kind of processor does inside a stack *)
From stdpp Require Import sets.
From Verif Require Import GoBase UBufModel UBufSpec UBufProofs UBufFacts FrameModel FrameSpec FrameProofs
  StackModel StackSpec StackProofs StackPath StackFacts.
Arguments frame : simpl never.
Arguments digits : simpl never.

(** ** Head room *)
Lemma room_hdrs_split pa pb : (Z.of_nat (hdrs pb) <= room (pa ++ pb))%Z.
Proof. rewrite room_app. pose proof (hdrs_room pb). pose proof (room_nonneg pa). lia. Qed.

Lemma head_room E ids pa pb a b x s c b0 ub n l :
  wired E ids (pa ++ pb) -> ids = a ++ b -> length a = length pa -> Forall (fun p => sends_on p = true) pb ->
  cx_conn x = Some c -> e_isref E c = false -> (e_mtu E < 2^32)%Z -> l <> [] ->
  v_alloc (e_mtu E) (e_overhead E) = Some b0 -> v_write l b0 = Ok (n, None) ub ->
  exists s', finishes (fun f => exec f E Down (l_lower (e_links E) (List.last (PProc <$> a) PUpper)) (set_buf x (Some ub)) s) s
    (offered E (s_out s) c (wire_of (option_int (cx_session x) 0) pb l)) s'.
Proof.
  intros W Hids La Hs Hc Hr Hm Hl Ha Hw.
  pose proof (wired_overhead _ _ _ W) as Ho. pose proof (room_nonneg (pa ++ pb)) as Hn. rewrite <- Ho in Hn.
  destruct (wired_from E ids pa pb a b W Hids La) as (q & Hq & Hb).
  destruct (alloc_room _ _ _ Ha) as (W0 & R0 & Hh & Ht).
  destruct (decide (length l <= v_tlen b0)) as [Hfit|Hfit]; [|].
  2: { destruct (write_over l b0 W0) as (n' & e & b' & E'); [lia|]. rewrite E' in Hw. done. }
  destruct (write_ok l b0 W0 Hl Hfit) as (b1 & Ew & W1 & R1 & Hh1 & _). rewrite Ew in Hw.
  injection Hw as <- <-. rewrite R0 in R1. simpl in R1.
  assert (Hh2 : hdrs pb <= v_hlen b1).
  { rewrite Hh1, Hh, Ho. pose proof (room_hdrs_split pa pb). lia. }
  destruct (down_exec E q b pb (set_buf x (Some b1)) s c b1 (option_int (cx_session x) 0) (S (length pb)))
    as (x' & s' & Ex & Os & _); try done; try lia.
  { rewrite wire_of_hdrs, R1. pose proof (room_hdrs_split pa pb). rewrite <- Ho in *.
    assert (0 < length l) by (destruct l; simpl; [done|lia]). lia. }
  exists s'. rewrite Hq. rewrite R1 in Os. by eapply finishes_exec.
Qed.

Lemma self_sends E a i b pa p pb tag c s :
  wired E (a ++ i :: b) (pa ++ p :: pb) -> length a = length pa -> Forall (fun p => sends_on p = true) pb ->
  e_isref E c = false -> (e_overhead E < e_mtu E < 2^32)%Z ->
  exists s', finishes (fun f => self_message f E i tag c s) s (offered E (s_out s) c (wire_of 0 pb [tag])) s' /\
    (forall j, cache_of s' j = cache_of s j).
Proof.
  intros W La Hs Hr Hm.
  pose proof (wired_overhead _ _ _ W) as Ho. pose proof (room_nonneg (pa ++ p :: pb)) as Hn. rewrite <- Ho in Hn.
  destruct (wired_below_at _ _ _ _ _ _ _ W La) as (q & Hq & Hb).
  destruct (new_ubuf_ok E) as (b0 & Hb0 & W0 & R0 & Hh & Ht); [lia..|].
  destruct (writebyte_ok tag b0 W0) as (b1 & Ew & W1 & R1 & Hh1); [lia|]. rewrite R0 in R1. simpl in R1.
  assert (Hrm : (Z.of_nat (hdrs pb) <= e_overhead E)%Z).
  { rewrite Ho, room_app. simpl. pose proof (hdrs_room pb). pose proof (room_nonneg pa).
    pose proof (overhead_nonneg (p_kind p)). lia. }
  destruct (down_exec E q b pb (Ctx (Some c) (Some b1) None None) s c b1 0 (S (length pb)))
    as (x' & s' & Ex & Os & Cs & _); try done; try lia.
  { rewrite wire_of_hdrs, R1. simpl length. lia. }
  exists s'. split; [|done]. rewrite R1 in Os. unfold self_message. rewrite Hb0, Ew, Hq. by eapply finishes_exec.
Qed.

(** ** Messages that do not fit *)
Lemma plain_codec_write E k m l : plain_codec k = true -> encodes k m l ->
  forall i d u w x s, cx_msg x = Some m -> on_upper E i true d u w k x s = codec_write E l d x s.
Proof. destruct k; try done; intros _ He i d u w x s Hm; simpl in *; by rewrite Hm, He. Qed.

Lemma codec_write_nothing E l : (0 < e_mtu E)%Z -> (0 <= e_overhead E <= e_mtu E)%Z ->
  l = [] \/ (e_mtu E - e_overhead E < Z.of_nat (length l))%Z ->
  forall d x s, codec_write E l d x s = Some (Done x s).
Proof.
  intros H1 H2 H3 d x s. destruct (new_ubuf_ok E H1 H2) as (b & Hb & W & R & Hh & Ht).
  unfold codec_write. rewrite Hb. destruct H3 as [->|H3].
  - destruct (write_nil b W) as (e & b' & ->). done.
  - destruct (write_over l b W) as (n & e & b' & ->); [lia|]. by destruct n.
Qed.

Lemma send_nothing E ids pre k ps session dest c m l s :
  wired E ids (pre ++ Proc k true :: ps) -> Forall (fun p => passes_message p = true) pre ->
  plain_codec k = true -> encodes k m l -> (0 < e_mtu E)%Z -> (e_overhead E <= e_mtu E)%Z ->
  l = [] \/ (e_mtu E - e_overhead E < Z.of_nat (length l))%Z ->
  exists s', finishes (fun f => send f E session dest c (Some m) s) s [] s' /\ s_ps s' = s_ps s.
Proof.
  intros W Hpre Hk He H1 H2 H3.
  pose proof (wired_overhead _ _ _ W) as Ho. pose proof (room_nonneg (pre ++ Proc k true :: ps)) as Hn.
  rewrite <- Ho in Hn.
  destruct (wired_from E ids [] (pre ++ Proc k true :: ps) [] ids W) as (q & Hq & Hb); [done..|].
  simpl in Hq. set (x := Ctx c None (Some m) (Some (OInt (dest_of session dest)))).
  destruct (down_pre E q ids pre _ x s Hb Hpre) as (is1 & is2 & q1 & s1 & -> & L1 & B1 & X1 & O1 & P1 & V1).
  inversion B1 as [|i is' p' ps' q2 Hi Hlow B2]; subst.
  exists (visit s1 i Down x). split; [|done].
  unfold send. rewrite Hq. apply (finishes_exec _ _ _ _ _ x _ _ (length pre + 1)).
  - fold (dest_of session dest). fold x. rewrite X1. cbn [exec]. rewrite Hi. cbn [p_enable p_kind].
    rewrite (plain_codec_write E k m l Hk He) by done. rewrite codec_write_nothing; done.
  - simpl. by rewrite O1, app_nil_r.
Qed.

Lemma send_no_room E ids pre k ps session dest c m l s :
  wired E ids (pre ++ Proc k true :: ps) -> Forall (fun p => passes_message p = true) pre ->
  plain_codec k = true -> encodes k m l -> (e_mtu E <= 0 \/ e_mtu E < e_overhead E)%Z ->
  crashes (fun f => send f E session dest c (Some m) s) s [].
Proof.
  intros W Hpre Hk He H1.
  destruct (wired_from E ids [] (pre ++ Proc k true :: ps) [] ids W) as (q & Hq & Hb); [done..|].
  simpl in Hq. set (x := Ctx c None (Some m) (Some (OInt (dest_of session dest)))).
  destruct (down_pre E q ids pre _ x s Hb Hpre) as (is1 & is2 & q1 & s1 & -> & L1 & B1 & X1 & O1 & P1 & V1).
  inversion B1 as [|i is' p' ps' q2 Hi Hlow B2]; subst.
  exists (length pre + 1), (visit s1 i Down x). split; [|simpl; by rewrite O1, app_nil_r]. intros f Hf.
  unfold send. rewrite Hq. fold (dest_of session dest). fold x. eapply exec_mono; [exact Hf|].
  rewrite X1. cbn [exec]. rewrite Hi. cbn [p_enable p_kind].
  rewrite (plain_codec_write E k m l Hk He) by done. unfold codec_write, new_ubuf.
  assert (v_alloc (e_mtu E) (e_overhead E) = None) as ->; [|done].
  unfold v_alloc. destruct H1 as [H1|H1].
  - by replace (e_mtu E <=? 0)%Z with true by (symmetry; by apply Z.leb_le).
  - replace (e_overhead E >? e_mtu E)%Z with true by (rewrite Z.gtb_ltb; symmetry; by apply Z.ltb_lt).
    by rewrite ?orb_true_r; destruct (e_mtu E <=? 0)%Z.
Qed.

(** ** Disabled processors *)
Lemma switched_off E f i k d x s : e_procs E !! i = Some (Proc k false) -> switchable k = true ->
  exec (S f) E d (Some (PProc i)) x s =
  exec f E d ((match d with Down => l_lower | Up => l_upper end) (e_links E) (PProc i)) x (visit s i d x).
Proof. intros Hi Hk. cbn [exec]. rewrite Hi. by destruct k, d. Qed.

Lemma frame_off E f i cap d x s c b : e_procs E !! i = Some (Proc (KFrame cap) false) ->
  cx_conn x = Some c -> e_isref E c = false -> cx_buf x = Some b ->
  exec (S f) E d (Some (PProc i)) x s =
  exec f E d ((match d with Down => l_lower | Up => l_upper end) (e_links E) (PProc i)) x (visit s i d x).
Proof.
  intros Hi Hc Hr Hb. cbn [exec]. rewrite Hi. destruct d; cbn [p_enable p_kind on_upper on_lower];
    unfold by_reference, with_buf; by rewrite Hc, Hr, ?Hb.
Qed.

Lemma tagged_off_down E f i k x s c b :
  e_procs E !! i = Some (Proc k false) -> k = KHeartbeat \/ k = KLoadBalancer \/ k = KStat ->
  cx_conn x = Some c -> e_isref E c = false -> cx_buf x = Some b -> wf b -> 1 <= v_hlen b ->
  exists b', readable b' = 0%Z :: readable b /\
    exec (S f) E Down (Some (PProc i)) x s =
    exec f E Down (l_lower (e_links E) (PProc i)) (set_buf x (Some b')) (visit s i Down x).
Proof.
  intros Hi Hk Hc Hr Hb W Hh. destruct (headbyte_ok 0%Z b W Hh) as (b' & Eb & _ & R & _).
  exists b'. split; [done|]. cbn [exec]. rewrite Hi. cbn [p_enable p_kind].
  destruct Hk as [->|[->| ->]]; unfold on_upper, by_reference, with_buf, head_ignore; by rewrite Hc, Hr, Hb, Eb.
Qed.
Lemma tagged_off_up E f i k x s c b t l :
  e_procs E !! i = Some (Proc k false) -> k = KHeartbeat \/ k = KLoadBalancer \/ k = KStat ->
  cx_conn x = Some c -> e_isref E c = false -> cx_buf x = Some b -> wf b -> readable b = t :: l ->
  k = KHeartbeat /\ t = 131%Z \/
  exists b', readable b' = l /\
    exec (S f) E Up (Some (PProc i)) x s =
    exec f E Up (l_upper (e_links E) (PProc i)) (set_buf x (Some b')) (visit s i Up x).
Proof.
  intros Hi Hk Hc Hr Hb W Hh. destruct (readbyte_ok t l b W Hh) as (b' & Eb & _ & R & _).
  destruct (decide (t = 131%Z)) as [->|Hn].
  { destruct Hk as [->|Hk]; [by left|]. right. exists b'. split; [done|]. cbn [exec]. rewrite Hi.
    destruct Hk as [->| ->]; unfold on_lower, by_reference, with_buf; cbn [p_enable p_kind]; by rewrite Hc, Hr, Hb, Eb. }
  right. exists b'. split; [done|]. cbn [exec]. rewrite Hi. cbn [p_enable p_kind].
  destruct Hk as [->|[->| ->]]; unfold on_lower, by_reference, with_buf; rewrite Hc, Hr, Hb, Eb; try done.
  destruct (t =? 131)%Z eqn:Et; [|done]. by apply Z.eqb_eq in Et.
Qed.
Lemma loopback_any E f i en x s : e_procs E !! i = Some (Proc KLoopback en) ->
  exec (S f) E Down (Some (PProc i)) x s = exec f E Up (l_upper (e_links E) (PProc i)) x (visit s i Down x) /\
  exec (S f) E Up (Some (PProc i)) x s = Some (Done x (visit s i Up x)).
Proof. intros Hi. cbn [exec]. by rewrite Hi. Qed.

(** ** Discarder, FlowController *)
Lemma discarder_on E f i x s : e_procs E !! i = Some (Proc KDiscarder true) ->
  exec (S f) E Down (Some (PProc i)) x s = exec f E Down (l_lower (e_links E) (PProc i)) x (visit s i Down x) /\
  exec (S f) E Up (Some (PProc i)) x s = Some (Done x (visit s i Up x)).
Proof. intros Hi. cbn [exec]. by rewrite Hi. Qed.
Lemma flow_any E f i en d x s : e_procs E !! i = Some (Proc KFlow en) ->
  exec (S f) E d (Some (PProc i)) x s =
  exec f E d ((match d with Down => l_lower | Up => l_upper end) (e_links E) (PProc i)) x (visit s i d x).
Proof. intros Hi. cbn [exec]. rewrite Hi. by destruct d. Qed.

(** ** Loopback *)
Lemma wired_between E a i m j b pa p pm pj pb :
  wired E (a ++ i :: m ++ j :: b) (pa ++ p :: pm ++ pj :: pb) -> length a = length pa -> length m = length pm ->
  exists q, l_upper (e_links E) (PProc j) = Some q /\ path_up E (PProc i) q (rev m) (rev pm).
Proof.
  intros W La Lm. pose proof (wired_chain _ _ _ W) as Hc. destruct W as (_ & _ & _ & H2).
  apply Forall2_app_inv in H2 as [_ H2]; [|done]. inversion H2 as [|? ? ? ? H21 H22]; subst.
  apply Forall2_app_inv in H22 as [H22 _]; [|done].
  rewrite fmap_app, fmap_cons, fmap_app, fmap_cons in Hc.
  assert (Eq : PUpper :: ((PProc <$> a) ++ PProc i :: (PProc <$> m) ++ PProc j :: (PProc <$> b)) ++ [PLower] =
    (PUpper :: (PProc <$> a)) ++ (PProc i :: (PProc <$> m) ++ [PProc j]) ++ ((PProc <$> b) ++ [PLower])).
  { simpl. rewrite <- !app_assoc. simpl. rewrite <- !app_assoc. done. }
  rewrite Eq in Hc. apply chain_app_r, chain_app_l in Hc. by apply chain_path_up.
Qed.

Lemma loopback_direct E ids pre k rest en session dest c m m' l s :
  wired E ids (pre ++ Proc k true :: Proc KLoopback en :: rest) ->
  Forall (fun p => passes_message p = true) pre ->
  encodes k m l -> decodes k l m' -> l <> [] ->
  (Z.of_nat (length l) <= e_mtu E - e_overhead E)%Z ->
  exists s', finishes (fun f => send f E session dest c (Some m) s) s (shown E (dest_of session dest) c m') s'.
Proof.
  intros W Hpre He Hd Hl Hfit.
  pose proof (wired_overhead _ _ _ W) as Ho. pose proof (room_nonneg (pre ++ Proc k true :: Proc KLoopback en :: rest)) as Hn.
  rewrite <- Ho in Hn.
  destruct (wired_from E ids [] (pre ++ Proc k true :: Proc KLoopback en :: rest) [] ids W) as (q & Hq & Hb); [done..|].
  simpl in Hq. set (x := Ctx c None (Some m) (Some (OInt (dest_of session dest)))).
  destruct (down_pre E q ids pre _ x s Hb Hpre) as (is1 & is2 & q1 & s1 & -> & L1 & B1 & X1 & O1 & P1 & V1).
  inversion B1 as [|i is' p' ps' q2 Hi Hlow B2]; subst. inversion B2 as [|j is'' p'' ps'' q3 Hj Hlow' B3]; subst.
  assert (0 < length l) by (by destruct l; simpl; [|lia]).
  destruct (encode_step E k m l He Hl) as (b & Wb & Rb & Hh & Hon); [lia..|].
  set (x1 := set_buf x (Some b)).
  destruct (decode_step E k l m' b x1 Hd Hl eq_refl Wb Rb) as (b' & Hon').
  set (x2 := set_msg (set_buf x1 (Some b')) (Some m')).
  destruct (wired_above _ _ _ _ _ _ _ W L1) as (q4 & Hu1 & Hp1).
  destruct (wired_between E is1 i [] j is'' pre _ [] _ rest W L1 eq_refl) as (q5 & Hu2 & Hp2).
  inversion Hp2; subst.
  destruct (up_pre E PUpper q4 _ _ x2 (visit (visit (visit s1 i Down x) j Down x1) i Up x1) Hp1 (Forall_rev Hpre))
    as (s2 & X2 & O2 & _ & _).
  exists (emit s2 (shown E (dest_of session dest) c m')).
  unfold send. rewrite Hq. apply (finishes_exec _ _ _ _ _ x2 _ _ (length pre + S (S (S (length pre + 1))))).
  - fold (dest_of session dest). fold x. rewrite X1. cbn [exec]. rewrite Hi, Hlow. cbn [p_enable p_kind].
    rewrite Hon by done. fold x1. rewrite Hj. cbn [p_enable p_kind on_upper]. rewrite Hu2.
    rewrite Hi. cbn [p_enable p_kind]. rewrite Hu1. rewrite Hon'. fold x2.
    rewrite <- (rev_length pre) at 1. rewrite X2. cbn [exec].
    unfold upper_recv, shown. simpl. destruct (decide _); [done|].
    f_equal. f_equal. destruct s2. unfold emit. simpl. by rewrite app_nil_r.
  - simpl. rewrite O2. simpl. by rewrite O1.
Qed.

Lemma sess_after_some ps sess : 
  option_int (sess_after ps sess (Some (OInt sess))) 0 = if existsb resolves ps then (sess mod 2^32)%Z else sess.
Proof. unfold sess_after. by destruct (existsb resolves ps). Qed.

Lemma loopback_below E ids pre k ps rest en session dest c m m' l s :
  wired E ids (pre ++ Proc k true :: ps ++ Proc KLoopback en :: rest) ->
  Forall (fun p => passes_message p = true) pre -> Forall (fun p => carries p = true) ps ->
  encodes k m l -> decodes k l m' -> l <> [] -> e_isref E c = false ->
  (Z.of_nat (length l) <= e_mtu E - e_overhead E)%Z -> (e_mtu E < 2^32)%Z -> caches_idle E s ->
  (0 <= dest_of session dest < 2^32)%Z ->
  exists s', finishes (fun f => send f E session dest (Some c) (Some m) s) s
      (shown E (dest_of session dest) (Some c) m') s' /\ caches_idle E s'.
Proof.
  intros W Hpre Hps He Hd Hl Hr Hfit Hm Hid Hsess.
  pose proof (wired_overhead _ _ _ W) as Ho.
  pose proof (room_nonneg (pre ++ Proc k true :: ps ++ Proc KLoopback en :: rest)) as Hn. rewrite <- Ho in Hn.
  destruct (wired_split1 _ _ _ _ _ W) as (a & i & b & -> & La & Lb).
  destruct (wired_split1 E (a ++ i :: b) (pre ++ Proc k true :: ps) (Proc KLoopback en) rest)
    as (m1 & j & b1 & Eb & Lm & Lb1).
  { by rewrite <- app_assoc. }
  assert (exists mm, b = mm ++ j :: b1 /\ length mm = length ps) as (mm & -> & Lmm).
  { rewrite app_length in Lm. simpl in Lm. exists (drop (S (length a)) m1).
    assert (m1 = take (S (length a)) m1 ++ drop (S (length a)) m1) as Em by (by rewrite take_drop).
    rewrite Em in Eb. assert (Ht : take (S (length a)) m1 = a ++ [i]).
    { assert (take (S (length a)) (a ++ i :: b) = a ++ [i]) as <-.
      { rewrite take_app_ge by lia. replace (S (length a) - length a) with 1 by lia. done. }
      rewrite Eb, <- app_assoc. rewrite take_app_le by (rewrite take_length; lia). rewrite take_take. f_equal. lia. }
    rewrite Ht in Eb. rewrite <- !app_assoc in Eb. simpl in Eb. apply app_inv_head in Eb.
    injection Eb as ->. rewrite drop_length. split; [done|lia]. }
  clear m1 Eb Lm.
  destruct (wired_from E _ [] (pre ++ Proc k true :: ps ++ Proc KLoopback en :: rest) [] (a ++ i :: mm ++ j :: b1) W) as (q & Hq & Hb); [done..|].
  simpl in Hq. set (x := Ctx (Some c) None (Some m) (Some (OInt (dest_of session dest)))).
  destruct (down_pre E q _ pre _ x s Hb Hpre) as (is1 & is2 & q1 & s1 & Es & L1 & B1 & X1 & O1 & P1 & V1).
  apply app_inj_1 in Es as [<- <-]; [|lia].
  inversion B1 as [|i' is' p' ps' q2 Hi Hlow B2]; subst.
  assert (0 < length l) by (by destruct l; simpl; [|lia]).
  destruct (encode_step E k m l He Hl) as (bf & Wb & Rb & Hh & Hon); [lia..|].
  assert (Hroom : (Z.of_nat (hdrs ps) <= e_overhead E)%Z).
  { rewrite Ho, room_app. simpl. rewrite room_app. pose proof (hdrs_room ps). pose proof (room_nonneg pre).
    pose proof (overhead_nonneg k). pose proof (room_nonneg (Proc KLoopback en :: rest)). lia. }
  destruct (down_prefix E q2 (mm ++ j :: b1) ps (Proc KLoopback en :: rest) (set_buf x (Some bf)) (visit s1 i Down x)
    c bf (dest_of session dest)) as (m2 & b2 & q3 & bf2 & s2 & Es & Lm2 & B3 & X3 & W3 & R3 & _ & O3 & C3 & P3 & V3);
    try done; try lia.
  { by apply carries_sends. }
  { rewrite wire_of_hdrs, Rb. lia. }
  apply app_inj_1 in Es as [<- <-]; [|lia].
  assert (q3 = PProc j /\ e_procs E !! j = Some (Proc KLoopback en)) as (-> & Hj).
  { by inversion B3. }
  destruct (wired_between E a i mm j b1 pre _ ps _ rest W La Lmm) as (q5 & Hu2 & Hp2).
  destruct (wired_above _ _ _ _ _ _ _ W La) as (q6 & Hu1 & Hp1).
  set (sd := dest_of session dest) in *.
  assert (Hh1 := top_handles E i k (rev a) (rev pre) q6 c l m' (sess_after (rev ps) sd (Some (OInt sd))) (S (length pre))
    Hi Hu1 Hp1 (Forall_rev Hpre) Hd Hl ltac:(rewrite rev_length; lia)).
  pose proof (wired_nodup _ _ _ W) as N.
  eapply (up_path E (PProc i) q5 (rev mm) (rev ps)) with (sess := sd) (so := Some (OInt sd)) in Hh1; try done.
  - rewrite sess_after_some, existsb_rev in Hh1.
    assert (Hsd : (if existsb resolves ps then (sd mod 2^32)%Z else sd) = sd).
    { destruct (existsb resolves ps); [|done]. by apply Z.mod_small. }
    rewrite Hsd in Hh1. rewrite <- wire_of_rev in Hh1.
    destruct (Hh1 (set_buf (set_buf x (Some bf)) (Some bf2)) (visit s2 j Down (set_buf (set_buf x (Some bf)) (Some bf2))) bf2)
      as (x' & s' & Ex & _ & _ & Os & _ & Id & _ & Cs); try done.
    { by rewrite R3, Rb. }
    { intros t cap en' Ht Htp. rewrite cache_of_visit, C3. rewrite cache_of_visit.
      unfold cache_of. rewrite P1. by apply (Hid t cap en'). }
    exists s'. split.
    + unfold send. rewrite Hq. fold (dest_of session dest). fold sd. fold x.
      eapply (finishes_exec _ _ _ _ _ x' s' _ (length pre + S (length ps + S _))).
      * rewrite X1. cbn [exec]. rewrite Hi, Hlow. cbn [p_enable p_kind]. rewrite Hon by done.
        rewrite X3. cbn [exec]. rewrite Hj. cbn [p_enable p_kind on_upper]. rewrite Hu2. exact Ex.
      * rewrite Os. simpl. by rewrite O3, <- O1.
    + eapply caches_idle_back; [exact Hid|exact Id|]. intros t Ht. rewrite Cs by done.
      rewrite cache_of_visit, C3, cache_of_visit. unfold cache_of. by rewrite P1.
  - by apply Forall_rev.
  - rewrite app_nil_r. apply NoDup_app in N as (_ & _ & N). apply NoDup_cons in N as [_ N].
    apply NoDup_app in N as [N _]. by apply nodup_rev.
  - rewrite <- wire_of_rev, wire_of_hdrs. lia.
Qed.
