(** * Facts about whole stacks *)
From stdpp Require Import sets.
From Verif Require Import GoBase UBufModel UBufSpec UBufProofs UBufFacts FrameModel FrameSpec FrameProofs
  StackModel StackSpec StackProofs StackPath.
Arguments frame : simpl never.
Arguments digits : simpl never.

(** ** Wiring *)
Lemma chain_walk_down lk q l : chain lk (q :: l) -> l <> [] ->
  walk (l_lower lk) (length l) q = Some <$> l.
Proof.
  revert q. induction l as [|a l IH]; intros q Hc Hl; [done|].
  rewrite chain_cons in Hc. destruct Hc as [[H1 H2] Hc]. simpl. rewrite H1. f_equal.
  destruct l as [|b l]; [done|]. by apply IH.
Qed.
Lemma chain_walk_up lk l q : chain lk (l ++ [q]) -> walk (l_upper lk) (length l) q = Some <$> rev l.
Proof.
  revert q. induction l as [|a l IH] using rev_ind; intros q Hc; [done|].
  rewrite app_length, Nat.add_comm, rev_unit. simpl.
  assert (H : linked lk a q).
  { rewrite <- app_assoc in Hc. apply chain_app_r in Hc. simpl in Hc. rewrite chain_cons in Hc. tauto. }
  destruct H as [H1 H2]. rewrite H2. f_equal. apply IH. by apply chain_app_l in Hc.
Qed.
Lemma built_walks ids lk0 : NoDup ids ->
  walk (l_lower (build_links ids lk0)) (S (length ids)) PUpper = (Some ∘ PProc <$> ids) ++ [Some PLower] /\
  walk (l_upper (build_links ids lk0)) (S (length ids)) PLower = (Some ∘ PProc <$> rev ids) ++ [Some PUpper].
Proof.
  intros N. pose proof (build_chain ids lk0 N) as Hc. split.
  - pose proof (chain_walk_down _ _ _ Hc) as H. rewrite app_length, fmap_length in H. simpl in H.
    replace (length ids + 1) with (S (length ids)) in H by lia. rewrite H by (by destruct ids).
    rewrite fmap_app. f_equal. by rewrite list_fmap_compose.
  - change (PUpper :: (PProc <$> ids) ++ [PLower]) with ((PUpper :: (PProc <$> ids)) ++ [PLower]) in Hc.
    pose proof (chain_walk_up _ _ _ Hc) as H. simpl length in H. rewrite fmap_length in H. rewrite H.
    simpl rev. rewrite fmap_app. f_equal. rewrite list_fmap_compose. f_equal. symmetry. apply map_rev.
Qed.

Lemma header_overhead k : overhead_of k = header_len k.
Proof. by destruct k. Qed.
Lemma overhead_room_acc ps o : build_overhead (p_kind <$> ps) o = (o + room ps)%Z.
Proof.
  revert o. unfold build_overhead. induction ps as [|p ps IH]; intros o; simpl; [lia|]. rewrite IH, header_overhead. lia.
Qed.
Lemma overhead_room ps : build_overhead (p_kind <$> ps) 0 = room ps.
Proof. by rewrite overhead_room_acc. Qed.
Lemma wired_overhead E ids ps : wired E ids ps -> e_overhead E = room ps.
Proof. intros (_ & _ & -> & _). apply overhead_room. Qed.
Lemma wired_nodup E ids ps : wired E ids ps -> NoDup ids.
Proof. by intros (_ & ? & _). Qed.
Lemma wired_length E ids ps : wired E ids ps -> length ids = length ps.
Proof. intros (_ & _ & _ & H). by eapply Forall2_length. Qed.
Lemma wired_split E ids pa pb : wired E ids (pa ++ pb) ->
  exists a b, ids = a ++ b /\ length a = length pa /\ length b = length pb.
Proof.
  intros W. pose proof (wired_length _ _ _ W) as L. rewrite app_length in L.
  exists (take (length pa) ids), (drop (length pa) ids).
  rewrite take_drop, take_length, drop_length. split_and!; [done|lia|lia].
Qed.
Lemma wired_split1 E ids pa p pb : wired E ids (pa ++ p :: pb) ->
  exists a i b, ids = a ++ i :: b /\ length a = length pa /\ length b = length pb.
Proof.
  intros W. destruct (wired_split _ _ _ _ W) as (a & b & -> & La & Lb). destruct b as [|i b]; [done|].
  exists a, i, b. simpl in Lb. split_and!; [done|done|lia].
Qed.
Lemma wired_at E a i b pa p pb : wired E (a ++ i :: b) (pa ++ p :: pb) -> length a = length pa ->
  e_procs E !! i = Some p.
Proof.
  intros (_ & _ & _ & H) L. apply Forall2_app_inv in H as [_ H]; [|done]. by inversion H.
Qed.

(** Below and above a position. *)
Lemma wired_from E ids pa pb a b : wired E ids (pa ++ pb) -> ids = a ++ b -> length a = length pa ->
  exists q, l_lower (e_links E) (List.last (PProc <$> a) PUpper) = Some q /\ below E q b pb.
Proof. intros W H1 H2. by destruct (wired_below E ids (pa ++ pb) a b pa pb W H1 eq_refl H2) as (q & ? & ?); eauto. Qed.
Lemma wired_below_at E a i b pa p pb : wired E (a ++ i :: b) (pa ++ p :: pb) -> length a = length pa ->
  exists q, l_lower (e_links E) (PProc i) = Some q /\ below E q b pb.
Proof.
  intros W L. destruct (wired_from E (a ++ i :: b) (pa ++ [p]) pb (a ++ [i]) b) as (q & H1 & H2).
  - by rewrite <- app_assoc.
  - by rewrite <- app_assoc.
  - rewrite !app_length. simpl. lia.
  - exists q. rewrite fmap_app in H1. simpl in H1. by rewrite list_last_snoc in H1.
Qed.
(** From the transport up to instance [i]. *)
Lemma wired_up_to E a i b pa p pb : wired E (a ++ i :: b) (pa ++ p :: pb) -> length a = length pa ->
  exists q, l_upper (e_links E) PLower = Some q /\ path_up E (PProc i) q (rev b) (rev pb).
Proof.
  intros W L. pose proof (wired_chain _ _ _ W) as Hc. destruct W as (_ & _ & _ & H2).
  apply Forall2_app_inv in H2 as [_ H2]; [|done]. inversion H2 as [|? ? ? ? H21 H22]; subst.
  rewrite fmap_app in Hc. rewrite fmap_cons in Hc. rewrite <- app_assoc in Hc.
  rewrite app_comm_cons in Hc. apply chain_app_r in Hc. by apply chain_path_up.
Qed.

Lemma nodup_rev {A} (l : list A) : NoDup l -> NoDup (rev l).
Proof. intros H. by rewrite <- Permutation_rev. Qed.

(** ** Messages without bytes *)
Lemma passes_down E i p d u w x s : passes_message p = true ->
  on_upper E i (p_enable p) d u w (p_kind p) x s = d x s.
Proof. destruct p as [k en]. unfold passes_message. simpl. by destruct k, en. Qed.
Lemma passes_up E i p d u x s : passes_message p = true ->
  on_lower E i (p_enable p) d u (p_kind p) x s = u x s.
Proof. destruct p as [k en]. unfold passes_message. simpl. by destruct k, en. Qed.

Lemma down_same E (P : proc -> Prop) x q is pre rest s :
  (forall i p d u w s, P p -> on_upper E i (p_enable p) d u w (p_kind p) x s = d x s) ->
  below E q is (pre ++ rest) -> Forall P pre ->
  exists is1 is2 q' s', is = is1 ++ is2 /\ length is1 = length pre /\ below E q' is2 rest /\
    (forall f, exec (length pre + f) E Down (Some q) x s = exec f E Down (Some q') x s') /\
    s_out s' = s_out s /\ s_ps s' = s_ps s /\
    fst <$> s_visits s' = (fst <$> s_visits s) ++ ((fun i => (i, Down)) <$> is1).
Proof.
  intros HP. revert q is s. induction pre as [|p pre IH]; intros q is s Hb Hp.
  - exists [], is, q, s. simpl. by rewrite app_nil_r.
  - inversion Hp as [|? ? Hp1 Hp2]; subst. inversion Hb as [|i is' p' ps' q1 Hi Hlow Hb']; subst.
    destruct (IH q1 is' (visit s i Down x)) as (is1 & is2 & q' & s' & -> & L & B & X & O & P' & V); try done.
    exists (i :: is1), is2, q', s'. split_and!; try done.
    + simpl. by rewrite L.
    + intros f. simpl plus. cbn [exec]. rewrite Hi, Hlow. by rewrite HP.
    + rewrite V. simpl. rewrite fmap_app. simpl. by rewrite <- app_assoc.
Qed.
Lemma up_same E (P : proc -> Prop) x t q is rs s :
  (forall i p d u s, P p -> on_lower E i (p_enable p) d u (p_kind p) x s = u x s) ->
  path_up E t q is rs -> Forall P rs ->
  exists s', (forall f, exec (length rs + f) E Up (Some q) x s = exec f E Up (Some t) x s') /\
    s_out s' = s_out s /\ s_ps s' = s_ps s /\
    fst <$> s_visits s' = (fst <$> s_visits s) ++ ((fun i => (i, Up)) <$> is).
Proof.
  intros HP Hp. revert s. induction Hp as [|i is p rs q Hi Hup Hp IH]; intros s Hf.
  - exists s. simpl. by rewrite app_nil_r.
  - inversion Hf as [|? ? Hf1 Hf2]; subst. destruct (IH (visit s i Up x) Hf2) as (s' & X & O & P' & V).
    exists s'. split_and!; try done.
    + intros f. simpl plus. cbn [exec]. rewrite Hi, Hup. by rewrite HP.
    + rewrite V. simpl. rewrite fmap_app. simpl. by rewrite <- app_assoc.
Qed.
Lemma down_pre E q is pre rest x s :
  below E q is (pre ++ rest) -> Forall (fun p => passes_message p = true) pre ->
  exists is1 is2 q' s', is = is1 ++ is2 /\ length is1 = length pre /\ below E q' is2 rest /\
    (forall f, exec (length pre + f) E Down (Some q) x s = exec f E Down (Some q') x s') /\
    s_out s' = s_out s /\ s_ps s' = s_ps s /\
    fst <$> s_visits s' = (fst <$> s_visits s) ++ ((fun i => (i, Down)) <$> is1).
Proof. apply down_same. intros. by apply passes_down. Qed.
Lemma up_pre E t q is rs x s :
  path_up E t q is rs -> Forall (fun p => passes_message p = true) rs ->
  exists s', (forall f, exec (length rs + f) E Up (Some q) x s = exec f E Up (Some t) x s') /\
    s_out s' = s_out s /\ s_ps s' = s_ps s /\
    fst <$> s_visits s' = (fst <$> s_visits s) ++ ((fun i => (i, Up)) <$> is).
Proof. apply up_same. intros. by apply passes_up. Qed.

(** ** Codecs *)
Lemma new_ubuf_ok E : (0 < e_mtu E)%Z -> (0 <= e_overhead E <= e_mtu E)%Z ->
  exists b, new_ubuf E = Some b /\ wf b /\ readable b = [] /\ v_hlen b = Z.to_nat (e_overhead E) /\
    v_tlen b = Z.to_nat (e_mtu E - e_overhead E).
Proof.
  intros H1 H2. destruct (alloc_legal (e_mtu E) (e_overhead E) H1 H2) as (b & Hb).
  destruct (alloc_room _ _ _ Hb) as (W & R & Hh & Ht). exists b. unfold new_ubuf.
  split_and!; try done. rewrite Ht. lia.
Qed.
Lemma codec_write_ok E l : (0 < e_mtu E)%Z -> (0 <= e_overhead E)%Z -> l <> [] ->
  (Z.of_nat (length l) <= e_mtu E - e_overhead E)%Z ->
  exists b', wf b' /\ readable b' = l /\ v_hlen b' = Z.to_nat (e_overhead E) /\
    forall d x s, codec_write E l d x s = d (set_buf x (Some b')) s.
Proof.
  intros H1 H2 Hl H3. destruct (new_ubuf_ok E H1) as (b & Hb & W & R & Hh & Ht); [lia|].
  destruct (write_ok l b W Hl) as (b' & Ew & W' & R' & Hh' & _); [lia|].
  exists b'. split_and!; try done; [by rewrite R', R|by rewrite Hh'|].
  intros d x s. unfold codec_write. rewrite Hb, Ew. by destruct l.
Qed.
Lemma encode_step E k m l : encodes k m l -> l <> [] -> (0 < e_mtu E)%Z -> (0 <= e_overhead E)%Z ->
  (Z.of_nat (length l) <= e_mtu E - e_overhead E)%Z ->
  exists b', wf b' /\ readable b' = l /\ v_hlen b' = Z.to_nat (e_overhead E) /\
    forall i d u w x s, cx_msg x = Some m -> on_upper E i true d u w k x s = d (set_buf x (Some b')) s.
Proof.
  intros He Hl H1 H2 H3.
  destruct (codec_write_ok E l H1 H2 Hl H3) as (b' & W & R & Hh & Hw).
  destruct (new_ubuf_ok E H1) as (b0 & Hb0 & W0 & R0 & Hh0 & Ht0); [lia|].
  destruct W0 as (W01 & W02 & W03 & W04).
  destruct k as [| | |mar unm|en de|[en|] de| | | | | | | | | | |]; try done.
  - exists b'. split_and!; try done. intros i d u w x s Hm. simpl in *. by rewrite Hm, He.
  - exists b'. split_and!; try done. intros i d u w x s Hm. simpl in *. by rewrite Hm, He.
  - exists b'. split_and!; try done. intros i d u w x s Hm. simpl in *. by rewrite Hm, He.
  - destruct (He b0) as (b1 & Eb & ? & ? & ? & ? & ? & ?); try done; [lia|].
    exists b1. split_and!; try done; [congruence|]. intros i d u w x s Hm. simpl. by rewrite Hm, Hb0, Eb.
  - destruct (He b0) as (b1 & Eb & ? & ? & ? & ? & ? & ?); try done; [lia|].
    exists b1. split_and!; try done; [congruence|]. intros i d u w x s Hm. simpl. by rewrite Hm, Hb0, Eb.
Qed.
Lemma decode_step E k l m b x : decodes k l m -> l <> [] -> cx_buf x = Some b -> wf b -> readable b = l ->
  exists b', forall i d u s, on_lower E i true d u k x s = u (set_msg (set_buf x (Some b')) (Some m)) s.
Proof.
  intros Hd Hl Hb W R. destruct (read_all b W) as (b' & Er & _ & _); [by rewrite R|]. rewrite R in Er.
  assert (Hc : forall s g, codec_read x s g = g l b').
  { intros s g. unfold codec_read. rewrite Hb, Er. by destruct l. }
  pose proof W as (W1 & W2 & W3 & W4).
  destruct k as [| | |mar unm|en de|en [de|]| | | | | | | | | | |]; try done; simpl in Hd.
  - exists b'. intros i d u s. simpl. by rewrite Hc, Hd.
  - exists b'. intros i d u s. simpl. by rewrite Hc, Hd.
  - exists b'. intros i d u s. simpl. by rewrite Hc, Hd.
  - destruct (Hd b) as (b1 & Eb); try done. exists b1. intros i d u s. simpl. unfold with_buf. by rewrite Hb, Eb.
  - destruct (Hd b) as (b1 & Eb); try done. exists b1. intros i d u s. simpl. unfold with_buf. by rewrite Hb, Eb.
Qed.

(** The codec and everything above it. *)
Lemma top_handles E i k is rs q c l m so f :
  e_procs E !! i = Some (Proc k true) -> l_upper (e_links E) (PProc i) = Some q ->
  path_up E PUpper q is rs -> Forall (fun p => passes_message p = true) rs -> decodes k l m -> l <> [] ->
  length rs < f ->
  handles E (exec (S f) E Up (Some (PProc i))) c l so so
    (fun _ => shown E (option_int so 0) (Some c) m) ((fun i => (i, Up)) <$> (i :: is)) [] (fun _ => True).
Proof.
  intros Hi Hup Hp Hpm Hd Hl Hf x s b Hc Hb W R Hso Hid _.
  destruct (decode_step E k l m b x Hd Hl Hb W R) as (b' & Hon).
  set (x' := set_msg (set_buf x (Some b')) (Some m)).
  destruct (up_pre E PUpper q is rs x' (visit s i Up x) Hp Hpm) as (s' & X & O & P & V).
  exists x', (emit s' (shown E (option_int so 0) (Some c) m)).
  assert (Hex : exec (S f) E Up (Some (PProc i)) x s = Some (Done x' (emit s' (shown E (option_int so 0) (Some c) m)))).
  { cbn [exec]. rewrite Hi, Hup, Hon. fold x'. replace f with (length rs + S (f - length rs - 1)) by lia.
    rewrite X. cbn [exec]. unfold upper_recv, shown. simpl. rewrite Hso, Hc. destruct (decide _); [done|].
    f_equal. f_equal. destruct s'. unfold emit. simpl. by rewrite app_nil_r. }
  split_and!; try done.
  - simpl. by rewrite O.
  - simpl. rewrite V. simpl. rewrite fmap_app, <- app_assoc. done.
  - intros j cap en Hj. set_solver.
  - intros j _. unfold cache_of. simpl. by rewrite P.
Qed.

(** ** Sending *)
Lemma finishes_exec E d p x s x' s' outs f0 : exec f0 E d p x s = Some (Done x' s') ->
  s_out s' = s_out s ++ outs -> finishes (fun f => exec f E d p x s) s outs s'.
Proof. intros H Ho. split; [|done]. exists f0, x'. intros f Hf. by eapply exec_mono. Qed.

Lemma list_last_fmap_proc a i : List.last (PProc <$> (a ++ [i])) PUpper = PProc i.
Proof. rewrite fmap_app. simpl. apply list_last_snoc. Qed.

Lemma send_fits E ids pre k ps session dest c m l s :
  wired E ids (pre ++ Proc k true :: ps) ->
  Forall (fun p => passes_message p = true) pre -> Forall (fun p => sends_on p = true) ps ->
  encodes k m l -> l <> [] -> e_isref E c = false ->
  (Z.of_nat (length l) <= e_mtu E - e_overhead E)%Z -> (e_mtu E < 2^32)%Z ->
  exists s', finishes (fun f => send f E session dest (Some c) (Some m) s) s
      (offered E (s_out s) c (wire_of (dest_of session dest) ps l)) s' /\
    (forall j, cache_of s' j = cache_of s j) /\
    fst <$> s_visits s' = (fst <$> s_visits s) ++ ((fun i => (i, Down)) <$> ids).
Proof.
  intros W Hpre Hps He Hl Hr Hfit Hm.
  pose proof (wired_overhead _ _ _ W) as Ho. pose proof (room_nonneg (pre ++ Proc k true :: ps)) as Hn.
  rewrite <- Ho in Hn.
  destruct (wired_from E ids [] (pre ++ Proc k true :: ps) [] ids W) as (q & Hq & Hb); [done..|].
  simpl in Hq. set (x := Ctx (Some c) None (Some m) (Some (OInt (dest_of session dest)))).
  destruct (down_pre E q ids pre _ x s Hb Hpre) as (is1 & is2 & q1 & s1 & -> & L1 & B1 & X1 & O1 & P1 & V1).
  inversion B1 as [|i is' p' ps' q2 Hi Hlow B2]; subst.
  assert (0 < length l) by (by destruct l; simpl; [|lia]).
  destruct (encode_step E k m l He Hl) as (b & Wb & Rb & Hh & Hon); [lia..|].
  assert (Hroom : hdrs ps <= v_hlen b).
  { rewrite Hh, Ho, room_app. simpl. pose proof (hdrs_room ps). pose proof (room_nonneg pre).
    pose proof (overhead_nonneg k). lia. }
  destruct (down_exec E q2 is' ps (set_buf x (Some b)) (visit s1 i Down x) c b (dest_of session dest) (S (length ps)))
    as (x' & s' & Ex & Os & Cs & _ & Vs & _); try done; try lia.
  { rewrite wire_of_hdrs, Rb. rewrite Ho, room_app in Hfit. simpl in Hfit. pose proof (hdrs_room ps).
    pose proof (room_nonneg pre). pose proof (overhead_nonneg k). lia. }
  exists s'. split_and!.
  - unfold send. rewrite Hq. apply (finishes_exec _ _ _ _ _ x' s' _ (length pre + S (S (length ps)))).
    + fold (dest_of session dest). fold x. rewrite X1. cbn [exec]. rewrite Hi, Hlow, Hon by done. done.
    + rewrite Os. simpl. by rewrite O1, Rb.
  - intros j. rewrite Cs. unfold cache_of. simpl. by rewrite P1.
  - rewrite Vs. simpl. rewrite fmap_app. rewrite V1. simpl. rewrite fmap_app. simpl.
    by rewrite <- !app_assoc.
Qed.

(** ** Receiving *)
Lemma caches_idle_back E s s' fr : caches_idle E s -> idle_in E fr s' ->
  (forall j, j ∉ fr -> cache_of s' j = cache_of s j) -> caches_idle E s'.
Proof.
  intros H1 H2 H3 i cap en Hp. destruct (decide (i ∈ fr)) as [Hi|Hi]; [by eapply H2|].
  rewrite H3 by done. by eapply H1.
Qed.

Lemma receive_handles E q c l s so' o vs fr f K :
  l_upper (e_links E) PLower = Some q ->
  handles E (exec f E Up (Some q)) c l None so' o vs fr K ->
  (Z.of_nat (length l) <= e_mtu E)%Z -> caches_idle E s -> K s ->
  exists s', finishes (fun f => receive f E c l s) s (o (s_out s)) s' /\
    caches_idle E s' /\ fst <$> s_visits s' = (fst <$> s_visits s) ++ vs.
Proof.
  intros Hq Hh Hl Hid HK. destruct (rx_chunk_wf (Z.to_nat (e_mtu E)) l) as (W & R & _); [lia|].
  destruct (Hh (Ctx (Some c) (Some (rx_chunk (Z.to_nat (e_mtu E)) l)) None None) s _ eq_refl eq_refl W R eq_refl)
    as (x' & s' & Ex & _ & _ & Os & Vs & Id & _ & Cs); [by apply caches_idle_in|done|].
  exists s'. split_and!; [|by eapply caches_idle_back|done].
  unfold receive. rewrite Hq. by eapply finishes_exec.
Qed.

Lemma existsb_rev {A} (f : A -> bool) l : existsb f (rev l) = existsb f l.
Proof. induction l as [|a l IH]; [done|]. simpl. rewrite existsb_app, IH. simpl. destruct (f a), (existsb f l); done. Qed.
Lemma sess_after_rx ps sess : option_int (sess_after (rev ps) sess None) 0 = rx_session ps sess.
Proof. unfold sess_after, rx_session. rewrite existsb_rev. by destruct (existsb resolves ps). Qed.

Lemma receive_to E a i b pa p pb sess c l s f so' o vs (K : st -> Prop) :
  wired E (a ++ i :: b) (pa ++ p :: pb) -> length a = length pa -> Forall (fun p => carries p = true) pb ->
  l <> [] -> e_isref E c = false -> (Z.of_nat (length (wire_of sess pb l)) <= e_mtu E)%Z -> (e_mtu E < 2^32)%Z ->
  caches_idle E s -> K s -> (forall j, j ∈ b -> stable_at j K) ->
  handles E (exec f E Up (Some (PProc i))) c l (sess_after (rev pb) sess None) so' o vs [] K ->
  exists s', finishes (fun f => receive f E c (wire_of sess pb l) s) s (o (s_out s)) s' /\ caches_idle E s' /\
    fst <$> s_visits s' = (fst <$> s_visits s) ++ ((fun i => (i, Up)) <$> rev b) ++ vs.
Proof.
  intros W La Hps Hl Hr Hlen Hm Hid HK Hst Hh.
  destruct (wired_up_to _ _ _ _ _ _ _ W La) as (q & Hq & Hp).
  pose proof (wired_nodup _ _ _ W) as N. rewrite wire_of_rev in *.
  eapply (up_path E (PProc i) q (rev b) (rev pb)) with (sess := sess) (so := None) in Hh; try done.
  - by apply (receive_handles E q c _ s _ _ _ _ _ K Hq Hh Hlen Hid).
  - by apply Forall_rev.
  - rewrite app_nil_r. apply NoDup_app in N as (_ & _ & N). apply NoDup_cons in N as [_ N].
    by apply nodup_rev.
  - intros j Hj. apply Hst. by apply elem_of_list_In, in_rev, elem_of_list_In.
  - lia.
Qed.

Lemma receive_wire E ids pre k ps sess c m l s :
  wired E ids (pre ++ Proc k true :: ps) ->
  Forall (fun p => passes_message p = true) pre -> Forall (fun p => carries p = true) ps ->
  decodes k l m -> l <> [] -> e_isref E c = false ->
  (Z.of_nat (length (wire_of sess ps l)) <= e_mtu E)%Z -> (e_mtu E < 2^32)%Z -> caches_idle E s ->
  exists s', finishes (fun f => receive f E c (wire_of sess ps l) s) s
      (shown E (rx_session ps sess) (Some c) m) s' /\ caches_idle E s' /\
    fst <$> s_visits s' = (fst <$> s_visits s) ++ ((fun i => (i, Up)) <$> rev ids).
Proof.
  intros W Hpre Hps Hd Hl Hr Hlen Hm Hid.
  destruct (wired_split1 _ _ _ _ _ W) as (a & i & b & -> & La & Lb).
  destruct (wired_above _ _ _ _ _ _ _ W La) as (q1 & Hu1 & Hp1).
  pose proof (wired_at _ _ _ _ _ _ _ W La) as Hi.
  assert (Hh := top_handles E i k (rev a) (rev pre) q1 c l m (sess_after (rev ps) sess None) (S (length pre))
    Hi Hu1 Hp1 (Forall_rev Hpre) Hd Hl ltac:(rewrite rev_length; lia)).
  rewrite sess_after_rx in Hh.
  destruct (receive_to E a i b pre _ ps sess c l s _ _ _ _ _ W La Hps Hl Hr Hlen Hm Hid I ltac:(done) Hh)
    as (s' & Hf & Hid' & V).
  exists s'. split_and!; try done. rewrite V. f_equal. rewrite <- fmap_app. f_equal.
  rewrite rev_app_distr. simpl. by rewrite <- app_assoc.
Qed.

(** ** From one stack to the other *)
Lemma wire_length_room sess ps l m : (Z.of_nat (length l) + room ps <= m)%Z ->
  (Z.of_nat (length (wire_of sess ps l)) <= m)%Z.
Proof. intros H. rewrite wire_of_hdrs. pose proof (hdrs_room ps). lia. Qed.

Lemma carries_sends ps : Forall (fun p => carries p = true) ps -> Forall (fun p => sends_on p = true) ps.
Proof. intros H. eapply Forall_impl; [exact H|]. intros p Hp. unfold carries in Hp. by apply andb_true_iff in Hp as [? _]. Qed.

Lemma offered_accepts E h c l : accepts E c -> l <> [] -> offered E h c l = [OWire c l].
Proof. intros H Hl. unfold offered. destruct l as [|a l]; [done|]. rewrite H. by rewrite firstn_all. Qed.
Lemma wire_nonempty sess ps l : l <> [] -> wire_of sess ps l <> [].
Proof. intros H E. pose proof (wire_of_length sess ps l) as L. rewrite E in L. destruct l; simpl in *; [done|lia]. Qed.

Lemma rx_session_same ps sess : (0 <= sess < 2^32)%Z -> existsb resolves ps = true \/ sess = 0%Z ->
  rx_session ps sess = sess.
Proof.
  intros H1 H2. unfold rx_session. destruct (existsb resolves ps).
  - by rewrite Z.mod_small.
  - by destruct H2.
Qed.

Lemma send_letters A ids pre k ps c (ls : list letter) s :
  wired A ids (pre ++ Proc k true :: ps) ->
  Forall (fun p => passes_message p = true) pre -> Forall (fun p => sends_on p = true) ps ->
  e_isref A c = false -> accepts A c -> (e_mtu A < 2^32)%Z ->
  Forall (fun x => encodes k (le_msg x) (le_bytes x) /\ le_bytes x <> [] /\
    (Z.of_nat (length (le_bytes x)) <= e_mtu A - e_overhead A)%Z) ls ->
  exists s', finish_all ((fun x f s => send f A (le_sess x) None (Some c) (Some (le_msg x)) s) <$> ls) s
    ((fun x => OWire c (wire_of (le_sess x) ps (le_bytes x))) <$> ls) s'.
Proof.
  intros W Hpre Hps Hr Hacc Hm Hls. revert s. induction Hls as [|x ls (He & Hl & Hfit) Hls IH]; intros s.
  - exists s. constructor.
  - destruct (send_fits A ids pre k ps (le_sess x) None c (le_msg x) (le_bytes x) s) as (s1 & H1 & _); try done.
    destruct (IH s1) as (s2 & H2). exists s2. simpl.
    apply (finish_cons _ _ _ [OWire c (wire_of (le_sess x) ps (le_bytes x))] s1); [|exact H2]. rewrite offered_accepts in H1; [done|done|]. by apply wire_nonempty.
Qed.

Lemma receive_letters B ids pre k ps c (ls : list letter) s :
  wired B ids (pre ++ Proc k true :: ps) ->
  Forall (fun p => passes_message p = true) pre -> Forall (fun p => carries p = true) ps ->
  e_isref B c = false -> (e_mtu B < 2^32)%Z -> caches_idle B s ->
  Forall (fun x => decodes k (le_bytes x) (le_msg x) /\ le_bytes x <> [] /\
    (Z.of_nat (length (wire_of (le_sess x) ps (le_bytes x))) <= e_mtu B)%Z) ls ->
  exists s', finish_all ((fun x f s => receive f B c (wire_of (le_sess x) ps (le_bytes x)) s) <$> ls) s
    (concat ((fun x => shown B (rx_session ps (le_sess x)) (Some c) (le_msg x)) <$> ls)) s' /\ caches_idle B s'.
Proof.
  intros W Hpre Hps Hr Hm Hid Hls. revert s Hid. induction Hls as [|x ls (He & Hl & Hfit) Hls IH]; intros s Hid.
  - exists s. split; [constructor|done].
  - destruct (receive_wire B ids pre k ps (le_sess x) c (le_msg x) (le_bytes x) s) as (s1 & H1 & Hid1 & _); try done.
    destruct (IH s1 Hid1) as (s2 & H2 & Hid2). exists s2. split; [|done]. simpl. by econstructor.
Qed.

(** Several messages in one chunk, the frame decoder being lowest. *)
Lemma group_hseq E i k is rs q c a ra q1 so f (ls : list letter) :
  e_procs E !! i = Some (Proc k true) -> l_upper (e_links E) (PProc i) = Some q1 ->
  path_up E PUpper q1 a ra -> Forall (fun p => passes_message p = true) ra ->
  path_up E (PProc i) q is rs -> Forall (fun p => carries p = true) rs -> NoDup is -> e_isref E c = false ->
  length ra < f ->
  Forall (fun x => decodes k (le_bytes x) (le_msg x) /\ le_bytes x <> [] /\
    (Z.of_nat (length (foldr (put (le_sess x)) (le_bytes x) rs)) < 2^32)%Z) ls ->
  (existsb resolves rs = false -> so = None) ->
  exists so' o vs, hseq E (exec (length is + S f) E Up (Some q)) c is (fun _ => True)
      ((fun x => foldr (put (le_sess x)) (le_bytes x) rs) <$> ls) so so' o vs /\
    forall h, o h = concat ((fun x => shown E (rx_session rs (le_sess x)) (Some c) (le_msg x)) <$> ls).
Proof.
  intros Hi Hu1 Hp1 Hpre Hp Hps N Hr Hf Hls. revert so. induction Hls as [|x ls (Hd & Hl & Hlen) Hls IH]; intros so Hso.
  - eexists _, _, _. split; [constructor|done].
  - assert (Hh := top_handles E i k a ra q1 c (le_bytes x) (le_msg x) (sess_after rs (le_sess x) so) f
      Hi Hu1 Hp1 Hpre Hd Hl Hf).
    eapply (up_path E (PProc i) q is rs) with (sess := le_sess x) (so := so) in Hh; try done;
      [|by rewrite app_nil_r].
    rewrite app_nil_r in Hh.
    destruct (IH (sess_after rs (le_sess x) so)) as (so' & o & vs & Hq & Ho).
    { intros Hn. unfold sess_after. rewrite Hn. auto. }
    eexists _, _, _. split.
    + simpl. econstructor; [|exact Hh|exact Hq]. split; [by apply unwire_nonempty|done].
    + intros h. unfold oseq. simpl. rewrite Ho. f_equal. f_equal. unfold sess_after, rx_session.
      destruct (existsb resolves rs); [done|]. by rewrite Hso.
Qed.

Lemma rx_session_rev rs sess : rx_session (rev rs) sess = rx_session rs sess.
Proof. unfold rx_session. by rewrite existsb_rev. Qed.
Lemma rx_session_snoc_frame ps cap sess : rx_session (ps ++ [Proc (KFrame cap) true]) sess = rx_session ps sess.
Proof. unfold rx_session. rewrite existsb_app. simpl. by destruct (existsb resolves ps). Qed.

Lemma receive_group B ids pre k ps cap c (ls : list letter) s :
  wired B ids (pre ++ Proc k true :: ps ++ [Proc (KFrame cap) true]) ->
  Forall (fun p => passes_message p = true) pre -> Forall (fun p => carries p = true) ps ->
  e_isref B c = false -> (e_mtu B < 2^32)%Z -> caches_idle B s ->
  Forall (fun x => decodes k (le_bytes x) (le_msg x) /\ le_bytes x <> []) ls ->
  let chunk := concat ((fun x => wire_of (le_sess x) (ps ++ [Proc (KFrame cap) true]) (le_bytes x)) <$> ls) in
  (Z.of_nat (length chunk) <= e_mtu B)%Z ->
  exists s', finishes (fun f => receive f B c chunk s) s
    (concat ((fun x => shown B (rx_session ps (le_sess x)) (Some c) (le_msg x)) <$> ls)) s' /\ caches_idle B s'.
Proof.
  intros W Hpre Hps Hr Hm Hid Hls chunk Hlen.
  destruct (wired_split1 _ _ _ _ _ W) as (a & i & b & -> & La & Lb).
  destruct (wired_above _ _ _ _ _ _ _ W La) as (q1 & Hu1 & Hp1).
  destruct (wired_up_to _ _ _ _ _ _ _ W La) as (q & Hq & Hp).
  pose proof (wired_at _ _ _ _ _ _ _ W La) as Hi.
  pose proof (wired_nodup _ _ _ W) as N.
  rewrite rev_unit in Hp. inversion Hp as [|n is p rs q2 Hn Hup Hp2 Eq1 Eq2]; subst.
  assert (Nb : NoDup (n :: is)).
  { rewrite Eq2. apply NoDup_app in N as (_ & _ & N). apply NoDup_cons in N as [_ N]. by apply nodup_rev. }
  apply NoDup_cons in Nb as [Nb1 Nb2].
  assert (Hchunk : chunk = frames ((fun x => foldr (put (le_sess x)) (le_bytes x) (rev ps)) <$> ls)).
  { unfold chunk, frames. f_equal. rewrite <- list_fmap_compose. apply list_fmap_ext. intros j x _. simpl.
    rewrite wire_of_app. cbn [wire_of foldl]. unfold put at 1. simpl. by rewrite <- wire_of_rev. }
  destruct (group_hseq B i k is (rev ps) q2 c (rev a) (rev pre) q1 None (S (length pre)) ls)
    as (so' & o & vs & Hs & Ho); try done.
  - by apply Forall_rev.
  - by apply Forall_rev.
  - rewrite rev_length. lia.
  - assert (Hin : Forall (fun x => (Z.of_nat (length (foldr (put (le_sess x)) (le_bytes x) (rev ps))) < 2^32)%Z) ls).
    { apply Forall_forall. intros x Hx. apply elem_of_list_split in Hx as (l1 & l2 & ->).
      rewrite Hchunk in Hlen. unfold frames in Hlen. rewrite !fmap_app, !fmap_cons, concat_app in Hlen. cbn [concat] in Hlen.
      rewrite !app_length, frame_length in Hlen. lia. }
    clear -Hin Hls. apply Forall_and in Hls as [H1 H2]. apply Forall_forall. intros x Hx.
    rewrite Forall_forall in H1, H2, Hin. auto.
  - pose proof (frame_handles B n _ c is _ _ None so' o vs cap true Hs Nb1 Hn) as Hh.
    rewrite <- Hchunk in Hh. specialize (Hh ltac:(lia) ltac:(done)).
    destruct (receive_handles B (PProc n) c chunk s so' o ((n, Up) :: vs) (n :: is) (S (length is + S (S (length pre)))) (fun _ => True) Hq)
      as (s' & Hf & Hid' & _); try done.
    + intros x s0 b0 Hc Hb W0 R0 Hso Hid0 _. cbn [exec]. rewrite Hn, Hup. cbn [p_enable p_kind].
      unfold on_lower, by_reference, with_buf. rewrite Hc, Hr, Hb.
      destruct (Hh x (visit s0 n Up x) b0) as (x' & s' & E' & H1 & H2 & H3 & H4 & H5 & H6 & H7); try done.
      rewrite Hb in E'. exists x', s'. split_and!; try done. rewrite H4. simpl. rewrite fmap_app. simpl.
      by rewrite <- app_assoc.
    + exists s'. split; [|done]. rewrite Ho in Hf.
      erewrite list_fmap_ext; [exact Hf|]. intros j y _. simpl. by rewrite rx_session_rev.
Qed.
