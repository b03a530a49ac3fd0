(** Receiving several messages at once, some of them the processors' own. *)
From stdpp Require Import list numbers sets.
From Coq Require Import ZArith Lia.
From Verif Require Import GoBase UBufModel UBufSpec UBufProofs UBufFacts FrameModel FrameSpec FrameProofs
  StackModel StackSpec StackProofs StackPath StackFacts StackEffects StackSpecial StackCount StackEnd StatSpec StatProofs
  SafeSpec SafeProofs NetModel NetSpec NetProofs DuoPath.
From stdpp Require Import sets list.

Lemma takes_more E call c l so Q fr fr' : (forall j, j ∈ fr -> j ∈ fr') -> takes E call c l so Q fr -> takes E call c l so Q fr'.
Proof.
  intros Hs H x s b Hc Hb W R Hso Hid Hlen.
  destruct (H x s b Hc Hb W R Hso) as (x' & s' & o & E1 & E2 & E3 & E4 & E5 & E6 & E7); [|done|].
  { intros j cap en Hj. apply Hid, Hs, Hj. }
  exists x', s', o. split_and!; try done.
  - intros j cap en Hj Hp. destruct (decide (j ∈ fr)) as [Hf|Hf]; [by eapply E6|]. rewrite E7 by done. by eapply Hid.
  - intros j Hj. apply E7. auto.
Qed.
Lemma takes_fuel E f f' d p c l so Q fr : f <= f' -> takes E (exec f E d p) c l so Q fr -> takes E (exec f' E d p) c l so Q fr.
Proof.
  intros Hf H x s b Hc Hb W R Hso Hid Hlen. destruct (H x s b Hc Hb W R Hso Hid Hlen) as (x' & s' & o & E1 & E2).
  exists x', s', o. split; [by eapply exec_mono|done].
Qed.
Lemma receive_takes E q c l s (Q : option oval -> list out -> Prop) fr f : l_upper (e_links E) PLower = Some q ->
  takes E (exec f E Up (Some q)) c l None Q fr -> (Z.of_nat (length l) <= e_mtu E)%Z -> caches_idle E s ->
  length (s_ps s) = length (e_procs E) ->
  exists s' outs so', finishes (fun f => receive f E c l s) s outs s' /\ Q so' outs /\ caches_idle E s' /\
    length (s_ps s') = length (e_procs E).
Proof.
  intros Hq Hh Hl Hid Hlen. destruct (rx_chunk_wf (Z.to_nat (e_mtu E)) l) as (W & R & _); [lia|].
  destruct (Hh (Ctx (Some c) (Some (rx_chunk (Z.to_nat (e_mtu E)) l)) None None) s _ eq_refl eq_refl W R eq_refl)
    as (x' & s' & o & Ex & _ & HQ & Os & L & Id & Cs); [by apply caches_idle_in|done|].
  exists s', o, (cx_session x'). split_and!; [|done|by eapply caches_idle_back|done].
  unfold receive. rewrite Hq. by eapply finishes_exec.
Qed.
Lemma link_pairs_lower ids lk i : l_lower (link_pairs ids lk) (PProc i) <> None -> i ∈ ids \/ l_lower lk (PProc i) <> None.
Proof.
  revert lk. induction ids as [|a [|b ids] IH]; intros lk H; [by right|by right|].
  cbn [link_pairs] in H. apply IH in H as [H|H]; [left; by right|].
  simpl in H. destruct (decide (PProc i = PProc a)) as [E|E]; [injection E as ->; left; by left|by right].
Qed.

(** ** The processors' own messages *)
Inductive ownmsg : proc -> list byte -> Prop :=
| own_beat q : p_kind q = KHeartbeat -> ownmsg q [131%Z]
| own_req : ownmsg (Proc KStat true) [16%Z]
| own_res r : ownmsg (Proc KStat true) (35%Z :: r).

(** What is under way in one direction. *)
Inductive item := ILetter (p : post) | IOwn (q : proc) (pb : list proc) (z : Z) (l : list byte).
Definition isbeat (it : item) : bool :=
  match it with IOwn q _ _ _ => match p_kind q with KHeartbeat => true | _ => false end | _ => false end.
Definition isreq (it : item) : bool :=
  match it with IOwn q _ _ (t :: _) => match p_kind q with KStat => (t =? 16)%Z | _ => false end | _ => false end.
Definition isres (it : item) : bool :=
  match it with IOwn q _ _ (t :: _) => match p_kind q with KStat => (t =? 35)%Z | _ => false end | _ => false end.

Lemma suffix_carries k ps pa q pb : Forall (fun p => carries p = true) ps -> pa ++ q :: pb = Proc k true :: ps -> Forall (fun p => carries p = true) pb /\ (existsb resolves pb = true -> existsb resolves ps = true) /\ (room pb <= room ps)%Z.
Proof.
  intros Hc. destruct pa as [|p0 pa]; simpl; intros E; injection E as E1 E2.
  - subst. done.
  - subst ps. apply Forall_app in Hc as [_ Hc1]. inversion Hc1; subst. split; [done|]. split.
    + intros H. rewrite existsb_app. simpl. by rewrite H, !orb_true_r.
    + rewrite room_app. simpl. pose proof (room_nonneg pa). pose proof (overhead_nonneg (p_kind q)). unfold header_len, overhead_of in *. lia.
Qed.

Section items.
Context (N : net) (k : kind) (ps : list proc).
Definition wirei (it : item) : list byte :=
  match it with ILetter p => wirep N ps p | IOwn q pb z l => wire_of z pb l end.
Definition goodi (it : item) : Prop :=
  match it with
  | ILetter p => good N k ps p
  | IOwn q pb z l => (exists pa, pa ++ q :: pb = Proc k true :: ps) /\ ownmsg q l /\ length l <= 17 + length (e_name (na N))
  end.
Inductive eff : item -> list out -> Prop :=
| eff_letter p : eff (ILetter p) [ODeliver (zed N p) (Some (ncb N)) (ml_msg (po_mail p))]
| eff_beat q pb z i : p_kind q = KHeartbeat -> eff (IOwn q pb z [131%Z]) [ORefresh i (ncb N)]
| eff_req pb z z' r : length (35%Z :: r) <= 17 + length (e_name (nb N)) ->
    eff (IOwn (Proc KStat true) pb z [16%Z]) [OWire (ncb N) (wire_of z' pb (35%Z :: r))]
| eff_res pb z r i nm t x : eff (IOwn (Proc KStat true) pb z (35%Z :: r)) [OShow i nm t x].

Context (idsB : list nat) (preB : list proc).
Context (WB : wired (nb N) idsB (preB ++ Proc k true :: ps)) (PB : Forall (fun p => passes_message p = true) preB).
Context (Hc : Forall (fun p => carries p = true) ps) (RB : e_isref (nb N) (ncb N) = false) (AB : accepts (nb N) (ncb N)).
Context (MB : (e_overhead (nb N) < e_mtu (nb N) < 2^32)%Z).
Notation R so := (existsb resolves ps = true \/ so = None).

Lemma goodi_nonempty it : goodi it -> wirei it <> [].
Proof.
  destruct it as [p|q pb z l]; simpl; [apply good_nonempty|]. intros (_ & H & _). apply wire_nonempty. by inversion H.
Qed.
Lemma R_after pb z so : (existsb resolves pb = true -> existsb resolves ps = true) -> R so -> R (sess_after (rev pb) z so).
Proof.
  intros H Hs. unfold sess_after. rewrite existsb_rev. destruct (existsb resolves pb); [left; auto|done].
Qed.

Lemma beat_takes i q c so : e_procs (nb N) !! i = Some q -> p_kind q = KHeartbeat -> e_isref (nb N) c = false ->
  takes (nb N) (exec 1 (nb N) Up (Some (PProc i))) c [131%Z] so (fun so' o => so' = so /\ o = [ORefresh i c]) [].
Proof.
  intros Hi Hq Hr x s b Hx Hb W Rd Hso _ Hlen. destruct (readbyte_ok 131%Z [] b W Rd) as (b' & Eb & _).
  exists (set_buf x (Some b')), (emit (visit s i Up x) [ORefresh i c]), [ORefresh i c].
  cbn [exec]. rewrite Hi, Hq. cbn [on_lower]. unfold by_reference, with_buf. rewrite Hx, Hr, Hb, Eb.
  change (131 =? 131)%Z with true. cbn iota. split_and!; try done. intros j cap en Hj. set_solver.
Qed.
Lemma show_takes i r c so : e_procs (nb N) !! i = Some (Proc KStat true) -> e_isref (nb N) c = false ->
  takes (nb N) (exec 1 (nb N) Up (Some (PProc i))) c (35%Z :: r) so (fun so' o => so' = so /\ exists nm t x, o = [OShow i nm t x]) [].
Proof.
  intros Hi Hr x s b Hx Hb W Rd Hso _ Hlen. destruct (readbyte_ok 35%Z r b W Rd) as (b' & Eb & W' & _).
  destruct (readU_any W64 b' W') as ([t ?] & b1 & E1 & W1 & _).
  destruct (readU_any W64 b1 W1) as ([u ?] & b2 & E2 & W2 & _).
  destruct (read_any 128 b2 W2) as ([nm ?] & b3 & E3 & W3 & _).
  eexists (set_buf (set_buf x (Some b')) (Some b3)), (emit (visit s i Up x) [OShow i _ t u]), _.
  cbn [exec]. rewrite Hi. cbn [p_enable p_kind on_lower]. unfold by_reference, with_buf. rewrite Hx, Hr, Hb, Eb.
  change (35 =? 16)%Z with false. change (35 =? 35)%Z with true. cbn iota.
  unfold stat_show. rewrite E1, E2, E3. split_and!; try done; [by eexists _, _, _|]. intros j cap en Hj. set_solver.
Qed.
Lemma req_takes a i b pa pb so : wired (nb N) (a ++ i :: b) (pa ++ Proc KStat true :: pb) -> length a = length pa ->
  Forall (fun p => carries p = true) pb ->
  takes (nb N) (exec (S (S (length pb))) (nb N) Up (Some (PProc i))) (ncb N) [16%Z] so (fun so' o => so' = so /\
    exists z r, o = [OWire (ncb N) (wire_of z pb (35%Z :: r))] /\ length (35%Z :: r) <= 17 + length (e_name (nb N))) [].
Proof.
  intros W La Hps x s b0 Hx Hb0 W0 R0 Hso _ Hlen. pose proof (wired_at _ _ _ _ _ _ _ W La) as Hi.
  pose proof (wired_overhead _ _ _ W) as Ho. rewrite room_app in Ho. simpl in Ho.
  pose proof (room_nonneg pa). pose proof (room_nonneg pb). pose proof (hdrs_room pb).
  assert (exists p, s_ps s !! i = Some p) as (p & Hp) by (apply lookup_lt_is_Some; rewrite Hlen; by eapply lookup_lt_Some).
  destruct (stat_response_any (nb N) (ps_tx p) (ps_rx p)) as (rb & Er & Wr & Hr1 & Rr); [lia|lia|].
  destruct (body_length (space (nb N)) (ps_tx p) (ps_rx p) (e_name (nb N))) as [Hsl Hsn]. unfold space in Hsl at 2.
  destruct (wired_below_at _ _ _ _ _ _ _ W La) as (q & Hq & Hb).
  set (w := body (space (nb N)) (ps_tx p) (ps_rx p) (e_name (nb N))) in *.
  destruct (readbyte_ok 16%Z [] b0 W0 R0) as (b' & Eb & _).
  set (x1 := set_buf (set_buf x (Some b')) (Some rb)).
  destruct (down_exec (nb N) q b pb x1 (visit s i Up x) (ncb N) rb (option_int so 0) (S (length pb)))
    as (x' & s' & Ex & Os & Cs & Ps & Vs & Hc' & Hso'); try done; try lia.
  { by apply carries_sends. }
  { rewrite wire_of_hdrs, Rr. cbn [length]. lia. }
  { simpl. by rewrite Hso. }
  rewrite Rr, offered_accepts in Os; [|done|by apply wire_nonempty].
  exists x', s', [OWire (ncb N) (wire_of (option_int so 0) pb (35%Z :: w))].
  cbn [exec]. rewrite Hi. cbn [p_enable p_kind on_lower]. unfold by_reference, with_buf.
  rewrite Hx, RB, Hb0, Eb. simpl (s_ps _). rewrite Hp, Er, Hq.
  change (16 =? 16)%Z with true. cbn iota. split_and!; try done.
  - simpl in Hso'. congruence.
  - eexists _, _. split; [done|]. exact (le_n_S _ _ Hsn).
  - apply sized_exec in Ex. by rewrite Ex.
  - intros j cap en Hj. set_solver.
  - intros j _. by rewrite Cs.
Qed.

Context (q0 : pid) (Hq0 : l_upper (e_links (nb N)) PLower = Some q0).
Lemma item_at it : goodi it -> exists i is rs l z f, path_up (nb N) (PProc i) q0 is rs /\ (forall j, j ∈ is -> j ∈ idsB) /\ NoDup is /\
  Forall (fun p => carries p = true) rs /\ l <> [] /\ wirei it = foldr (StackSpec.put z) l rs /\ (framed ps = true -> rs <> []) /\
  forall so, R so -> takes (nb N) (exec f (nb N) Up (Some (PProc i))) (ncb N) l (sess_after rs z so) (fun so' o => R so' /\ eff it o) [].
Proof.
  intros Hg.
  assert (exists pa q pb l z, pa ++ q :: pb = Proc k true :: ps /\ l <> [] /\ wirei it = wire_of z pb l /\
    (framed ps = true -> pb <> []) /\ forall a i b, idsB = a ++ i :: b -> length a = length (preB ++ pa) ->
    exists f, forall so, R so -> takes (nb N) (exec f (nb N) Up (Some (PProc i))) (ncb N) l (sess_after (rev pb) z so)
      (fun so' o => R so' /\ eff it o) []) as (pa & q & pb & l & z & Eps & Hl & Ew & Hfr & Hh).
  { destruct it as [p|q pb z l].
    - destruct Hg as (He & Hd & Hl & Hm1 & Hm2 & Hz & Hzr & Hs).
      exists [], (Proc k true), ps, (po_bytes p), (zed N p). split_and!; try done.
      { intros Hf E. unfold framed in Hf. by rewrite E in Hf. }
      intros a i b Eids La. pose proof WB as W. rewrite Eids in W. rewrite app_nil_r in La. exists (S (S (length preB))). intros so Hso.
      destruct (wired_above _ _ _ _ _ _ _ W La) as (q1 & Hu1 & Hp1). pose proof (wired_at _ _ _ _ _ _ _ W La) as Hi.
      eapply handles_takes; [eapply top_handles; try done; [by apply Forall_rev|rewrite rev_length; lia]|].
      intros h. simpl. split; [by apply R_after|].
      assert (option_int (sess_after (rev ps) (zed N p) so) 0 = zed N p) as ->.
      { unfold sess_after. rewrite existsb_rev. destruct (existsb resolves ps) eqn:Er.
        - simpl. rewrite Z.mod_small by done. done.
        - destruct Hso as [? | ->]; [done|]. destruct Hzr as [?|Hzr]; [done|]. by rewrite Hzr. }
      unfold shown. rewrite decide_True by done. constructor.
    - destruct Hg as ((pa & Eps) & Ho & Hlen). destruct (suffix_carries _ _ _ _ _ Hc Eps) as (Hcb & Hres & _).
      exists pa, q, pb, l, z. split_and!; try done.
      { by inversion Ho. }
      { intros Hf ->. unfold framed in Hf.
        assert (rev (Proc k true :: ps) = q :: rev pa) as Erev by (rewrite <- Eps, rev_unit; done). simpl in Erev.
        destruct (rev ps) as [|p rs]; [done|]. simpl in Erev. injection Erev as -> _.
        inversion Ho as [? Hk| |]; subst; [unfold framing in Hf; by rewrite Hk in Hf|done|done]. }
      intros a i b Eids La. pose proof WB as W. rewrite Eids, <- Eps, app_assoc in W. clear Eids.
      pose proof (wired_at _ _ _ _ _ _ _ W La) as Hi.
      inversion Ho as [q' Hk| |r]; subst.
      + exists 1. intros so Hso. eapply takes_weaken; [|by eapply beat_takes].
        intros so' o [-> ->]. split; [by apply R_after|by constructor].
      + exists (S (S (length pb))). intros so Hso. eapply takes_weaken; [|by eapply req_takes].
        intros so' o [-> (z' & r & -> & Hr)]. split; [by apply R_after|by constructor].
      + exists 1. intros so Hso. eapply takes_weaken; [|by eapply show_takes].
        intros so' o [-> (nm & t & x & ->)]. split; [by apply R_after|by constructor]. }
  pose proof WB as W. rewrite <- Eps, app_assoc in W.
  destruct (wired_split1 _ _ _ _ _ W) as (a & i & b & Eids & La & Lb). rewrite Eids in W.
  destruct (wired_up_to _ _ _ _ _ _ _ W La) as (q1 & Hq1 & Hp). assert (q1 = q0) as -> by congruence.
  destruct (Hh a i b Eids La) as (f & Hf). destruct (suffix_carries _ _ _ _ _ Hc Eps) as (Hcb & _).
  exists i, (rev b), (rev pb), l, z, f. split_and!; try done.
  - intros j Hj. rewrite Eids. apply elem_of_app. right. right. by apply elem_of_list_In, in_rev, elem_of_list_In.
  - apply nodup_rev. pose proof (wired_nodup _ _ _ W) as Nd. apply NoDup_app in Nd as (_ & _ & Nd). by apply NoDup_cons in Nd as [_ Nd].
  - by apply Forall_rev.
  - by rewrite <- wire_of_rev.
  - intros Hfr'. specialize (Hfr Hfr'). intros E. apply Hfr. rewrite <- (rev_involutive pb), E. done.
Qed.

Lemma item_alone it : goodi it -> (Z.of_nat (length (wirei it)) < 2^32)%Z -> exists f fr,
  takes (nb N) (exec f (nb N) Up (Some q0)) (ncb N) (wirei it) None (fun so' o => R so' /\ eff it o) fr.
Proof.
  intros Hg Hlen. destruct (item_at it Hg) as (i & is & rs & l & z & f & Hp & _ & Hn & Hcr & Hl & Ew & _ & Hf).
  exists (length is + f), (is ++ []). rewrite Ew in *. eapply takes_path; try done; [by rewrite app_nil_r|]. by apply Hf; right.
Qed.

Context (n : nat) (cap : option oval) (Hqn : q0 = PProc n) (Hn : e_procs (nb N) !! n = Some (Proc (KFrame cap) true)).
Context (q2 : pid) (Hq2 : l_upper (e_links (nb N)) (PProc n) = Some q2).
Definition others : list nat := filter (fun j => j <> n) idsB.
Lemma item_framed it : framed ps = true -> goodi it -> (Z.of_nat (length (wirei it)) < 2^32)%Z ->
  exists w f, wirei it = frame w /\ payload_ok w /\ forall so, R so ->
    takes (nb N) (exec f (nb N) Up (Some q2)) (ncb N) w so (fun so' o => R so' /\ eff it o) others.
Proof.
  intros Hfr Hg Hlen. destruct (item_at it Hg) as (i & is & rs & l & z & f & Hp & Hin & Hnd & Hcr & Hl & Ew & Hrs & Hf).
  inversion Hp as [E1|n' is' p rs' q2' Hn' Hup Hp2 Eq1]; subst; [by specialize (Hrs Hfr)|].
  injection Eq1 as ->. assert (p = Proc (KFrame cap) true) as -> by congruence. assert (q2' = q2) as -> by congruence.
  simpl in Ew. unfold StackSpec.put at 1 in Ew. simpl in Ew. inversion Hcr as [|? ? _ Hcr']; subst. apply NoDup_cons in Hnd as [Hnd1 Hnd2].
  rewrite Ew, frame_length in Hlen.
  exists (foldr (StackSpec.put z) l rs'), (length is' + f). split; [done|]. split; [split; [by apply unwire_nonempty|lia]|].
  intros so Hso. apply (takes_more _ _ _ _ _ _ (is' ++ [])).
  { intros j Hj. rewrite app_nil_r in Hj. apply elem_of_list_filter. split; [by intros ->|]. apply Hin. by right. }
  eapply takes_path; try done; [by rewrite app_nil_r|lia|]. pose proof (Hf so Hso) as Hf'. by rewrite sess_after_cons in Hf'.
Qed.
Lemma items_seq its : framed ps = true -> Forall goodi its -> Forall (fun it => (Z.of_nat (length (wirei it)) < 2^32)%Z) its ->
  exists ws f, wirei <$> its = frame <$> ws /\ forall f' so (Q : option oval -> list out -> Prop), f <= f' -> R so ->
    (forall so' os, R so' -> Forall2 eff its os -> Q so' (concat os)) ->
    tseq (nb N) (exec f' (nb N) Up (Some q2)) (ncb N) others ws so Q.
Proof.
  intros Hfr. induction its as [|it its IH]; intros Hg Hlen.
  - exists [], 0. split; [done|]. intros f' so Q _ Hso HQ. simpl. by apply (HQ so []).
  - apply Forall_cons in Hg as [Hg1 Hg2]. apply Forall_cons in Hlen as [Hl1 Hl2]. destruct (item_framed it) as (w & f1 & Ew & Hpay & H1); [done..|].
    destruct IH as (ws & f2 & Ews & H2); [done..|]. exists (w :: ws), (max f1 f2). split; [rewrite !fmap_cons; by f_equal|].
    intros f' so Q Hf Hso HQ. simpl. split; [done|]. eapply takes_weaken; [|eapply takes_fuel; [|by apply H1]; lia].
    intros so1 o1 [Hs1 He1]. simpl. apply H2; [lia|done|]. intros so2 os Hs2 Hos. apply (HQ so2 (o1 :: os)); [done|by constructor].
Qed.
Lemma items_group its : framed ps = true -> Forall goodi its -> (Z.of_nat (length (concat (wirei <$> its))) < 2^32)%Z ->
  exists f, takes (nb N) (exec f (nb N) Up (Some q0)) (ncb N) (concat (wirei <$> its)) None
    (fun so' o => exists os, o = concat os /\ Forall2 eff its os) (n :: others).
Proof.
  intros Hfr Hg Hlen. destruct (items_seq its) as (ws & f & Ews & Hs); [done..| |].
  { clear -Hlen. induction its as [|it its IH]; [done|]. rewrite fmap_cons in Hlen. cbn [concat] in Hlen. rewrite app_length in Hlen. constructor; [lia|]. apply IH. lia. }
  exists (S f). rewrite Ews in *. fold (frames ws) in *. intros x s b Hx Hb W Rd Hso Hid Hl.
  destruct (frame_takes (nb N) n (exec f (nb N) Up (Some q2)) (ncb N) others ws None
    (fun so' o => exists os, o = concat os /\ Forall2 eff its os) cap true) with (x := x) (s := visit s n Up x) (b := b)
    as (x' & s' & o & E' & H1); try done.
  { apply Hs; [lia|by right|]. intros so' os _ Hos. by exists os. }
  { unfold others. intros Hin. by apply elem_of_list_filter in Hin as [? _]. }
  rewrite Hb in E'. exists x', s', o. split; [|done]. rewrite Hqn. cbn [exec]. rewrite Hn, Hq2. cbn [p_enable p_kind].
  unfold on_lower, by_reference, with_buf. by rewrite Hx, RB, Hb.
Qed.
End items.
