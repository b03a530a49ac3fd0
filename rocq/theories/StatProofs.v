(** Proofs about collecting the statistics of a peer. *)
From stdpp Require Import list numbers sets.
From Coq Require Import ZArith Lia.
From Verif Require Import GoBase UBufModel UBufSpec UBufProofs UBufFacts FrameModel FrameSpec FrameProofs
  StackModel StackSpec StackProofs StackPath StackFacts StackEffects StackSpecial StackCount StackEnd StatSpec.

(** ** The buffer of an answer *)
Lemma writeU_full o w v b : v_tlen b < wbytes w -> v_writeU o w v b = Ok (Some ENoFree) b.
Proof. intros H. unfold v_writeU. destruct (v_tlen b <? wbytes w) eqn:E; cleq; [done|lia]. Qed.
Lemma write_part p b : wf b ->
  exists r b', v_write p b = Ok r b' /\ wf b' /\ readable b' = readable b ++ take (v_tlen b) p /\ v_hlen b' = v_hlen b.
Proof.
  intros W. destruct (step_spec (OpWrite p) b W I) as (b' & E & W' & _ & S1 & S2 & _).
  cbn [q_step absq q_tail] in *. cbn [v_step] in E.
  destruct (v_write p b) as [r b1|] eqn:Ew; simpl in E; [|done].
  destruct (v_tlen b =? 0) eqn:E0; cleq.
  { injection E; intros; subst. eexists _, _. split_and!; try done. by rewrite E0, app_nil_r. }
  destruct (length p <=? v_tlen b) eqn:E1; cleq; injection E; intros; subst; eexists _, _;
    (split; [done|]); cbn [absq q_data q_head q_append fst snd] in *; split_and!; try done.
  by rewrite take_ge by done.
Qed.

(** What the answering stack writes after the tag. *)
Definition body (room : nat) (tx rx : Z) (name : list byte) : list byte :=
  if room <? 8 then take room name
  else if room <? 16 then digits BE W64 tx ++ take (room - 8) name
  else digits BE W64 tx ++ digits BE W64 rx ++ take (room - 16) name.
Lemma body_length room tx rx name : length (body room tx rx name) <= room /\ length (body room tx rx name) <= 16 + length name.
Proof.
  unfold body. destruct (room <? 8) eqn:E8; [|destruct (room <? 16) eqn:E16]; cleq; rewrite ?app_length, ?digits_length, take_length; cbn [wbytes]; lia.
Qed.

Lemma stat_response_any E tx rx : (0 < e_mtu E)%Z -> (1 <= e_overhead E <= e_mtu E)%Z ->
  exists b, stat_response E tx rx = Ok tt b /\ wf b /\ v_hlen b = Z.to_nat (e_overhead E) - 1 /\
    readable b = 35%Z :: body (space E) tx rx (e_name E).
Proof.
  intros H1 H2. destruct (new_ubuf_ok E) as (b & Hb & W & R & Hh & Ht); [lia..|].
  unfold stat_response. rewrite Hb. fold (space E) in Ht.
  destruct (headbyte_room 35%Z b W) as (b1 & -> & W1 & R1 & Hh1 & T1); [lia|]. rewrite R in R1.
  unfold body. destruct (space E <? 8) eqn:E8; cleq.
  { rewrite !writeU_full by (cbn [wbytes]; lia).
    destruct (write_part (e_name E) b1 W1) as (r & b4 & -> & W4 & R4 & H4). exists b4. split_and!; try done; try lia.
    rewrite R4, R1, T1, Ht. done. }
  destruct (writeU_room BE W64 tx b1 W1) as (b2 & -> & W2 & R2 & H2' & T2); [cbn [wbytes]; lia|].
  cbn [wbytes] in *. rewrite R1 in R2. destruct (space E <? 16) eqn:E16; cleq.
  { rewrite writeU_full by (cbn [wbytes]; lia).
    destruct (write_part (e_name E) b2 W2) as (r & b4 & -> & W4 & R4 & H4). exists b4. split_and!; try done; try lia.
    rewrite R4, R2, T2, T1, Ht. done. }
  destruct (writeU_room BE W64 rx b2 W2) as (b3 & -> & W3 & R3 & H3' & T3); [cbn [wbytes] in *; lia|].
  cbn [wbytes] in *. rewrite R2 in R3.
  destruct (write_part (e_name E) b3 W3) as (r & b4 & -> & W4 & R4 & H4). exists b4. split_and!; try done; try lia.
  rewrite R4, R3, T3, T2, T1, Ht. cbn [app]. rewrite <- !app_assoc. do 4 f_equal. lia.
Qed.

(** ** What is shown of it *)
Lemma readU64_ok v l b : wf b -> readable b = digits BE W64 v ++ l -> (0 <= v < 2^64)%Z ->
  exists b', v_readU BE W64 b = Ok (v, None) b' /\ wf b' /\ readable b' = l.
Proof.
  intros W H Hv. destruct (step_spec (OpReadU BE W64) b W I) as (b' & E & W' & _ & S1 & S2 & _).
  pose proof (digits_length BE W64 v) as Ld. cbn [wbytes] in Ld.
  cbn [q_step absq q_data wbytes] in *. rewrite H in *. rewrite app_length, Ld in *.
  destruct (8 + length l <? 8) eqn:E0; cleq; [lia|]. exists b'. cbn [v_step fst snd q_pop q_data q_head absq] in *. rewrite H in S2.
  rewrite take_app_alt in E by done. rewrite <- enc_digits, dec_enc in E by done.
  rewrite drop_app_alt in S2 by done.
  apply rmap_ok in E as ([z e] & -> & Ev). cbn [fst snd] in *. injection Ev as -> ->. done.
Qed.
Lemma readU64_short b : wf b -> length (readable b) < 8 -> v_readU BE W64 b = Ok (0%Z, Some ENoData) b.
Proof.
  intros W H. rewrite readable_length in H by done. unfold v_readU.
  destruct (v_rlen b <? wbytes W64) eqn:E; cleq; [done|]. cbn [wbytes] in *. lia.
Qed.
Lemma read_line b : wf b -> exists l e b', v_read 128 b = Ok (l, e) b' /\ l = take 128 (readable b).
Proof.
  intros W. destruct (step_spec (OpRead 128) b W I) as (b' & E & W' & _ & _).
  cbn [v_step] in E. apply rmap_ok in E as ([l e] & -> & Ev). eexists _, _, _. split; [done|].
  cbn [q_step] in Ev. unfold q_empty, absq in Ev. cbn [q_data] in Ev.
  destruct (readable b) as [|x r] eqn:R; [by injection Ev|].
  destruct (128 <=? length (x :: r)) eqn:E1; cleq; cbn [fst] in Ev; injection Ev; intros; [done|].
  subst. rewrite take_ge; [done|lia].
Qed.
Lemma line_eq (l : list byte) : take 128 l ++ replicate (128 - length (A:=byte) (take 128 l)) 0%Z = line l.
Proof. unfold line. rewrite take_length. do 2 f_equal. lia. Qed.
Definition zeroed (room : nat) (tx rx : Z) (name : list byte) : list byte * Z * Z :=
  if room <? 8 then (line (take room name), 0, 0)%Z
  else if room <? 16 then (line (take (room - 8) name), tx, 0%Z)
  else (line (take (room - 16) name), tx, rx).
Lemma show_body room tx rx name b : wf b -> readable b = body room tx rx name ->
  (0 <= tx < 2^64)%Z -> (0 <= rx < 2^64)%Z -> exists b', stat_show b = Ok (zeroed room tx rx name) b'.
Proof.
  intros W R Htx Hrx. unfold stat_show, zeroed. unfold body in R.
  destruct (room <? 8) eqn:E8; cleq.
  { rewrite !readU64_short by (try done; rewrite R, take_length; lia).
    destruct (read_line b W) as (l & e & b' & -> & ->). exists b'. by rewrite line_eq, R. }
  destruct (room <? 16) eqn:E16; cleq.
  { destruct (readU64_ok _ _ _ W R Htx) as (b1 & -> & W1 & R1).
    rewrite readU64_short by (try done; rewrite R1, take_length; lia).
    destruct (read_line b1 W1) as (l & e & b' & -> & ->). exists b'. by rewrite line_eq, R1. }
  destruct (readU64_ok _ _ _ W R Htx) as (b1 & -> & W1 & R1).
  destruct (readU64_ok _ _ _ W1 R1 Hrx) as (b2 & -> & W2 & R2).
  destruct (read_line b2 W2) as (l & e & b' & -> & ->). exists b'. by rewrite line_eq, R2.
Qed.

(** ** The asking side *)
Lemma self_asks E a i b pa p pb tag c s :
  wired E (a ++ i :: b) (pa ++ p :: pb) -> length a = length pa -> Forall (fun p => sends_on p = true) pb ->
  e_isref E c = false -> (e_overhead E < e_mtu E < 2^32)%Z ->
  exists s', finishes (fun f => self_message f E i tag c s) s (offered E (s_out s) c (wire_of 0 pb [tag])) s' /\
    (forall j, cache_of s' j = cache_of s j) /\
    fst <$> s_visits s' = (fst <$> s_visits s) ++ ((fun i => (i, Down)) <$> b).
Proof.
  intros W La Hs Hr Hm.
  pose proof (wired_overhead _ _ _ W) as Ho. pose proof (room_nonneg (pa ++ p :: pb)) as Hn. rewrite <- Ho in Hn.
  destruct (wired_below_at _ _ _ _ _ _ _ W La) as (q & Hq & Hb).
  destruct (new_ubuf_ok E) as (b0 & Hb0 & W0 & R0 & Hh & Ht); [lia..|].
  destruct (writebyte_ok tag b0 W0) as (b1 & Ew & W1 & R1 & Hh1); [lia|]. rewrite R0 in R1. simpl in R1.
  assert (Hrm : (Z.of_nat (hdrs pb) <= e_overhead E)%Z).
  { rewrite Ho, room_app. simpl. pose proof (hdrs_room pb). pose proof (room_nonneg pa).
    pose proof (overhead_nonneg (p_kind p)). lia. }
  destruct (down_exec E q b pb (Ctx (Some c) (Some b1) None None) s c b1 0 (S (length pb)))
    as (x' & s' & Ex & Os & Cs & _ & Vs & _); try done; try lia.
  { rewrite wire_of_hdrs, R1. simpl length. lia. }
  exists s'. split; [|done]. rewrite R1 in Os. unfold self_message. rewrite Hb0, Ew, Hq. by eapply finishes_exec.
Qed.
Lemma idle_kept E s s' : (forall j, cache_of s' j = cache_of s j) -> caches_idle E s -> caches_idle E s'.
Proof. intros H Hs j cap en Hj. destruct (Hs j cap en Hj) as (k & c & ? & ? & ?). exists k, c. by rewrite H. Qed.

Lemma stat_shows E a i b pa pb sess c s room tx rx name :
  wired E (a ++ i :: b) (pa ++ Proc KStat true :: pb) -> length a = length pa ->
  Forall (fun p => carries p = true) pb -> e_isref E c = false ->
  let w := wire_of sess pb (35%Z :: body room tx rx name) in
  (Z.of_nat (length w) <= e_mtu E)%Z -> (e_mtu E < 2^32)%Z -> caches_idle E s ->
  (0 <= tx < 2^64)%Z -> (0 <= rx < 2^64)%Z ->
  exists s', finishes (fun f => receive f E c w s) s [OShow i (zeroed room tx rx name).1.1 (zeroed room tx rx name).1.2 (zeroed room tx rx name).2] s' /\ caches_idle E s' /\
    fst <$> s_visits s' = (fst <$> s_visits s) ++ ((fun i => (i, Up)) <$> rev b) ++ [(i, Up)].
Proof.
  intros W La Hps Hr w Hlen Hm Hid Htx Hrx. pose proof (wired_at _ _ _ _ _ _ _ W La) as Hi.
  set (z := zeroed room tx rx name).
  apply (receive_to E a i b pa (Proc KStat true) pb sess c (35%Z :: body room tx rx name) s 1 (sess_after (rev pb) sess None)
    (fun _ => [OShow i z.1.1 z.1.2 z.2]) [(i, Up)] (fun _ => True)); try done.
  intros x s0 b0 Hc Hb W0 R0 Hso _ _. destruct (readbyte_ok 35%Z _ b0 W0 R0) as (b' & Eb & W' & R' & _).
  destruct (show_body room tx rx name b' W' R' Htx Hrx) as (b2 & Es). fold z in Es.
  exists (set_buf (set_buf x (Some b')) (Some b2)), (emit (visit s0 i Up x) [OShow i z.1.1 z.1.2 z.2]). cbn [exec]. rewrite Hi. cbn [p_enable p_kind on_lower].
  unfold by_reference, with_buf. rewrite Hc, Hr, Hb, Eb. change (35 =? 16)%Z with false. change (35 =? 35)%Z with true. cbn iota.
  rewrite Es. destruct z as [[nm t] r]. cbn [fst snd]. split_and!; try done.
  - simpl. rewrite fmap_app. done.
  - intros j cap en' Hj. set_solver.
Qed.

(** ** The answering side *)
Lemma stat_answers_any E a i b pa pb sess c s p :
  wired E (a ++ i :: b) (pa ++ Proc KStat true :: pb) -> length a = length pa ->
  Forall (fun p => carries p = true) pb -> e_isref E c = false ->
  (Z.of_nat (length (wire_of sess pb [16%Z])) <= e_mtu E)%Z -> (e_overhead E <= e_mtu E < 2^32)%Z -> caches_idle E s ->
  s_ps s !! i = Some p ->
  exists s', finishes (fun f => receive f E c (wire_of sess pb [16%Z]) s) s
    (offered E (s_out s) c (wire_of sess pb (35%Z :: body (space E) (ps_tx p) (ps_rx p) (e_name E)))) s' /\ caches_idle E s' /\
    s_ps s' !! i = Some p /\
    fst <$> s_visits s' = (fst <$> s_visits s) ++ answers i b.
Proof.
  intros W La Hps Hr Hlen Hm Hid Hp. pose proof (wired_at _ _ _ _ _ _ _ W La) as Hi.
  pose proof (wired_overhead _ _ _ W) as Ho. rewrite room_app in Ho. simpl in Ho.
  pose proof (room_nonneg pa). pose proof (room_nonneg pb). pose proof (hdrs_room pb).
  destruct (stat_response_any E (ps_tx p) (ps_rx p)) as (rb & Er & Wr & Hr1 & Rr); [lia|lia|].
  destruct (body_length (space E) (ps_tx p) (ps_rx p) (e_name E)) as [Hsl _]. unfold space in Hsl at 2.
  destruct (wired_below_at _ _ _ _ _ _ _ W La) as (q & Hq & Hb).
  pose proof (wired_nodup _ _ _ W) as N. apply NoDup_app in N as (_ & _ & N). apply NoDup_cons in N as [N N2].
  set (K := fun s : st => s_ps s !! i = Some p).
  set (w := 35%Z :: body (space E) (ps_tx p) (ps_rx p) (e_name E)) in *.
  assert (Hh : handles E (exec (S (S (length pb))) E Up (Some (PProc i))) c [16%Z] (sess_after (rev pb) sess None)
    (sess_after (rev pb) sess None) (fun h => offered E h c (wire_of sess pb w)) ((i, Up) :: ((fun i => (i, Down)) <$> b)) [] K).
  { intros x s0 b0 Hc Hb0 W0 R0 Hso _ HK. destruct (readbyte_ok 16%Z [] b0 W0 R0) as (b' & Eb & _).
    set (x1 := set_buf (set_buf x (Some b')) (Some rb)).
    assert (Hs1 : option_int (cx_session x1) 0 = rx_session pb sess) by (simpl; rewrite Hso; apply sess_after_rx).
    destruct (down_exec E q b pb x1 (visit s0 i Up x) c rb (rx_session pb sess) (S (length pb)))
      as (x' & s' & Ex & Os & Cs & Ps & Vs & Hc' & Hso'); try done; try lia.
    { by apply carries_sends. }
    { rewrite wire_of_hdrs, Rr. unfold w. cbn [length]. lia. }
    exists x', s'. cbn [exec]. rewrite Hi. cbn [p_enable p_kind on_lower]. unfold by_reference, with_buf.
    rewrite Hc, Hr, Hb0, Eb. simpl (s_ps _). unfold K in HK. rewrite HK, Er, Hq.
    change (16 =? 16)%Z with true. cbn iota. split_and!; try done.
    - simpl in Hso'. congruence.
    - rewrite Os. by rewrite Rr, wire_of_rx.
    - rewrite Vs. simpl. rewrite fmap_app. simpl. by rewrite <- app_assoc.
    - intros j cap en Hj. set_solver.
    - unfold K. rewrite Ps by done. done.
    - intros j _. by rewrite Cs. }
  destruct (wired_up_to _ _ _ _ _ _ _ W La) as (q0 & Hq0 & Hpth).
  eapply (up_path E (PProc i) q0 (rev b) (rev pb)) with (sess := sess) (so := None) in Hh; try done.
  - rewrite <- wire_of_rev in Hh.
    destruct (rx_chunk_wf (Z.to_nat (e_mtu E)) (wire_of sess pb [16%Z])) as (Wc & Rc & _); [lia|].
    destruct (Hh (Ctx (Some c) (Some (rx_chunk (Z.to_nat (e_mtu E)) (wire_of sess pb [16%Z]))) None None) s _ eq_refl eq_refl Wc Rc eq_refl)
      as (x' & s' & Ex & _ & _ & Os & Vs & Id & HK & Cs); [by apply caches_idle_in|done|].
    exists s'. split_and!; [|by eapply caches_idle_back|done|done].
    unfold receive. rewrite Hq0. by eapply finishes_exec.
  - by apply Forall_rev.
  - rewrite app_nil_r. by apply nodup_rev.
  - intros j Hj s0 s1 Hs HK. unfold K in *. rewrite Hs; [done|]. intros ->.
    apply N. by apply elem_of_list_In, in_rev, elem_of_list_In.
  - rewrite <- wire_of_rev. lia.
Qed.

(** ** Both *)
Section both.
Context (A B : env) (aA : list nat) (iA : nat) (bA : list nat) (paA : list proc).
Context (aB : list nat) (iB : nat) (bB : list nat) (paB pb : list proc) (cA cB : conn).
Context (WA : wired A (aA ++ iA :: bA) (paA ++ Proc KStat true :: pb)) (LA : length aA = length paA).
Context (WB : wired B (aB ++ iB :: bB) (paB ++ Proc KStat true :: pb)) (LB : length aB = length paB).
Context (Hpb : Forall (fun p => carries p = true) pb).
Context (RA : e_isref A cA = false) (AA : accepts A cA) (MA : (e_overhead A < e_mtu A < 2^32)%Z).
Context (RB : e_isref B cB = false) (AB : accepts B cB) (MB : (e_overhead B <= e_mtu B < 2^32)%Z).
Context (Hfit : (e_mtu B <= e_mtu A)%Z \/ (17 + Z.of_nat (length (e_name B)) + room pb <= e_mtu A)%Z).

Lemma one_exchange sA sB p : caches_idle A sA -> caches_idle B sB -> s_ps sB !! iB = Some p ->
  (0 <= ps_tx p < 2^64)%Z -> (0 <= ps_rx p < 2^64)%Z ->
  let z := zeroed (space B) (ps_tx p) (ps_rx p) (e_name B) in
  exists sA' sB', exchange A B iA cA cB sA sB [OShow iA z.1.1 z.1.2 z.2] (asks iA bA) (answers iB bB) sA' sB' /\
    caches_idle A sA' /\ caches_idle B sB' /\ s_ps sB' !! iB = Some p.
Proof.
  intros IA IB Hp Htx Hrx z.
  pose proof (wired_overhead _ _ _ WA) as OA. rewrite room_app in OA. simpl in OA.
  pose proof (wired_overhead _ _ _ WB) as OB. rewrite room_app in OB. simpl in OB.
  pose proof (room_nonneg paA). pose proof (room_nonneg paB). pose proof (room_nonneg pb). pose proof (hdrs_room pb).
  destruct (self_asks A aA iA bA paA (Proc KStat true) pb 16%Z cA sA) as (s1 & F1 & C1 & V1); try done.
  { by apply carries_sends. }
  rewrite offered_accepts in F1; [|done|by apply wire_nonempty].
  destruct (stat_answers_any B aB iB bB paB pb 0 cB sB p) as (sB' & F2 & I2 & P2 & V2); try done.
  { apply wire_length_room. simpl. lia. }
  rewrite offered_accepts in F2; [|done|by apply wire_nonempty].
  destruct (body_length (space B) (ps_tx p) (ps_rx p) (e_name B)) as [L1 L2]. unfold space in L1 at 2.
  destruct (stat_shows A aA iA bA paA pb 0 cA s1 (space B) (ps_tx p) (ps_rx p) (e_name B)) as (sA' & F3 & I3 & V3); try done.
  { rewrite wire_of_hdrs. cbn [length]. destruct Hfit; lia. }
  { lia. }
  { by eapply idle_kept. }
  exists sA', sB'. split; [|done]. split; [by eauto 10| |done].
  rewrite V3, V1. unfold asks. by rewrite <- app_assoc.
Qed.

Lemma many_exchanges n sA sB p : caches_idle A sA -> caches_idle B sB -> s_ps sB !! iB = Some p ->
  (0 <= ps_tx p < 2^64)%Z -> (0 <= ps_rx p < 2^64)%Z ->
  let z := zeroed (space B) (ps_tx p) (ps_rx p) (e_name B) in
  exists sA' sB', exchanges A B iA cA cB (asks iA bA) (answers iB bB) sA sB (replicate n (OShow iA z.1.1 z.1.2 z.2)) sA' sB'.
Proof.
  intros IA IB Hp Htx Hrx z. revert sA sB IA IB Hp. induction n as [|n IH]; intros sA sB IA IB Hp.
  { exists sA, sB. constructor. }
  destruct (one_exchange sA sB p IA IB Hp Htx Hrx) as (sA1 & sB1 & H & IA1 & IB1 & Hp1).
  destruct (IH sA1 sB1 IA1 IB1 Hp1) as (sA2 & sB2 & H2). exists sA2, sB2. by econstructor.
Qed.
Lemma zeroed_full (tx rx : Z) : 16 <= space B -> zeroed (space B) tx rx (e_name B) = (line (take (space B - 16) (e_name B)), tx, rx).
Proof. intros H. unfold zeroed. destruct (space B <? 8) eqn:E8; cleq; [lia|]. destruct (space B <? 16) eqn:E16; cleq; [lia|done]. Qed.

Lemma collected n sA sB : caches_idle A sA -> caches_idle B sB -> reached B sB -> 16 <= space B ->
  exists sA' sB', exchanges A B iA cA cB (asks iA bA) (answers iB bB) sA sB (replicate n
    (OShow iA (line (take (space B - 16) (e_name B))) (Z.of_nat (count (passed_down B iB) (s_visits sB)) mod 2^64)%Z
       (Z.of_nat (count (passed_up B iB) (s_visits sB)) mod 2^64)%Z)) sA' sB'.
Proof.
  intros IA IB HR Hs. destruct (stat_counts B sB iB HR (wired_at _ _ _ _ _ _ _ WB LB)) as (p & Hp & Ht & Hx).
  pose proof (many_exchanges n sA sB p IA IB Hp) as H. rewrite zeroed_full in H by done. cbn [fst snd] in H.
  rewrite Ht, Hx in H. apply H; apply Z.mod_pos_bound; lia.
Qed.
Lemma collected_small sA sB : caches_idle A sA -> caches_idle B sB -> reached B sB -> space B < 16 ->
  exists name tx sA' sB', exchange A B iA cA cB sA sB [OShow iA name tx 0%Z] (asks iA bA) (answers iB bB) sA' sB'.
Proof.
  intros IA IB HR Hs. destruct (stat_counts B sB iB HR (wired_at _ _ _ _ _ _ _ WB LB)) as (p & Hp & Ht & Hx).
  destruct (one_exchange sA sB p IA IB Hp) as (sA' & sB' & H & _); [rewrite Ht; apply Z.mod_pos_bound; lia|rewrite Hx; apply Z.mod_pos_bound; lia|].
  assert (Hz : forall tx rx, (zeroed (space B) tx rx (e_name B)).2 = 0%Z).
  { intros tx rx. unfold zeroed. destruct (space B <? 8); [done|]. destruct (space B <? 16) eqn:E16; cleq; [done|lia]. }
  rewrite Hz in H. by eexists _, _, sA', sB'.
Qed.
End both.

(** ** Switched off *)
Lemma asker_off E a i j b pre k pb sess c s (l : list byte) m :
  wired E (a ++ j :: i :: b) (pre ++ Proc k true :: Proc KStat false :: pb) -> length a = length pre ->
  Forall (fun p => passes_message p = true) pre -> Forall (fun p => carries p = true) pb -> e_isref E c = false ->
  decodes k l m -> l <> [] ->
  (Z.of_nat (length (wire_of sess pb (35%Z :: l))) <= e_mtu E)%Z -> (e_mtu E < 2^32)%Z -> caches_idle E s ->
  exists s', finishes (fun f => receive f E c (wire_of sess pb (35%Z :: l)) s) s (shown E (rx_session pb sess) (Some c) m) s' /\
    fst <$> s_visits s' = (fst <$> s_visits s) ++ ((fun i => (i, Up)) <$> rev b) ++ (i, Up) :: ((fun i => (i, Up)) <$> (j :: rev a)).
Proof.
  intros W La Hpre Hpb Hr Hd Hl Hlen Hm Hid.
  assert (Wi : wired E ((a ++ [j]) ++ i :: b) ((pre ++ [Proc k true]) ++ Proc KStat false :: pb)) by (by rewrite <- !app_assoc).
  assert (Li : length (a ++ [j]) = length (pre ++ [Proc k true])) by (rewrite !app_length; simpl; lia).
  pose proof (wired_at _ _ _ _ _ _ _ Wi Li) as Hi. pose proof (wired_at _ _ _ _ _ _ _ W La) as Hj.
  destruct (wired_above _ _ _ _ _ _ _ W La) as (q1 & Hu1 & Hp1).
  destruct (wired_above _ _ _ _ _ _ _ Wi Li) as (q2 & Hu2 & Hp2). rewrite rev_app_distr in Hp2. simpl in Hp2.
  rewrite rev_app_distr in Hp2. simpl in Hp2. inversion Hp2; subst.
  assert (Hh := top_handles E j k (rev a) (rev pre) q1 c l m (sess_after (rev pb) sess None) (S (length pre))
    Hj Hu1 Hp1 (Forall_rev Hpre) Hd Hl ltac:(rewrite rev_length; lia)).
  rewrite sess_after_rx in Hh.
  destruct (receive_to E (a ++ [j]) i b (pre ++ [Proc k true]) _ pb sess c (35%Z :: l) s (S (S (S (length pre)))) (sess_after (rev pb) sess None)
    (fun _ => shown E (rx_session pb sess) (Some c) m) ((i, Up) :: ((fun i => (i, Up)) <$> (j :: rev a))) (fun _ => True) Wi Li)
    as (s' & Hf & _ & V); try done; [|by exists s'].
  intros x s0 b0 Hc Hb W0 R0 Hso Hid0 _. destruct (readbyte_ok 35%Z l b0 W0 R0) as (b' & Eb & W' & R' & _).
  destruct (Hh (set_buf x (Some b')) (visit s0 i Up x) b' Hc eq_refl W' R' Hso) as (x' & s' & X & Hc' & Hso' & O & V & I' & _ & C'); [done|done|].
  exists x', s'. rewrite <- X. split_and!; try done.
  - change (exec (S (S (S (length pre)))) E Up (Some (PProc i)) x s0) with
      (match e_procs E !! i with None => Some (Crash s0) | Some pr =>
        on_lower E i (p_enable pr) (exec (S (S (length pre))) E Down (l_lower (e_links E) (PProc i)))
          (exec (S (S (length pre))) E Up (l_upper (e_links E) (PProc i))) (p_kind pr) x (visit s0 i Up x) end).
    rewrite Hi. cbn [p_enable p_kind on_lower]. unfold by_reference, with_buf. rewrite Hc, Hr, Hb, Eb. by rewrite Hu2.
  - rewrite V. simpl. rewrite fmap_app, <- app_assoc. done.
Qed.
Lemma codec_ignores E f i k x s : e_procs E !! i = Some (Proc k true) -> refuses_nothing k ->
  (forall b, cx_buf x = Some b -> wf b /\ readable b = []) ->
  exists x', exec (S f) E Up (Some (PProc i)) x s = Some (Done x' (visit s i Up x)) /\ cx_conn x' = cx_conn x /\ cx_session x' = cx_session x.
Proof.
  intros Hi Hk Hb. cbn [exec]. rewrite Hi. cbn [p_enable p_kind].
  assert (Hr : forall g, exists x', codec_read x (visit s i Up x) g = Some (Done x' (visit s i Up x)) /\ cx_conn x' = cx_conn x /\ cx_session x' = cx_session x).
  { intros g. unfold codec_read. destruct (cx_buf x) as [b|]; [|by eexists].
    destruct (Hb b eq_refl) as [W R]. rewrite (read_none b W R). by eexists. }
  destruct k as [| | |mar unm|en de|en [de|]| | | | | | | | | | |]; try done; cbn [on_lower]; try apply Hr; unfold with_buf.
  - destruct (cx_buf x) as [b|]; [|by eexists]. destruct (Hk b) as (b' & ->); [by apply Hb|]. by eexists.
  - destruct (cx_buf x) as [b|]; [|by eexists]. destruct (Hk b) as (m & b' & ->); [by apply Hb|]. by eexists.
  - by eexists.
Qed.
Lemma answerer_off E a i j b pre k pb sess c s :
  wired E (a ++ j :: i :: b) (pre ++ Proc k true :: Proc KStat false :: pb) -> length a = length pre ->
  refuses_nothing k -> Forall (fun p => carries p = true) pb -> e_isref E c = false ->
  (Z.of_nat (length (wire_of sess pb [16%Z])) <= e_mtu E)%Z -> (e_mtu E < 2^32)%Z -> caches_idle E s ->
  exists s', finishes (fun f => receive f E c (wire_of sess pb [16%Z]) s) s [] s' /\ caches_idle E s' /\
    fst <$> s_visits s' = (fst <$> s_visits s) ++ ((fun i => (i, Up)) <$> rev b) ++ [(i, Up); (j, Up)].
Proof.
  intros W La Hk Hpb Hr Hlen Hm Hid.
  assert (Wi : wired E ((a ++ [j]) ++ i :: b) ((pre ++ [Proc k true]) ++ Proc KStat false :: pb)) by (by rewrite <- !app_assoc).
  assert (Li : length (a ++ [j]) = length (pre ++ [Proc k true])) by (rewrite !app_length; simpl; lia).
  pose proof (wired_at _ _ _ _ _ _ _ Wi Li) as Hi. pose proof (wired_at _ _ _ _ _ _ _ W La) as Hj.
  destruct (wired_above _ _ _ _ _ _ _ Wi Li) as (q2 & Hu2 & Hp2). rewrite rev_app_distr in Hp2. simpl in Hp2.
  rewrite rev_app_distr in Hp2. simpl in Hp2. inversion Hp2; subst.
  apply (receive_to E (a ++ [j]) i b (pre ++ [Proc k true]) (Proc KStat false) pb sess c [16%Z] s 2 (sess_after (rev pb) sess None)
    (fun _ => []) [(i, Up); (j, Up)] (fun _ => True)); try done.
  intros x s0 b0 Hc Hb W0 R0 Hso Hid0 _. destruct (readbyte_ok 16%Z [] b0 W0 R0) as (b' & Eb & W' & R' & _).
  destruct (codec_ignores E 0 j k (set_buf x (Some b')) (visit s0 i Up x) Hj Hk) as (x' & X & Hc' & Hs'). { by intros b1 [= <-]. }
  exists x', (visit (visit s0 i Up x) j Up (set_buf x (Some b'))). rewrite <- X. split_and!.
  - change (exec 2 E Up (Some (PProc i)) x s0) with
      (match e_procs E !! i with None => Some (Crash s0) | Some pr =>
        on_lower E i (p_enable pr) (exec 1 E Down (l_lower (e_links E) (PProc i)))
          (exec 1 E Up (l_upper (e_links E) (PProc i))) (p_kind pr) x (visit s0 i Up x) end).
    rewrite Hi. cbn [p_enable p_kind on_lower]. unfold by_reference, with_buf. rewrite Hc, Hr, Hb, Eb. by rewrite Hu2.
  - by rewrite Hc'.
  - by rewrite Hs'.
  - simpl. by rewrite app_nil_r.
  - simpl. rewrite !fmap_app, <- app_assoc. done.
  - done.
  - done.
  - done.
Qed.

Lemma off_exchange A B aA jA iA bA preA k aB iB bB paB pb cA cB sA sB m :
  wired A (aA ++ jA :: iA :: bA) (preA ++ Proc k true :: Proc KStat false :: pb) -> length aA = length preA ->
  wired B (aB ++ iB :: bB) (paB ++ Proc KStat true :: pb) -> length aB = length paB ->
  Forall (fun p => passes_message p = true) preA -> Forall (fun p => carries p = true) pb ->
  e_isref A cA = false -> accepts A cA -> (e_overhead A < e_mtu A < 2^32)%Z ->
  e_isref B cB = false -> accepts B cB -> (e_overhead B <= e_mtu B < 2^32)%Z ->
  (e_mtu B <= e_mtu A)%Z \/ (17 + Z.of_nat (length (e_name B)) + room pb <= e_mtu A)%Z ->
  caches_idle A sA -> caches_idle B sB -> reached B sB -> 16 <= space B -> 0%Z ∈ e_sessions A ->
  decodes k (digits BE W64 (Z.of_nat (count (passed_down B iB) (s_visits sB)) mod 2^64) ++
    digits BE W64 (Z.of_nat (count (passed_up B iB) (s_visits sB)) mod 2^64) ++ take (space B - 16) (e_name B)) m ->
  exists vA sA' sB', exchange A B iA cA cB sA sB [ODeliver 0 (Some cA) m] vA (answers iB bB) sA' sB'.
Proof.
  intros WA LA WB LB Hpre Hpb RA AA MA RB AB MB Hfit IA IB HR Hs H0 Hd.
  destruct (stat_counts B sB iB HR (wired_at _ _ _ _ _ _ _ WB LB)) as (p & Hp & Ht & Hx). rewrite <- Ht, <- Hx in Hd.
  assert (Wi : wired A ((aA ++ [jA]) ++ iA :: bA) ((preA ++ [Proc k true]) ++ Proc KStat false :: pb)) by (by rewrite <- !app_assoc).
  assert (Li : length (aA ++ [jA]) = length (preA ++ [Proc k true])) by (rewrite !app_length; simpl; lia).
  pose proof (wired_overhead _ _ _ Wi) as OA. rewrite room_app in OA. simpl in OA.
  pose proof (wired_overhead _ _ _ WB) as OB. rewrite room_app in OB. simpl in OB.
  pose proof (room_nonneg (preA ++ [Proc k true])). pose proof (room_nonneg paB). pose proof (room_nonneg pb). pose proof (hdrs_room pb).
  destruct (self_asks A _ iA bA _ (Proc KStat false) pb 16%Z cA sA Wi Li) as (s1 & F1 & C1 & V1); try done.
  { by apply carries_sends. }
  rewrite offered_accepts in F1; [|done|by apply wire_nonempty].
  destruct (stat_answers_any B aB iB bB paB pb 0 cB sB p) as (sB' & F2 & I2 & P2 & V2); try done.
  { apply wire_length_room. simpl. lia. }
  rewrite offered_accepts in F2; [|done|by apply wire_nonempty].
  destruct (body_length (space B) (ps_tx p) (ps_rx p) (e_name B)) as [L1 L2]. unfold space in L1 at 2.
  assert (Eb : body (space B) (ps_tx p) (ps_rx p) (e_name B) =
    digits BE W64 (ps_tx p) ++ digits BE W64 (ps_rx p) ++ take (space B - 16) (e_name B)).
  { unfold body. destruct (space B <? 8) eqn:E8; cleq; [lia|]. destruct (space B <? 16) eqn:E16; cleq; [lia|done]. }
  destruct (asker_off A aA iA jA bA preA k pb 0 cA s1 (body (space B) (ps_tx p) (ps_rx p) (e_name B)) m) as (sA' & F3 & V3); try done.
  { by rewrite Eb. }
  { rewrite Eb. pose proof (digits_length BE W64 (ps_tx p)) as Ld. by destruct (digits BE W64 (ps_tx p)). }
  { rewrite wire_of_hdrs. cbn [length]. destruct Hfit; lia. }
  { lia. }
  { by eapply idle_kept. }
  rewrite (rx_session_same pb 0) in F3 by (try lia; by right). unfold shown in F3. rewrite decide_True in F3 by done.
  eexists _, sA', sB'. split; [by eauto 10| |done].
  rewrite V3, V1. by rewrite <- app_assoc.
Qed.

Lemma exchanges_one A B i cA cB vA vB sA sB o sA' sB' : exchanges A B i cA cB vA vB sA sB [o] sA' sB' -> exchange A B i cA cB sA sB [o] vA vB sA' sB'.
Proof. intros H. inversion H as [|? ? ? sA1 sB1 ? ? ? H1 H2]; subst. inversion H2; subst. done. Qed.
