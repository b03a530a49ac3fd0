(** * Proofs about stacks without a frame decoder *)
From Verif Require Import GoBase UBufModel UBufSpec UBufProofs FrameModel FrameSpec FrameProofs StackModel StackSpec StackProofs StackPath StackFacts NetModel NetSpec NetProofs GlueSpec.
From stdpp Require Import sets list.

Lemma glue_longer z ps l w : Forall (fun p => framing p = false) ps -> wire_of z ps (l ++ w) = wire_of z ps l ++ w.
Proof.
  revert l. induction ps as [|p ps IH]; intros l H; [done|]. apply Forall_cons_1 in H as [H1 H2].
  unfold wire_of in *. simpl. rewrite <- IH by done. f_equal. unfold StackSpec.put, framing in *.
  destruct p as [k []]; destruct k; simpl in *; try done; by rewrite ?app_comm_cons, ?app_assoc.
Qed.

(** ** A codec that makes nothing of what it gets *)
Lemma codec_drops E f i k l x s b : e_procs E !! i = Some (Proc k true) -> unread k l -> l <> [] ->
  cx_buf x = Some b -> wf b -> readable b = l ->
  exists x', exec (S f) E Up (Some (PProc i)) x s = Some (Done x' (visit s i Up x)) /\ cx_conn x' = cx_conn x /\ cx_session x' = cx_session x.
Proof.
  intros Hi Hk Hl Hb W R. cbn [exec]. rewrite Hi. cbn [p_enable p_kind].
  pose proof W as (W1 & W2 & W3 & W4).
  destruct k as [| | |mar unm|en de|en [de|]| | | | | | | | | | |]; try done; cbn [on_lower]; simpl in Hk.
  - destruct (StackProofs.read_all b W) as (b' & Er & _ & _); [by rewrite R|]. rewrite R in Er.
    unfold codec_read. rewrite Hb, Er. destruct l; [done|]. rewrite Hk. by eexists.
  - unfold with_buf. rewrite Hb. destruct (Hk b) as (b' & ->); try done. by eexists.
  - unfold with_buf. rewrite Hb. destruct (Hk b) as (m & b' & ->); try done. by eexists.
  - by eexists.
Qed.
Lemma receive_drop E ids pre k ps sess c l s :
  wired E ids (pre ++ Proc k true :: ps) -> Forall (fun p => carries p = true) ps ->
  unread k l -> l <> [] -> e_isref E c = false ->
  (Z.of_nat (length (wire_of sess ps l)) <= e_mtu E)%Z -> (e_mtu E < 2^32)%Z -> caches_idle E s ->
  exists s', finishes (fun f => receive f E c (wire_of sess ps l) s) s [] s' /\ caches_idle E s'.
Proof.
  intros W Hps Hd Hl Hr Hlen Hm Hid.
  destruct (wired_split1 _ _ _ _ _ W) as (a & i & b & -> & La & Lb).
  pose proof (wired_at _ _ _ _ _ _ _ W La) as Hi.
  destruct (receive_to E a i b pre (Proc k true) ps sess c l s 1 (sess_after (rev ps) sess None)
    (fun _ => []) [(i, Up)] (fun _ => True)) as (s' & H & Hid' & _); try done; [|by exists s'].
  intros x s0 b0 Hc Hb W0 R0 Hso Hid0 _.
  destruct (codec_drops E 0 i k l x s0 b0) as (x' & X & Hc' & Hs'); try done.
  exists x', (visit s0 i Up x). split_and!; try done; try congruence.
  - simpl. by rewrite app_nil_r.
  - simpl. by rewrite fmap_app.
Qed.

Section glue.
Context (N : net) (k : kind) (ps : list proc).
Hypothesis (M : matching N k ps) (U : Forall (fun p => framing p = false) ps).
Notation swire := (slip_wire N ps).
Definition post_of (t : slip) : post := Post (fst (fst t)) (snd (fst t)) (snd t).
Definition sgood (t : slip) : Prop := good N k ps (post_of t).
Definition made (g : list slip) (o : option msg) : list (Z * msg) :=
  match g, o with t :: _, Some m => [(slip_for N t, m)] | _, _ => [] end.

Lemma glued_wire t g : concat (swire <$> t :: g) = wire_of (slip_for N t) ps (glued N ps (t :: g)).
Proof. simpl. rewrite glue_longer by done. done. Qed.
Lemma glued_nonempty t g : sgood t -> glued N ps (t :: g) <> [].
Proof. intros (_ & _ & H & _). simpl. simpl in H. by destruct (snd t). Qed.
Lemma receive_glued t g o b : sgood t -> makes k (glued N ps (t :: g)) o -> caches_idle (nb N) b ->
  (Z.of_nat (length (concat (swire <$> t :: g))) <= e_mtu (nb N))%Z ->
  exists outs b', finishes (fun f => receive f (nb N) (ncb N) (concat (swire <$> t :: g)) b) b outs b' /\
    caches_idle (nb N) b' /\ delivered outs = made (t :: g) o.
Proof.
  intros Ht Hm Hid Hlen. rewrite glued_wire in *. pose proof (glued_nonempty t g Ht) as Hne.
  destruct M as (idsA & idsB & preA & preB & WA & WB & PA & PB & Hc & RA & Ac & MA & RB & MB).
  destruct Ht as (_ & _ & _ & _ & _ & Hr & He & Hs). destruct o as [m|]; simpl in Hm.
  - destruct (receive_wire (nb N) idsB preB k ps (slip_for N t) (ncb N) m (glued N ps (t :: g)) b) as (b' & H & Hid' & _); try done.
    eexists _, b'. split; [exact H|]. split; [done|]. change (zed N (post_of t)) with (slip_for N t) in *.
    rewrite rx_session_same by done. unfold shown. by rewrite decide_True.
  - destruct (receive_drop (nb N) idsB preB k ps (slip_for N t) (ncb N) (glued N ps (t :: g)) b) as (b' & H & Hid'); try done.
    by exists [], b'.
Qed.

Record ginv (ls : list nlab) (s : nst) (gs : list (list slip)) (os : list (option msg)) (rest : list slip) : Prop := Ginv {
  gv_good : Forall sgood (concat gs ++ rest);
  gv_sent : forall e, mails_of e (fst <$> concat gs ++ rest) ++ unsent e s = given e ls;
  gv_puts : forall e x, x ∈ unsent e s -> sendable N k ps e x;
  gv_writes : n_writes s = swire <$> concat gs ++ rest;
  gv_got : n_got s = length (concat (swire <$> concat gs));
  gv_wire : n_wire s = concat (swire <$> rest);
  gv_made : Forall2 (makes k) (glued N ps <$> gs) os;
  gv_some : Forall (fun g => g <> []) gs;
  gv_reads : reads_of ls = (fun g => length (concat (swire <$> g))) <$> gs;
  gv_heard : forall z, heard z s ++ n_rx s z ++ upz z (n_up s) = came N z gs os;
  gv_idle : caches_idle (nb N) (n_b s) }.

Lemma came_snoc z gs os g o : length gs = length os -> came N z (gs ++ [g]) (os ++ [o]) = came N z gs os ++ upz z (made g o).
Proof.
  intros L. unfold came. rewrite zip_with_app by done. rewrite omap_app. f_equal. simpl. unfold upz, made.
  destruct g as [|t g]; simpl; [done|]. destruct o as [m|]; simpl; by case_decide.
Qed.
Lemma reads_app l1 l2 : reads_of (l1 ++ l2) = reads_of l1 ++ reads_of l2.
Proof. apply omap_app. Qed.

Hypothesis (Dk : decided k).
Lemma ginv_step ls s gs os rest l s' : ginv ls s gs os rest -> whole_read true s l ->
  (forall e x, l = NPut e x -> sendable N k ps e x) -> nstep N s l s' ->
  exists gs' os' rest', ginv (ls ++ [l]) s' gs' os' rest'.
Proof.
  intros I Hok Hput Hst.
  destruct Hst as [tx hd a w b up rx sn ws g e x Hlt|tx hd a w b up rx sn ws g e x q Hh Htx
    |tx hd a w b up rx sn ws g e x outs a' Hh Hf|tx hd a w b rx sn ws g n outs b' H0 Hn Hm Hf
    |tx hd a w b z m up rx sn ws g Hlt|tx hd a w b up rx sn ws g z m q Hrx];
    destruct I as [I1 I2 I3 I4 I5 I6 I7 I8 I9 I10 I11]; simpl in I4, I5, I6, I10, I11.
  - exists gs, os, rest. split; try done.
    + intros y. rewrite given_app, <- I2. unfold unsent. simpl. rewrite <- !app_assoc. f_equal. f_equal.
      destruct (decide (y = e)) as [->|Hy].
      * rewrite fn_lookup_insert, decide_True by done. done.
      * rewrite fn_lookup_insert_ne, decide_False by done. by rewrite app_nil_r.
    + intros y z Hz. unfold unsent in Hz. simpl in Hz. apply elem_of_app in Hz as [Hz|Hz].
      { apply I3. unfold unsent. apply elem_of_app. by left. }
      destruct (decide (y = e)) as [->|Hy].
      * rewrite fn_lookup_insert in Hz. apply elem_of_app in Hz as [Hz|Hz].
        -- apply I3. unfold unsent. apply elem_of_app. by right.
        -- apply elem_of_list_singleton in Hz as ->. by apply Hput.
      * rewrite fn_lookup_insert_ne in Hz by done. apply I3. unfold unsent. apply elem_of_app. by right.
    + rewrite reads_app, app_nil_r. done.
  - assert (forall y, unsent y (Nst (<[e := q]> tx) (<[e := Some x]> hd) a w b up rx sn ws g) =
                      unsent y (Nst tx hd a w b up rx sn ws g)) as Hun.
    { intros y. unfold unsent. simpl. destruct (decide (y = e)) as [->|Hy].
      - rewrite !fn_lookup_insert, Hh, Htx. done.
      - by rewrite !fn_lookup_insert_ne. }
    exists gs, os, rest. split; try done.
    + intros y. rewrite given_app, <- I2, Hun. by rewrite app_nil_r.
    + intros y z. rewrite Hun. apply I3.
    + rewrite reads_app, app_nil_r. done.
  - destruct (I3 e x) as (l & Hl); [unfold unsent; simpl; rewrite Hh; by left|].
    set (t := ((e, x), l) : slip). assert (sgood t) as Hg by exact Hl.
    destruct (send_post N k ps M (post_of t) a Hg) as (a2 & Hf2).
    destruct (finishes_unique _ _ _ _ _ _ Hf Hf2) as [-> ->].
    change (wirep N ps (post_of t)) with (swire t).
    assert (written (nca N) [OWire (nca N) (swire t)] = [swire t]) as Ew.
    { unfold written. simpl. by rewrite decide_True. }
    rewrite Ew. simpl. rewrite app_nil_r.
    exists gs, os, (rest ++ [t]). split; try done.
    + rewrite app_assoc. apply Forall_app. split; [done|by constructor].
    + intros y. rewrite given_app, <- I2, app_nil_r. rewrite app_assoc, (fmap_app fst (_ ++ rest)). unfold mails_of. rewrite omap_app.
      rewrite <- app_assoc. f_equal. unfold unsent. simpl. destruct (decide (y = e)) as [->|Hy].
      * rewrite decide_True, fn_lookup_insert, Hh by done. done.
      * rewrite decide_False, fn_lookup_insert_ne by done. done.
    + intros y z Hz. apply I3. unfold unsent in *. simpl in *. apply elem_of_app in Hz as [Hz|Hz].
      * destruct (decide (y = e)) as [->|Hy].
        -- rewrite fn_lookup_insert in Hz. by apply elem_of_nil in Hz.
        -- rewrite fn_lookup_insert_ne in Hz by done. apply elem_of_app. by left.
      * apply elem_of_app. by right.
    + simpl. by rewrite I4, app_assoc, (fmap_app _ (_ ++ rest)).
    + simpl. rewrite I6, fmap_app, concat_app. simpl. by rewrite app_nil_r.
    + rewrite reads_app, app_nil_r. done.
  - destruct Hok as (i' & j & Hi & Hj & _). simpl in Hi, Hj.
    assert (Forall (fun w => w <> []) ws) as Hne.
    { rewrite I4. apply Forall_fmap. eapply Forall_impl; [exact I1|]. intros t. apply (good_nonempty N k ps (post_of t)). }
    set (i := length (concat gs)).
    assert (take i ws = swire <$> concat gs /\ drop i ws = swire <$> rest) as [Ti Di].
    { rewrite I4, fmap_app. unfold i. rewrite <- (fmap_length swire (concat gs)). by rewrite take_app, drop_app. }
    assert (take i' ws = take i ws) as Et by (apply boundary; [done|congruence]).
    assert (drop i' ws = drop i ws) as Ed.
    { pose proof (take_drop i ws) as E1. pose proof (take_drop i' ws) as E2. rewrite Et in E2.
      apply (app_inv_head (take i ws)). congruence. }
    rewrite Ed, Di in Hj. destruct (take_concat j (swire <$> rest)) as [T1 T2]. rewrite <- Hj, <- I6 in T1, T2.
    rewrite <- fmap_take in Hj, T1. rewrite <- fmap_drop in T2.
    destruct (take j rest) as [|t g'] eqn:Eg; [simpl in Hj; lia|].
    assert (rest = (t :: g') ++ drop j rest) as Er by (by rewrite <- Eg, take_drop).
    assert (sgood t) as Ht.
    { apply Forall_app in I1 as [_ I1]. rewrite Er in I1. by inversion I1. }
    destruct (Dk (glued N ps (t :: g'))) as (o & Ho); [by apply glued_nonempty|].
    destruct (receive_glued t g' o b Ht Ho I11) as (outs2 & b2 & Hf2 & Hid2 & Hd2); [by rewrite <- Hj|].
    rewrite T1 in Hf. destruct (finishes_unique _ _ _ _ _ _ Hf Hf2) as [-> ->].
    pose proof (Forall2_length _ _ _ I7) as Lg. rewrite fmap_length in Lg.
    assert (concat (gs ++ [t :: g']) ++ drop j rest = concat gs ++ rest) as Ec.
    { rewrite concat_app. cbn [concat]. rewrite app_nil_r, <- app_assoc. by rewrite <- Er. }
    exists (gs ++ [t :: g']), (os ++ [o]), (drop j rest). split.
    + by rewrite Ec.
    + intros y. rewrite Ec, given_app, <- I2. by rewrite app_nil_r.
    + done.
    + simpl. by rewrite Ec.
    + simpl n_got. rewrite concat_app, fmap_app, concat_app, app_length, <- I5. cbn [concat]. by rewrite app_nil_r, <- Hj.
    + simpl n_wire. done.
    + rewrite fmap_app. apply Forall2_app; [done|]. by repeat constructor.
    + apply Forall_app. split; [done|]. by repeat constructor.
    + rewrite reads_app, I9, fmap_app. simpl reads_of. f_equal. rewrite Hj. done.
    + intros z. simpl n_up. rewrite came_snoc by done. rewrite <- I10, Hd2. simpl. by rewrite app_nil_r, app_assoc.
    + done.
  - exists gs, os, rest. split; try done.
    + intros y. rewrite given_app, <- I2. by rewrite app_nil_r.
    + rewrite reads_app, app_nil_r. done.
    + simpl. intros y. rewrite <- I10. f_equal. unfold upz. simpl. destruct (decide (z = y)) as [->|Hy].
      * rewrite fn_lookup_insert, <- app_assoc. done.
      * by rewrite fn_lookup_insert_ne.
  - exists gs, os, rest. split; try done.
    + intros y. rewrite given_app, <- I2. by rewrite app_nil_r.
    + rewrite reads_app, app_nil_r. done.
    + simpl. intros y. rewrite <- I10. unfold heard. simpl. rewrite omap_app. simpl. destruct (decide (z = y)) as [->|Hy].
      * rewrite fn_lookup_insert, Hrx, <- app_assoc. done.
      * rewrite fn_lookup_insert_ne by done. by rewrite app_nil_r.
Qed.
Lemma ginv_run a b ls s : caches_idle (nb N) b -> nrun N (whole_read true) (new_net a b) ls s -> all_sendable N k ps ls ->
  exists gs os rest, ginv ls s gs os rest.
Proof.
  intros Hid H. induction H as [|ls s1 l s2 H IH Hok Hst]; intros Hs.
  - exists [], [], []. split; try done; try by constructor.
    intros e x Hx. by apply elem_of_nil in Hx.
  - destruct IH as (gs & os & rest & I); [intros e x Hx; apply Hs, elem_of_app; by left|].
    eapply ginv_step; [done|done| |done]. intros e x ->. apply Hs, elem_of_app. right. by left.
Qed.
Lemma glue_groups a b ls s : caches_idle (nb N) b -> nrun N (whole_read true) (new_net a b) ls s -> all_sendable N k ps ls ->
  exists gs os rest,
    (forall e, mails_of e (fst <$> concat gs ++ rest) ++ unsent e s = given e ls) /\
    Forall (fun t => encodes k (ml_msg (snd (fst t))) (snd t)) (concat gs ++ rest) /\
    reads_of ls = (fun g => length (concat (slip_wire N ps <$> g))) <$> gs /\ Forall (fun g => g <> []) gs /\
    Forall2 (makes k) (glued N ps <$> gs) os /\
    (n_wire s = [] -> rest = []) /\
    forall z, exists late, heard z s ++ late = came N z gs os /\ (settled s -> late = []).
Proof.
  intros Hid H Hs. destruct (ginv_run a b ls s Hid H Hs) as (gs & os & rest & [I1 I2 I3 I4 I5 I6 I7 I8 I9 I10 I11]).
  exists gs, os, rest. split_and!; try done.
  - eapply Forall_impl; [exact I1|]. intros t Ht. apply Ht.
  - intros Hw. rewrite Hw in I6. destruct rest as [|t r]; [done|]. simpl in I6. symmetry in I6. apply app_eq_nil in I6 as [I6 _].
    exfalso. apply Forall_app in I1 as [_ I1]. apply Forall_cons_1 in I1 as [I1 _]. by apply (good_nonempty N k ps (post_of t)) in I1.
  - intros z. eexists. split; [apply I10|]. intros (_ & Hu & Hr). by rewrite Hu, Hr.
Qed.
End glue.

(** ** Two messages in one Read *)
Lemma two_glued N k ps e1 x1 l1 e2 x2 l2 o a b : matching N k ps -> Forall (fun p => framing p = false) ps ->
  caches_idle (nb N) b -> 0 < ntxcap N -> 0 < nrxcap N ->
  sendable_as N k ps e1 x1 l1 -> sendable_as N k ps e2 x2 l2 ->
  let z1 := dest_of (nsess N e1) (ml_dest x1) in let z2 := dest_of (nsess N e2) (ml_dest x2) in
  let w1 := wire_of z1 ps l1 in let w2 := wire_of z2 ps l2 in
  (Z.of_nat (length w1 + length w2) <= e_mtu (nb N))%Z -> makes k (l1 ++ w2) o ->
  exists ls s, nrun N (whole_read true) (new_net a b)
      ([NPut e1 x1; NTake e1; NPass e1; NPut e2 x2; NTake e2; NPass e2; NRead (length w1 + length w2)] ++ ls) s /\
    Forall inner ls /\ settled s /\ all_sent s /\ n_seen s = match o with Some m => [(z1, m)] | None => [] end.
Proof.
  intros M U Hid Ct Cr S1 S2 z1 z2 w1 w2 Hlen Ho.
  set (t1 := ((e1, x1), l1) : slip). set (t2 := ((e2, x2), l2) : slip).
  assert (sgood N k ps t1) as G1 by exact S1. assert (sgood N k ps t2) as G2 by exact S2.
  destruct (send_post N k ps M (post_of t1) a G1) as (a1 & F1).
  destruct (send_post N k ps M (post_of t2) a1 G2) as (a2 & F2).
  change (wirep N ps (post_of t1)) with w1 in F1. change (wirep N ps (post_of t2)) with w2 in F2.
  pose proof (good_nonempty N k ps (post_of t1) G1) as Hne. change (wirep N ps (post_of t1)) with w1 in Hne.
  assert (makes k (glued N ps [t1; t2]) o) as Ho'.
  { simpl. rewrite app_nil_r. exact Ho. }
  assert (concat (slip_wire N ps <$> [t1; t2]) = w1 ++ w2) as Ec by (simpl; by rewrite app_nil_r).
  destruct (receive_glued N k ps M U t1 [t2] o b G1 Ho' Hid) as (outs & b' & F3 & Hid3 & Hd3).
  { rewrite Ec, app_length. lia. }
  rewrite Ec in F3. change (made N [t1; t2] o) with (match o with Some m => [(z1, m)] | None => [] end) in Hd3.
  assert (forall w, written (nca N) [OWire (nca N) w] = [w]) as Ew.
  { intros w. unfold written. simpl. by rewrite decide_True. }
  clearbody w1 w2 z1. clear Ec Ho' Ho.
  assert (0 < length w1) as Hp by (destruct w1; simpl; [done|lia]).
  assert (Hfin : forall tx hd rx sn g, (forall z, rx z = []) -> (forall e, tx e = []) -> (forall e, hd e = None) -> exists ls s,
    nrun N (whole_read true) (Nst tx hd a2 [] b' (delivered outs) rx sn [w1; w2] g) ls s /\ Forall inner ls /\ settled s /\
      all_sent s /\ n_seen s = sn ++ match o with Some m => [(z1, m)] | None => [] end).
  { intros tx hd rx sn g Hrx Htx Hhd. rewrite Hd3. destruct o as [m|].
    - eexists [NDeliver; NListen z1], _. split.
      { eapply nrun_cons; [done|apply nk_deliver; rewrite Hrx; simpl; lia|].
        apply nrun_one; [done|]. apply nk_listen. rewrite fn_lookup_insert, Hrx. done. }
      split; [by repeat constructor|]. split; [|split; [|done]].
      + split; [done|]. split; [done|]. intros z. simpl. destruct (decide (z = z1)) as [->|Hz].
        * by rewrite fn_lookup_insert.
        * rewrite !fn_lookup_insert_ne by done. apply Hrx.
      + intros e. unfold unsent. simpl. by rewrite Hhd, Htx.
    - eexists [], _. split; [constructor|]. split; [constructor|]. split; [done|]. split; [|by rewrite app_nil_r].
      intros e. unfold unsent. simpl. by rewrite Hhd, Htx. }
  set (tx1 := <[e1 := []]> (<[e1 := [x1]]> (fun _ => [])) : nat -> list mail).
  set (hd1 := <[e1 := None]> (<[e1 := Some x1]> (fun _ => None)) : nat -> option mail).
  assert (forall e, tx1 e = []) as Ht1.
  { intros e. unfold tx1. destruct (decide (e = e1)) as [->|He]; rewrite ?fn_lookup_insert, ?fn_lookup_insert_ne by done; done. }
  assert (forall e, hd1 e = None) as Hh1.
  { intros e. unfold hd1. destruct (decide (e = e1)) as [->|He]; rewrite ?fn_lookup_insert, ?fn_lookup_insert_ne by done; done. }
  destruct (Hfin (<[e2 := []]> (<[e2 := tx1 e2 ++ [x2]]> tx1)) (<[e2 := None]> (<[e2 := Some x2]> hd1)) (fun _ => []) []
    (0 + (length w1 + length w2))) as (ls & s & R & Fi & Se & As & Sn).
  { done. }
  { intros e. destruct (decide (e = e2)) as [->|He]; rewrite ?fn_lookup_insert, ?fn_lookup_insert_ne by done; done. }
  { intros e. destruct (decide (e = e2)) as [->|He]; rewrite ?fn_lookup_insert, ?fn_lookup_insert_ne by done; done. }
  exists ls, s. split; [|split_and!; [exact Fi|exact Se|exact As|exact Sn]].
  eapply nrun_app; [|exact R]. clear R Hfin.
  eapply nrun_cons; [done|apply nk_put; simpl; lia|].
  eapply nrun_cons; [done|apply nk_take; [done|by rewrite fn_lookup_insert]|].
  eapply nrun_cons; [done|eapply nk_pass; [by rewrite fn_lookup_insert|exact F1]|].
  rewrite Ew. cbn [concat app]. fold tx1 hd1. rewrite app_nil_r.
  eapply nrun_cons; [done|apply nk_put; rewrite Ht1; simpl; lia|].
  eapply nrun_cons; [done|apply nk_take; [done|by rewrite fn_lookup_insert, Ht1]|].
  eapply nrun_cons; [done|eapply nk_pass; [by rewrite fn_lookup_insert|exact F2]|].
  rewrite Ew. cbn [concat app]. rewrite !app_nil_r.
  apply nrun_one.
  { exists 0, 2. simpl. rewrite app_nil_r, app_length. done. }
  assert (drop (length w1 + length w2) (w1 ++ w2) = []) as Ed by (apply drop_ge; rewrite app_length; lia).
  rewrite <- Ed at 1.
  apply nk_read; [lia|rewrite app_length; lia|done|]. rewrite take_ge by (rewrite app_length; lia). exact F3.
Qed.

Lemma unframed ps : Forall (fun p => framing p = false) ps -> framed ps = false.
Proof.
  intros H. apply Forall_rev in H. unfold framed. by destruct H.
Qed.
Lemma glue_apart N k ps a b ls s : matching N k ps -> Forall (fun p => framing p = false) ps -> caches_idle (nb N) b ->
  nrun N (whole_read false) (new_net a b) ls s -> all_sendable N k ps ls ->
  exists o, (forall e, mails_of e o ++ unsent e s = given e ls) /\
    forall z, exists rest, heard z s ++ rest = mails_for N z o /\ (settled s -> rest = []).
Proof. intros M U Hid. rewrite <- (unframed ps U). by apply (net_in_order N k ps M). Qed.

(** ** Byte streams *)
Lemma bare_session ps z : bare ps -> rx_session ps z = 0%Z.
Proof.
  intros H. specialize (H 0%Z []). apply (f_equal length) in H. rewrite wire_of_hdrs in H. simpl in H.
  unfold rx_session. assert (existsb resolves ps = false) as ->; [|done].
  induction ps as [|p ps IH]; [done|]. simpl in *. rewrite IH by lia.
  unfold hdr, resolves in *. destruct p as [[] []]; simpl in *; done || lia.
Qed.
Section stream.
Context (N : net) (k : kind) (ps : list proc).
Hypothesis (M : matching N k ps) (B : bare ps) (K : k = KBytes \/ k = KString).
Notation bin l := (concat (bytes_in <$> l)).
Record sinv (ls : list nlab) (s : nst) (os : list slip) : Prop := Sinv {
  sv_good : Forall (sgood N k ps) os;
  sv_sent : forall e, mails_of e (fst <$> os) ++ unsent e s = given e ls;
  sv_puts : forall e x, x ∈ unsent e s -> sendable N k ps e x;
  sv_bytes : bin (heard 0%Z s) ++ bin (n_rx s 0%Z) ++ bin (upz 0%Z (n_up s)) ++ n_wire s = concat (snd <$> os);
  sv_idle : caches_idle (nb N) (n_b s) }.
Lemma sgood_session t : sgood N k ps t -> 0%Z ∈ e_sessions (nb N).
Proof.
  intros (_ & _ & _ & _ & _ & Hr & He & Hs). rewrite <- (rx_session_same ps _ Hr He) in Hs. by rewrite bare_session in Hs.
Qed.
Lemma stream_step ls s os l s' : sinv ls s os -> (forall e x, l = NPut e x -> sendable N k ps e x) -> nstep N s l s' ->
  exists os', sinv (ls ++ [l]) s' os'.
Proof.
  intros I Hput Hst.
  destruct Hst as [tx hd a w b up rx sn ws g e x Hlt|tx hd a w b up rx sn ws g e x q Hh Htx
    |tx hd a w b up rx sn ws g e x outs a' Hh Hf|tx hd a w b rx sn ws g n outs b' H0 Hn Hm Hf
    |tx hd a w b z m up rx sn ws g Hlt|tx hd a w b up rx sn ws g z m q Hrx];
    destruct I as [I1 I2 I3 I4 I5]; simpl in I4, I5.
  - exists os. split; try done.
    + intros y. rewrite given_app, <- I2. unfold unsent. simpl. rewrite <- !app_assoc. f_equal. f_equal.
      destruct (decide (y = e)) as [->|Hy].
      * rewrite fn_lookup_insert, decide_True by done. done.
      * rewrite fn_lookup_insert_ne, decide_False by done. by rewrite app_nil_r.
    + intros y z Hz. unfold unsent in Hz. simpl in Hz. apply elem_of_app in Hz as [Hz|Hz].
      { apply I3. unfold unsent. apply elem_of_app. by left. }
      destruct (decide (y = e)) as [->|Hy].
      * rewrite fn_lookup_insert in Hz. apply elem_of_app in Hz as [Hz|Hz].
        -- apply I3. unfold unsent. apply elem_of_app. by right.
        -- apply elem_of_list_singleton in Hz as ->. by apply Hput.
      * rewrite fn_lookup_insert_ne in Hz by done. apply I3. unfold unsent. apply elem_of_app. by right.
  - assert (forall y, unsent y (Nst (<[e := q]> tx) (<[e := Some x]> hd) a w b up rx sn ws g) =
                      unsent y (Nst tx hd a w b up rx sn ws g)) as Hun.
    { intros y. unfold unsent. simpl. destruct (decide (y = e)) as [->|Hy].
      - rewrite !fn_lookup_insert, Hh, Htx. done.
      - by rewrite !fn_lookup_insert_ne. }
    exists os. split; try done.
    + intros y. rewrite given_app, <- I2, Hun. by rewrite app_nil_r.
    + intros y z. rewrite Hun. apply I3.
  - destruct (I3 e x) as (l & Hl); [unfold unsent; simpl; rewrite Hh; by left|].
    set (t := ((e, x), l) : slip). assert (sgood N k ps t) as Hg by exact Hl.
    destruct (send_post N k ps M (post_of t) a Hg) as (a2 & Hf2).
    destruct (finishes_unique _ _ _ _ _ _ Hf Hf2) as [-> ->].
    assert (wirep N ps (post_of t) = l) as -> by apply B.
    assert (written (nca N) [OWire (nca N) l] = [l]) as Ew.
    { unfold written. simpl. by rewrite decide_True. }
    rewrite Ew. simpl. rewrite app_nil_r.
    exists (os ++ [t]). split; try done.
    + apply Forall_app. split; [done|by constructor].
    + intros y. rewrite given_app, <- I2, app_nil_r. rewrite fmap_app. unfold mails_of. rewrite omap_app.
      rewrite <- app_assoc. f_equal. unfold unsent. simpl. destruct (decide (y = e)) as [->|Hy].
      * rewrite decide_True, fn_lookup_insert, Hh by done. done.
      * rewrite decide_False, fn_lookup_insert_ne by done. done.
    + intros y z Hz. apply I3. unfold unsent in *. simpl in *. apply elem_of_app in Hz as [Hz|Hz].
      * destruct (decide (y = e)) as [->|Hy].
        -- rewrite fn_lookup_insert in Hz. by apply elem_of_nil in Hz.
        -- rewrite fn_lookup_insert_ne in Hz by done. apply elem_of_app. by left.
      * apply elem_of_app. by right.
    + rewrite fmap_app, concat_app. cbn [n_rx n_up n_wire]. change (heard 0%Z _) with (heard 0%Z (Nst tx hd a w b up rx sn ws g)).
      rewrite <- I4. simpl. by rewrite app_nil_r, <- !app_assoc.
  - assert (0%Z ∈ e_sessions (nb N)) as Hz.
    { destruct os as [|t os]; [|apply Forall_cons_1 in I1 as [I1 _]; by eapply sgood_session].
      simpl in I4. apply app_eq_nil in I4 as [_ I4]. apply app_eq_nil in I4 as [_ I4]. simpl in I4. subst w. simpl in Hn. lia. }
    assert (take n w <> []) as Hne by (destruct w, n; simpl in *; try done; lia).
    assert (Ht : length (take n w) = n) by (rewrite take_length; lia).
    destruct M as (idsA & idsB & preA & preB & WA & WB & PA & PB & Hc & RA & Ac & MA & RB & MB).
    assert (exists m, decodes k (take n w) m /\ bytes_in m = take n w) as (m & Hd & Hb).
    { destruct K as [-> | ->]; [by exists (MBytes (take n w))|by exists (MStr (take n w))]. }
    destruct (receive_wire (nb N) idsB preB k ps 0%Z (ncb N) m (take n w) b) as (b2 & H & Hid' & _); try done.
    { rewrite B, Ht. done. }
    rewrite B, bare_session in H by done. unfold shown in H. rewrite decide_True in H by done.
    destruct (finishes_unique _ _ _ _ _ _ Hf H) as [-> ->].
    exists os. split; try done.
    + intros y. rewrite given_app, <- I2. by rewrite app_nil_r.
    + rewrite <- I4. change (heard 0%Z _) with (heard 0%Z (Nst tx hd a w b [] rx sn ws g)). f_equal.
      simpl. f_equal. rewrite Hb, app_nil_r. apply take_drop.
  - exists os. split; try done.
    + intros y. rewrite given_app, <- I2. by rewrite app_nil_r.
    + rewrite <- I4. change (heard 0%Z _) with (heard 0%Z (Nst tx hd a w b ((z, m) :: up) rx sn ws g)). f_equal.
      cbn [n_rx n_up n_wire]. unfold upz. simpl. destruct (decide (z = 0%Z)) as [->|Hy].
      * rewrite fn_lookup_insert, fmap_app, concat_app. simpl. by rewrite app_nil_r, <- !app_assoc.
      * by rewrite fn_lookup_insert_ne.
  - exists os. split; try done.
    + intros y. rewrite given_app, <- I2. by rewrite app_nil_r.
    + rewrite <- I4. cbn [n_rx n_up n_wire]. unfold heard. simpl. rewrite omap_app. simpl. destruct (decide (z = 0%Z)) as [->|Hy].
      * rewrite fn_lookup_insert, Hrx, fmap_app, concat_app. simpl. by rewrite app_nil_r, <- !app_assoc.
      * rewrite fn_lookup_insert_ne by done. by rewrite app_nil_r.
Qed.
Lemma stream a b ls s : caches_idle (nb N) b -> nrun N any_read (new_net a b) ls s -> all_sendable N k ps ls ->
  exists o, (forall e, mails_of e o ++ unsent e s = given e ls) /\
    exists rest, concat (bytes_in <$> heard 0%Z s) ++ rest = concat (bytes_in <$> ((ml_msg ∘ snd) <$> o)) /\ (settled s -> rest = []).
Proof.
  intros Hid H Hs. assert (exists os, sinv ls s os) as (os & [I1 I2 I3 I4 I5]).
  { induction H as [|ls s1 l s2 H IH Hok Hst].
    - exists []. split; try done; try by constructor. intros e x Hx. by apply elem_of_nil in Hx.
    - destruct IH as (os & I); [intros e x Hx; apply Hs, elem_of_app; by left|].
      eapply stream_step; [done| |done]. intros e x ->. apply Hs, elem_of_app. right. by left. }
  exists (fst <$> os). split; [done|]. eexists. split; [rewrite I4|by intros (-> & -> & ->)].
  clear I2 I4. induction I1 as [|t os Ht _ IH]; [done|]. rewrite !fmap_cons. cbn [concat]. f_equal; [|exact IH].
  destruct Ht as (He & _). simpl in He. change ((ml_msg ∘ snd) (fst t)) with (ml_msg (snd (fst t))).
  destruct K as [-> | ->]; simpl in He; by rewrite He.
Qed.
End stream.
