(** * Proofs about two joined stacks *)
From Verif Require Import GoBase UBufModel UBufSpec UBufProofs FrameModel FrameSpec FrameProofs StackModel StackSpec StackProofs StackPath StackFacts NetModel NetSpec.
From stdpp Require Import sets list.

Lemma nrun_app N ok s ls s1 ms s2 : nrun N ok s ls s1 -> nrun N ok s1 ms s2 -> nrun N ok s (ls ++ ms) s2.
Proof.
  intros H1 H2. induction H2 as [|ms s3 l s4 _ IH Hok Hst]; [by rewrite app_nil_r|]. rewrite app_assoc. by econstructor.
Qed.
Lemma nrun_one N (ok : nst -> nlab -> Prop) s l s' : ok s l -> nstep N s l s' -> nrun N ok s [l] s'.
Proof. intros. apply (nr_snoc _ _ _ [] s); [constructor|done|done]. Qed.
Lemma nrun_cons N (ok : nst -> nlab -> Prop) s l s1 ls s2 : ok s l -> nstep N s l s1 -> nrun N ok s1 ls s2 -> nrun N ok s (l :: ls) s2.
Proof. intros H1 H2 H3. apply (nrun_app _ _ _ [l] s1); [by apply nrun_one|done]. Qed.

Lemma finishes_unique run s o1 s1 o2 s2 : finishes run s o1 s1 -> finishes run s o2 s2 -> o1 = o2 /\ s1 = s2.
Proof.
  intros [(f1 & x1 & H1) O1] [(f2 & x2 & H2) O2]. specialize (H1 (f1 + f2) ltac:(lia)). specialize (H2 (f1 + f2) ltac:(lia)).
  rewrite H1 in H2. injection H2 as _ <-. split; [|done]. rewrite O1 in O2. by apply app_inv_head in O2.
Qed.

(** A mail that was sent, with its sender and its encoding. *)
Record post := Post { po_from : nat; po_mail : mail; po_bytes : list byte }.
Section facts.
Context (N : net) (k : kind) (ps : list proc).
Definition zed (p : post) : Z := dest_of (nsess N (po_from p)) (ml_dest (po_mail p)).
Definition wirep (p : post) : list byte := wire_of (zed p) ps (po_bytes p).
Definition letter_of (p : post) : letter := Letter (zed p) (ml_msg (po_mail p)) (po_bytes p).
Definition good (p : post) : Prop :=
  encodes k (ml_msg (po_mail p)) (po_bytes p) /\ decodes k (po_bytes p) (ml_msg (po_mail p)) /\ po_bytes p <> [] /\
  (Z.of_nat (length (po_bytes p)) <= e_mtu (na N) - e_overhead (na N))%Z /\
  (Z.of_nat (length (po_bytes p)) + room ps <= e_mtu (nb N))%Z /\
  (0 <= zed p < 2^32)%Z /\ (existsb resolves ps = true \/ zed p = 0%Z) /\ zed p ∈ e_sessions (nb N).
Definition sent_of (os : list post) : list (nat * mail) := (fun p => (po_from p, po_mail p)) <$> os.
Definition upz (z : Z) (l : list (Z * msg)) : list msg := omap (fun p => if decide (fst p = z) then Some (snd p) else None) l.
Definition forz (z : Z) (os : list post) : list msg := mails_for N z (sent_of os).

Record ninv (ls : list nlab) (s : nst) (os : list post) (i : nat) : Prop := Ninv {
  nv_good : Forall good os;
  nv_sent : forall e, mails_of e (sent_of os) ++ unsent e s = given e ls;
  nv_puts : forall e x, x ∈ unsent e s -> sendable N k ps e x;
  nv_writes : n_writes s = wirep <$> os;
  nv_got : n_got s = length (concat (take i (n_writes s)));
  nv_wire : n_wire s = concat (drop i (n_writes s));
  nv_heard : forall z, heard z s ++ n_rx s z ++ upz z (n_up s) = forz z (take i os);
  nv_idle : caches_idle (nb N) (n_b s);
  nv_le : i <= length os }.

Lemma omap_app' {X Y} (f : X -> option Y) l1 l2 : omap f (l1 ++ l2) = omap f l1 ++ omap f l2.
Proof. apply omap_app. Qed.
Lemma given_app e l1 l2 : given e (l1 ++ l2) = given e l1 ++ given e l2.
Proof. apply omap_app. Qed.
Lemma forz_app z l1 l2 : forz z (l1 ++ l2) = forz z l1 ++ forz z l2.
Proof. unfold forz, mails_for, sent_of. by rewrite fmap_app, omap_app. Qed.
Lemma good_nonempty p : good p -> wirep p <> [].
Proof. intros (_&_&H&_). by apply wire_nonempty. Qed.

Lemma boundary (ws : list (list byte)) i j : Forall (fun w => w <> []) ws ->
  length (concat (take i ws)) = length (concat (take j ws)) -> take i ws = take j ws.
Proof.
  intros H. revert i j. induction H as [|w ws Hw H IH]; intros i j E; [by rewrite !take_nil|].
  destruct i as [|i], j as [|j]; simpl in *; try done.
  - rewrite app_length in E. destruct w; simpl in *; [done|lia].
  - rewrite app_length in E. destruct w; simpl in *; [done|lia].
  - rewrite !app_length in E. f_equal. apply IH. lia.
Qed.
Lemma take_concat j (ws : list (list byte)) : take (length (concat (take j ws))) (concat ws) = concat (take j ws) /\
  drop (length (concat (take j ws))) (concat ws) = concat (drop j ws).
Proof.
  rewrite <- (take_drop j ws) at 2 5. rewrite concat_app. by rewrite take_app, drop_app.
Qed.

Hypothesis (M : matching N k ps).

Lemma send_post p a : good p ->
  exists a', finishes (fun f => send f (na N) (nsess N (po_from p)) (ml_dest (po_mail p)) (Some (nca N)) (Some (ml_msg (po_mail p))) a) a
    [OWire (nca N) (wirep p)] a'.
Proof.
  intros Hp. pose proof (good_nonempty p Hp) as Hne. destruct Hp as (He & _ & Hl & Hfit & _).
  destruct M as (idsA & idsB & preA & preB & WA & WB & PA & PB & Hc & RA & Ac & MA & RB & MB).
  destruct (send_fits (na N) idsA preA k ps (nsess N (po_from p)) (ml_dest (po_mail p)) (nca N) (ml_msg (po_mail p)) (po_bytes p) a)
    as (a' & H & _); try done; [by apply carries_sends|].
  exists a'. rewrite offered_accepts in H by done. done.
Qed.
Lemma shown_good os : Forall good os ->
  concat ((fun x => shown (nb N) (rx_session ps (le_sess x)) (Some (ncb N)) (le_msg x)) <$> (letter_of <$> os)) =
  (fun p => ODeliver (zed p) (Some (ncb N)) (ml_msg (po_mail p))) <$> os.
Proof.
  induction 1 as [|p os Hp _ IH]; [done|]. rewrite !fmap_cons. cbn [concat]. rewrite IH. simpl.
  destruct Hp as (_&_&_&_&_&Hr&He&Hs). rewrite rx_session_same by done. unfold shown. by rewrite decide_True.
Qed.
Lemma receive_posts os b : Forall good os -> caches_idle (nb N) b ->
  (framed ps = false -> length os = 1) -> (Z.of_nat (length (concat (wirep <$> os))) <= e_mtu (nb N))%Z ->
  exists b', finishes (fun f => receive f (nb N) (ncb N) (concat (wirep <$> os)) b) b
    ((fun p => ODeliver (zed p) (Some (ncb N)) (ml_msg (po_mail p))) <$> os) b' /\ caches_idle (nb N) b'.
Proof.
  intros Hg Hid Hj Hlen.
  destruct M as (idsA & idsB & preA & preB & WA & WB & PA & PB & Hc & RA & Ac & MA & RB & MB).
  pose proof (shown_good os Hg) as Hsh.
  destruct (framed ps) eqn:Hf.
  - unfold framed in Hf. destruct (rev ps) as [|p rs] eqn:Hrev; [done|].
    assert (ps = rev rs ++ [p]) as Eps by (rewrite <- (rev_involutive ps), Hrev; done).
    unfold framing in Hf. destruct p as [kk en]. simpl in Hf. destruct kk; try done. subst en.
    destruct (receive_group (nb N) idsB preB k (rev rs) capacity (ncb N) (letter_of <$> os) b) as (b' & H & Hid'); try done.
    + by rewrite <- Eps.
    + rewrite Eps in Hc. by apply Forall_app in Hc as [? _].
    + apply Forall_fmap. eapply Forall_impl; [exact Hg|]. intros x (?&?&?&?). simpl. auto.
    + rewrite <- Eps. rewrite <- list_fmap_compose. exact Hlen.
    + exists b'. split; [|done]. rewrite <- Hsh. rewrite <- Eps in H. rewrite <- !list_fmap_compose in *.
      assert (rx_session ps = rx_session (rev rs)) as ->; [|exact H]. unfold rx_session. rewrite Eps, existsb_app. simpl.
      by rewrite !orb_false_r.
  - specialize (Hj eq_refl). destruct os as [|p [|]]; try done. inversion Hg as [|? ? Hp _]; subst.
    destruct Hp as (He & Hd & Hl & _ & _ & Hp). simpl in Hlen. rewrite app_nil_r in Hlen.
    destruct (receive_wire (nb N) idsB preB k ps (zed p) (ncb N) (ml_msg (po_mail p)) (po_bytes p) b) as (b' & H & Hid' & _); try done.
    exists b'. split; [|done]. rewrite <- Hsh. simpl. rewrite !app_nil_r. exact H.
Qed.

Lemma deliver_posts os : delivered ((fun p => ODeliver (zed p) (Some (ncb N)) (ml_msg (po_mail p))) <$> os) =
  (fun p => (zed p, ml_msg (po_mail p))) <$> os.
Proof. induction os as [|p os IH]; [done|]. rewrite !fmap_cons. unfold delivered in *. simpl. by f_equal. Qed.
Lemma upz_posts z os : upz z ((fun p => (zed p, ml_msg (po_mail p))) <$> os) = forz z os.
Proof.
  induction os as [|p os IH]; [done|]. unfold upz, forz, mails_for, sent_of in *. simpl. fold (zed p).
  case_decide; simpl; [f_equal|]; apply IH.
Qed.

Lemma ninv_step ls s os i l s' : ninv ls s os i -> whole_read (framed ps) s l ->
  (forall e x, l = NPut e x -> sendable N k ps e x) -> nstep N s l s' ->
  exists os' i', ninv (ls ++ [l]) s' os' i'.
Proof.
  intros I Hok Hput Hst.
  destruct Hst as [tx hd a w b up rx sn ws g e x Hlt|tx hd a w b up rx sn ws g e x q Hh Htx
    |tx hd a w b up rx sn ws g e x outs a' Hh Hf|tx hd a w b rx sn ws g n outs b' H0 Hn Hm Hf
    |tx hd a w b z m up rx sn ws g Hlt|tx hd a w b up rx sn ws g z m q Hrx];
    destruct I as [I1 I2 I3 I4 I5 I6 I7 I8 I9]; simpl in I4, I5, I6, I7, I8.
  - exists os, i. split; try done.
    + intros y. rewrite given_app, <- I2. unfold unsent. simpl. rewrite <- !app_assoc. f_equal. f_equal.
      destruct (decide (y = e)) as [->|Hy].
      * rewrite fn_lookup_insert, decide_True by done. done.
      * rewrite fn_lookup_insert_ne, decide_False by done. by rewrite app_nil_r.
    + intros y z Hz. unfold unsent in Hz. simpl in Hz. apply elem_of_app in Hz as [Hz|Hz].
      { apply I3. unfold unsent. apply elem_of_app. by left. }
      destruct (decide (y = e)) as [->|Hy].
      * rewrite fn_lookup_insert in Hz. apply elem_of_app in Hz as [Hz|Hz].
        -- apply I3. unfold unsent. apply elem_of_app. by right.
        -- apply elem_of_list_singleton in Hz as ->. by apply Hput.
      * rewrite fn_lookup_insert_ne in Hz by done. apply I3. unfold unsent. apply elem_of_app. by right.
  - assert (forall y, unsent y (Nst (<[e := q]> tx) (<[e := Some x]> hd) a w b up rx sn ws g) =
                      unsent y (Nst tx hd a w b up rx sn ws g)) as Hun.
    { intros y. unfold unsent. simpl. destruct (decide (y = e)) as [->|Hy].
      - rewrite !fn_lookup_insert, Hh, Htx. done.
      - by rewrite !fn_lookup_insert_ne. }
    exists os, i. split; try done.
    + intros y. rewrite given_app, <- I2, Hun. by rewrite app_nil_r.
    + intros y z. rewrite Hun. apply I3.
  - destruct (I3 e x) as (l & Hl); [unfold unsent; simpl; rewrite Hh; by left|].
    set (p := Post e x l). assert (good p) as Hg by exact Hl.
    destruct (send_post p a Hg) as (a2 & Hf2). destruct (finishes_unique _ _ _ _ _ _ Hf Hf2) as [-> ->].
    assert (written (nca N) [OWire (nca N) (wirep p)] = [wirep p]) as Ew.
    { unfold written. simpl. by rewrite decide_True. }
    rewrite Ew. simpl. rewrite app_nil_r.
    exists (os ++ [p]), i. split.
      * apply Forall_app. split; [done|by constructor].
      * intros y. rewrite given_app, <- I2, app_nil_r. unfold sent_of. rewrite fmap_app. unfold mails_of. rewrite omap_app.
        rewrite <- app_assoc. f_equal. unfold unsent. simpl. destruct (decide (y = e)) as [->|Hy].
        -- rewrite decide_True, fn_lookup_insert, Hh by done. done.
        -- rewrite decide_False, fn_lookup_insert_ne by done. done.
      * intros y z Hz. apply I3. unfold unsent in *. simpl in *. apply elem_of_app in Hz as [Hz|Hz].
        -- destruct (decide (y = e)) as [->|Hy].
           ++ rewrite fn_lookup_insert in Hz. by apply elem_of_nil in Hz.
           ++ rewrite fn_lookup_insert_ne in Hz by done. apply elem_of_app. by left.
        -- apply elem_of_app. by right.
      * simpl. by rewrite I4, fmap_app.
      * simpl. rewrite I5. rewrite take_app_le; [done|]. by rewrite I4, fmap_length.
      * simpl. rewrite I6. rewrite drop_app_le by (by rewrite I4, fmap_length). rewrite concat_app. simpl. by rewrite app_nil_r.
      * simpl. intros z. rewrite take_app_le by done. apply I7.
      * done.
      * rewrite app_length. lia.
  - destruct Hok as (i' & j & Hi & Hj & Hj1). simpl in Hi, Hj.
    assert (Forall (fun w => w <> []) ws) as Hne.
    { rewrite I4. apply Forall_fmap. eapply Forall_impl; [exact I1|]. intros p. apply good_nonempty. }
    assert (take i' ws = take i ws) as Et by (apply boundary; [done|congruence]).
    assert (drop i' ws = drop i ws) as Ed.
    { pose proof (take_drop i ws) as E1. pose proof (take_drop i' ws) as E2. rewrite Et in E2.
      apply (app_inv_head (take i ws)). congruence. }
    rewrite Ed in Hj. destruct (take_concat j (drop i ws)) as [T1 T2]. rewrite <- Hj, <- I6 in T1, T2.
    set (ls' := take j (drop i os)).
    assert (take j (drop i ws) = wirep <$> ls') as El by (unfold ls'; by rewrite I4, <- fmap_drop, <- fmap_take).
    assert (Forall good ls') as Hgl by (unfold ls'; by apply Forall_take, Forall_drop).
    assert (0 < length ls') as Hpos.
    { destruct ls' eqn:E; [|simpl; lia]. rewrite El in Hj. simpl in Hj. lia. }
    destruct (receive_posts ls' b Hgl I8) as (b2 & Hf2 & Hid2).
    { intros Hfr. specialize (Hj1 Hfr). subst j. unfold ls' in *. rewrite take_length in *. lia. }
    { rewrite <- El, <- Hj. done. }
    rewrite T1, El in Hf. destruct (finishes_unique _ _ _ _ _ _ Hf Hf2) as [-> ->].
    exists os, (i + length ls'). rewrite deliver_posts.
    assert (j <= length (drop i os) -> length ls' = j) as Hlj by (intros; unfold ls'; rewrite take_length; lia).
    assert (take (length ls') (drop i os) = ls') as Etl.
    { unfold ls'. rewrite take_length. destruct (decide (j <= length (drop i os))).
      - by rewrite Nat.min_l.
      - rewrite Nat.min_r by lia. rewrite !take_ge by lia. done. }
    assert (drop (length ls') (drop i ws) = drop j (drop i ws) /\ take (length ls') (drop i ws) = take j (drop i ws)) as [Ed' Et'].
    { unfold ls'. rewrite take_length. assert (length (drop i ws) = length (drop i os)) as Ll by (by rewrite !drop_length, I4, fmap_length).
      destruct (decide (j <= length (drop i os))).
      - by rewrite Nat.min_l.
      - rewrite Nat.min_r by lia. rewrite !drop_ge by lia. by rewrite !take_ge by lia. }
    split; try done.
    + intros y. rewrite given_app, <- I2. by rewrite app_nil_r.
    + simpl. rewrite I5, Hj. rewrite <- take_take_drop, concat_app, app_length. by rewrite Et'.
    + simpl. rewrite <- drop_drop, Ed'. done.
    + simpl. intros z. rewrite upz_posts. rewrite <- take_take_drop, forz_app, Etl, <- I7. simpl. rewrite app_nil_r. by rewrite app_assoc.
    + pose proof (take_length (drop i os) (length ls')) as L. rewrite Etl in L. rewrite drop_length in L. lia.
  - exists os, i. split; try done.
    + intros y. rewrite given_app, <- I2. by rewrite app_nil_r.
    + simpl. intros y. rewrite <- I7. f_equal. unfold upz. simpl. destruct (decide (z = y)) as [->|Hy].
      * rewrite fn_lookup_insert, <- app_assoc. done.
      * by rewrite fn_lookup_insert_ne.
  - exists os, i. split; try done.
    + intros y. rewrite given_app, <- I2. by rewrite app_nil_r.
    + simpl. intros y. rewrite <- I7. unfold heard. simpl. rewrite omap_app. simpl. destruct (decide (z = y)) as [->|Hy].
      * rewrite fn_lookup_insert, Hrx, <- app_assoc. done.
      * rewrite fn_lookup_insert_ne by done. by rewrite app_nil_r.
Qed.

Lemma ninv_start a b : caches_idle (nb N) b -> ninv [] (new_net a b) [] 0.
Proof. intros H. split; try done. intros e x Hx. by apply elem_of_nil in Hx. Qed.
Lemma ninv_run ls0 s os i ls s' : ninv ls0 s os i -> nrun N (whole_read (framed ps)) s ls s' -> all_sendable N k ps ls ->
  exists os' i', ninv (ls0 ++ ls) s' os' i'.
Proof.
  intros I H. induction H as [|ls s1 l s2 H IH Hok Hst]; intros Hs; [rewrite app_nil_r; eauto|].
  destruct IH as (os1 & i1 & I1); [intros e x Hx; apply Hs, elem_of_app; by left|].
  rewrite app_assoc. eapply ninv_step; [done|done| |done]. intros e x ->. apply Hs, elem_of_app. right. by left.
Qed.
Lemma ninv_reach a b ls s : caches_idle (nb N) b -> nrun N (whole_read (framed ps)) (new_net a b) ls s -> all_sendable N k ps ls ->
  exists os i, ninv ls s os i.
Proof. intros H1 H2 H3. destruct (ninv_run [] _ _ _ _ _ (ninv_start a b H1) H2 H3) as (os & i & I). eauto. Qed.

Lemma net_in_order a b ls s : caches_idle (nb N) b -> nrun N (whole_read (framed ps)) (new_net a b) ls s -> all_sendable N k ps ls ->
  exists o, (forall e, mails_of e o ++ unsent e s = given e ls) /\
    forall z, exists rest, heard z s ++ rest = mails_for N z o /\ (settled s -> rest = []).
Proof.
  intros H1 H2 H3. destruct (ninv_reach _ _ _ _ H1 H2 H3) as (os & i & I). exists (sent_of os).
  split; [apply I|]. intros z. destruct I as [I1 I2 I3 I4 I5 I6 I7 I8 I9].
  exists (n_rx s z ++ upz z (n_up s) ++ forz z (drop i os)). split.
  - fold (forz z os). rewrite <- (take_drop i os) at 2. rewrite forz_app, <- I7. by rewrite <- !app_assoc.
  - intros (Hw & Hu & Hr). rewrite Hr, Hu. simpl. rewrite Hw in I6.
    assert (drop i os = []) as ->; [|done]. destruct (drop i os) as [|p l] eqn:E; [done|].
    rewrite I4, <- fmap_drop, E in I6. simpl in I6. symmetry in I6. apply app_eq_nil in I6 as [I6 _].
    exfalso. apply (good_nonempty p); [|done]. apply (Forall_drop _ i) in I1. rewrite E in I1. by inversion I1.
Qed.

(** ** It can always go on *)
Notation run := (nrun N (whole_read (framed ps))).
Lemma listen_all s z : exists ms s', run s ms s' /\ Forall inner ms /\ n_rx s' z = [] /\
  (forall y, n_rx s y = [] -> n_rx s' y = []) /\ n_up s' = n_up s /\ n_wire s' = n_wire s /\ n_tx s' = n_tx s /\ n_hand s' = n_hand s.
Proof.
  remember (n_rx s z) as q eqn:E. revert s E. induction q as [|m q IH]; intros s E.
  - exists [], s. split; [constructor|]. split; [constructor|]. by rewrite <- E.
  - destruct s as [tx hd a w b up rx sn ws g]. simpl in E.
    destruct (IH (Nst tx hd a w b up (<[z := q]> rx) (sn ++ [(z, m)]) ws g)) as (ms & s' & H1 & H2 & H3 & H4 & H5).
    { simpl. by rewrite fn_lookup_insert. }
    exists (NListen z :: ms), s'. split; [eapply nrun_cons; [done|by apply nk_listen|done]|]. split; [by constructor|].
    split; [done|]. split; [|done]. intros y Hy. apply H4. simpl in *. destruct (decide (y = z)) as [->|Hn]; [congruence|].
    by rewrite fn_lookup_insert_ne.
Qed.
Lemma deliver_all s : 0 < nrxcap N -> exists ms s', run s ms s' /\ Forall inner ms /\ n_up s' = [] /\
  n_wire s' = n_wire s /\ n_tx s' = n_tx s /\ n_hand s' = n_hand s.
Proof.
  intros Hc. remember (n_up s) as u eqn:E. revert s E. induction u as [|[z m] u IH]; intros s E.
  - exists [], s. split; [constructor|]. split; [constructor|done].
  - destruct (listen_all s z) as (ms1 & s1 & R1 & F1 & E1 & _ & U1 & W1 & T1 & D1).
    destruct s1 as [tx hd a w b up rx sn ws g]. simpl in *. rewrite U1, <- E in *.
    destruct (IH (Nst tx hd a w b u (<[z := rx z ++ [m]]> rx) sn ws g)) as (ms2 & s2 & R2 & F2 & E2 & W2 & T2 & D2); [done|].
    exists (ms1 ++ NDeliver :: ms2), s2. split.
    { eapply nrun_app; [done|]. eapply nrun_cons; [done| |done]. apply nk_deliver. rewrite E1. simpl. lia. }
    split; [apply Forall_app; split; [done|by constructor]|]. split; [done|]. simpl in *. by rewrite W2, T2, D2.
Qed.
Lemma listen_everybody (zs : list Z) s : exists ms s', run s ms s' /\ Forall inner ms /\ (forall z, z ∈ zs \/ n_rx s z = [] -> n_rx s' z = []) /\
  n_up s' = n_up s /\ n_wire s' = n_wire s /\ n_tx s' = n_tx s /\ n_hand s' = n_hand s.
Proof.
  revert s. induction zs as [|z zs IH]; intros s.
  - exists [], s. split; [constructor|]. split; [constructor|]. split; [|done]. intros z [Hz|Hz]; [by apply elem_of_nil in Hz|done].
  - destruct (listen_all s z) as (ms1 & s1 & R1 & F1 & E1 & K1 & U1 & W1 & T1 & D1).
    destruct (IH s1) as (ms2 & s2 & R2 & F2 & K2 & U2 & W2 & T2 & D2).
    exists (ms1 ++ ms2), s2. split; [by eapply nrun_app|]. split; [by apply Forall_app|]. split; [|split_and!; congruence].
    intros y [Hy|Hy]; [|apply K2; right; by apply K1]. apply elem_of_cons in Hy as [->|Hy]; apply K2; [by right|by left].
Qed.
Lemma put_free ms : Forall inner ms -> all_sendable N k ps ms.
Proof. intros H e x Hx. rewrite Forall_forall in H. by apply H in Hx. Qed.
Lemma given_inner e ms : Forall inner ms -> given e ms = [].
Proof. induction 1 as [|l ms Hl _ IH]; [done|]. destruct l; done || apply IH. Qed.
Lemma ninv_inner ls s os i ms s' : ninv ls s os i -> run s ms s' -> Forall inner ms -> exists os' i', ninv (ls ++ ms) s' os' i'.
Proof. intros I H F. eapply ninv_run; [done|done|by apply put_free]. Qed.

(** Read everything that is under way. *)
Lemma read_all n ls s os i : 0 < nrxcap N -> ninv ls s os i -> length (n_wire s) <= n ->
  exists ms s', run s ms s' /\ Forall inner ms /\ n_wire s' = [] /\ n_up s' = [] /\ n_tx s' = n_tx s /\ n_hand s' = n_hand s.
Proof.
  intros Hc. revert ls s os i. induction n as [|n IH]; intros ls s os i I Hn.
  all: destruct (deliver_all s Hc) as (ms1 & s1 & R1 & F1 & U1 & W1 & T1 & D1).
  { exists ms1, s1. split_and!; try done. rewrite W1. by destruct (n_wire s); simpl in Hn; [|lia]. }
  destruct (n_wire s) as [|w0 wr] eqn:Ew; [exists ms1, s1; by split_and!|].
  destruct (ninv_inner _ _ _ _ _ _ I R1 F1) as (os1 & i1 & I1). pose proof I1 as [J1 J2 J3 J4 J5 J6 J7 J8 J9].
  destruct (drop i1 os1) as [|p l] eqn:E.
  { rewrite W1, J4, <- fmap_drop, E in J6. done. }
  assert (good p) as Hp by (apply (Forall_drop _ i1) in J1; rewrite E in J1; by inversion J1).
  assert (drop i1 (n_writes s1) = wirep p :: (wirep <$> l)) as Ed by (by rewrite J4, <- fmap_drop, E).
  pose proof (good_nonempty p Hp) as Hne.
  assert (Z.of_nat (length (wirep p)) <= e_mtu (nb N))%Z as Hm by (apply wire_length_room; apply Hp).
  destruct (receive_posts [p] (n_b s1)) as (b' & Hf & Hid); [by constructor|done|done|simpl; by rewrite app_nil_r|].
  simpl in Hf. rewrite app_nil_r in Hf.
  assert (n_wire s1 = wirep p ++ concat (wirep <$> l)) as Ew1 by (rewrite J6, Ed; done).
  assert (0 < length (wirep p)) as Hpos by (destruct (wirep p); simpl; [done|lia]).
  assert (whole_read (framed ps) s1 (NRead (length (wirep p)))) as Hok.
  { exists i1, 1. split; [done|]. split; [|done]. rewrite Ed. simpl. by rewrite app_nil_r. }
  destruct s1 as [tx hd a w b up rx sn ws g]. simpl in *. subst up.
  assert (nstep N (Nst tx hd a w b [] rx sn ws g) (NRead (length (wirep p)))
    (Nst tx hd a (drop (length (wirep p)) w) b' (delivered [ODeliver (zed p) (Some (ncb N)) (ml_msg (po_mail p))]) rx sn ws (g + length (wirep p)))) as Hst.
  { apply nk_read; [done|rewrite Ew1, app_length; lia|done|]. rewrite Ew1, take_app. done. }
  destruct (ninv_step _ _ _ _ (NRead (length (wirep p))) _ I1 Hok ltac:(done) Hst) as (os2 & i2 & I2).
  destruct (IH _ _ _ _ I2) as (ms2 & s2 & R2 & F2 & W2 & U2 & T2 & D2).
  { simpl. rewrite drop_length, W1. cbn [length]. lia. }
  exists (ms1 ++ NRead (length (wirep p)) :: ms2), s2. split; [eapply nrun_app; [done|]; by eapply nrun_cons|].
  split; [apply Forall_app; split; [done|by constructor]|]. split; [done|]. split; [done|]. simpl in *. split; congruence.
Qed.
(** Send everything [e] has to send. *)
Lemma send_all n e ls s os i : ninv ls s os i -> length (unsent e s) <= n ->
  exists ms s', run s ms s' /\ Forall inner ms /\ unsent e s' = [] /\ forall y, y <> e -> unsent y s' = unsent y s.
Proof.
  revert ls s os i. induction n as [|n IH]; intros ls s os i I Hn.
  { exists [], s. split; [constructor|]. split; [constructor|]. split; [|done]. by destruct (unsent e s); simpl in Hn; [|lia]. }
  destruct (unsent e s) as [|x q] eqn:Eu.
  { exists [], s. split; [constructor|]. by split; [constructor|]. }
  assert (exists ms s1, run s ms s1 /\ Forall inner ms /\ n_hand s1 e = Some x /\ n_tx s1 e = q /\
    forall y, y <> e -> unsent y s1 = unsent y s) as (ms1 & s1 & R1 & F1 & H1 & T1 & K1).
  { destruct s as [tx hd a w b up rx sn ws g]. unfold unsent in *. simpl in *. destruct (hd e) as [x'|] eqn:Eh.
    - simpl in Eu. injection Eu as -> <-. eexists [], _. split; [constructor|]. split; [constructor|]. by simpl.
    - eexists [NTake e], _. split; [apply nrun_one; [done|by apply nk_take]|]. split; [by repeat constructor|].
      simpl. rewrite !fn_lookup_insert. split; [done|]. split; [done|]. intros y Hy. by rewrite !fn_lookup_insert_ne. }
  destruct (ninv_inner _ _ _ _ _ _ I R1 F1) as (os1 & i1 & I1).
  destruct (nv_puts _ _ _ _ I1 e x) as (l & Hl); [unfold unsent; rewrite H1; by left|].
  set (p := Post e x l). assert (good p) as Hg by exact Hl.
  destruct s1 as [tx hd a w b up rx sn ws g]. simpl in H1, T1.
  destruct (send_post p a Hg) as (a2 & Hf2).
  pose proof (nk_pass N tx hd a w b up rx sn ws g e x _ a2 H1 Hf2) as Hst.
  destruct (ninv_step _ _ _ _ (NPass e) _ I1 ltac:(done) ltac:(done) Hst) as (os2 & i2 & I2).
  destruct (IH _ _ _ _ I2) as (ms2 & s2 & R2 & F2 & U2 & K2).
  { unfold unsent. simpl. rewrite fn_lookup_insert, T1. simpl in *. lia. }
  exists (ms1 ++ NPass e :: ms2), s2. split; [eapply nrun_app; [done|]; by eapply nrun_cons|].
  split; [apply Forall_app; split; [done|by constructor]|]. split; [done|].
  intros y Hy. rewrite K2, <- K1 by done. unfold unsent. simpl. by rewrite fn_lookup_insert_ne.
Qed.
Lemma send_everybody (es : list nat) ls s os i : ninv ls s os i ->
  exists ms s', run s ms s' /\ Forall inner ms /\ forall y, y ∈ es \/ unsent y s = [] -> unsent y s' = [].
Proof.
  revert ls s os i. induction es as [|e es IH]; intros ls s os i I.
  - exists [], s. split; [constructor|]. split; [constructor|]. intros y [Hy|Hy]; [by apply elem_of_nil in Hy|done].
  - destruct (send_all _ e _ _ _ _ I (le_n _)) as (ms1 & s1 & R1 & F1 & U1 & K1).
    destruct (ninv_inner _ _ _ _ _ _ I R1 F1) as (os1 & i1 & I1).
    destruct (IH _ _ _ _ I1) as (ms2 & s2 & R2 & F2 & U2).
    exists (ms1 ++ ms2), s2. split; [by eapply nrun_app|]. split; [by apply Forall_app|].
    intros y Hy. apply U2. destruct (decide (y = e)) as [->|Hn]; [by right|]. rewrite K1 by done.
    destruct Hy as [Hy|Hy]; [|by right]. apply elem_of_cons in Hy as [->|Hy]; [done|by left].
Qed.
Lemma nobody_listens z os : Forall good os -> z ∉ e_sessions (nb N) -> forz z os = [].
Proof.
  induction 1 as [|p os Hp _ IH]; intros Hz; [done|]. unfold forz, mails_for, sent_of in *. simpl. fold (zed p).
  rewrite decide_False; [by apply IH|]. intros <-. apply Hz, Hp.
Qed.
Lemma net_finishes a b ls s : 0 < nrxcap N -> caches_idle (nb N) b -> run (new_net a b) ls s -> all_sendable N k ps ls ->
  exists ms s', run s ms s' /\ Forall inner ms /\ settled s' /\ all_sent s'.
Proof.
  intros Hc H1 H2 H3. destruct (ninv_reach _ _ _ _ H1 H2 H3) as (os & i & I).
  set (es := omap (fun l => match l with NPut e _ => Some e | _ => None end) ls).
  destruct (send_everybody es _ _ _ _ I) as (ms1 & s1 & R1 & F1 & U1).
  destruct (ninv_inner _ _ _ _ _ _ I R1 F1) as (os1 & i1 & I1).
  destruct (read_all _ _ _ _ _ Hc I1 (le_n _)) as (ms2 & s2 & R2 & F2 & W2 & P2 & T2 & D2).
  destruct (ninv_inner _ _ _ _ _ _ I1 R2 F2) as (os2 & i2 & I2).
  destruct (listen_everybody (e_sessions (nb N)) s2) as (ms3 & s3 & R3 & F3 & K3 & P3 & W3 & T3 & D3).
  exists (ms1 ++ ms2 ++ ms3), s3. split; [eapply nrun_app; [done|by eapply nrun_app]|].
  split; [apply Forall_app; split; [done|by apply Forall_app]|]. split.
  - split; [congruence|]. split; [congruence|]. intros z. apply K3. destruct (decide (z ∈ e_sessions (nb N))) as [Hz|Hz]; [by left|right].
    pose proof (nv_heard _ _ _ _ I2 z) as E. rewrite nobody_listens in E; [|apply Forall_take, I2|done].
    apply app_eq_nil in E as [_ E]. by apply app_eq_nil in E as [E _].
  - intros e. assert (unsent e s1 = []) as E; [|unfold unsent in *; by rewrite D3, D2, T3, T2].
    apply U1. destruct (decide (e ∈ es)) as [He|He]; [by left|right].
    pose proof (nv_sent _ _ _ _ I e) as E. assert (given e ls = []) as E'; [|rewrite E' in E; by apply app_eq_nil in E as [_ E]].
    apply elem_of_nil_inv. intros x Hx. apply He. unfold given in Hx. apply elem_of_list_omap in Hx as (l & Hl & Ex).
    apply elem_of_list_omap. exists l. split; [done|]. destruct l; try done. case_decide; congruence.
Qed.
End facts.

(** ** A frame that is read without its last four bytes *)
Lemma last_handles E i up c fr K w rest so so' o vs cap en :
  handles E up c w so so' o vs fr K -> i ∉ fr -> e_procs E !! i = Some (Proc (KFrame cap) en) ->
  length rest = 4 -> (Z.of_nat (length (frame (w ++ rest))) < 2^32)%Z -> stable_at i K ->
  handles E (fun x s => match cx_buf x with Some ub => frame_recv i up x s ub | None => None end)
    c (digits BE W32 (Z.of_nat (length (w ++ rest))) ++ w) so so' o vs (i :: fr) K.
Proof.
  intros Hh Hi Hp Hrest Hlen Hst x s b Hc Hb W R Hso Hidle HK. rewrite Hb. unfold frame_recv.
  destruct (Hidle i cap en) as (k & cc & Hk & Ecc & Ik); [set_solver|done|]. rewrite Ecc.
  destruct (idle_wf k cc Ik) as (Wc & Rc & Tc). pose proof (readable_length cc Wc) as Lc. rewrite Rc in Lc.
  simpl in Lc. rewrite <- Lc. cbn [Nat.ltb Nat.leb].
  rewrite frame_length in Hlen. rewrite app_length in Hlen.
  pose proof (readable_length b W) as Lb. rewrite R, app_length, digits_length in Lb. change (wbytes W32) with 4 in Lb.
  cbn [frame_cur]. rewrite Ecc. pose proof (cur_step_spec cc b Wc W ltac:(lia)) as S. cbv zeta in S. rewrite R in S.
  rewrite digits_announced in S by (rewrite app_length; lia).
  rewrite !app_length, digits_length in S. change (wbytes W32) with 4 in S. rewrite Hrest in S.
  destruct ((4 + length w <? 4) || (Z.of_nat (4 + length w) <? Z.of_nat (length w + 4))%Z) eqn:E1.
  { apply orb_true_iff in E1 as [E1|E1]; [cleq; lia|]. apply Z.ltb_lt in E1. lia. }
  destruct (Z.of_nat (length w + 4) =? Z.of_nat (4 + length w))%Z eqn:E2; [|apply Z.eqb_neq in E2; lia].
  destruct S as (u' & -> & Wu & Ru).
  assert (drop 4 (digits BE W32 (Z.of_nat (length w + 4)) ++ w) = w) as Hd.
  { pose proof (digits_length BE W32 (Z.of_nat (length w + 4))) as L. change (wbytes W32) with 4 in L.
    rewrite <- L at 1. by rewrite drop_app. }
  rewrite Hd in Ru.
  destruct (Hh (set_buf x (Some u')) (set_cache s i cc) u') as (x1 & s1 & -> & Hc1 & Hso1 & O1 & V1 & Id1 & K1 & C1); try done.
  { intros j cap' en' Hj Hj'. rewrite cache_set_other by (intros ->; done). apply (Hidle j cap' en'); set_solver. }
  { eapply Hst; [|exact HK]. intros j Hj. by apply ps_set_cache. }
  assert (cache_of s1 i = Some cc) as Ecc1 by (rewrite C1 by done; by rewrite (cache_set_same _ _ _ cc)).
  rewrite Ecc1.
  destruct (frame_cached_idle i up k cc (S (v_rlen cc)) x1 s1) as (c2 & -> & I2); [lia|done|done|].
  eexists _, _. split; [done|]. rewrite out_set_cache, visits_set_cache.
  rewrite out_set_cache in O1. rewrite visits_set_cache in V1. split_and!; try done.
  - intros j cap' en' Hj Hj'. destruct (decide (i = j)) as [->|Hne].
    + exists k, c2. by rewrite (cache_set_same _ _ _ cc).
    + rewrite cache_set_other by done. apply (Id1 j cap' en'); [set_solver|done].
  - eapply Hst; [|exact K1]. intros j Hj. by apply ps_set_cache.
  - intros j Hj. rewrite cache_set_other by set_solver. rewrite C1 by set_solver. rewrite cache_set_other; [done|]. set_solver.
Qed.

Lemma put_prefix z p : framing p = false -> exists h, forall l, StackSpec.put z p l = h ++ l.
Proof.
  intros H. unfold StackSpec.put, framing in *. destruct (p_kind p); try (by exists []).
  - rewrite H. by exists [].
  - by exists [0%Z].
  - eexists [_]. done.
  - destruct (p_enable p); [by eexists|by exists []].
  - by exists [0%Z].
Qed.
Lemma put_prefixes z rs : Forall (fun p => framing p = false) rs -> exists h, forall l, foldr (StackSpec.put z) l rs = h ++ l.
Proof.
  induction 1 as [|p rs Hp _ (h & IH)]; [by exists []|]. destruct (put_prefix z p Hp) as (h1 & H1).
  exists (h1 ++ h). intros l. simpl. by rewrite H1, IH, app_assoc.
Qed.

Lemma receive_cut B ids pre k ps cap c z m l s :
  wired B ids (pre ++ Proc k true :: ps ++ [Proc (KFrame cap) true]) ->
  Forall (fun p => passes_message p = true) pre -> Forall (fun p => carries p = true) ps ->
  Forall (fun p => framing p = false) ps ->
  e_isref B c = false -> (e_mtu B < 2^32)%Z -> caches_idle B s ->
  4 < length l -> decodes k (take (length l - 4) l) m ->
  let w := wire_of z (ps ++ [Proc (KFrame cap) true]) l in
  (Z.of_nat (length w) <= e_mtu B)%Z ->
  exists s', finishes (fun f => receive f B c (take (length w - 4) w) s) s
    (shown B (rx_session ps z) (Some c) m) s' /\ caches_idle B s'.
Proof.
  intros W Hpre Hps Hnf Hr Hm Hid Hl Hdec w Hlen.
  destruct (wired_split1 _ _ _ _ _ W) as (a & i & b & -> & La & Lb).
  destruct (wired_above _ _ _ _ _ _ _ W La) as (q1 & Hu1 & Hp1).
  destruct (wired_up_to _ _ _ _ _ _ _ W La) as (q & Hq & Hp).
  pose proof (wired_at _ _ _ _ _ _ _ W La) as Hi.
  pose proof (wired_nodup _ _ _ W) as N.
  rewrite rev_unit in Hp. inversion Hp as [|n is p rs q2 Hn Hup Hp2 Eq1 Eq2]; subst.
  assert (Nb : NoDup (n :: is)).
  { rewrite Eq2. apply NoDup_app in N as (_ & _ & N). apply NoDup_cons in N as [_ N]. by apply nodup_rev. }
  apply NoDup_cons in Nb as [Nb1 Nb2].
  destruct (put_prefixes z (rev ps)) as (h & Hh0); [by apply Forall_rev|].
  set (l' := take (length l - 4) l) in *. set (rest := drop (length l - 4) l).
  assert (l = l' ++ rest) as El by (symmetry; apply take_drop).
  assert (length rest = 4) as Lrest by (unfold rest; rewrite drop_length; lia).
  assert (l' <> []) as Hl'. { intros E. apply (f_equal length) in E. unfold l' in E. rewrite take_length in E. simpl in E. lia. }
  set (v := foldr (StackSpec.put z) l' (rev ps)).
  assert (w = frame (v ++ rest)) as Ew.
  { unfold w. rewrite wire_of_app. cbn [wire_of foldl]. unfold StackSpec.put at 1. simpl. rewrite wire_of_rev, Hh0. unfold v.
    rewrite Hh0, <- app_assoc. by rewrite <- El. }
  assert (take (length w - 4) w = digits BE W32 (Z.of_nat (length (v ++ rest))) ++ v) as Et.
  { rewrite Ew. unfold frame. rewrite app_assoc. rewrite app_length, Lrest.
    replace (_ + 4 - 4) with (length (digits BE W32 (Z.of_nat (length (v ++ rest))) ++ v)) by lia. by rewrite take_app. }
  assert (Z.of_nat (length v) < 2^32)%Z as Lv.
  { rewrite Ew, frame_length, app_length in Hlen. lia. }
  assert (Hh := top_handles B i k (rev a) (rev pre) q1 c l' m (sess_after (rev ps) z None) (S (length pre)) Hi Hu1 Hp1).
  specialize (Hh ltac:(by apply Forall_rev) Hdec Hl' ltac:(rewrite rev_length; lia)).
  eapply (up_path B (PProc i) q2 is (rev ps)) with (sess := z) (so := None) in Hh; try done;
    [|by apply Forall_rev|by rewrite app_nil_r].
  rewrite app_nil_r in Hh. fold v in Hh.
  pose proof (last_handles B n _ c is _ v rest None _ _ _ cap true Hh Nb1 Hn Lrest) as Hf.
  rewrite <- Ew in Hf. specialize (Hf ltac:(lia) ltac:(done)). rewrite <- Et in Hf.
  assert (handles B (exec (S (length is + S (S (length pre)))) B Up (Some (PProc n))) c (take (length w - 4) w) None
    (sess_after (rev ps) z None) (fun _ => shown B (option_int (sess_after (rev ps) z None) 0) (Some c) m)
    ((n, Up) :: (((fun i => (i, Up)) <$> is) ++ ((fun i => (i, Up)) <$> i :: rev a))) (n :: is) (fun _ => True)) as Hg.
  { intros x s0 b0 Hc Hb W0 R0 Hso Hid0 _. cbn [exec]. rewrite Hn, Hup. cbn [p_enable p_kind].
    unfold on_lower, by_reference, with_buf. rewrite Hc, Hr, Hb.
    destruct (Hf x (visit s0 n Up x) b0) as (x' & s' & E' & H1 & H2 & H3 & H4 & H5 & H6 & H7); try done.
    rewrite Hb in E'. exists x', s'. split_and!; try done. rewrite H4. simpl. rewrite fmap_app. simpl.
    by rewrite <- app_assoc. }
  destruct (receive_handles B (PProc n) c (take (length w - 4) w) s _ _ _ _ _ _ Hq Hg) as (s' & Hfin & Hid' & _); try done.
  { rewrite take_length. lia. }
  exists s'. split; [|done]. 
  assert (option_int (sess_after (rev ps) z None) 0 = rx_session ps z) as <-; [|exact Hfin].
  rewrite <- rx_session_rev. unfold sess_after, rx_session. by destruct (existsb resolves (rev ps)).
Qed.

Lemma net_cut N k qs cap e x l m a b : matching N k (qs ++ [Proc (KFrame cap) true]) ->
  Forall (fun p => framing p = false) qs -> caches_idle (nb N) b -> 0 < ntxcap N -> 0 < nrxcap N ->
  sendable_as N k (qs ++ [Proc (KFrame cap) true]) e x l -> 4 < length l -> decodes k (take (length l - 4) l) m ->
  let z := dest_of (nsess N e) (ml_dest x) in
  exists n s, nrun N any_read (new_net a b) [NPut e x; NTake e; NPass e; NRead n; NDeliver; NListen z] s /\ heard z s = [m].
Proof.
  intros M Hnf Hid Ht Hr Hx Hl Hdec z.
  set (ps := qs ++ [Proc (KFrame cap) true]) in *. set (p := Post e x l).
  destruct (send_post N k ps M p a Hx) as (a' & Hsend). set (w := wirep N ps p) in *.
  destruct Hx as (He & _ & Hne & Hfit & Hroom & Hz & Hres & Hses). fold z in Hz, Hres, Hses.
  destruct M as (idsA & idsB & preA & preB & WA & WB & PA & PB & Hc & RA & Ac & MA & RB & MB).
  assert (Z.of_nat (length w) <= e_mtu (nb N))%Z as Lw by (by apply wire_length_room).
  apply Forall_app in Hc as [Hc _].
  destruct (receive_cut (nb N) idsB preB k qs cap (ncb N) z m l b) as (b' & Hrec & _); try done.
  fold ps in Hrec. change (wire_of z ps l) with w in Hrec.
  assert (8 < length w) as Lw8.
  { assert (w = frame (wire_of z qs l)) as -> by (unfold w, wirep, ps; by rewrite wire_of_app).
    rewrite frame_length. pose proof (wire_of_length z qs l). lia. }
  assert (shown (nb N) (rx_session qs z) (Some (ncb N)) m = [ODeliver z (Some (ncb N)) m]) as Esh.
  { rewrite <- (rx_session_snoc_frame qs cap z). rewrite rx_session_same by done. unfold shown. by rewrite decide_True. }
  rewrite Esh in Hrec.
  assert (written (nca N) [OWire (nca N) w] = [w]) as Ew by (unfold written; simpl; by rewrite decide_True).
  eexists (length w - 4), _. split.
  - eapply nrun_cons; [done|apply nk_put; simpl; lia|].
    eapply nrun_cons; [done|apply nk_take; [done|by rewrite fn_lookup_insert]|].
    eapply nrun_cons; [done|eapply nk_pass; [by rewrite fn_lookup_insert|exact Hsend]|].
    rewrite Ew. simpl. rewrite app_nil_r.
    eapply nrun_cons; [done|eapply nk_read; [lia|lia|lia|exact Hrec]|].
    eapply nrun_cons; [done|apply nk_deliver; simpl; lia|].
    eapply nrun_one; [done|apply nk_listen; by rewrite fn_lookup_insert].
  - unfold heard. simpl. by rewrite decide_True.
Qed.

(** No channel holds more than its capacity. *)
Lemma fn_bounded {K} `{EqDecision K} {X} (f : K -> list X) (k : K) (l : list X) n :
  (forall x, length (f x) <= n) -> length l <= n -> forall x, length ((<[k := l]> f) x) <= n.
Proof. intros Hf Hl x. destruct (decide (x = k)) as [->|Hx]; [by rewrite fn_lookup_insert|by rewrite fn_lookup_insert_ne]. Qed.
Lemma rest_bounded {X} (f : list X) x q n : length f <= n -> f = x :: q -> length q <= n.
Proof. intros Hl ->. simpl in Hl. lia. Qed.
Lemma net_bounded N ok a b ls s : nrun N ok (new_net a b) ls s ->
  (forall e, length (n_tx s e) <= ntxcap N) /\ forall z, length (n_rx s z) <= nrxcap N.
Proof.
  induction 1 as [|ls s1 l s2 H (I1 & I2) _ Hst]; [simpl; split; lia|].
  destruct Hst; simpl in *; split; try done; apply fn_bounded; try done; try (rewrite app_length; simpl; lia); by eapply rest_bounded.
Qed.
