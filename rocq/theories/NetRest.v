(** * More proofs about two stacks joined by a byte connection: every schedule ends *)
From Coq Require Import ZArith Lia.
From Verif Require Import GoBase UBufModel FrameModel FrameSpec StackModel StackSpec NetModel NetSpec NetProofs CountFacts.
From stdpp Require Import sets list.

Definition cntl {L} (f : L -> bool) (ls : list L) : nat := length (List.filter f ls).
Lemma cntl_snoc {L} (f : L -> bool) ls l : cntl f (ls ++ [l]) = cntl f ls + (if f l then 1 else 0).
Proof. unfold cntl. rewrite List.filter_app, app_length. simpl. by destruct (f l). Qed.

Section ends.
Context (N : net) (k : kind) (ps : list proc) (M : matching N k ps).
Notation run := (nrun N (whole_read (framed ps))).

Definition isput (l : nlab) : bool := match l with NPut _ _ => true | _ => false end.
Definition istake (l : nlab) : bool := match l with NTake _ => true | _ => false end.
Definition ispass (l : nlab) : bool := match l with NPass _ => true | _ => false end.
Definition isread (l : nlab) : bool := match l with NRead _ => true | _ => false end.
Definition isdel (l : nlab) : bool := match l with NDeliver => true | _ => false end.
Definition islis (l : nlab) : bool := match l with NListen _ => true | _ => false end.
Lemma all_counted ls : length ls = cntl isput ls + cntl istake ls + cntl ispass ls + cntl isread ls + cntl isdel ls + cntl islis ls.
Proof. induction ls as [|l ls IH]; [done|]. unfold cntl in *. destruct l; simpl in *; lia. Qed.

Ltac lookup_ne := intros ? Hne; simpl; by rewrite fn_lookup_insert_ne by congruence.
Definition totals (ls : list nlab) (s : nst) : Prop :=
  (exists n, amount (n_tx s) n /\ n + cntl istake ls = cntl isput ls) /\
  (exists n, amount (fun e => unsent e s) n /\ n + cntl ispass ls = cntl isput ls) /\
  (exists n, amount (n_rx s) n /\ n + cntl islis ls = cntl isdel ls) /\ length (n_seen s) = cntl islis ls.
Lemma totals_new a b : totals [] (new_net a b).
Proof. split; [|split; [|split; [|done]]]; (exists 0; split; [apply amount_nil|done]). Qed.
Lemma totals_step ls s1 l s2 : totals ls s1 -> nstep N s1 l s2 -> totals (ls ++ [l]) s2.
Proof.
  intros ((n1 & T1 & E1) & (n2 & T2 & E2) & (n3 & T3 & E3) & E4) St. unfold totals.
  rewrite !cntl_snoc. inversion St; subst; simpl in *.
  - split; [|split; [|split; [exists n3; split; [done|lia]|lia]]].
    + exists (n1 + 1). split; [|lia]. apply (amount_more tx _ n1 e 1); [done|lookup_ne|]. rewrite fn_lookup_insert, app_length. done.
    + exists (n2 + 1). split; [|lia]. apply (amount_more (fun y => unsent y (Nst tx hd a w b up rx sn ws g)) _ n2 e 1); [done| |].
      * intros y Hy. unfold unsent. simpl. by rewrite fn_lookup_insert_ne.
      * unfold unsent. simpl. rewrite fn_lookup_insert, !app_length. simpl. lia.
  - split; [|split; [|split; [exists n3; split; [done|lia]|lia]]].
    + destruct (amount_less tx (<[e:=q]> tx) n1 e 1 T1) as (m & Tm & ->); [lookup_ne|rewrite fn_lookup_insert, H0; simpl; lia|].
      exists m. split; [done|lia].
    + exists n2. split; [|lia]. eapply amount_ext; [exact T2|]. intros y. unfold unsent. simpl.
      destruct (decide (e = y)) as [->|Hn]; [by rewrite !fn_lookup_insert, H, H0|by rewrite !fn_lookup_insert_ne].
  - split; [exists n1; split; [done|lia]|split; [|split; [exists n3; split; [done|lia]|lia]]].
    destruct (amount_less (fun y => unsent y (Nst tx hd a w b up rx sn ws g)) 
      (fun y => unsent y (Nst tx (<[e:=None]> hd) a' (w ++ concat (written (nca N) outs)) b up rx sn (ws ++ written (nca N) outs) g)) n2 e 1 T2) as (m & Tm & ->).
    + intros y Hy. unfold unsent. simpl. by rewrite fn_lookup_insert_ne.
    + unfold unsent. simpl. rewrite fn_lookup_insert, H. simpl. lia.
    + exists m. split; [done|lia].
  - split; [exists n1; split; [done|lia]|split; [exists n2; split; [done|lia]|split; [exists n3; split; [done|lia]|lia]]].
  - split; [exists n1; split; [done|lia]|split; [exists n2; split; [done|lia]|split; [|lia]]].
    exists (n3 + 1). split; [|lia]. apply (amount_more rx _ n3 z 1); [done|lookup_ne|]. rewrite fn_lookup_insert, app_length. done.
  - split; [exists n1; split; [done|lia]|split; [exists n2; split; [done|lia]|split]].
    + destruct (amount_less rx (<[z:=q]> rx) n3 z 1 T3) as (m0 & Tm & ->); [lookup_ne|rewrite fn_lookup_insert, H; simpl; lia|].
      exists m0. split; [done|lia].
    + rewrite app_length. simpl. lia.
Qed.

Lemma net_totals ok a b ls s : nrun N ok (new_net a b) ls s -> totals ls s.
Proof. induction 1 as [|ls s1 l s2 R IH Hok St]; [apply totals_new|by eapply totals_step]. Qed.

(** A Read that ends where a Write ended takes at least one Write. *)
Lemma concat_take_le {A} (ws : list (list A)) i j : i <= j -> length (concat (take i ws)) <= length (concat (take j ws)).
Proof.
  intros H. replace j with (i + (j - i)) by lia. rewrite <- (take_take_drop ws i (j - i)), concat_app, app_length. lia.
Qed.
Definition reads_le (ls : list nlab) (s : nst) : Prop :=
  n_got s <= length (concat (n_writes s)) /\ forall i, n_got s = length (concat (take i (n_writes s))) -> cntl isread ls <= i.
Lemma reads_new a b : reads_le [] (new_net a b).
Proof. split; [done|intros i _; unfold cntl; simpl; lia]. Qed.
Lemma reads_step joined ls s1 l s2 : reads_le ls s1 -> whole_read joined s1 l -> nstep N s1 l s2 -> reads_le (ls ++ [l]) s2.
Proof.
  intros [Hg IH] Hok St. unfold reads_le.
  setoid_rewrite cntl_snoc. inversion St; subst; simpl in *; try (split; [done|intros i Hi; rewrite Nat.add_0_r; by apply IH]).
  - split; [rewrite concat_app, app_length; lia|]. intros i Hi. rewrite Nat.add_0_r.
    destruct (decide (i <= length ws)) as [Hl|Hl]; [apply IH; by rewrite take_app_le in Hi|].
    transitivity (length ws); [|lia]. apply IH. rewrite firstn_all. rewrite take_app_ge in Hi by lia.
    rewrite concat_app, app_length in Hi. lia.
  - destruct Hok as (i & j & E1 & E2 & _).
    assert (g + n = length (concat (take (i + j) ws))) as E3.
    { rewrite <- (take_take_drop ws i j), concat_app, app_length. lia. }
    split.
    + rewrite E3. pose proof (concat_take_le ws (i + j) (i + j + length ws) ltac:(lia)) as Hl. rewrite (take_ge ws (i + j + length ws)) in Hl by lia. done.
    + intros i' Hi'. specialize (IH i E1). assert (i < i'); [|lia].
      destruct (decide (i < i')) as [?|Hn]; [done|]. pose proof (concat_take_le ws i' i ltac:(lia)). lia.
Qed.

Lemma net_reads joined a b ls s : nrun N (whole_read joined) (new_net a b) ls s -> reads_le ls s.
Proof. induction 1 as [|ls s1 l s2 R IH Hok St]; [apply reads_new|by eapply reads_step]. Qed.

Lemma named_posts z os : length (named z ((fun p => (zed N p, ml_msg (po_mail p))) <$> os)) = length (forz N z os).
Proof. by rewrite <- (upz_posts N z os). Qed.
Definition given_all (ls : list nlab) : list (nat * mail) := omap (fun l => match l with NPut e x => Some (e, x) | _ => None end) ls.
Lemma given_named e ls : named e (given_all ls) = given e ls.
Proof.
  induction ls as [|l ls IH]; [done|]. unfold given_all, given, named in *. destruct l; simpl; try exact IH. case_decide; [f_equal|]; exact IH.
Qed.
Lemma given_count ls : length (given_all ls) = cntl isput ls.
Proof. induction ls as [|l ls IH]; [done|]. unfold given_all, cntl in *. destruct l; simpl; by rewrite <- IH. Qed.
Lemma inner_first ok s ms s' : nrun N ok s ms s' -> Forall inner ms -> ms = [] /\ s' = s \/ exists l s1, inner l /\ ok s l /\ nstep N s l s1.
Proof.
  induction 1 as [|ms s1 l s2 R IH Hok St]; intros F; [by left|right]. apply Forall_app in F as [F1 F2]. inversion F2; subst.
  destruct (IH F1) as [[-> ->]|?]; [by eexists _, _|done].
Qed.

Lemma net_ends a b ls s : 0 < nrxcap N -> caches_idle (nb N) b -> run (new_net a b) ls s -> all_sendable N k ps ls ->
  length ls <= 6 * mails_put ls /\
  ((forall l s', inner l -> whole_read (framed ps) s l -> ~ nstep N s l s') -> settled s /\ all_sent s).
Proof.
  intros Hc Hi R A. split.
  - destruct (ninv_reach N k ps M _ _ _ _ Hi R A) as (os & i & [I1 I2 I3 I4 I5 I6 I7 I8 I9]).
    destruct (net_totals _ _ _ _ _ R) as ((n1 & T1 & E1) & (n2 & T2 & E2) & (n3 & T3 & E3) & E4).
    destruct (net_reads _ _ _ _ _ R) as [_ Hr]. specialize (Hr i I5).
    pose proof (counted (sent_of os) [] (given_all ls) _ n2 T2) as C1. simpl in C1.
    assert (length os + n2 = cntl isput ls) as C1'.
    { rewrite <- given_count, <- C1; [unfold sent_of; rewrite fmap_length; lia|].
      intros e. rewrite given_named, <- I2, app_length. fold (mails_of e (sent_of os)). unfold mails_of, named. lia. }
    pose proof (counted (n_seen s) (n_up s) ((fun p => (zed N p, ml_msg (po_mail p))) <$> take i os) _ n3 T3) as C2.
    rewrite fmap_length, take_length in C2. rewrite all_counted. fold (cntl isput ls). change (mails_put ls) with (cntl isput ls).
    assert (length (n_seen s) + n3 + length (n_up s) = i `min` length os) as C2'; [|lia].
    apply C2. intros z. rewrite named_posts, <- I7, !app_length. unfold heard, named, upz. lia.
  - intros Hn. destruct (net_finishes N k ps M _ _ _ _ Hc Hi R A) as (ms & s' & R' & F & Hs & Ha).
    destruct (inner_first _ _ _ _ R' F) as [[_ ->]|(l & s1 & Ho & Hok & St)]; [done|]. by destruct (Hn l s1 Ho Hok).
Qed.
End ends.
