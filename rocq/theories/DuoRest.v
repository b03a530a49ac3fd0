(** * More proofs about two stacks that talk in both directions: every schedule ends *)
From Coq Require Import ZArith Lia.
From Verif Require Import GoBase UBufModel FrameModel FrameSpec StackModel StackSpec NetModel NetSpec NetProofs DuoModel DuoSpec DuoPath DuoItems DuoProofs
  HushSpec HushProofs CountFacts NetRest.
From stdpp Require Import sets list.

Section ends.
Context (D : duo) (k : kind) (ps : list proc) (P : paired D k ps).
Notation run := (drun D (whole_reads (framed ps))).

Definition dput (l : dlab) : bool := match l with DPut _ _ => true | _ => false end.
Definition dtake (l : dlab) : bool := match l with DTake _ => true | _ => false end.
Definition dpass (l : dlab) : bool := match l with DPass _ => true | _ => false end.
Definition dself (l : dlab) : bool := match l with DSelf _ _ _ => true | _ => false end.
Definition ddel (l : dlab) : bool := match l with DDeliver _ => true | _ => false end.
Definition dlis (l : dlab) : bool := match l with DListen _ _ => true | _ => false end.
Lemma dall_counted ls : length ls = cntl dput ls + cntl dtake ls + cntl dpass ls + cntl dself ls + reads ls + cntl ddel ls + cntl dlis ls.
Proof. induction ls as [|l ls IH]; [done|]. unfold cntl, reads, reads_by in *. destruct l as [ | | | |[]| | ]; simpl in *; lia. Qed.
Lemma selfs_all ls : selfs true 131%Z ls + selfs false 131%Z ls + selfs true 16%Z ls + selfs false 16%Z ls <= cntl dself ls.
Proof.
  induction ls as [|l ls IH]; [done|]. unfold cntl, selfs in *. destruct l as [ | | |[] i t| | | ]; simpl in *; try lia.
  - destruct (Z.eqb_spec t 131); destruct (Z.eqb_spec t 16); simpl; try lia.
  - destruct (Z.eqb_spec t 131); destruct (Z.eqb_spec t 16); simpl; try lia.
Qed.

Ltac lookup_ne := intros ? Hne; simpl; by rewrite fn_lookup_insert_ne by congruence.
Ltac same n := exists n; split; [done|lia].
Lemma duo_totals ok ss ls s : drun D ok (new_duo ss) ls s ->
  (exists n, amount (d_tx s) n /\ n + cntl dtake ls = cntl dput ls) /\
  (exists n, amount (fun e => dunsent e s) n /\ n + cntl dpass ls = cntl dput ls) /\
  (exists n, amount (d_rx s) n /\ n + cntl dlis ls = cntl ddel ls) /\ length (d_seen s) = cntl dlis ls.
Proof.
  induction 1 as [|ls s1 l s2 R ((n1 & T1 & E1) & (n2 & T2 & E2) & (n3 & T3 & E3) & E4) Hok St].
  { split; [|split; [|split; [|done]]]; (exists 0; split; [apply amount_nil|done]). }
  rewrite !cntl_snoc. inversion St; subst; simpl in *.
  - split; [|split; [|split; [same n3|lia]]].
    + exists (n1 + 1). split; [|lia]. apply (amount_more tx _ n1 e 1); [done|lookup_ne|]. rewrite fn_lookup_insert, app_length. done.
    + exists (n2 + 1). split; [|lia]. apply (amount_more (fun y => dunsent y (Dst tx hd ss0 w up rx sn ws g)) _ n2 e 1); [done| |].
      * intros y Hy. unfold dunsent. simpl. by rewrite fn_lookup_insert_ne.
      * unfold dunsent. simpl. rewrite fn_lookup_insert, !app_length. simpl. lia.
  - split; [|split; [|split; [same n3|lia]]].
    + destruct (amount_less tx (<[e:=q]> tx) n1 e 1 T1) as (m & Tm & ->); [lookup_ne|rewrite fn_lookup_insert, H0; simpl; lia|].
      same m.
    + exists n2. split; [|lia]. eapply amount_ext; [exact T2|]. intros y. unfold dunsent. simpl.
      destruct (decide (e = y)) as [->|Hn]; [by rewrite !fn_lookup_insert, H, H0|by rewrite !fn_lookup_insert_ne].
  - split; [same n1|split; [|split; [same n3|lia]]].
    destruct (amount_less (fun y => dunsent y (Dst tx hd ss0 w up rx sn ws g)) 
      (fun y => match (<[(b, e):=None]> hd) y with Some x => [x] | None => [] end ++ tx y) n2 (b, e) 1 T2) as (m & Tm & ->).
    + intros y Hy. unfold dunsent. simpl. by rewrite fn_lookup_insert_ne.
    + unfold dunsent. simpl. rewrite fn_lookup_insert, H. simpl. lia.
    + same m.
  - split; [same n1|split; [same n2|split; [same n3|lia]]].
  - split; [same n1|split; [same n2|split; [same n3|lia]]].
  - split; [same n1|split; [same n2|split; [|lia]]].
    exists (n3 + 1). split; [|lia]. apply (amount_more rx _ n3 (b, z) 1); [done|lookup_ne|]. rewrite fn_lookup_insert, app_length. done.
  - split; [same n1|split; [same n2|split]].
    + destruct (amount_less rx (<[(b, z):=q]> rx) n3 (b, z) 1 T3) as (m0 & Tm & ->); [lookup_ne|rewrite fn_lookup_insert, H; simpl; lia|].
      same m0.
    + rewrite app_length. simpl. lia.
Qed.

(** With the side as part of the name. *)
Definition tag {X M} (b : bool) (l : list (X * M)) : list (bool * X * M) := (fun p => (b, fst p, snd p)) <$> l.
Lemma named_tag {X M} `{EqDecision X} b b' (x : X) (l : list (X * M)) : named (b', x) (tag b l) = if decide (b = b') then named x l else [].
Proof.
  induction l as [|[y m] l IH]; [by case_decide|]. unfold named, tag in *. simpl.
  destruct (decide (b = b')) as [->|Hb].
  - destruct (decide (y = x)) as [->|Hy]; [rewrite decide_True by done; simpl; f_equal; exact IH|rewrite decide_False by congruence; exact IH].
  - rewrite decide_False by congruence. exact IH.
Qed.
Lemma named_app {K M} `{EqDecision K} (x : K) (l1 l2 : list (K * M)) : named x (l1 ++ l2) = named x l1 ++ named x l2.
Proof. apply omap_app. Qed.
Definition dgiven_all (ls : list dlab) : list (bool * nat * mail) := omap (fun l => match l with DPut e x => Some (e, x) | _ => None end) ls.
Lemma dgiven_named e ls : named e (dgiven_all ls) = dgiven e ls.
Proof.
  induction ls as [|l ls IH]; [done|]. unfold dgiven_all, dgiven, named in *. destruct l; simpl; try exact IH. case_decide; [f_equal|]; exact IH.
Qed.
Lemma dgiven_count ls : length (dgiven_all ls) = cntl dput ls.
Proof. induction ls as [|l ls IH]; [done|]. unfold dgiven_all, cntl in *. destruct l; simpl; by rewrite <- IH. Qed.
Definition seen_tag (s : dst) : list (bool * Z * msg) := (fun p => (fst p, fst (snd p), snd (snd p))) <$> d_seen s.
Lemma seen_named b z s : named (b, z) (seen_tag s) = dheard b z s.
Proof.
  unfold seen_tag, dheard. induction (d_seen s) as [|[b' [z' m]] l IH]; [done|]. unfold named in *. simpl.
  destruct (decide ((b', z') = (b, z))) as [E|E].
  - injection E as -> ->. rewrite decide_True by done. f_equal. exact IH.
  - rewrite decide_False by (intros [-> ->]; done). exact IH.
Qed.
Lemma dinner_first ok s ms s' : drun D ok s ms s' -> Forall dinner ms -> ms = [] /\ s' = s \/ exists l s1, dinner l /\ ok s l /\ dstep D s l s1.
Proof.
  induction 1 as [|ms s1 l s2 R IH Hok St]; intros F; [by left|right]. apply Forall_app in F as [F1 F2]. inversion F2; subst.
  destruct (IH F1) as [[-> ->]|?]; [by eexists _, _|done].
Qed.
Lemma posts_take i its : length (posts (take i its)) <= length (posts its).
Proof. rewrite <- (take_drop i its) at 2. rewrite posts_app, app_length. lia. Qed.

Lemma duo_ends ss ls s : answers_fit D ps -> 0 < du_rxcap D -> (forall b, init_st (du_env D b) = Some (ss b)) ->
  run (new_duo ss) ls s -> dall_sendable D k ps ls ->
  length ls <= 6 * dmails_put ls + 3 * own_sent ls /\
  ((forall l s', dinner l -> whole_reads (framed ps) s l -> ~ dstep D s l s') -> dsettled s /\ dall_sent s).
Proof.
  intros Hf Hc Hi R A. split.
  - destruct (dinv_reach D k ps P _ _ _ Hi R A) as (os & i & I).
    destruct (duo_totals _ _ _ _ R) as ((n1 & T1 & E1) & (n2 & T2 & E2) & (n3 & T3 & E3) & E4).
    pose proof (honest_bounds D k ps ss ls s P Hi R A) as Hr. pose proof (selfs_all ls) as Hs.
    pose proof (dn_dir _ _ _ _ _ _ _ I true) as [J1 J2 J3 J4 J5 J6 J7 J8 J9 J10 J11 J12].
    pose proof (dn_dir _ _ _ _ _ _ _ I false) as [K1 K2 K3 K4 K5 K6 K7 K8 K9 K10 K11 K12].
    pose proof (counted (tag true (sent_of (posts (os true))) ++ tag false (sent_of (posts (os false)))) [] (dgiven_all ls) _ n2 T2) as C1.
    unfold tag, sent_of in C1. rewrite app_length, !fmap_length in C1. cbn [length] in C1. rewrite Nat.add_0_r, dgiven_count in C1.
    assert (length (posts (os true)) + length (posts (os false)) + n2 = cntl dput ls) as C1'.
    { apply C1. intros [b e]. rewrite dgiven_named, named_app, app_length. fold (sent_of (posts (os true))). fold (sent_of (posts (os false))).
      fold (tag true (sent_of (posts (os true)))). fold (tag false (sent_of (posts (os false)))).
      rewrite !named_tag. destruct b.
      - rewrite <- J2, decide_True, decide_False, app_length by done. simpl. unfold mails_of, named. lia.
      - rewrite <- K2, decide_False, decide_True, app_length by done. simpl. unfold mails_of, named. lia. }
    set (pl := fun w its => tag (negb w) ((fun p => (zed (one_way D w) p, ml_msg (po_mail p))) <$> posts its)).
    pose proof (counted (seen_tag s) (tag true (d_up s true) ++ tag false (d_up s false))
      (pl true (take (i true) (os true)) ++ pl false (take (i false) (os false))) _ n3 T3) as C2.
    unfold pl, seen_tag, tag in C2. rewrite !app_length, !fmap_length in C2.
    assert (length (d_seen s) + n3 + (length (d_up s true) + length (d_up s false)) =
      length (posts (take (i true) (os true))) + length (posts (take (i false) (os false)))) as C2'.
    { apply C2. intros [b z]. fold (seen_tag s). fold (tag true (d_up s true)). fold (tag false (d_up s false)).
      fold (tag (negb true) ((fun p => (zed (one_way D true) p, ml_msg (po_mail p))) <$> posts (take (i true) (os true)))).
      fold (tag (negb false) ((fun p => (zed (one_way D false) p, ml_msg (po_mail p))) <$> posts (take (i false) (os false)))).
      rewrite seen_named, !named_app, !app_length, !named_tag. specialize (J7 z). specialize (K7 z). unfold heards in J7, K7. simpl negb in *.
      destruct b.
      - rewrite !(decide_True (P := true = true)), !(decide_False (P := false = true)) by done.
        rewrite named_posts, <- K7, !app_length. unfold upz, named. simpl. lia.
      - rewrite !(decide_True (P := false = false)), !(decide_False (P := true = false)) by done.
        rewrite named_posts, <- J7, !app_length. unfold upz, named. simpl. lia. }
    pose proof (posts_take (i true) (os true)). pose proof (posts_take (i false) (os false)).
    rewrite dall_counted. change (dmails_put ls) with (cntl dput ls). change (own_sent ls) with (cntl dself ls). change (passes ls) with (cntl dpass ls) in Hr. lia.
  - intros Hn. destruct (duo_finishes D k ps P Hf Hc _ _ _ Hi R A) as (ms & s' & R' & F & Hs & Ha).
    destruct (dinner_first _ _ _ _ R' F) as [[_ ->]|(l & s1 & Ho & Hok & St)]; [done|]. by destruct (Hn l s1 Ho Hok).
Qed.
End ends.
