(** * Proofs about a transport's connections and goroutines *)
From Verif Require Import GoBase SockModel SockSpec SockProofs ConnModel ConnSpec ConnProofs LifeModel LifeSpec.

(** ** Counting *)
Definition reads (c : nat) (rs : list (nat * phase)) : nat := sumw (fun r => if Nat.eqb (fst r) c then 1 else 0) rs.
Definition ends (c : nat) (rs : list (nat * phase)) : nat :=
  sumw (fun r => match snd r with PEnded => if Nat.eqb (fst r) c then 1 else 0 | _ => 0 end) rs.
Lemma reads_insert c rs i c0 p p' : rs !! i = Some (c0, p) -> reads c (<[i := (c0, p')]> rs) = reads c rs.
Proof. intros H. pose proof (sumw_insert (fun r => if Nat.eqb (fst r) c then 1 else 0) rs i _ (c0, p') H). simpl in *. unfold reads. lia. Qed.
Lemma ends_insert c rs i c0 p p' : rs !! i = Some (c0, p) -> p <> PEnded -> p' <> PEnded -> ends c (<[i := (c0, p')]> rs) = ends c rs.
Proof.
  intros H H1 H2. pose proof (sumw_insert (fun r => match snd r with PEnded => if Nat.eqb (fst r) c then 1 else 0 | _ => 0 end) rs i _ (c0, p') H).
  unfold ends. destruct p, p'; simpl in *; try done; lia.
Qed.
Lemma ends_ended c rs i c0 : rs !! i = Some (c0, PClosing) -> ends c (<[i := (c0, PEnded)]> rs) = ends c rs + if Nat.eqb c0 c then 1 else 0.
Proof.
  intros H. pose proof (sumw_insert (fun r => match snd r with PEnded => if Nat.eqb (fst r) c then 1 else 0 | _ => 0 end) rs i _ (c0, PEnded) H).
  unfold ends. simpl in *. lia.
Qed.
Lemma all_ended c rs : (forall i c0 p, rs !! i = Some (c0, p) -> p = PEnded) -> ends c rs = reads c rs.
Proof.
  induction rs as [|[c0 p] rs IH]; [done|]. intros H. pose proof (H 0 c0 p eq_refl) as ->.
  unfold ends, reads in *. simpl. rewrite IH; [done|]. intros i c1 p1 Hi. by apply (H (S i) c1 p1).
Qed.
Lemma announced_snoc c lg e : announced c (lg ++ [e]) = announced c lg + match e with EvNew c' => if Nat.eqb c' c then 1 else 0 | _ => 0 end.
Proof. unfold announced. rewrite List.filter_app, app_length. simpl. destruct e; try done. by destruct (Nat.eqb _ _). Qed.
Lemma farewells_snoc c lg e : farewells c (lg ++ [e]) = farewells c lg + match e with EvClosed c' => if Nat.eqb c' c then 1 else 0 | _ => 0 end.
Proof. unfold farewells. rewrite List.filter_app, app_length. simpl. destruct e; try done. by destruct (Nat.eqb _ _). Qed.

Section proofs.
Context (uds server : bool) (maxretry : Z).
Notation kstep := (kstep uds server maxretry).
Notation lstep := (lstep uds server maxretry).
Notation lrun := (lrun uds server maxretry).

(** ** Between an addition and the next *)
Record live_tp (n : nat) (k : sst) : Prop := {
  lv_next : k_next k = Some n;
  lv_chan : exists q b, k_chans k !! n = Some (q, b) /\
     (b = false -> None ∉ k_conns k /\ forall j, k_users k !! j <> Some (UGot None)) /\
     (b = true -> k_running k = false \/ exists w, k_lock k = Some (PDrop, w)) /\
     (b = false -> k_lock k = None -> k_running k = true) /\
     (forall w, k_lock k = Some (PDrop, w) -> b = true) /\ (k_lock k <> None -> k_running k = true /\ None ∉ k_conns k);
  lv_old : forall ch q b, k_chans k !! ch = Some (q, b) -> ch <> n -> q = [] /\ b = true;
  lv_recv : forall j ch, k_users k !! j = Some (URecv ch) -> ch = n;
  lv_handed : forall c, c ∈ k_handed k -> c ∈ k_closed k \/ Some c ∈ k_conns k
}.
Lemma live_tp_step n k l k' : live_tp n k -> kstep k l k' -> l <> SRun -> live_tp n k'.
Proof.
  intros [Hn (q & b & Hq & B1 & B2 & B3 & B4 & B5) Ho Hr Hh] Hst Hl.
  inversion Hst; subst; simpl in *; try done; try (by constructor; simpl; [done|exists q, b; by split_and!|done..]).
  - assert (b = false) as -> by (destruct b; [|done]; destruct (B2 eq_refl) as [?|[? ?]]; congruence).
    constructor; simpl; try done. exists q, false. split_and!; try done. intros _. split; [done|by apply B1].
  - assert (b = false) as -> by (destruct b; [|done]; destruct (B2 eq_refl) as [?|[? ?]]; congruence).
    constructor; simpl; try done. exists q, false. split_and!; try done. intros _. split; [done|by apply B1].
  - destruct B5 as [B5 B6]; [congruence|]. assert (b = false) as -> by (destruct b; [|done]; destruct (B2 eq_refl) as [?|[? ?]]; congruence).
    constructor; simpl; try done. exists q, false. by split_and!.
  - destruct B5 as [B5 B6]; [congruence|]. assert (b = false) as -> by (destruct b; [|done]; destruct (B2 eq_refl) as [?|[? ?]]; congruence).
    constructor; simpl; try done. exists q, false. by split_and!.
  - destruct B5 as [B5 B6]; [congruence|]. assert (b = false) as -> by (destruct b; [|done]; destruct (B2 eq_refl) as [?|[? ?]]; congruence).
    constructor; simpl; try done. exists q, false. by split_and!.
  - destruct B5 as [B5 B6]; [congruence|]. assert (ch = n) as -> by congruence.
    constructor; simpl; try done.
    + exists q0, true. split; [apply list_lookup_insert; by eapply lookup_lt_Some|]. split_and!; try done. intros _. right. by eexists.
    + intros ch q1 b1 Hc Hne. rewrite list_lookup_insert_ne in Hc by done. by eapply Ho.
  - destruct B5 as [B5 B6]; [congruence|]. pose proof (B4 _ H0) as ->.
    constructor; simpl; try done.
    + exists q, true. split_and!; try done. intros _. by left.
    + intros c Hc. rewrite elem_of_app. destruct (Hh c Hc) as [?|Hx]; [by left; left|]. left. right. apply elem_of_list_omap. by exists (Some c).
  - assert (ch = n) as -> by (destruct (decide (ch = n)) as [|Hne]; [done|]; by destruct (Ho _ _ _ H1 Hne)).
    rewrite Hq in H1. injection H1 as -> ->. constructor; simpl; try done.
    + exists (q0 ++ [c]), false. split; [apply list_lookup_insert; by eapply lookup_lt_Some|]. by split_and!.
    + intros ch q1 b1 Hc Hne. rewrite list_lookup_insert_ne in Hc by done. by eapply Ho.
  - assert (ch = n) as -> by congruence. constructor; simpl; try done.
    + exists q, b. split_and!; try done. intros Hb. destruct (B1 Hb) as [B6 B7]. split; [done|]. intros j Hj.
      apply lookup_app_Some in Hj as [Hj|[_ Hj]]; [by eapply B7|]. by apply single in Hj as [_ ?].
    + intros j ch Hj. apply lookup_app_Some in Hj as [Hj|[_ Hj]]; [by eapply Hr|]. apply single in Hj as [_ ?]. congruence.
  - pose proof (Hr _ _ H0) as ->. rewrite Hq in H1. injection H1 as -> ->. constructor; simpl; try done.
    + exists q0, b0. split; [apply list_lookup_insert; by eapply lookup_lt_Some|]. split_and!; try done.
      intros Hb. destruct (B1 Hb) as [B6 B7]. split; [done|]. intros i Hi. apply user_lookup in Hi as [|Hi]; [done|]. by eapply B7.
    + intros ch q1 b1 Hc Hne. rewrite list_lookup_insert_ne in Hc by done. by eapply Ho.
    + intros i ch Hi. apply user_lookup in Hi as [|Hi]; [done|]. by eapply Hr.
  - pose proof (Hr _ _ H0) as ->. rewrite Hq in H1. injection H1 as -> ->. constructor; simpl; try done.
    + exists [], true. by split_and!.
    + intros i ch Hi. apply user_lookup in Hi as [|Hi]; [done|]. by eapply Hr.
  - constructor; simpl; try done.
    + exists q, b. split_and!; try done. intros Hb. destruct (B1 Hb) as [B6 B7]. split.
      * destruct r as [r|]; [|by apply B7 in H0]. unfold save. repeat case_decide; try done.
        rewrite not_elem_of_app, elem_of_list_singleton. by split.
      * intros i Hi. apply user_lookup in Hi as [|Hi]; [done|]. by eapply B7.
    + intros i ch Hi. apply user_lookup in Hi as [|Hi]; [done|]. by eapply Hr.
    + assert (forall x, x ∈ k_conns k -> x ∈ save uds (k_conns k) r) as Hs.
      { intros x Hx. unfold save. repeat case_decide; try done. apply elem_of_app. by left. }
      intros c [Hc|Hc]%elem_of_app.
      * destruct (Hh c Hc); [by left|right; by apply Hs].
      * destruct r as [r|]; simpl in Hc; [|by apply elem_of_nil in Hc]. apply elem_of_list_singleton in Hc as ->. right.
        unfold save. repeat case_decide; try done; [naive_solver|]. apply elem_of_app. right. left.
  - constructor; simpl; try done.
    + exists q, b. by split_and!.
    + intros c0 Hc. rewrite elem_of_app. destruct (Hh _ Hc); [by left; left|by right].
Qed.
Lemma live_closed n k c : live_tp n k -> live_tp n (set_closed (k_closed k ++ [c]) k).
Proof.
  intros [Hn (q & b & Hq & B1 & B2 & B3 & B4 & B5) Ho Hr Hh]. constructor; simpl; try done.
  - exists q, b. by split_and!.
  - intros c0 Hc. rewrite elem_of_app. destruct (Hh _ Hc); [by left; left|by right].
Qed.
(** Always true. *)
Record linv (s : lst) : Prop := {
  lv_users : forall j c, k_users (l_tp s) !! j = Some (UDone (Some c)) -> c ∈ k_handed (l_tp s);
  lv_wait : forall d j, l_deck s !! d = Some (DWait j) -> j < length (k_users (l_tp s));
  lv_have : forall d c, l_deck s !! d = Some (DHave c) -> c ∈ k_handed (l_tp s);
  lv_rd : forall i c p, l_rd s !! i = Some (c, p) -> c ∈ k_handed (l_tp s);
  lv_phase : forall i c, l_rd s !! i <> Some (c, PTaken);
  lv_ann : forall c, announced c (l_log s) = reads c (l_rd s);
  lv_far : forall c, farewells c (l_log s) = ends c (l_rd s)
}.
Definition live (n : nat) (s : lst) : Prop := linv s /\ live_tp n (l_tp s).
Lemma deck_lookup {A} (us : list A) j u i u' : <[j := u]> us !! i = Some u' -> u = u' \/ us !! i = Some u'.
Proof.
  intros Hi. destruct (decide (j = i)) as [->|Hne].
  - left. assert (i < length us) as Hl. { apply lookup_lt_Some in Hi. by rewrite insert_length in Hi. }
    rewrite list_lookup_insert in Hi by done. by injection Hi.
  - right. by rewrite list_lookup_insert_ne in Hi.
Qed.
Lemma handed_grows k l k' c : kstep k l k' -> c ∈ k_handed k -> c ∈ k_handed k'.
Proof. intros Hst Hc. inversion Hst; subst; simpl; try done. apply elem_of_app. by left. Qed.
Lemma users_grow k l k' : kstep k l k' -> length (k_users k) <= length (k_users k').
Proof. intros Hst. inversion Hst; subst; simpl; rewrite ?app_length, ?insert_length; lia. Qed.
Lemma users_done k l k' j c : kstep k l k' -> (forall j c, k_users k !! j = Some (UDone (Some c)) -> c ∈ k_handed k) ->
  k_users k' !! j = Some (UDone (Some c)) -> c ∈ k_handed k'.
Proof.
  intros Hst Hu Hj. inversion Hst; subst; simpl in *; try (by eapply Hu).
  - apply lookup_app_Some in Hj as [Hj|[_ Hj]]; [by eapply Hu|]. by apply single in Hj as [_ ?].
  - apply user_lookup in Hj as [|Hj]; [done|]. by eapply Hu.
  - apply user_lookup in Hj as [|Hj]; [done|]. by eapply Hu.
  - apply elem_of_app. apply user_lookup in Hj as [Hj|Hj]; [|left; by eapply Hu]. right. injection Hj as ->. left.
Qed.
Lemma linv_step s l s' : linv s -> lstep s l s' -> linv s'.
Proof.
  intros [Hu Hw Hh Hr Hp Ha Hf] Hst. destruct Hst as [| | |tp tp' ds rs lg d Hd Hs|tp ds rs lg d j r Hc Hd Hj|tp ds rs lg d c Hc Hd|tp ds rs lg i c Hc Hi Hcl|tp ds rs lg i c Hc Hi|tp ds rs lg i c Hc Hi|tp ds rs lg i c Hc Hi|tp ds rs lg i c Hc Hi]; simpl in *.
  - constructor; simpl; try done; [intros; by eapply users_done|..].
    + intros d j Hd. eapply Nat.lt_le_trans; [|by eapply users_grow]. apply lookup_app_Some in Hd as [Hd|[_ Hd]]; [by eapply Hw|]. by apply single in Hd as [_ ?].
    + intros d c Hd. eapply handed_grows; [done|]. apply lookup_app_Some in Hd as [Hd|[_ Hd]]; [by eapply Hh|]. by apply single in Hd as [_ ?].
    + intros i c p Hi. eapply handed_grows; [done|by eapply Hr].
  - constructor; simpl; try done; [intros; by eapply users_done|..].
    + intros d j Hd. eapply Nat.lt_le_trans; [by eapply Hw|by eapply users_grow].
    + intros d c Hd. eapply handed_grows; [done|by eapply Hh].
    + intros i c p Hi. eapply handed_grows; [done|by eapply Hr].
  - constructor; simpl; try done; [intros; by eapply users_done|..].
    + intros d j Hd. eapply Nat.lt_le_trans; [by eapply Hw|by eapply users_grow].
    + intros d c Hd. eapply handed_grows; [done|by eapply Hh].
    + intros i c p Hi. eapply handed_grows; [done|by eapply Hr].
  - constructor; simpl; try done; [intros; by eapply users_done|..].
    + intros d0 j Hd0. apply deck_lookup in Hd0 as [[= <-]|Hd0].
      * inversion Hs; subst. simpl. rewrite app_length. simpl. lia.
      * eapply Nat.lt_le_trans; [by eapply Hw|by eapply users_grow].
    + intros d0 c Hd0. apply deck_lookup in Hd0 as [|Hd0]; [done|]. eapply handed_grows; [done|by eapply Hh].
    + intros i c p Hi. eapply handed_grows; [done|by eapply Hr].
  - constructor; simpl; try done.
    + intros d0 j0 Hd0. apply deck_lookup in Hd0 as [|Hd0]; [by destruct r|]. by eapply Hw.
    + intros d0 c Hd0. apply deck_lookup in Hd0 as [Hx|Hd0]; [|by eapply Hh]. destruct r as [r|]; [|done]. injection Hx as ->.
      by eapply Hu.
  - constructor; simpl; try done.
    + intros d0 j0 Hd0. apply deck_lookup in Hd0 as [|Hd0]; [done|]. by eapply Hw.
    + intros d0 c0 Hd0. apply deck_lookup in Hd0 as [Hx|Hd0]; [done|by eapply Hh].
    + intros i c0 p Hi. apply lookup_app_Some in Hi as [Hi|[_ Hi]]; [by eapply Hr|]. apply single in Hi as [_ [= <- <-]]. by eapply Hh.
    + intros i c0 Hi. apply lookup_app_Some in Hi as [Hi|[_ Hi]]; [by eapply Hp|]. by apply single in Hi as [_ ?].
    + intros c0. rewrite announced_snoc, Ha. unfold reads. rewrite sumw_app. simpl. lia.
    + intros c0. rewrite farewells_snoc, Hf. unfold ends. rewrite sumw_app. simpl. lia.
  - constructor; simpl; try done.
    + intros i0 c0 p Hi0. apply deck_lookup in Hi0 as [[= <- <-]|Hi0]; by eapply Hr.
    + intros i0 c0 Hi0. apply deck_lookup in Hi0 as [|Hi0]; [done|by eapply Hp].
    + intros c0. erewrite reads_insert by done. apply Ha.
    + intros c0. erewrite ends_insert by done. apply Hf.
  - constructor; simpl; try done.
    + intros i0 c0 p Hi0. apply deck_lookup in Hi0 as [[= <- <-]|Hi0]; by eapply Hr.
    + intros i0 c0 Hi0. apply deck_lookup in Hi0 as [|Hi0]; [done|by eapply Hp].
    + intros c0. erewrite reads_insert by done. rewrite announced_snoc, Ha. lia.
    + intros c0. erewrite ends_insert by done. rewrite farewells_snoc, Hf. lia.
  - constructor; simpl; try done.
    + intros i0 c0 p Hi0. apply deck_lookup in Hi0 as [[= <- <-]|Hi0]; by eapply Hr.
    + intros i0 c0 Hi0. apply deck_lookup in Hi0 as [|Hi0]; [done|by eapply Hp].
    + intros c0. erewrite reads_insert by done. apply Ha.
    + intros c0. erewrite ends_insert by done. apply Hf.
  - constructor; simpl; try done.
    + intros i0 c0 p Hi0. apply deck_lookup in Hi0 as [[= <- <-]|Hi0]; by eapply Hr.
    + intros i0 c0 Hi0. apply deck_lookup in Hi0 as [|Hi0]; [done|by eapply Hp].
    + intros c0. erewrite reads_insert by done. apply Ha.
    + intros c0. erewrite ends_insert by done. apply Hf.
  - constructor; simpl; try done.
    + intros i0 c0 p Hi0. apply deck_lookup in Hi0 as [[= <- <-]|Hi0]; by eapply Hr.
    + intros i0 c0 Hi0. apply deck_lookup in Hi0 as [|Hi0]; [done|by eapply Hp].
    + intros c0. erewrite reads_insert by done. rewrite announced_snoc, Ha. lia.
    + intros c0. erewrite ends_ended by done. rewrite farewells_snoc, Hf. lia.
Qed.
Lemma live_step n s l s' : live n s -> lstep s l s' -> l <> LAccept -> live n s'.
Proof.
  intros [I V] Hst Hl. split; [by eapply linv_step|].
  destruct Hst; simpl in *; try done; [by eapply live_tp_step|eapply live_tp_step; [done|done|by intros ->]|by eapply live_tp_step|by apply live_closed].
Qed.

(** ** After a deletion *)
Record ending (s : lst) : Prop := {
  en_crash : k_crash (l_tp s) = None;
  en_empty : forall ch q b, k_chans (l_tp s) !! ch = Some (q, b) -> q = [];
  en_users : forall j c, k_users (l_tp s) !! j <> Some (UGot (Some c));
  en_wait : forall d j c, l_deck s !! d = Some (DWait j) -> k_users (l_tp s) !! j <> Some (UDone (Some c));
  en_have : forall d c, l_deck s !! d <> Some (DHave c);
  en_gos : forall i g, k_gos (l_tp s) !! i = Some g -> g = GDone \/ g = GStop \/
    exists l, g = GWait l /\ ((exists w, k_lock (l_tp s) = Some (PSock, w)) /\ k_listener (l_tp s) = Some l \/ k_socks (l_tp s) !! l <> Some true);
  en_lock : (k_lock (l_tp s) = None /\ k_running (l_tp s) = false /\ forall c, c ∈ k_handed (l_tp s) -> c ∈ k_closed (l_tp s)) \/
            exists p, k_lock (l_tp s) = Some (p, None)
}.
Lemma ending_tp n tp l tp' ds rs lg : live_tp n tp -> ending (Lst tp ds rs lg) -> (forall d j, ds !! d = Some (DWait j) -> j < length (k_users tp)) ->
  kstep tp l tp' -> l <> SRun -> l <> SIncoming -> ending (Lst tp' ds rs lg).
Proof.
  intros V [E1 E2 E3 E4 E5 E6 E7] Hw Hst L1 L2. simpl in *.
  destruct V as [Hn (q & b & Hq & B1 & B2 & B3 & B4 & B5) Ho Hr Hh].
  inversion Hst; subst; simpl in *; try done;
    try (match goal with Hg : k_gos tp !! ?i = Some ?x |- _ => destruct (E6 _ _ Hg) as [?|[?|(? & ? & ?)]]; try done end).
  all: try (by constructor; simpl).
  - destruct E7 as [(_ & ? & _)|[? ?]]; congruence.
  - destruct E7 as [(_ & ? & _)|[? ?]]; congruence.
  - constructor; simpl; try done. intros i0 g Hg. apply deck_lookup in Hg as [<-|Hg]; [by left|]. by apply (E6 _ _ Hg).
  - constructor; simpl; try done; [|right; destruct E7 as [(? & _)|[p E7]]; [congruence|]; assert (w = None) as -> by congruence; by eexists].
    intros i g Hg. destruct (E6 _ _ Hg) as [?|[?|(l & -> & [[_ Hx]|Hx])]]; [by left|by right; left|congruence|].
    right. right. exists l. split; [done|by right].
  - constructor; simpl; try done; [|right; destruct E7 as [(? & _)|[p E7]]; [congruence|]; assert (w = None) as -> by congruence; by eexists].
    intros i g Hg. destruct (E6 _ _ Hg) as [?|[?|(l & -> & [[_ Hx]|Hx])]]; [by left|by right; left|..];
      right; right; exists l; (split; [done|]); right; intros Hy.
    + assert (l = l0) as -> by congruence. apply deck_lookup in Hy as Hz. destruct Hz as [?|Hz]; [done|].
      rewrite list_lookup_insert in Hy by (by eapply lookup_lt_Some). done.
    + apply deck_lookup in Hy as [?|Hy]; done.
  - constructor; simpl; try done; [|right; destruct E7 as [(? & _)|[p E7]]; [congruence|]; assert (w = None) as -> by congruence; by eexists].
    intros i g Hg. destruct (E6 _ _ Hg) as [?|[?|(l & -> & [[[? ?] Hx]|Hx])]]; [by left|by right; left|congruence|].
    right. right. exists l. split; [done|by right].
  - constructor; simpl; try done; [| |right; destruct E7 as [(? & _)|[p E7]]; [congruence|]; assert (w = None) as -> by congruence; by eexists].
    + intros ch0 q1 b0 Hc. apply deck_lookup in Hc as [[= <- <-]|Hc]; by eapply E2.
    + intros i g Hg. destruct (E6 _ _ Hg) as [?|[?|(l & -> & [[[? ?] Hx]|Hx])]]; [by left|by right; left|congruence|].
      right. right. exists l. split; [done|by right].
  - exfalso. destruct B5 as [B5 B6]; [congruence|]. destruct b; [destruct (B2 eq_refl) as [?|[? ?]]; congruence|]. by eapply H1.
  - assert (w = None) as -> by (destruct E7 as [(? & _)|[p E7]]; congruence). simpl.
    constructor; simpl; try done.
    + intros i g Hg. destruct (E6 _ _ Hg) as [?|[?|(l & -> & [[[? ?] Hx]|Hx])]]; [by left|by right; left|congruence|].
      right. right. exists l. split; [done|by right].
    + left. split_and!; try done. intros c Hc. apply elem_of_app. destruct (Hh _ Hc) as [?|?]; [by left|]. right.
      apply elem_of_list_omap. by exists (Some c).
  - exfalso. by destruct B5 as [B5 B6]; [congruence|].
  - constructor; simpl; try done. intros i0 g Hg. apply deck_lookup in Hg as [<-|Hg]; [by right; left|]. by apply (E6 _ _ Hg).
  - constructor; simpl; try done.
    + intros j c Hj. apply lookup_app_Some in Hj as [Hj|[_ Hj]]; [by eapply E3|]. by apply single in Hj as [_ ?].
    + intros d j c Hd Hj. apply lookup_app_Some in Hj as [Hj|[_ Hj]]; [by eapply E4|]. by apply single in Hj as [_ ?].
  - by apply E2 in H1.
  - constructor; simpl; try done.
    + intros i c Hi. apply deck_lookup in Hi as [|Hi]; [done|]. by eapply E3.
    + intros d i c Hd Hi. apply deck_lookup in Hi as [|Hi]; [done|]. by eapply E4.
  - destruct r as [r|]; [by apply E3 in H0|]. constructor; simpl; try done.
    + intros i c Hi. apply deck_lookup in Hi as [|Hi]; [done|]. by eapply E3.
    + intros d i c Hd Hi. apply deck_lookup in Hi as [|Hi]; [done|]. by eapply E4.
    + rewrite app_nil_r. done.
  - constructor; simpl; try done. destruct E7 as [(? & ? & E8)|?]; [left|by right]. split_and!; try done.
    intros c0 Hc. apply elem_of_app. left. by apply E8.
Qed.
Lemma ending_step n s l s' : live n s -> ending s -> lstep s l s' -> l <> LAccept -> l <> LTran SIncoming -> ending s'.
Proof.
  intros [[Hu Hw Hh Hr Hp Ha Hf] V] E Hst Hl Hi. destruct Hst as [| | |tp tp' ds rs lg d Hd Hs|tp ds rs lg d j r Hc Hd Hj|tp ds rs lg d c Hc Hd| | | |tp ds rs lg i c Hc Hi0| ]; simpl in *; [done|..].
  - by eapply ending_tp.
  - eapply ending_tp; try done; [by intros ->|congruence].
  - assert (ending (Lst tp' ds rs lg)) as [E1 E2 E3 E4 E5 E6 E7] by (by eapply ending_tp). simpl in *.
    constructor; simpl; try done.
    + intros d0 j c Hd0. apply deck_lookup in Hd0 as [[= <-]|Hd0]; [|by eapply E4].
      inversion Hs; subst. simpl. by rewrite list_lookup_middle.
    + intros d0 c Hd0. apply deck_lookup in Hd0 as [|Hd0]; [done|by eapply E5].
  - destruct E as [E1 E2 E3 E4 E5 E6 E7]. simpl in *. destruct r as [r|]; [by edestruct E4|]. constructor; simpl; try done.
    + intros d0 j0 c Hd0. apply deck_lookup in Hd0 as [|Hd0]; [done|by eapply E4].
    + intros d0 c Hd0. apply deck_lookup in Hd0 as [|Hd0]; [done|by eapply E5].
  - destruct E as [E1 E2 E3 E4 E5 E6 E7]. by edestruct E5.
  - by destruct E; constructor.
  - by destruct E; constructor.
  - by destruct E; constructor.
  - destruct E as [E1 E2 E3 E4 E5 E6 E7]. constructor; simpl in *; try done.
    destruct E7 as [(? & ? & E8)|?]; [left|by right]. split_and!; try done. intros c0 Hx. apply elem_of_app. left. by apply E8.
  - by destruct E; constructor.
Qed.

(** ** It comes to an end *)
Definition gweight (g : gpc) : nat := match g with GWait _ => 2 | GStop => 1 | _ => 0 end.
Definition uweight (u : upc) : nat := match u with URecv _ => 2 | UGot _ => 1 | UDone _ => 0 end.
Definition dweight (d : dpc) : nat := match d with DNext => 4 | DWait _ => 1 | _ => 0 end.
Definition rweight (r : nat * phase) : nat :=
  match snd r with PTaken | PGot => 4 | PReading => 3 | PEnding => 2 | PClosing => 1 | PEnded => 0 end.
Definition budget (s : lst) : nat :=
  sumw gweight (k_gos (l_tp s)) + sumw uweight (k_users (l_tp s)) + sumw dweight (l_deck s) + sumw rweight (l_rd s).
Lemma budget_step n s l s' : live n s -> ending s -> k_running (l_tp s) = false -> lstep s l s' -> l <> LAccept ->
  k_running (l_tp s') = false /\ budget s' + (if by_itself l then 1 else 0) <= budget s.
Proof.
  intros [[Hu Hw Hh Hr Hp Ha Hf] V] [E1 E2 E3 E4 E5 E6 E7] Hrun Hst Hl. unfold budget.
  assert (k_lock (l_tp s) = None) as Hlk.
  { destruct E7 as [(? & _)|[p E7]]; [done|]. destruct V as [_ (q & b & _ & _ & _ & _ & _ & B5) _ _ _]. destruct B5; congruence. }
  assert (forall c, c ∈ k_handed (l_tp s) -> c ∈ k_closed (l_tp s)) as Hcl.
  { destruct E7 as [(_ & _ & ?)|[p E7]]; [done|congruence]. }
  destruct Hst as [|tp tp' ds rs lg Hs|tp l tp' ds rs lg Ho Hs|tp tp' ds rs lg d Hd Hs|tp ds rs lg d j r Hc Hd Hj|tp ds rs lg d c Hc Hd|tp ds rs lg i c Hc Hi Hx|tp ds rs lg i c Hc Hi|tp ds rs lg i c Hc Hi|tp ds rs lg i c Hc Hi|tp ds rs lg i c Hc Hi]; simpl in *; [done|..].
  - inversion Hs; subst; try congruence. split; [done|lia].
  - assert (forall j u u', k_users tp !! j = Some u -> sumw uweight (<[j := u']> (k_users tp)) + uweight u = sumw uweight (k_users tp) + uweight u') as Hsu
      by (intros; by apply sumw_insert).
    assert (forall j u u', k_gos tp !! j = Some u -> sumw gweight (<[j := u']> (k_gos tp)) + gweight u = sumw gweight (k_gos tp) + gweight u') as Hsg
      by (intros; by apply sumw_insert).
    inversion Hs; subst; simpl in *; try done; try congruence;
      try (match goal with Hg : k_gos tp !! ?i = Some ?x |- _ => destruct (E6 _ _ Hg) as [?|[?|(lx & Hlx & Hwx)]]; try done end).
    + specialize (Hsg _ _ GDone H0). simpl in Hsg. split; [done|lia].
    + injection Hlx as ->. destruct Hwx as [[[? ?] _]|?]; congruence.
    + specialize (Hsg _ _ GStop H0). simpl in Hsg. split; [done|lia].
    + by apply E2 in H1.
    + specialize (Hsu _ _ (UGot None) H0). simpl in Hsu. split; [done|lia].
    + specialize (Hsu _ _ (UDone r) H0). simpl in Hsu. split; [done|lia].
    + split; [done|lia].
  - pose proof (sumw_insert dweight ds d _ (DWait (length (k_users tp))) Hd) as Hsd. inversion Hs; subst. simpl in *. rewrite sumw_app. simpl.
    split; [done|lia].
  - destruct r as [r|]; [by edestruct E4|]. pose proof (sumw_insert dweight ds d _ DEnd Hd) as Hsd. simpl in *. split; [done|lia].
  - by edestruct E5.
  - destruct Hx. apply Hcl. by eapply Hr.
  - pose proof (sumw_insert rweight rs i _ (c, PReading) Hi) as Hsr. unfold rweight at 2 4 in Hsr. simpl in *. split; [done|lia].
  - pose proof (sumw_insert rweight rs i _ (c, PEnding) Hi) as Hsr. unfold rweight at 2 4 in Hsr. simpl in *. split; [done|lia].
  - pose proof (sumw_insert rweight rs i _ (c, PClosing) Hi) as Hsr. unfold rweight at 2 4 in Hsr. simpl in *. split; [done|lia].
  - pose proof (sumw_insert rweight rs i _ (c, PEnded) Hi) as Hsr. unfold rweight at 2 4 in Hsr. simpl in *. split; [done|lia].
Qed.
Lemma stuck_at_rest n s : live n s -> ending s -> k_running (l_tp s) = false -> stuck uds server maxretry s -> at_rest s.
Proof.
  intros [[Hu Hw Hh Hr Hp Ha Hf] V] [E1 E2 E3 E4 E5 E6 E7] Hrun Hst.
  assert (k_lock (l_tp s) = None) as Hlk.
  { destruct E7 as [(? & _)|[p E7]]; [done|]. destruct V as [_ (q & b & _ & _ & _ & _ & _ & B5) _ _ _]. destruct B5; congruence. }
  assert (forall c, c ∈ k_handed (l_tp s) -> c ∈ k_closed (l_tp s)) as Hcl.
  { destruct E7 as [(_ & _ & ?)|[p E7]]; [done|congruence]. }
  destruct s as [tp ds rs lg]. simpl in *. destruct V as [Hn (q & b & Hq & B1 & B2 & B3 & B4 & B5) Ho Hrv Hhd].
  assert (b = true) as -> by (destruct b; [done|]; specialize (B3 eq_refl Hlk); congruence).
  pose proof (E2 _ _ _ Hq) as ->.
  assert (forall i c p, rs !! i = Some (c, p) -> p = PEnded) as Hrd.
  { intros i c p Hi. destruct p; [..|done]; exfalso.
    - by eapply Hp.
    - discriminate (Hst (LEnd i c) _ ltac:(by eapply lk_end)).
    - discriminate (Hst (LDeliver i c) _ ltac:(by eapply lk_deliver)).
    - discriminate (Hst (LEndClose i c) _ ltac:(by eapply lk_end_close)).
    - discriminate (Hst (LEndPublish i c) _ ltac:(by eapply lk_end_publish)). }
  assert (forall j u, k_users tp !! j = Some u -> exists r, u = UDone r) as Hud.
  { intros j u Hj. destruct u as [ch|r|r]; [exfalso|exfalso|by eexists].
    - pose proof (Hrv _ _ Hj) as ->. discriminate (Hst (LTran SReceive) _ ltac:(eapply lk_tran; [done|by eapply sk_receive_nil])).
    - discriminate (Hst (LTran SReturn) _ ltac:(eapply lk_tran; [done|by eapply sk_return])). }
  split_and!; try done.
  - intros i g Hg. destruct (E6 _ _ Hg) as [?|[->|(l & -> & _)]]; [done|exfalso..].
    + discriminate (Hst (LTran SGo) _ ltac:(eapply lk_tran; [done|by eapply sk_go_stop_idle])).
    + discriminate (Hst (LTran SAcceptErr) _ ltac:(eapply lk_tran; [done|by eapply sk_accept_err])).
  - intros d p Hd. destruct p as [|j|c|]; [exfalso..|done].
    + discriminate (Hst (LCall d) _ ltac:(eapply lk_call; [done|by eapply sk_call])).
    + destruct (lookup_lt_is_Some_2 (k_users tp) j) as [u Hju]; [by eapply Hw|]. destruct (Hud _ _ Hju) as [r ->].
      discriminate (Hst (LGot d) _ ltac:(by eapply lk_got)).
    + by eapply E5.
  - intros ch q b Hx. destruct (decide (ch = n)) as [Heq|Hne]; [|by eapply (Ho ch)]. simpl in Hx. rewrite Heq, Hq in Hx. by injection Hx as <- <-.
  - intros c. simpl. rewrite Ha, Hf. symmetry. by apply all_ended.
Qed.
Lemma budget_run n s ls s' : live n s -> ending s -> k_running (l_tp s) = false -> lrun s ls s' -> LAccept ∉ ls ->
  live n s' /\ ending s' /\ k_running (l_tp s') = false /\ budget s' + steps_by_itself ls <= budget s.
Proof.
  intros V E Hr. induction 1 as [|ls s1 l s2 H IH Hst].
  { intros _. split_and!; try done. unfold steps_by_itself. simpl. lia. }
  rewrite not_elem_of_app, elem_of_list_singleton. intros [N1 N2]. destruct (IH N1) as (V1 & E1 & R1 & B1).
  assert (LAccept <> l) as N3 by done.
  destruct (budget_step _ _ _ _ V1 E1 R1 Hst (not_eq_sym N3)) as [R2 B2].
  split_and!; [by eapply live_step|eapply ending_step; try done; intros ->|done|].
  - destruct E1 as [_ _ _ _ _ E6 E7]. inversion Hst; subst. match goal with Hs : SockModel.kstep _ _ _ _ SIncoming _ |- _ => inversion Hs; subst end.
    match goal with Hg : k_gos _ !! _ = Some _ |- _ => destruct (E6 _ _ Hg) as [?|[?|(lx & [= <-] & [[[w Hw] _]|Hw])]]; try done end.
    destruct V1 as [_ [_ (q & b & _ & _ & _ & _ & _ & B5) _ _ _]]. simpl in *. destruct B5; congruence.
  - unfold steps_by_itself in *. rewrite List.filter_app, app_length. simpl. destruct (by_itself l); simpl; lia.
Qed.

(** ** From an addition to the end *)
Lemma linv_run s ls s' : linv s -> lrun s ls s' -> linv s'.
Proof. intros I. induction 1; [done|]. by eapply linv_step. Qed.
Lemma linv_new : linv new_life.
Proof. by constructor. Qed.
Lemma live_start s0 s1 : linv s0 -> at_rest s0 -> lstep s0 LAccept s1 -> live (length (k_chans (l_tp s0))) s1.
Proof.
  intros I (R1 & R2 & R3 & R4 & R5 & R6 & R7 & R8 & R9 & R10) Hst. split; [by eapply linv_step|]. inversion Hst; subst. simpl in *.
  match goal with Hs : SockModel.kstep _ _ _ _ SRun _ |- _ => inversion Hs; subst; [|congruence] end.
  constructor; simpl; try done.
  - exists [], false. split_and!; try done; try congruence.
    + by apply list_lookup_middle.
    + intros _. split; [apply not_elem_of_nil|]. intros j Hj. by destruct (R7 _ _ Hj).
  - intros ch q b Hc Hne. apply lookup_app_Some in Hc as [Hc|[Hc1 Hc2]]; [by eapply R8|]. apply single in Hc2 as [Hc2 _]. lia.
  - intros j ch Hj. by destruct (R7 _ _ Hj).
  - intros c Hc. left. by apply R9.
Qed.
Lemma live_run n s ls s' : live n s -> lrun s ls s' -> LAccept ∉ ls -> live n s'.
Proof.
  intros V. induction 1 as [|ls s1 l s2 H IH Hst]; [done|]. rewrite not_elem_of_app, elem_of_list_singleton. intros [N1 N2].
  eapply live_step; [by apply IH|done|by intros ->].
Qed.
Lemma lrun_inv s l ls s' : lrun s (l :: ls) s' -> exists s1, lstep s l s1 /\ lrun s1 ls s'.
Proof.
  intros H. remember (l :: ls) as L eqn:E. revert ls E. induction H as [|L s1 l1 s2 H IH Hst]; [done|]. intros ls E.
  destruct L as [|l0 L].
  - injection E as -> <-. inversion H; [|by destruct ls]. subst. eexists. split; [done|constructor].
  - injection E as -> <-. destruct (IH L eq_refl) as (s3 & H3 & H4). exists s3. split; [done|]. by econstructor.
Qed.
Lemma lrun_one s l s' : lstep s l s' -> lrun s [l] s'.
Proof. intros H. apply (lr_snoc _ _ _ _ [] s); [constructor|done]. Qed.
Lemma lrun_app s ls1 s1 ls2 s2 : lrun s ls1 s1 -> lrun s1 ls2 s2 -> lrun s (ls1 ++ ls2) s2.
Proof. intros H1. induction 1; [by rewrite app_nil_r|]. rewrite app_assoc. by econstructor. Qed.
Lemma lrun_cons s l s1 ls s2 : lstep s l s1 -> lrun s1 ls s2 -> lrun s (l :: ls) s2.
Proof. intros H1 H2. apply (lrun_app _ [l] s1); [by apply lrun_one|done]. Qed.
Lemma ending_start n s s' : live n s -> up (l_tp s) -> quiet s -> lstep s LDelete s' -> ending s'.
Proof.
  intros _ (U1 & U2 & U3) (Q1 & Q2 & Q3 & Q4 & Q5) Hst. inversion Hst; subst. simpl in *.
  match goal with Hs : SockModel.kstep _ _ _ _ SStop _ |- _ => inversion Hs; subst; [|congruence] end.
  constructor; simpl; try done; [|by right; eexists].
  intros i g Hg. destruct (Q5 _ _ Hg) as [?|(l & ? & ?)]; [by left|]. right. right. exists l. split; [done|]. left. split; [by eexists|done].
Qed.
Definition lock_weight (s : lst) : nat :=
  match k_lock (l_tp s) with Some (PSock, _) => 4 | Some (PNil, _) => 3 | Some (PClose, _) => 2 | Some (PDrop, _) => 1 | None => 0 end.
Lemma lock_step s l s' : ending s -> ending s' -> lstep s l s' -> l <> LAccept ->
  lock_weight s' + (match l with LTran SInner => 1 | _ => 0 end) <= lock_weight s.
Proof.
  intros [E1 _ _ _ _ _ E7] [E' _ _ _ _ _ _] Hst Hl. unfold lock_weight. destruct Hst; simpl in *; try done; try lia.
  - inversion H; subst; simpl; [|lia]. destruct E7 as [(_ & ? & _)|[? ?]]; congruence.
  - inversion H0; subst; simpl in *; try done; try lia;
      try (match goal with He : k_lock tp = Some _ |- _ => rewrite He end; simpl; lia).
    destruct E7 as [(_ & ? & _)|[? ?]]; congruence.
  - inversion H0; subst; simpl. lia.
Qed.
Lemma ending_run n s ls s' : live n s -> ending s -> lrun s ls s' -> LAccept ∉ ls -> LTran SIncoming ∉ ls ->
  live n s' /\ ending s' /\ lock_weight s' + inner_steps ls <= lock_weight s.
Proof.
  intros V E. induction 1 as [|ls s1 l s2 H IH Hst].
  { intros _ _. split_and!; try done. unfold inner_steps. simpl. lia. }
  rewrite !not_elem_of_app, !elem_of_list_singleton. intros [N1 N2] [N3 N4]. destruct (IH N1 N3) as (V1 & E1 & B1).
  assert (ending s2) as E2 by (eapply ending_step; [done|done|done|by intros ->|by intros ->]).
  split_and!; [eapply live_step; [done|done|by intros ->]|done|].
  unfold inner_steps in *. rewrite List.filter_app, app_length.
  assert (lock_weight s2 + (match l with LTran SInner => 1 | _ => 0 end) <= lock_weight s1) as Hw by (by apply lock_step; try done; intros ->).
  simpl. destruct l as [| |[]| | | | | | | |]; simpl in *; lia.
Qed.
Lemma stop_goes_on n s : live n s -> ending s -> k_running (l_tp s) = true -> exists s', lstep s (LTran SInner) s'.
Proof.
  intros [I V] [E1 E2 E3 E4 E5 E6 E7] Hr. destruct s as [tp ds rs lg]. simpl in *.
  destruct V as [Hn (q & b & Hq & B1 & B2 & B3 & B4 & B5) _ _ _].
  destruct E7 as [(_ & ? & _)|[p E7]]; [congruence|]. destruct B5 as [B5 B6]; [congruence|]. destruct p.
  - destruct (k_listener tp) as [l|] eqn:El.
    + eexists. eapply lk_tran; [done|]. by eapply sk_sock.
    + eexists. eapply lk_tran; [done|]. by eapply sk_sock_none.
  - eexists. eapply lk_tran; [done|]. by eapply sk_nil.
  - assert (b = false) as -> by (destruct b; [|done]; destruct (B2 eq_refl) as [?|[? ?]]; congruence).
    eexists. eapply lk_tran; [done|]. by eapply sk_close.
  - eexists. eapply lk_tran; [done|]. by eapply sk_drop.
Qed.
Lemma no_news s l s' c : ending s -> lstep s l s' -> EvNew c ∈ l_log s' -> EvNew c ∈ l_log s.
Proof.
  intros E Hst. destruct Hst; simpl; try done.
  - by edestruct en_have.
  - rewrite elem_of_app, elem_of_list_singleton. by intros [?|?].
  - rewrite elem_of_app, elem_of_list_singleton. by intros [?|?].
Qed.
End proofs.
