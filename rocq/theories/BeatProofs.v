(** * Proofs about heartbeat supervision *)
From Verif Require Import GoBase BeatModel BeatSpec.

Lemma brun_app T sh s ls s1 ls2 s2 : brun T sh s ls s1 -> brun T sh s1 ls2 s2 -> brun T sh s (ls ++ ls2) s2.
Proof. intros H. induction 1 as [|l2 x l y H2 IH Hst]; [by rewrite app_nil_r|]. rewrite app_assoc. by econstructor. Qed.
Lemma brun_one T sh s l s' : bstep T sh s l s' -> brun T sh s [l] s'.
Proof. intros H. apply (br_snoc T sh s [] s l s'); [constructor|done]. Qed.
Lemma brun_cons T sh s l s1 ls s2 : bstep T sh s l s1 -> brun T sh s1 ls s2 -> brun T sh s (l :: ls) s2.
Proof. intros H1 H2. change (l :: ls) with ([l] ++ ls). eapply brun_app; [by apply brun_one|done]. Qed.
Lemma brun_split T sh s ls ls2 s2 : brun T sh s (ls ++ ls2) s2 -> exists s1, brun T sh s ls s1 /\ brun T sh s1 ls2 s2.
Proof.
  revert s2. induction ls2 as [|l ls2 IH] using rev_ind; intros s2 H.
  - rewrite app_nil_r in H. exists s2. split; [done|constructor].
  - rewrite app_assoc in H. inversion H as [E|? s1 ? ? H1 H2 E]; [by destruct (ls ++ ls2)|].
    apply app_inj_tail in E as [-> ->]. destruct (IH _ H1) as (m & Ha & Hb). exists m. split; [done|by econstructor].
Qed.
Lemma brun_snoc_inv T sh s ls l s2 : brun T sh s (ls ++ [l]) s2 -> exists s1, brun T sh s ls s1 /\ bstep T sh s1 l s2.
Proof. intros H. inversion H as [E|? s1 ? ? H1 H2 E]; [by destruct ls|]. apply app_inj_tail in E as [-> ->]. by exists s1. Qed.
Lemma brun_cons_inv T sh s l ls s2 : brun T sh s (l :: ls) s2 -> exists s1, bstep T sh s l s1 /\ brun T sh s1 ls s2.
Proof.
  intros H. change (l :: ls) with ([l] ++ ls) in H. apply brun_split in H as (m & H1 & H2).
  apply (brun_snoc_inv T sh s [] l) in H1 as (x & H0 & H1). inversion H0 as [E|? ? ? ? ? ? E]; [subst; by exists m|by destruct ls0].
Qed.

Lemma clock_snoc ls l : clock (ls ++ [l]) = (clock ls + ticks l)%Z.
Proof. unfold clock. by rewrite fold_left_app. Qed.
Lemma lasttime_fst (p : blab -> bool) ls : forall n (o : option Z), fst (fold_left (fun x l => (fst x + ticks l, if p l then Some (fst x) else snd x))%Z ls (n, o)) = fold_left (fun n l => n + ticks l)%Z ls n.
Proof. induction ls as [|l ls IH]; intros n o; simpl; [done|apply IH]. Qed.
Lemma lasttime_snoc p ls l : lasttime p (ls ++ [l]) = if p l then Some (clock ls) else lasttime p ls.
Proof. unfold lasttime. rewrite fold_left_app. simpl. by rewrite lasttime_fst. Qed.
Lemma supervised_snoc c ls l : supervised c (ls ++ [l]) <-> sign c l = true \/ (dropped c l = false /\ supervised c ls).
Proof.
  split.
  - intros (l1 & x & l2 & E & Hs & Hf). destruct l2 as [|y l2 _] using rev_ind.
    + apply app_inj_tail in E as [-> ->]. by left.
    + right. rewrite app_comm_cons, app_assoc in E. apply app_inj_tail in E as [-> ->].
      apply Forall_app in Hf as [Hf Hy]. split; [by inversion Hy|]. by exists l1, x, l2.
  - intros [H|[H (l1 & x & l2 & -> & Hs & Hf)]]; [exists ls, l, []; done|]. exists l1, x, (l2 ++ [l]).
    split; [by rewrite <-app_assoc|]. split; [done|]. apply Forall_app. split; [done|]. by constructor.
Qed.

Lemma late_iff T d : (T <= d / second)%Z <-> (nsec T <= d)%Z.
Proof. unfold second, nsec. split; intros H; [|apply Z.div_le_lower_bound; lia]. pose proof (Z.mul_div_le d 1000000000). lia. Qed.

(** What holds after every history. *)
Definition late_now (T : Z) (ls : list blab) (c : nat) : Prop :=
  exists t, lasttime (sign c) ls = Some t /\ (nsec T <= clock ls - t)%Z.
Definition binv (T : Z) (sh : bool) (ls : list blab) (s : bst) : Prop :=
  b_now s = clock ls /\
  (forall c t, b_mon s c = Some t <-> supervised c ls /\ lasttime (sign c) ls = Some t) /\
  match b_chk s with
  | CIdle => True
  | CAt todo => NoDup todo /\ (forall c, c ∈ todo -> b_mon s c <> None)
  | CLate c todo => NoDup todo /\ (forall c, c ∈ todo -> b_mon s c <> None) /\ late_now T ls c /\ b_mon s c = None /\ b_gs s c <> GNone
  | CShut c todo => NoDup todo /\ (forall c, c ∈ todo -> b_mon s c <> None) /\ late_now T ls c /\ b_mon s c = None /\ b_gs s c <> GNone /\ b_closed s c = true
  end /\
  (forall c, b_gs s c = GNone -> b_mon s c = None /\ b_fly s c = false) /\
  (forall c, b_gs s c = GLeaving \/ b_gs s c = GEnded -> b_closed s c = true) /\
  (exists l : list nat, forall c, b_mon s c <> None -> c ∈ l).

Global Instance blab_dec : EqDecision blab.
Proof. solve_decision. Defined.
Ltac fnl := repeat first
  [ progress rewrite !fn_lookup_insert | progress rewrite !fn_lookup_insert_ne by done
  | match goal with H : context [<[?a := _]> ?f ?a] |- _ => rewrite !fn_lookup_insert in H end
  | match goal with H : context [<[?a := _]> ?f ?b] |- _ => rewrite !fn_lookup_insert_ne in H by done end
  | match goal with
    | |- context [<[?a := _]> ?f ?b] => destruct (decide (a = b)) as [<-|]
    | H : context [<[?a := _]> ?f ?b] |- _ => destruct (decide (a = b)) as [<-|]
    end ].
Lemma late_mono T ls l c : sign c l = false -> (0 <= ticks l)%Z -> late_now T ls c -> late_now T (ls ++ [l]) c.
Proof. intros Hs Hd (t & E & L). exists t. rewrite lasttime_snoc, Hs, clock_snoc. split; [done|lia]. Qed.
Lemma mon_same ls l (m : nat -> option Z) :
  (forall c, sign c l = false /\ dropped c l = false) ->
  (forall c t, m c = Some t <-> supervised c ls /\ lasttime (sign c) ls = Some t) ->
  forall c t, m c = Some t <-> supervised c (ls ++ [l]) /\ lasttime (sign c) (ls ++ [l]) = Some t.
Proof. intros Hl H c t. destruct (Hl c) as [H1 H2]. rewrite H, supervised_snoc, lasttime_snoc, H1, H2. naive_solver. Qed.
Lemma mon_sign ls l (m : nat -> option Z) d :
  (forall c, sign c l = Nat.eqb d c) -> (forall c, dropped c l = false) ->
  (forall c t, m c = Some t <-> supervised c ls /\ lasttime (sign c) ls = Some t) ->
  forall c t, (<[d := Some (clock ls)]> m) c = Some t <-> supervised c (ls ++ [l]) /\ lasttime (sign c) (ls ++ [l]) = Some t.
Proof.
  intros Hl H2 H c t. rewrite supervised_snoc, lasttime_snoc, Hl, H2. destruct (Nat.eqb_spec d c) as [->|N].
  - rewrite fn_lookup_insert. naive_solver.
  - rewrite fn_lookup_insert_ne by done. rewrite H. naive_solver.
Qed.
Lemma mon_drop ls l (m : nat -> option Z) d :
  (forall c, dropped c l = Nat.eqb d c) -> (forall c, sign c l = false) ->
  (forall c t, m c = Some t <-> supervised c ls /\ lasttime (sign c) ls = Some t) ->
  forall c t, (<[d := None]> m) c = Some t <-> supervised c (ls ++ [l]) /\ lasttime (sign c) (ls ++ [l]) = Some t.
Proof.
  intros Hl H2 H c t. rewrite supervised_snoc, lasttime_snoc, Hl, H2. destruct (Nat.eqb_spec d c) as [->|N].
  - rewrite fn_lookup_insert. naive_solver.
  - rewrite fn_lookup_insert_ne by done. rewrite H. naive_solver.
Qed.
Lemma binv_run T sh ls s : brun T sh new_beat ls s -> binv T sh ls s.
Proof.
  induction 1 as [|ls s1 l s2 H IH Hst].
  { split_and!; try done.
    - intros c t. split; [done|]. intros [(l1 & x & l2 & E & _) _]. by destruct l1.
    - simpl. intros c [?|?]; done.
    - by exists []. }
  destruct IH as (I1 & I2 & I3 & I4 & I5 & (lst & I6)).
  destruct Hst; simpl in *; subst; (split; [by rewrite clock_snoc; simpl; lia|]); simpl.
  (* tick *)
  - split; [by apply mon_same|]. split; [|split_and!; try done; by exists lst].
    destruct k; try done; destruct_and?; split_and!; try done; by apply late_mono.
  (* open *)
  - split; [by apply mon_sign|]. split; [done|]. split_and!.
    + intros c' Hc. fnl; [done|]. by apply I4.
    + intros c' Hc. fnl; [naive_solver|]. by apply I5.
    + exists (c :: lst). intros c' Hc. fnl; [left|right; by apply I6].
  (* arrive *)
  - split; [by apply mon_same|]. split; [|split_and!; try done; [|by exists lst]].
    + destruct k; try done; destruct_and?; split_and!; try done; by apply late_mono.
    + intros c' Hc. split; [by apply I4|]. fnl; [done|]. by apply I4.
  (* beat *)
  - split; [by apply mon_sign|]. split; [done|]. split_and!; try done.
    + intros c' Hc. fnl; [|by apply I4]. destruct (I4 _ Hc). congruence.
    + exists (c :: lst). intros c' Hc. fnl; [left|right; by apply I6].
  (* close *)
  - split; [by apply mon_same|]. split; [|split_and!; try done; [|by exists lst]].
    + destruct k; try done; destruct_and?; split_and!; try done; [by apply late_mono..|]. by fnl.
    + intros c' Hc. fnl; [done|]. by apply I5.
  (* see *)
  - split; [by apply mon_same|]. split; [|split_and!; try done; [..|by exists lst]].
    + destruct k; try done; destruct_and?; split_and!; try done; try (by apply late_mono); by fnl.
    + intros c' Hc. fnl; [done|]. by apply I4.
    + intros c' Hc. fnl; [done|]. by apply I5.
  (* gone *)
  - split; [by apply mon_drop|]. split; [done|]. split_and!.
    + intros c' Hc. fnl; [done|]. by apply I4.
    + intros c' Hc. fnl; [apply I5; by left|]. by apply I5.
    + exists lst. intros c' Hc. fnl; [done|by apply I6].
  (* check *)
  - split; [by apply mon_same|]. split; [split; [done|]; intros c; apply H1|split_and!; try done; by exists lst].
  (* keep *)
  - split; [by apply mon_same|]. destruct I3 as [N F]. split; [split; [by inversion N|]; intros c' Hc'; apply F; by right|split_and!; try done; by exists lst].
  (* late *)
  - split; [by apply mon_drop|]. destruct I3 as [N F]. split; [|split_and!; try done].
    + inversion N; subst. split_and!; try done; [..|by rewrite fn_lookup_insert|intros Hg; destruct (I4 _ Hg); congruence].
      * intros c' Hc'. fnl; [done|]. apply F. by right.
      * exists t. destruct (I2 c t) as [K _]. destruct (K H0) as [_ E]. rewrite lasttime_snoc, clock_snoc. simpl. split; [done|].
        apply late_iff in H1. lia.
    + intros c' Hc. destruct (I4 _ Hc). split; [|done]. by fnl.
    + exists lst. intros c' Hc. fnl; [done|by apply I6].
  (* shut *)
  - split; [by apply mon_same|]. destruct I3 as (N & F & L & M & G). split; [|split_and!; try done; [|by exists lst]].
    + split_and!; try done; [by apply late_mono|by rewrite fn_lookup_insert].
    + intros c' Hc. fnl; [done|]. by apply I5.
  (* lost *)
  - split; [by apply mon_same|]. destruct I3 as (N & F & _). split; [done|split_and!; try done; by exists lst].
  - split; [by apply mon_same|]. destruct I3 as (N & F & _). split; [done|split_and!; try done; by exists lst].
  (* done *)
  - split; [by apply mon_same|]. split; [done|split_and!; try done; by exists lst].
Qed.

(** Reports are justified. *)
Lemma lost_silent T sh ls l c s : brun T sh new_beat (ls ++ [l]) s -> l = BLate c \/ l = BShut c \/ l = BLost c ->
  exists t, lasttime (sign c) ls = Some t /\ (nsec T <= clock ls - t)%Z.
Proof.
  intros H Hl. apply brun_snoc_inv in H as (s1 & H & Hst). destruct (binv_run _ _ _ _ H) as (I1 & I2 & I3 & _).
  destruct Hl as [->|[->| ->]]; inversion Hst; subst; simpl in *.
  - match goal with X : m c = Some ?t |- _ => destruct (I2 c t) as [K _]; destruct (K X) as [_ E]; exists t end.
    split; [done|]. match goal with X : (T <= _)%Z |- _ => apply late_iff in X; lia end.
  - destruct I3 as (_ & _ & L & _). exact L.
  - destruct I3 as (_ & _ & L & _). exact L.
  - destruct I3 as (_ & _ & L & _). exact L.
Qed.
Lemma lost_step_split T sh s ls s' l : brun T sh s ls s' -> l ∈ ls -> exists l1 l2 s1 s2, ls = l1 ++ l :: l2 /\ brun T sh s l1 s1 /\ bstep T sh s1 l s2 /\ brun T sh s2 l2 s'.
Proof.
  intros H (l1 & l2 & ->)%elem_of_list_split. apply brun_split in H as (s1 & H1 & H2). apply brun_cons_inv in H2 as (s2 & H2 & H3).
  by exists l1, l2, s1, s2.
Qed.
Lemma steady_kept T sh ls c s : brun T sh new_beat ls s ->
  (forall l1 l2 t, ls = l1 ++ l2 -> lasttime (sign c) l1 = Some t -> (clock l1 - t < nsec T)%Z) -> BLost c ∉ ls.
Proof.
  intros H Hk Hin. apply (lost_step_split _ _ _ _ _ _ H) in Hin as (l1 & l2 & s1 & s2 & -> & H1 & Hst & _).
  destruct (lost_silent T sh l1 (BLost c) c s2) as (t & E & L); [by econstructor|by right; right|].
  specialize (Hk l1 (BLost c :: l2) t eq_refl E). lia.
Qed.

(** A check reports everything late. *)
Definition handled T c (ls2 : list blab) (s : bst) : Prop :=
  match b_chk s with
  | CIdle => False
  | CAt todo => (c ∈ todo /\ exists t, b_mon s c = Some t /\ (nsec T <= b_now s - t)%Z) \/ BLost c ∈ ls2
  | CLate d todo | CShut d todo => d = c \/ (c ∈ todo /\ exists t, b_mon s c = Some t /\ (nsec T <= b_now s - t)%Z) \/ BLost c ∈ ls2
  end.
Lemma handled_step T sh ls2 s l s' c : bstep T sh s l s' -> l <> BDone -> handled T c ls2 s -> handled T c (ls2 ++ [l]) s'.
Proof.
  assert (forall l, BLost c ∈ ls2 -> BLost c ∈ ls2 ++ [l]) as K by (intros; apply elem_of_app; by left).
  intros Hst Hl. unfold handled. destruct Hst; simpl; try done.
  - assert (forall (A : Prop) (t : Z), (A /\ exists t, m c = Some t /\ (nsec T <= now - t)%Z) -> (A /\ exists t, m c = Some t /\ (nsec T <= now + d - t)%Z)) as M.
    { intros A _ (HA & t & E & L). split; [done|]. exists t. split; [done|lia]. }
    destruct k; try done.
    + intros [X|X]; [left; by apply M|right; by apply K].
    + intros [X|[X|X]]; [by left|right; left; by apply M|right; right; by apply K].
    + intros [X|[X|X]]; [by left|right; left; by apply M|right; right; by apply K].
  - destruct k; naive_solver.
  - destruct k; naive_solver.
  - destruct k; naive_solver.
  - intros [([->|X]%elem_of_cons & t' & E & L)|X]; [|left; split; [done|]; by exists t'|right; by apply K].
    exfalso. assert (t' = t) as -> by congruence. apply late_iff in L. lia.
  - destruct (decide (c0 = c)) as [->|N]; [by left|]. intros [([->|X]%elem_of_cons & t' & E & L)|X]; [done| |right; right; by apply K].
    right; left. split; [done|]. exists t'. by rewrite fn_lookup_insert_ne.
  - naive_solver.
  - intros [->|[X|X]]; [right; apply elem_of_app; right; by left|by left|right; by apply K].
  - intros [->|[X|X]]; [right; apply elem_of_app; right; by left|by left|right; by apply K].
Qed.
Lemma check_reports T sh ls1 todo ls2 s c t : brun T sh new_beat (ls1 ++ BCheck todo :: ls2 ++ [BDone]) s -> BDone ∉ ls2 ->
  supervised c ls1 -> lasttime (sign c) ls1 = Some t -> (nsec T <= clock ls1 - t)%Z -> BLost c ∈ ls2.
Proof.
  intros H Hd Hs Ht Hl. apply brun_split in H as (s1 & H1 & H). apply brun_cons_inv in H as (s2 & Hst & H). apply brun_snoc_inv in H as (s3 & H & Hst3).
  assert (handled T c ls2 s3) as Hh.
  { assert (handled T c [] s2) as H0.
    { destruct (binv_run _ _ _ _ H1) as (I1 & I2 & _). inversion Hst; subst; simpl in *. left.
      assert (m c = Some t) as E by (by apply I2). split; [match goal with X : forall c, c ∈ todo <-> _ |- _ => apply X end; congruence|]. exists t. split; [done|]. rewrite I1. done. }
    clear Hst3 Hst. induction H as [|ls2 s3 l s4 H IH Hst]; [done|]. apply not_elem_of_app in Hd as [Hd Hl']. rewrite elem_of_list_singleton in Hl'.
    eapply handled_step; [done|intros ->; by apply Hl'|]. by apply IH. }
  inversion Hst3; subst. unfold handled in Hh. simpl in Hh. destruct Hh as [[X _]|X]; [by apply elem_of_nil in X|done].
Qed.

(** Without a new sign nothing is reported again. *)
Definition silent (c : nat) (s : bst) : Prop :=
  b_mon s c = None /\ b_gs s c <> GNone /\ match b_chk s with CLate d _ | CShut d _ => d <> c | _ => True end.
Lemma silent_step T sh s l s' c : bstep T sh s l s' -> l <> BBeat c -> silent c s -> silent c s' /\ l <> BLost c.
Proof.
  intros Hst Hl (S1 & S2 & S3). unfold silent. destruct Hst; simpl in *; split; try done; try congruence; split_and!; try done; fnl; try done; congruence.
Qed.
Lemma silent_run T sh s ls s' c : brun T sh s ls s' -> BBeat c ∉ ls -> silent c s -> silent c s' /\ BLost c ∉ ls.
Proof.
  intros H. induction H as [|ls s1 l s2 H IH Hst]; intros Hb Hs; [split; [done|apply not_elem_of_nil]|].
  apply not_elem_of_app in Hb as [Hb Hl]. rewrite elem_of_list_singleton in Hl. destruct (IH Hb Hs) as [Hs1 Hn].
  destruct (silent_step _ _ _ _ _ _ Hst (not_eq_sym Hl) Hs1) as [Hs2 Hn2]. split; [done|]. apply not_elem_of_app. split; [done|]. rewrite elem_of_list_singleton. by intros <-.
Qed.
Lemma silent_after_lost T sh ls c s : brun T sh new_beat (ls ++ [BLost c]) s -> silent c s.
Proof.
  intros H. apply brun_snoc_inv in H as (s1 & H & Hst). destruct (binv_run _ _ _ _ H) as (I1 & I2 & I3 & _).
  inversion Hst; subst; simpl in *; destruct_and?; by split_and!.
Qed.
Lemma once_per_silence T sh l1 c l2 s : brun T sh new_beat (l1 ++ BLost c :: l2 ++ [BLost c]) s -> BBeat c ∈ l2.
Proof.
  intros H. destruct (decide (BBeat c ∈ l2)) as [|N]; [done|]. exfalso.
  rewrite cons_middle, app_assoc in H. apply brun_split in H as (s1 & H1 & H2). apply silent_after_lost in H1.
  destruct (silent_run _ _ _ _ _ c H2) as [_ X]; [|done|].
  - apply not_elem_of_app. split; [done|]. by rewrite elem_of_list_singleton.
  - apply X. apply elem_of_app. right. by left.
Qed.

(** Closing. *)
Lemma lost_closed T sh ls c s : brun T sh new_beat (ls ++ [BLost c]) s -> sh = true -> b_closed s c = true.
Proof.
  intros H Hs. apply brun_snoc_inv in H as (s1 & H & Hst). destruct (binv_run _ _ _ _ H) as (I1 & I2 & I3 & _).
  inversion Hst; subst; simpl in *; [by destruct_and?|done].
Qed.
Lemma never_shut T ls c s : brun T false new_beat ls s -> BShut c ∉ ls.
Proof. intros H Hin. apply (lost_step_split _ _ _ _ _ _ H) in Hin as (l1 & l2 & s1 & s2 & _ & _ & Hst & _). by inversion Hst. Qed.

(** A check always comes to its end, by itself and without waiting. *)
Lemma lost_run T sh now m c todo cl fl gs :
  exists cl' ls, brun T sh (Bst now m (CLate c todo) cl fl gs) (ls ++ [BLost c]) (Bst now m (CAt todo) cl' fl gs) /\ Forall own_step (ls ++ [BLost c]).
Proof.
  destruct sh.
  - exists (<[c := true]> cl), [BShut c]. split; [|by repeat constructor]. eapply brun_cons; [by constructor|]. apply brun_one. by constructor.
  - exists cl, []. split; [|by repeat constructor]. apply brun_one. by constructor.
Qed.
Lemma check_rest T sh now fl gs todo : forall m cl, NoDup todo -> (forall c, c ∈ todo -> m c <> None) ->
  exists ls m' cl', brun T sh (Bst now m (CAt todo) cl fl gs) ls (Bst now m' CIdle cl' fl gs) /\ Forall own_step ls.
Proof.
  induction todo as [|c todo IH]; intros m cl N F.
  - exists [BDone], m, cl. split; [apply brun_one; constructor|by repeat constructor].
  - inversion N as [|? ? N1 N2]; subst. destruct (m c) as [t|] eqn:E; [|by destruct (F c (elem_of_list_here _ _))].
    destruct (Z.lt_ge_cases ((now - t) / second) T) as [L|L].
    + destruct (IH m cl N2) as (ls & m' & cl' & H & Ho); [intros d Hd; apply F; by right|].
      exists (BKeep c :: ls), m', cl'. split; [eapply brun_cons; [by eapply bk_keep|done]|by constructor].
    + destruct (lost_run T sh now (<[c := None]> m) c todo cl fl gs) as (cl1 & l1 & H1 & Ho1).
      destruct (IH (<[c := None]> m) cl1 N2) as (ls & m' & cl' & H & Ho); [intros d Hd; fnl; [done|apply F; by right]|].
      exists (BLate c :: (l1 ++ [BLost c]) ++ ls), m', cl'. split; [|constructor; [done|]; by apply Forall_app].
      eapply brun_cons; [by eapply bk_late|]. by eapply brun_app.
Qed.
Lemma check_ends T sh s : breach T sh s ->
  exists ls s', brun T sh s ls s' /\ b_chk s' = CIdle /\ b_now s' = b_now s /\ b_fly s' = b_fly s /\ b_gs s' = b_gs s /\ Forall own_step ls.
Proof.
  intros (l0 & H0). destruct (binv_run _ _ _ _ H0) as (_ & _ & I3 & _). destruct s as [now m k cl fl gs]; simpl in *. destruct k as [|todo|c todo|c todo].
  - exists [], (Bst now m CIdle cl fl gs). split; [constructor|]. done.
  - destruct I3 as [N F]. destruct (check_rest T sh now fl gs todo m cl N F) as (ls & m' & cl' & H & Ho). by exists ls, (Bst now m' CIdle cl' fl gs).
  - destruct I3 as (N & F & _). destruct (lost_run T sh now m c todo cl fl gs) as (cl1 & l1 & H1 & Ho1). destruct (check_rest T sh now fl gs todo m cl1 N F) as (ls & m' & cl' & H & Ho).
    exists ((l1 ++ [BLost c]) ++ ls), (Bst now m' CIdle cl' fl gs). split; [by eapply brun_app|]. split_and!; try done. by apply Forall_app.
  - destruct I3 as (N & F & _). assert (sh = true) as Hsh.
    { clear N F. remember (Bst now m (CShut c todo) cl fl gs) as s eqn:E. assert (match b_chk s with CShut _ _ => sh = true | _ => True end) as K.
      { clear E. induction H0 as [|ls s1 l s2 _ IH Hst]; [done|]. destruct Hst; simpl in *; try done; by destruct k. }
      by rewrite E in K. }
    destruct (check_rest T sh now fl gs todo m cl N F) as (ls & m' & cl' & H & Ho).
    exists (BLost c :: ls), (Bst now m' CIdle cl' fl gs). split; [eapply brun_cons; [by apply bk_lost|done]|]. split_and!; try done. by constructor.
Qed.
Lemma listing (m : nat -> option Z) (lst : list nat) c : (forall d, m d <> None -> d ∈ lst) -> m c <> None ->
  exists rest, NoDup (c :: rest) /\ forall d, d ∈ c :: rest <-> m d <> None.
Proof.
  intros Hl Hc. exists (filter (fun d => m d <> None /\ d <> c) (remove_dups lst)). split.
  - constructor; [rewrite elem_of_list_filter; naive_solver|]. apply list.NoDup_filter, NoDup_remove_dups.
  - intros d. rewrite elem_of_cons, elem_of_list_filter, elem_of_remove_dups. destruct (decide (d = c)) as [->|]; naive_solver.
Qed.
Lemma late_reported T sh s c t : breach T sh s -> b_chk s = CIdle -> b_mon s c = Some t -> (nsec T <= b_now s - t)%Z ->
  exists todo ls s', brun T sh s (BCheck (c :: todo) :: BLate c :: ls ++ [BLost c]) s' /\ Forall own_step ls.
Proof.
  intros (l0 & H0) Hk Hm Hl. destruct (binv_run _ _ _ _ H0) as (_ & _ & _ & _ & _ & (lst & I6)). destruct s as [now m k cl fl gs]; simpl in *; subst k.
  destruct (listing m lst c I6) as (rest & N & F); [congruence|].
  destruct (lost_run T sh now (<[c := None]> m) c rest cl fl gs) as (cl1 & l1 & H1 & Ho1).
  exists rest, l1, (Bst now (<[c := None]> m) (CAt rest) cl1 fl gs). split; [|by apply Forall_app in Ho1 as [? _]].
  eapply brun_cons; [by apply bk_check|]. eapply brun_cons; [|exact H1]. eapply bk_late; [done|]. by apply late_iff.
Qed.

(** Ended goroutines. *)
Lemma breach_run T sh s ls s' : breach T sh s -> brun T sh s ls s' -> breach T sh s'.
Proof. intros (l0 & H0) H. exists (l0 ++ ls). by eapply brun_app. Qed.
Lemma ended_lost T sh s c : breach T sh s -> b_gs s c = GEnded -> b_fly s c = true ->
  exists ls s', brun T sh s ls s' /\ BLost c ∈ ls.
Proof.
  intros Hr Hg Hf. destruct (check_ends T sh s Hr) as (l1 & s1 & H1 & K1 & _ & F1 & G1 & _). rewrite <-F1 in Hf. pose proof (breach_run _ _ _ _ _ Hr H1) as Hr1.
  destruct s1 as [now m k cl fl gs]; simpl in *; subst k.
  assert (brun T sh (Bst now m CIdle cl fl gs) [BBeat c; BTick (Z.max 0 (nsec T))] (Bst (now + Z.max 0 (nsec T)) (<[c := Some now]> m) CIdle cl (<[c := false]> fl) gs)) as H2.
  { eapply brun_cons; [by apply bk_beat|]. apply brun_one. apply bk_tick. lia. }
  pose proof (breach_run _ _ _ _ _ Hr1 H2) as Hr2.
  destruct (late_reported T sh _ c now Hr2) as (todo & l3 & s3 & H3 & _); [done|by simpl; rewrite fn_lookup_insert|simpl; lia|].
  exists ((l1 ++ [BBeat c; BTick (Z.max 0 (nsec T))]) ++ (BCheck (c :: todo) :: BLate c :: l3 ++ [BLost c])), s3.
  split; [eapply brun_app; [by eapply brun_app|done]|]. apply elem_of_app. right. right. right. apply elem_of_app. right. by left.
Qed.
Definition nofly (c : nat) (s : bst) : nat := if b_fly s c then 1 else 0.
Definition beats (c : nat) (ls : list blab) : nat := length (filter (fun l => l = BBeat c) ls).
Lemma beats_closed T sh s ls s' c : brun T sh s ls s' -> b_closed s c = true -> b_closed s' c = true /\ beats c ls + nofly c s' <= nofly c s.
Proof.
  intros H Hc. induction H as [|ls s1 l s2 H IH Hst]; [split; [done|unfold beats; simpl; lia]|]. destruct IH as [IH1 IH2].
  unfold beats in *. rewrite list.filter_app, app_length. unfold nofly in *. destruct Hst; simpl in *; (split; [by fnl|]); rewrite ?filter_cons_False by done; simpl; try lia.
  - fnl; [congruence|lia].
  - destruct (decide (c0 = c)) as [->|N].
    + rewrite filter_cons_True by done. fnl. simpl. rewrite H0 in IH2. lia.
    + rewrite filter_cons_False by congruence. fnl. simpl. lia.
Qed.
Lemma beats_none c ls : beats c ls = 0 -> BBeat c ∉ ls.
Proof. unfold beats. intros H Hin. assert (BBeat c ∈ filter (fun l => l = BBeat c) ls) as X by (by apply elem_of_list_filter). by destruct (filter _ ls); [apply elem_of_nil in X|]. Qed.
Lemma beats_some c ls : BBeat c ∈ ls -> 1 <= beats c ls.
Proof. intros H. destruct (beats c ls) eqn:E; [by apply beats_none in E|lia]. Qed.
Lemma beats_app c l1 l2 : beats c (l1 ++ l2) = beats c l1 + beats c l2.
Proof. unfold beats. by rewrite list.filter_app, app_length. Qed.
Lemma gone_silent T sh ls c s : brun T sh new_beat (ls ++ [BGone c]) s -> silent c s /\ b_closed s c = true.
Proof.
  intros H. apply brun_snoc_inv in H as (s1 & H & Hst). destruct (binv_run _ _ _ _ H) as (I1 & I2 & I3 & I4 & I5 & _).
  inversion Hst; subst; simpl in *. split; [|apply I5; by left]. unfold silent. simpl. by fnl.
Qed.
Lemma ended_quiet T sh l1 s1 c l2 s : brun T sh new_beat l1 s1 -> b_fly s1 c = false -> brun T sh s1 (BGone c :: l2) s -> BLost c ∉ l2.
Proof.
  intros H1 Hf H2. apply brun_cons_inv in H2 as (s2 & Hst & H2). destruct (gone_silent T sh l1 c s2) as [Q C]; [by econstructor|].
  assert (b_fly s2 c = false) as F2 by (by inversion Hst; subst).
  destruct (beats_closed _ _ _ _ _ c H2 C) as [_ B]. unfold nofly in B. rewrite F2 in B.
  destruct (silent_run _ _ _ _ _ c H2) as [_ X]; [apply beats_none; lia|done|done].
Qed.
Lemma ended_at_most_one T sh l1 c l2 l3 s : brun T sh new_beat (l1 ++ BGone c :: l2 ++ BLost c :: l3) s -> BLost c ∉ l3.
Proof.
  intros H Hin. apply elem_of_list_split in Hin as (l4 & l5 & ->).
  assert (l1 ++ BGone c :: l2 ++ BLost c :: l4 ++ BLost c :: l5 = ((l1 ++ BGone c :: l2) ++ BLost c :: l4 ++ [BLost c]) ++ l5) as E.
  { rewrite <-!app_assoc. simpl. rewrite <-!app_assoc. simpl. by rewrite <-?app_assoc. }
  rewrite E in H. apply brun_split in H as (s1 & H & _). pose proof (once_per_silence _ _ _ _ _ _ H) as B4.
  replace ((l1 ++ BGone c :: l2) ++ BLost c :: l4 ++ [BLost c]) with ((l1 ++ [BGone c]) ++ l2 ++ BLost c :: l4 ++ [BLost c]) in H by (by rewrite <-!app_assoc).
  apply brun_split in H as (s0 & H0 & H).
  destruct (gone_silent _ _ _ _ _ H0) as [Q C].
  destruct (beats_closed _ _ _ _ _ c H C) as [_ B]. rewrite beats_app in B. change (BLost c :: l4 ++ [BLost c]) with ([BLost c] ++ l4 ++ [BLost c]) in B. rewrite !beats_app in B.
  apply beats_some in B4. assert (nofly c s0 <= 1) by (unfold nofly; destruct (b_fly s0 c); lia).
  assert (BBeat c ∉ l2 ++ [BLost c]) as N.
  { apply not_elem_of_app. split; [apply beats_none; lia|]. by rewrite elem_of_list_singleton. }
  change (BLost c :: l4 ++ [BLost c]) with ([BLost c] ++ l4 ++ [BLost c]) in H. rewrite app_assoc in H. apply brun_split in H as (s2 & H2 & _).
  destruct (silent_run _ _ _ _ _ c H2 N Q) as [_ X]. apply X. apply elem_of_app. right. by left.
Qed.

(** The mutex. *)
Lemma stalled T sh s l s' c : b_chk s <> CIdle -> l = BBeat c \/ l = BOpen c \/ l = BGone c -> ~ bstep T sh s l s'.
Proof. intros H Hl Hst. destruct Hl as [->|[->| ->]]; inversion Hst; subst; by apply H. Qed.

(** Arrived in time and yet reported: the check itself keeps the heartbeat from
    being registered. *)
Definition overtaken (T : Z) (sh : bool) : list blab :=
  [BOpen 0; BTick 1; BOpen 1; BTick (nsec T - 1); BCheck [0; 1]; BLate 0] ++ (if sh then [BShut 0] else []) ++
  [BArrive 1; BTick 1; BLost 0; BLate 1] ++ (if sh then [BShut 1] else []) ++ [BLost 1].
Lemma overtaken_runs T sh : (0 < T)%Z -> exists s, brun T sh new_beat (overtaken T sh) s.
Proof.
  intros HT. assert (0 < nsec T)%Z by (unfold nsec; lia).
  assert (forall t, t = 0%Z \/ t = 1%Z -> forall n, (n = 0 + 1 + (nsec T - 1) + t)%Z -> T <= (n - t) / second)%Z as L.
  { intros t Ht n ->. apply late_iff. lia. }
  unfold overtaken. destruct sh; simpl; eexists.
  all: eapply brun_cons; [by apply bk_open|]; eapply brun_cons; [apply bk_tick; lia|]; eapply brun_cons; [by apply bk_open|];
    eapply brun_cons; [apply bk_tick; lia|]; eapply brun_cons; [apply bk_check; [by repeat constructor; rewrite ?elem_of_list_singleton; try apply not_elem_of_nil|]|].
  1, 3: intros c; rewrite !elem_of_cons, elem_of_nil; fnl; naive_solver.
  all: eapply brun_cons; [eapply bk_late; [done|apply L; [by left|lia]]|].
  - eapply brun_cons; [by apply bk_shut|]. eapply brun_cons; [by apply bk_arrive|]. eapply brun_cons; [apply bk_tick; lia|].
    eapply brun_cons; [by apply bk_lost|]. eapply brun_cons; [eapply bk_late; [done|apply L; [by right|lia]]|]. eapply brun_cons; [by apply bk_shut|].
    apply brun_one. by apply bk_lost.
  - eapply brun_cons; [by apply bk_arrive|]. eapply brun_cons; [apply bk_tick; lia|].
    eapply brun_cons; [by apply bk_lost_open|]. eapply brun_cons; [eapply bk_late; [done|apply L; [by right|lia]]|].
    apply brun_one. by apply bk_lost_open.
Qed.
Lemma in_time_lost T sh : (0 < T)%Z -> exists ls s, brun T sh new_beat ls s /\ BLost 1 ∈ ls /\
  forall l1 l2 t, ls = l1 ++ l2 -> lasttime (arrival 1) l1 = Some t -> (clock l1 - t < nsec T)%Z.
Proof.
  intros HT. destruct (overtaken_runs T sh HT) as (s & H). exists (overtaken T sh), s. split; [done|]. clear H. assert (1 < nsec T)%Z as HS by (unfold nsec; lia).
  unfold overtaken. revert HS. generalize (nsec T) as S. intros S HS. split; [rewrite !elem_of_app; right; right; right; right; by left|].
  intros l1 l2 t. destruct sh; simpl; intros E.
  all: repeat (destruct l1 as [|? l1]; [unfold lasttime, clock; simpl; intros [=]; lia|injection E as <- E; simpl in E]).
  all: destruct l1 as [|? l1]; [unfold lasttime, clock; simpl; intros [=]; lia|done].
Qed.
Lemma beat_registers T sh ls s c : brun T sh new_beat ls s -> b_chk s = CIdle -> b_fly s c = true ->
  exists s', bstep T sh s (BBeat c) s' /\ b_mon s' c = Some (clock ls) /\ supervised c (ls ++ [BBeat c]).
Proof.
  intros H Hk Hf. destruct (binv_run _ _ _ _ H) as (I1 & _). destruct s as [now m k cl fl gs]; simpl in *; subst. eexists. split; [by apply bk_beat|].
  simpl. rewrite fn_lookup_insert. split; [done|]. apply supervised_snoc. left. simpl. apply Nat.eqb_refl.
Qed.
(** However the goroutines are scheduled, a check makes at most three steps for every connection, and never waits. *)
Definition chk_left (k : chk) : nat :=
  match k with CIdle => 0 | CAt todo => 3 * length todo | CLate _ todo => 3 * length todo + 2 | CShut _ todo => 3 * length todo + 1 end.
Lemma own_steps_app ls ms : own_steps (ls ++ ms) = own_steps ls + own_steps ms.
Proof. unfold own_steps. by rewrite List.filter_app, app_length. Qed.
Lemma shut_set T sh ls s : brun T sh new_beat ls s -> match b_chk s with CShut _ _ => sh = true | _ => True end.
Proof. induction 1 as [|ls s1 l s2 _ IH Hst]; [done|]. destruct Hst; simpl in *; try done; by destruct k. Qed.
Lemma check_goes_on T sh s : breach T sh s -> b_chk s <> CIdle -> exists l s', own_step l /\ bstep T sh s l s'.
Proof.
  intros (l0 & H0) Hk. pose proof (shut_set _ _ _ _ H0) as Hsh. destruct (binv_run _ _ _ _ H0) as (_ & _ & I3 & _).
  destruct s as [now m k cl fl gs]; simpl in *. destruct k as [|[|c todo]|c todo|c todo]; [done|..].
  - exists BDone, (Bst now m CIdle cl fl gs). split; [done|constructor].
  - destruct I3 as [N F]. destruct (m c) as [t|] eqn:E; [|by destruct (F c (elem_of_list_here _ _))].
    destruct (Z.lt_ge_cases ((now - t) / second) T) as [L|L].
    + eexists (BKeep c), _. split; [done|]. by eapply bk_keep.
    + eexists (BLate c), _. split; [done|]. by eapply bk_late.
  - destruct sh; [eexists (BShut c), _; split; [done|]; by apply bk_shut|eexists (BLost c), _; split; [done|]; by apply bk_lost_open].
  - eexists (BLost c), _. split; [done|]. by apply bk_lost.
Qed.
Lemma check_bounded T sh ls1 todo ls2 s : brun T sh new_beat (ls1 ++ BCheck todo :: ls2) s -> BDone ∉ ls2 ->
  own_steps ls2 <= 3 * length todo /\ exists l s', own_step l /\ bstep T sh s l s'.
Proof.
  intros H Hd. pose proof H as H0. apply brun_split in H as (s1 & _ & H). apply brun_cons_inv in H as (s2 & Hst & H).
  assert (own_steps ls2 + chk_left (b_chk s) <= 3 * length todo /\ b_chk s <> CIdle) as [Hl Hk].
  { clear H0. assert (b_chk s2 = CAt todo) as E by (by inversion Hst). clear Hst.
    induction H as [|ls2 s3 l s4 H IH Hst]; [rewrite E; by split; [simpl; lia|]|]. apply not_elem_of_app in Hd as [Hd Hl'].
    rewrite elem_of_list_singleton in Hl'. destruct (IH Hd) as [I1 I2]. rewrite own_steps_app.
    destruct Hst; simpl in *; try done; unfold own_steps at 2; simpl; (split; [lia|done]). }
  split; [lia|]. apply check_goes_on; [by eexists|done].
Qed.
