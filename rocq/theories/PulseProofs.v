(** * Proofs for C76 *)
From Verif Require Import GoBase BeatModel BeatSpec BeatProofs PulseModel PulseSpec.
From stdpp Require Import sets list.

Lemma side_app l1 l2 : side (l1 ++ l2) = side l1 ++ side l2.
Proof. apply omap_app. Qed.
Lemma purun_snoc_inv T G sh c g ls l s2 : purun T G sh c g (ls ++ [l]) s2 ->
  exists s1, purun T G sh c g ls s1 /\ pstep T G sh c s1 l s2 /\ timely g c s2.
Proof. intros H. inversion H as [E|? s1 ? ? H1 H2 H3 E]; [by destruct ls|]. apply app_inj_tail in E as [-> ->]. by exists s1. Qed.
Lemma purun_prefix T G sh c g l1 l2 s : purun T G sh c g (l1 ++ l2) s -> exists s1, purun T G sh c g l1 s1.
Proof.
  revert s. induction l2 as [|l l2 IH] using rev_ind; intros s H; [rewrite app_nil_r in H; eauto|].
  rewrite app_assoc in H. apply purun_snoc_inv in H as (s1 & H & _). eauto.
Qed.
Lemma pulse_side T G sh c g ls s : purun T G sh c g ls s -> brun T sh new_beat (side ls) (u_b s).
Proof.
  induction 1 as [|ls s l s' H IH Hst _]; [constructor|]. rewrite side_app.
  destruct Hst; simpl in *; rewrite ?app_nil_r; try done; by econstructor.
Qed.
Lemma pulse_now T G sh c g ls s : purun T G sh c g ls s -> b_now (u_b s) = ptime ls.
Proof. intros H%pulse_side. by apply binv_run in H as [H _]. Qed.
Lemma clock_app l1 l2 : (clock l1 <= clock (l1 ++ l2))%Z \/ Exists (fun l => (ticks l < 0)%Z) l2.
Proof.
  induction l2 as [|l l2 IH] using rev_ind; [left; rewrite app_nil_r; lia|].
  rewrite app_assoc, clock_snoc. destruct (decide (ticks l < 0)%Z); [right; apply Exists_app; right; by constructor|].
  destruct IH; [left; lia|right; apply Exists_app; by left].
Qed.
Lemma brun_ticks T sh s ls s' : brun T sh s ls s' -> Forall (fun l => (0 <= ticks l)%Z) ls.
Proof.
  induction 1 as [|ls s1 l s2 H IH Hst]; [done|]. apply Forall_app. split; [done|]. constructor; [|done].
  destruct Hst; simpl; lia.
Qed.
Lemma brun_clock T sh s l1 l2 s' : brun T sh s (l1 ++ l2) s' -> (clock l1 <= clock (l1 ++ l2))%Z.
Proof.
  intros H%brun_ticks. destruct (clock_app l1 l2) as [?|E]; [done|]. exfalso. apply Forall_app in H as [_ H].
  apply Exists_exists in E as (l & Hl & Hn). rewrite Forall_forall in H. specialize (H l Hl). lia.
Qed.
Lemma purun_time T G sh c g l1 l2 s : purun T G sh c g (l1 ++ l2) s -> (ptime l1 <= ptime (l1 ++ l2))%Z.
Proof. intros H%pulse_side. unfold ptime. rewrite side_app in *. by eapply brun_clock. Qed.

(** ** A live peer is not reported *)
Section live.
Context (T G : Z) (sh : bool) (c : nat) (g : lag).
Definition flight (s : pul) : list Z := match u_hand s with Some t => [t] | None => [] end ++ u_wire s.
Definition span : Z := Z.max (g_start g) (nsec G).
Definition linv (s : pul) : Prop :=
  (forall t, t ∈ flight s -> (t <= b_now (u_b s))%Z) /\
  match u_peer s with
  | PWait => flight s = []
  | PRun due => (due <= b_now (u_b s) + nsec G)%Z /\
      forall t, b_mon (u_b s) c = Some t ->
        (flight s = [] -> due <= t + span)%Z /\ (forall h w, flight s = h :: w -> h <= t + span + g_send g)%Z
  | PDead => False
  end.
Lemma bstep_now b l b' : bstep T sh b l b' -> (b_now b <= b_now b')%Z.
Proof. destruct 1; simpl; lia. Qed.
(** The monitor of [c] is kept, removed, or set to the present time. *)
Lemma bstep_mon b l b' t : bstep T sh b l b' -> b_mon b' c = Some t -> b_mon b c = Some t \/ (t = b_now b' /\ sign c l = true).
Proof.
  destruct 1; simpl; try tauto;
    match goal with |- context [<[?d := _]> _] => destruct (decide (d = c)) as [->|Hd] end;
    rewrite ?fn_lookup_insert, ?fn_lookup_insert_ne by done; try tauto; try congruence.
  all: intros [= <-]; right; split; [done|]; simpl; apply Nat.eqb_refl.
Qed.
Lemma linv_step s l s' : (0 <= G)%Z -> lag_ok g -> timely g c s -> pstep T G sh c s l s' -> l <> PDie -> linv s -> linv s'.
Proof.
  intros HG (L1 & L2 & L3 & L4 & L5) (T1 & _) Hst Hl [I1 I2]. unfold linv, flight in *.
  assert (nsec G = G * second)%Z as Es by done. assert (0 <= nsec G)%Z by (unfold nsec; lia).
  assert (nsec G <= span /\ g_start g <= span)%Z as [Hs1 Hs2] by (unfold span; lia).
  assert (forall b b' p w h cd cs cd' cs' l, bstep T sh b l b' -> Pul b p w h cd cs = s -> Pul b' p w h cd' cs' = s' ->
    (forall t, t ∈ flight s' -> (t <= b_now (u_b s'))%Z) /\
    match u_peer s' with
    | PWait => flight s' = []
    | PRun due => (due <= b_now (u_b s') + nsec G)%Z /\
      forall t, b_mon (u_b s') c = Some t ->
        (flight s' = [] -> due <= t + span)%Z /\ (forall h w, flight s' = h :: w -> h <= t + span + g_send g)%Z
    | PDead => False
    end) as Hplain.
  { intros b b' p w h cd cs cd' cs' l' Hb <- <-. unfold flight. simpl in *. pose proof (bstep_now _ _ _ Hb) as Hn. split.
    - intros t Ht. specialize (I1 t Ht). lia.
    - destruct p as [|due|]; [done| |done]. destruct I2 as [I2 I3]. split; [lia|].
      intros t Ht. destruct (bstep_mon _ _ _ _ Hb Ht) as [Ho|[-> _]]; [by apply I3|]. split; [lia|].
      intros h' w' E. specialize (I1 h'). rewrite E in I1. specialize (I1 ltac:(set_solver)). lia. }
  destruct Hst as [b b' l' p w h cd cs Hpl Hb|b b' p t w cd cs Hb|b b' p w t cd cs Hb|b b' todo p w h cd cs Hcd Hb|b b' p w h cd cs Hb
    |b w h cd cs|b due w h cd cs Hdue|b p w w' h cd cs]; try done.
  - by eapply Hplain.
  - simpl in *. pose proof (bstep_now _ _ _ Hb) as Hn. split.
    + intros x Hx. specialize (I1 x Hx). lia.
    + destruct p as [|due|]; [done| |done]. destruct I2 as [I2 I3]. split; [lia|]. intros x Hx.
      destruct (bstep_mon _ _ _ _ Hb Hx) as [Ho|[_ Hs]]; [by apply I3|done].
  - simpl in *. pose proof (bstep_now _ _ _ Hb) as Hn. split.
    + intros x Hx. specialize (I1 x ltac:(set_solver)). lia.
    + destruct p as [|due|]; [done| |done]. destruct I2 as [I2 I3]. split; [lia|]. intros x Hx.
      assert (x = b_now b') as ->.
      { inversion Hb; subst; simpl in *. rewrite fn_lookup_insert in Hx. congruence. }
      split; [lia|]. intros h' w' ->. specialize (I1 h' ltac:(set_solver)). lia.
  - by eapply Hplain.
  - by eapply Hplain.
  - simpl in *. split; [done|]. split; [lia|]. intros t Ht. specialize (T1 t Ht). split; [lia|]. intros h' w' E.
    rewrite I2 in E. done.
  - simpl in *. destruct I2 as [I2 I3]. split; [|split].
    + intros t. rewrite app_assoc, elem_of_app, elem_of_list_singleton. intros [Ht| ->]; [by apply I1|lia].
    + lia.
    + intros t Ht. specialize (I3 t Ht) as [I3 I4]. split; [intros E; exfalso; by destruct h, w|].
      intros h' w'. rewrite app_assoc. destruct (match h with Some t0 => [t0] | None => [] end ++ w) as [|x y]; simpl.
      * intros [= <- _]. specialize (I3 eq_refl). lia.
      * intros [= <- _]. by eapply I4.
Qed.
Lemma live_inv ls s : (0 <= G)%Z -> lag_ok g -> purun T G sh c g ls s -> PDie ∉ ls -> linv s /\ timely g c s.
Proof.
  intros HG Hg. induction 1 as [|ls s l s' H IH Hst Ht]; intros Hd.
  - split; [split; simpl; [by intros t ?%elem_of_nil|done]|].
    destruct Hg as (L1 & L2 & L3 & L4 & L5). split; simpl; [done|]. split; [intros t [[?%elem_of_nil _]|?]; done|]. split; [lia|done].
  - rewrite not_elem_of_app, elem_of_list_singleton in Hd. destruct Hd as [Hd Hn]. destruct (IH Hd) as [I Hti].
    split; [|done]. by eapply linv_step.
Qed.
Lemma live_late ls s : (0 <= G)%Z -> lag_ok g -> purun T G sh c g ls s -> PDie ∉ ls -> b_closed (u_b s) c = false ->
  forall t, b_mon (u_b s) c = Some t -> (b_now (u_b s) <= t + span + g_send g + g_net g)%Z.
Proof.
  intros HG Hg H Hd Hcl t Ht. destruct (live_inv ls s HG Hg H Hd) as [[I1 I2] (T1 & T2 & _)].
  destruct Hg as (L1 & L2 & L3 & L4 & L5). assert (nsec G <= span /\ g_start g <= span)%Z as [Hs1 Hs2] by (unfold span; lia).
  destruct (u_peer s) as [|due|]; [|destruct I2 as [I2 I3]|done].
  - specialize (T1 t Ht). lia.
  - destruct (I3 t Ht) as [I4 I5]. unfold flight in *. destruct (u_hand s) as [h|]; simpl in *.
    + specialize (I5 h _ eq_refl). specialize (T2 h (or_intror eq_refl)). lia.
    + destruct (u_wire s) as [|h w]; [specialize (I4 eq_refl); lia|]. specialize (I5 h w eq_refl).
      assert (h ∈ h :: w) as Hh by left. specialize (T2 h (or_introl (conj Hh Hcl))). lia.
Qed.
Lemma live_kept ls s : (0 <= G)%Z -> lag_ok g -> (Z.max (g_start g) (nsec G) + g_send g + g_net g < nsec T)%Z ->
  purun T G sh c g ls s -> PDie ∉ ls -> PB (BClose c) ∉ ls -> PB (BLate c) ∉ ls /\ PB (BLost c) ∉ ls.
Proof.
  intros HG Hg Hb H Hd Hc.
  assert (PB (BLate c) ∉ ls /\ PB (BLost c) ∉ ls /\ b_closed (u_b s) c = false /\ match b_chk (u_b s) with CLate d _ | CShut d _ => d <> c | _ => True end)
    as (?&?&_); [|done].
  induction H as [|ls s l s' H IH Hst Ht]; [repeat split; apply not_elem_of_nil|].
  rewrite not_elem_of_app, elem_of_list_singleton in Hd, Hc. destruct Hd as [Hd Hn], Hc as [Hc Hnc].
  destruct (IH Hd Hc) as (H1 & H2 & H2' & H3). rewrite !not_elem_of_app, !elem_of_list_singleton.
  assert (forall b' l', bstep T sh (u_b s) l' b' -> u_b s' = b' -> l = PB l' ->
    (PB (BLate c) ∉ ls /\ PB (BLate c) <> l) /\ (PB (BLost c) ∉ ls /\ PB (BLost c) <> l) /\ b_closed (u_b s') c = false /\
    match b_chk (u_b s') with CLate d _ | CShut d _ => d <> c | _ => True end) as Hall.
  { intros b' l' Hb' <- ->. pose proof (live_late ls s HG Hg H Hd H2') as HL.
    destruct (u_b s), (u_b s'). simpl in *.
    inversion Hb'; subst; simpl in *; split_and!; try done; try congruence; try (rewrite fn_lookup_insert_ne by congruence; done).
    all: intros [= <-]; match goal with Hm : _ = Some ?t, Hl : (T <= _ / second)%Z |- _ =>
      specialize (HL t Hm); apply late_iff in Hl; unfold span in HL; lia end. }
  destruct Hst; simpl in *; try (eapply Hall; [eassumption|done|done]); split_and!; done.
Qed.
End live.

(** ** A silent connection is reported *)
Global Instance plab_dec : EqDecision plab.
Proof. solve_decision. Defined.
Lemma reported_snoc c ls l : reported c (ls ++ [l]) =
  if sign c l then false else match l with BLost d => Nat.eqb d c || reported c ls | _ => reported c ls end.
Proof. unfold reported. by rewrite fold_left_app. Qed.
Section silent.
Context (T G : Z) (sh : bool) (c : nat) (g : lag).
Lemma all_timely ls s : lag_ok g -> purun T G sh c g ls s -> timely g c s.
Proof.
  intros Hg [|ls' s' l s'' H Hst Ht]; [|done].
  destruct Hg as (L1 & L2 & L3 & L4 & L5). split; simpl; [done|]. split; [intros t [[?%elem_of_nil _]|?]; done|]. split; [lia|done].
Qed.
Definition bound (t : Z) : Z := (t + nsec T + g_check g + second)%Z.
Definition pending (b : bst) (cd cs : Z) (t : Z) : Prop :=
  match b_chk b with
  | CIdle => b_closed b c = false /\ b_gs b c = GRun /\ b_mon b c = Some t /\ (cd <= bound t)%Z
  | CAt todo => b_closed b c = false /\ b_gs b c = GRun /\ b_mon b c = Some t /\ ((cs < t + nsec T)%Z \/ (c ∈ todo /\ cs <= bound t + g_wake g)%Z)
  | CLate d todo => if decide (d = c) then (cs <= bound t + g_wake g)%Z /\ b_closed b c = false /\ b_gs b c = GRun
      else b_closed b c = false /\ b_gs b c = GRun /\ b_mon b c = Some t /\ ((cs < t + nsec T)%Z \/ (c ∈ todo /\ cs <= bound t + g_wake g)%Z)
  | CShut d todo => if decide (d = c) then (cs <= bound t + g_wake g)%Z
      else b_closed b c = false /\ b_gs b c = GRun /\ b_mon b c = Some t /\ ((cs < t + nsec T)%Z \/ (c ∈ todo /\ cs <= bound t + g_wake g)%Z)
  end.
Definition answered (ls : list blab) (b : bst) : Prop :=
  sh = false /\ reported c ls = true /\ b_closed b c = false /\ b_gs b c = GRun.
Definition winv (ls : list plab) (s : pul) : Prop :=
  (u_cdue s <= b_now (u_b s) + second)%Z /\ (u_cstart s <= b_now (u_b s))%Z /\
  match lasttime (sign c) (side ls) with
  | None => b_gs (u_b s) c = GNone /\ b_closed (u_b s) c = false
  | Some t => b_gs (u_b s) c <> GNone /\ (t <= b_now (u_b s))%Z /\ (pending (u_b s) (u_cdue s) (u_cstart s) t \/ answered (side ls) (u_b s))
  end.
Definition due_of (now cd : Z) (l : blab) : Z := match l with BDone => now + second | _ => cd end.
Definition start_of (now cs : Z) (l : blab) : Z := match l with BCheck _ => now | _ => cs end.
Lemma winv_step ls b l b' cd cs : (0 <= T)%Z -> lag_ok g -> bstep T sh b l b' -> sh = false \/ l <> BLost c -> l <> BClose c ->
  b_now b = clock ls ->
  (b_chk b = CIdle -> b_now b <= cd + g_wake g)%Z -> (b_chk b <> CIdle -> b_now b <= cs + g_check g)%Z ->
  (b_gs b c = GNone -> b_fly b c = false) ->
  (forall d todo, b_chk b = CLate d todo \/ b_chk b = CShut d todo -> d = c -> b_gs b c <> GNone) ->
  (forall todo, b_chk b = CAt todo -> c ∈ todo -> b_gs b c <> GNone) ->
  let wi ls b cd cs := (cd <= b_now b + second)%Z /\ (cs <= b_now b)%Z /\
    match lasttime (sign c) ls with
    | None => b_gs b c = GNone /\ b_closed b c = false
    | Some t => b_gs b c <> GNone /\ (t <= b_now b)%Z /\ (pending b cd cs t \/ answered ls b)
    end in
  wi ls b cd cs -> wi (ls ++ [l]) b' (due_of (b_now b) cd l) (start_of (b_now b) cs l).
Proof.
  intros HT (L1 & L2 & L3 & L4 & L5) Hst Hl1 Hl2 Hn Ht1 Ht2 Hfl Hk1 Hk2 wi (W1 & W2 & W3). unfold wi. clear wi.
  assert (0 <= nsec T)%Z as HnT by (unfold nsec; lia). assert (0 < second)%Z as Hs0 by done.
  assert (answered ls b -> sign c l = false -> answered (ls ++ [l]) b') as Hans.
  { unfold answered. intros (A1 & A2 & A3 & A4) Hsg. rewrite reported_snoc, Hsg.
    split; [done|]. split; [destruct l; try done; apply orb_true_iff; by right|]. destruct Hst; simpl in *; fnl; try done; congruence. }
  assert (lasttime (sign c) ls <> None -> answered ls b -> b_closed b c = false /\ b_gs b c = GRun) as Hans2 by (unfold answered; tauto).
  rewrite lasttime_snoc. assert (forall t, lasttime (sign c) ls = Some t -> sign c l = false -> answered ls b ->
    (due_of (b_now b) cd l <= b_now b' + second)%Z /\ (start_of (b_now b) cs l <= b_now b')%Z /\
    b_gs b' c <> GNone /\ (t <= b_now b')%Z /\ (pending b' (due_of (b_now b) cd l) (start_of (b_now b) cs l) t \/ answered (ls ++ [l]) b')) as Hmain.
  { intros t Et Hsg Ha. specialize (Hans Ha Hsg). rewrite Et in W3. destruct W3 as (_ & W3 & _).
    assert (b_now b <= b_now b')%Z by (by eapply bstep_now). destruct Hans as (A1 & A2 & A3 & A4).
    unfold due_of, start_of. split; [destruct l; lia|]. split; [destruct l; lia|]. split; [congruence|]. split; [lia|]. right. done. }
  destruct (lasttime (sign c) ls) as [t0|] eqn:Elt; [destruct W3 as (W3a & W3b & W3)|].
  { destruct (sign c l) eqn:Esg.
    - assert (b_chk b = CIdle /\ b_closed b c = false /\ b_gs b c = GRun /\ b_gs b' c = GRun /\ b_closed b' c = false /\ b_chk b' = CIdle /\ b_now b' = b_now b /\ b_mon b' c = Some (b_now b)) as (K1 & K2 & K3 & K4 & K5 & K6 & K7 & K8).
      { assert (b_chk b = CIdle) as K by (destruct Hst; done).
        assert (b_closed b c = false /\ b_gs b c = GRun) as [K2 K3] by (destruct W3 as [W3|W3]; [unfold pending in W3; rewrite K in W3; tauto|apply Hans2; done]).
        clear -Hst K K2 K3 Esg. destruct Hst; simpl in *; try done; apply Nat.eqb_eq in Esg as ->; rewrite ?fn_lookup_insert; split_and!; try done; congruence. }
      assert (due_of (b_now b) cd l = cd /\ start_of (b_now b) cs l = cs) as [-> ->] by (by destruct l).
      split; [lia|]. split; [lia|]. split; [congruence|]. split; [lia|]. left. unfold pending, bound. rewrite K6. split_and!; try done; [congruence|lia].
    - destruct W3 as [W3|W3]; [|by apply Hmain]. clear Hmain Hans Hans2.
      assert (0 <= nsec T)%Z as HnT' by done. unfold pending, due_of, start_of, bound, answered in *.
      destruct Hst as [now m k cl fl gs d Hd|now m cl fl gs d Hd|now m k cl fl gs d Hd1 Hd2 Hd3|now m cl fl gs d Hd|now m k cl fl gs d|now m k cl fl gs d Hd1 Hd2
        |now m cl fl gs d Hd|now m cl fl gs todo Hd1 Hd2|now m cl fl gs d todo t Hd1 Hd2|now m cl fl gs d todo t Hd1 Hd2|now m cl fl gs d todo Hd|now m cl fl gs d todo Hd|now m cl fl gs d todo Hd|now m cl fl gs];
        cbn [b_now b_mon b_chk b_closed b_fly b_gs sign] in *;
        (split; [lia|]; split; [lia|]; split; [by fnl|]; split; [lia|]);
        try (apply Nat.eqb_neq in Esg); rewrite ?fn_lookup_insert_ne by congruence.
      + by left.
      + by left.
      + by left.
      + by left.
      + by left.
      + left. destruct (decide (d = c)) as [->|Hne]; [|rewrite !fn_lookup_insert_ne by done; done]. rewrite fn_lookup_insert.
        destruct k as [|todo|d todo|d todo]; try (destruct (decide (d = c)) as [->|]); destruct_and?; try congruence.
      + left. destruct (decide (d = c)) as [->|Hne]; [|rewrite !fn_lookup_insert_ne by done; done]. destruct_and?; congruence.
      + left. destruct W3 as (? & ? & E & ?). split_and!; try done. right. split; [apply Hd2; by rewrite E|]. specialize (Ht1 eq_refl). lia.
      + left. destruct W3 as (? & ? & E & W3).
        split_and!; try done. destruct W3 as [W3|[W3 W4]]; [by left|]. destruct (decide (d = c)) as [->|Hne].
        * left. assert (t0 = t) as -> by congruence. destruct (decide (cs < t + nsec T)%Z) as [|Hge]; [done|]. exfalso.
          assert (T <= (now - t) / second)%Z by (apply late_iff; lia). lia.
        * right. split; [|done]. by apply elem_of_cons in W3 as [->|W3].
      + left. destruct W3 as (? & ? & E & W3). destruct (decide (d = c)) as [->|Hne].
        * split; [|done]. destruct W3 as [W3|[_ W3]]; lia.
        * rewrite fn_lookup_insert_ne by done. split_and!; try done. destruct W3 as [W3|[W3 W4]]; [by left|right].
          split; [|done]. by apply elem_of_cons in W3 as [->|W3].
      + left. destruct (decide (d = c)) as [->|Hne]; [tauto|]. rewrite fn_lookup_insert_ne by done. done.
      + left. destruct (decide (d = c)) as [->|Hne]; [|done]. destruct Hl1; [congruence|done].
      + destruct (decide (d = c)) as [->|Hne]; [|by left]. right. rewrite reported_snoc. simpl. rewrite Nat.eqb_refl. simpl. tauto.
      + left. destruct W3 as (? & ? & E & W3). split_and!; try done. destruct W3 as [W3|[W3 _]]; [|by apply elem_of_nil in W3].
        specialize (Ht2 ltac:(done)). lia. }
  clear Hans Hans2 Hmain. destruct W3 as [W3 W4]. destruct (sign c l) eqn:Esg.
  - destruct Hst; simpl in *; try done; apply Nat.eqb_eq in Esg as ->; [|specialize (Hfl W3); congruence].
    rewrite !fn_lookup_insert. split; [lia|]. split; [lia|]. split; [done|]. split; [lia|]. left. unfold pending, bound. simpl.
    rewrite !fn_lookup_insert. split_and!; try done; [congruence|lia].
  - pose proof (bstep_now _ _ _ _ _ Hst). split; [destruct l; simpl; lia|]. split; [destruct l; simpl; lia|].
    destruct Hst; simpl in *; fnl; split; try done; try congruence; try (by rewrite Nat.eqb_refl in Esg). exfalso. eapply Hk1; [by left|done|done].
Qed.
Lemma winv_run ls s : (0 <= T)%Z -> lag_ok g -> purun T G sh c g ls s -> sh = false \/ PB (BLost c) ∉ ls -> PB (BClose c) ∉ ls -> winv ls s.
Proof.
  intros HT Hg. induction 1 as [|ls s l s' H IH Hst Ht]; intros Hl Hc; [split_and!; simpl; try done; lia|].
  rewrite not_elem_of_app, elem_of_list_singleton in Hl, Hc. destruct Hc as [Hc1 Hc2].
  assert (winv ls s) as W by (apply IH; tauto). clear IH.
  pose proof (pulse_side _ _ _ _ _ _ _ H) as Hb. destruct (binv_run _ _ _ _ Hb) as (B1 & _ & B3 & B4 & _).
  destruct (all_timely ls s Hg H) as (_ & _ & T3 & T4).
  assert (forall l', l = PB l' -> bstep T sh (u_b s) l' (u_b s') -> u_cdue s' = due_of (b_now (u_b s)) (u_cdue s) l' ->
    u_cstart s' = start_of (b_now (u_b s)) (u_cstart s) l' -> winv (ls ++ [l]) s') as Hall.
  { intros l' -> Hst' E1 E2. unfold winv. rewrite side_app. simpl. rewrite E1, E2. eapply (winv_step (side ls)); try done; try congruence.
    - destruct Hl as [?|[_ ?]]; [by left|right; congruence].
    - intros E. by apply B4.
    - intros d todo [E|E] ->; rewrite E in B3; by destruct_and?.
    - intros todo E Hin Hn. rewrite E in B3. destruct B3 as [_ B3]. apply (B3 c Hin). by apply B4. }
  destruct Hst as [b b' l' p w h cd cs Hpl Hst|b b' p t w cd cs Hst|b b' p w t cd cs Hst|b b' todo p w h cd cs Hcd Hst|b b' p w h cd cs Hst
    |b w h cd cs|b due w h cd cs Hdue|b p w w' h cd cs].
  1-5: eapply Hall; [done|exact Hst| |]; simpl; try done; by destruct l'.
  all: unfold winv in *; rewrite side_app; simpl in *; by rewrite app_nil_r.
Qed.
Lemma silent_noticed ls s t : (0 <= T)%Z -> lag_ok g -> purun T G sh c g ls s -> sh = false \/ PB (BLost c) ∉ ls -> PB (BClose c) ∉ ls ->
  lasttime (sign c) (side ls) = Some t -> reported c (side ls) = true \/ (ptime ls <= t + notice T g)%Z.
Proof.
  intros HT Hg H Hl Hc Ht. destruct (winv_run ls s HT Hg H Hl Hc) as (W1 & W2 & W3). rewrite Ht in W3. destruct W3 as (_ & _ & [W3|(_ & W3 & _)]); [right|by left].
  rewrite <-(pulse_now _ _ _ _ _ _ _ H). destruct (all_timely ls s Hg H) as (_ & _ & T3 & T4). destruct Hg as (L1 & L2 & L3 & L4 & L5).
  assert (0 < second)%Z by done.
  unfold pending, bound, notice in *. destruct (b_chk (u_b s)) as [|todo|d todo|d todo].
  - specialize (T3 eq_refl). lia.
  - specialize (T4 ltac:(done)). lia.
  - specialize (T4 ltac:(done)). destruct (decide (d = c)); lia.
  - specialize (T4 ltac:(done)). destruct (decide (d = c)); lia.
Qed.
Lemma still_open ls s t : (0 <= T)%Z -> lag_ok g -> purun T G sh c g ls s -> sh = false \/ PB (BLost c) ∉ ls -> PB (BClose c) ∉ ls ->
  lasttime (sign c) (side ls) = Some t -> b_closed (u_b s) c = false \/ (ptime ls <= t + notice T g)%Z.
Proof.
  intros HT Hg H Hl Hc Ht. destruct (winv_run ls s HT Hg H Hl Hc) as (W1 & W2 & W3). rewrite Ht in W3. destruct W3 as (_ & _ & [W3|(_ & _ & W3 & _)]); [|by left].
  rewrite <-(pulse_now _ _ _ _ _ _ _ H). destruct (all_timely ls s Hg H) as (_ & _ & T3 & T4). destruct Hg as (L1 & L2 & L3 & L4 & L5).
  unfold pending, bound, notice in *. destruct (b_chk (u_b s)) as [|todo|d todo|d todo]; try (destruct (decide (d = c))); try (left; tauto).
  right. specialize (T4 ltac:(done)). lia.
Qed.

(** After the last heartbeat was sent. *)
Definition qinv (tau : Z) (ls : list plab) (s : pul) : Prop :=
  (forall t, t ∈ u_wire s \/ u_hand s = Some t -> (t <= tau)%Z) /\
  (b_gs (u_b s) c = GNone -> u_wire s <> []) /\
  (forall t, lasttime (sign c) (side ls) = Some t -> (t <= tau + g_net g)%Z).
Lemma qinv_step tau ls s l s' : lag_ok g -> purun T G sh c g ls s -> pstep T G sh c s l s' -> timely g c s' -> l <> PSend ->
  (l = PDie -> b_gs (u_b s) c <> GNone) -> (b_gs (u_b s) c = GNone -> b_closed (u_b s) c = false) -> qinv tau ls s -> qinv tau (ls ++ [l]) s'.
Proof.
  intros Hg H Hst (_ & Ht' & _) Hl Hd Hop (Q1 & Q2 & Q3). destruct (all_timely ls s Hg H) as (_ & Ht & _).
  pose proof (pulse_side _ _ _ _ _ _ _ H) as Hb. destruct (binv_run _ _ _ _ Hb) as (B1 & _ & _ & B4 & _).
  assert (forall b b' l', bstep T sh b l' b' -> b_gs b' c = GNone -> b_gs b c = GNone) as Hgs.
  { intros b b' l' Hst' E. destruct Hst'; simpl in *; fnl; done. }
  unfold qinv. rewrite side_app.
  destruct Hst as [b b' l' p w h cd cs Hpl Hst|b b' p t w cd cs Hst|b b' p w t cd cs Hst|b b' todo p w h cd cs Hcd Hst|b b' p w h cd cs Hst
    |b w h cd cs|b due w h cd cs Hdue|b p w w' h cd cs]; simpl in *; rewrite ?app_nil_r; try done.
  - split; [done|]. split; [intros E; apply Q2; by eapply Hgs|]. rewrite lasttime_snoc. destruct (sign c l') eqn:Es; [|done].
    intros t [= <-]. destruct l' as [| d | | d | | | | | | | | |]; try done; simpl in *; apply Nat.eqb_eq in Es as ->; [|by rewrite Nat.eqb_refl in Hpl].
    inversion Hst; subst; simpl in *. destruct w as [|t w]; [by destruct Q2|].
    assert (t ∈ t :: w) as Hin by left. specialize (Ht t (or_introl (conj Hin (Hop ltac:(done))))). specialize (Q1 t (or_introl Hin)). lia.
  - split; [intros x [Hx|[= <-]]; apply Q1; left; set_solver|]. split; [intros E; exfalso; inversion Hst; subst; simpl in *; done|].
    rewrite lasttime_snoc. done.
  - split; [intros x [Hx|?]; [apply Q1; by left|done]|]. split; [intros E; apply Q2; by eapply Hgs|].
    rewrite lasttime_snoc. simpl. rewrite Nat.eqb_refl. intros x [= <-]. specialize (Ht t (or_intror eq_refl)). specialize (Q1 t (or_intror eq_refl)). lia.
  - split; [done|]. split; [intros E; apply Q2; by eapply Hgs|]. rewrite lasttime_snoc. done.
  - split; [done|]. split; [intros E; apply Q2; by eapply Hgs|]. rewrite lasttime_snoc. done.
  - split; [intros x [Hx|Hx]; apply Q1; [left; set_solver|by right]|]. split; [intros E; by destruct Hd|done].
Qed.
Lemma gs_mono b l b' : bstep T sh b l b' -> b_gs b c <> GNone -> b_gs b' c <> GNone.
Proof. intros Hst E. destruct Hst; simpl in *; fnl; done. Qed.
Lemma pgs_mono s l s' : pstep T G sh c s l s' -> b_gs (u_b s) c <> GNone -> b_gs (u_b s') c <> GNone.
Proof. intros Hst. destruct Hst; simpl in *; try done; by eapply gs_mono. Qed.
Lemma still_new ls s : purun T G sh c g ls s -> PB (BClose c) ∉ ls -> b_gs (u_b s) c = GNone -> b_closed (u_b s) c = false.
Proof.
  induction 1 as [|ls s l s' H IH Hst _]; [done|]. rewrite not_elem_of_app, elem_of_list_singleton. intros [Hc Hl] Hn.
  specialize (IH Hc). assert (b_gs (u_b s) c = GNone) as E.
  { destruct (b_gs (u_b s) c) eqn:E; [done|exfalso..]; eapply pgs_mono; eauto; congruence. }
  specialize (IH E).
  pose proof (pulse_side _ _ _ _ _ _ _ H) as Hb. destruct (binv_run _ _ _ _ Hb) as (_ & _ & B3 & _).
  destruct Hst as [b b' l' p w h cd cs Hpl Hst|b b' p t w cd cs Hst|b b' p w t cd cs Hst|b b' todo p w h cd cs Hcd Hst|b b' p w h cd cs Hst
    |b w h cd cs|b due w h cd cs Hdue|b p w w' h cd cs]; simpl in *; try done; try (by inversion Hst; subst).
  destruct Hst; simpl in *; fnl; try done; try congruence. by destruct_and?.
Qed.
Lemma qinv_run tau l1 l2 s : lag_ok g -> purun T G sh c g (l1 ++ l2) s -> PSend ∉ l2 -> PB (BClose c) ∉ l1 ++ l2 ->
  exists s1, purun T G sh c g l1 s1 /\ (PDie ∉ l2 \/ b_gs (u_b s1) c <> GNone -> qinv tau l1 s1 -> qinv tau (l1 ++ l2) s).
Proof.
  intros Hg. revert s. enough (forall s, purun T G sh c g (l1 ++ l2) s -> PSend ∉ l2 -> PB (BClose c) ∉ l1 ++ l2 ->
    exists s1, purun T G sh c g l1 s1 /\ (b_gs (u_b s1) c <> GNone -> b_gs (u_b s) c <> GNone) /\
    (PDie ∉ l2 \/ b_gs (u_b s1) c <> GNone -> qinv tau l1 s1 -> qinv tau (l1 ++ l2) s)) as K.
  { intros s H Hs Hc. destruct (K s H Hs Hc) as (s1 & ? & _ & ?). eauto. }
  induction l2 as [|l' l2 IH] using rev_ind; intros s H Hs1 Hc; [rewrite app_nil_r in *; eauto|].
  rewrite app_assoc in H, Hc. apply purun_snoc_inv in H as (s2 & H & Hst & Ht). rewrite not_elem_of_app, elem_of_list_singleton in Hs1. destruct Hs1 as [Hs1 Hs3].
  rewrite not_elem_of_app in Hc. destruct Hc as [Hc _].
  destruct (IH s2 H Hs1 Hc) as (s1 & H1 & Hg1 & H2). exists s1. split; [done|]. split; [intros E; eapply pgs_mono; eauto|].
  intros Hd Q. rewrite app_assoc. apply (qinv_step tau (l1 ++ l2) s2 _ _ Hg H Hst Ht); [congruence| | |].
  - intros ->. destruct Hd as [Hd|Hd]; [|by apply Hg1]. rewrite not_elem_of_app in Hd. set_solver.
  - by eapply still_new.
  - apply H2; [|done]. rewrite not_elem_of_app in Hd. tauto.
Qed.
Lemma flight_past ls s : purun T G sh c g ls s -> forall t, t ∈ u_wire s \/ u_hand s = Some t -> (t <= b_now (u_b s))%Z.
Proof.
  induction 1 as [|ls s l s' H IH Hst _]; [intros t [?%elem_of_nil|?]; done|].
  destruct Hst as [b b' l' p w h cd cs Hpl Hst|b b' p t w cd cs Hst|b b' p w t cd cs Hst|b b' todo p w h cd cs Hcd Hst|b b' p w h cd cs Hst
    |b w h cd cs|b due w h cd cs Hdue|b p w w' h cd cs]; simpl in *; intros x Hx;
    try (pose proof (bstep_now _ _ _ _ _ Hst)).
  - specialize (IH x Hx). lia.
  - assert (x <= b_now b)%Z; [|lia]. apply IH. destruct Hx as [Hx|[= <-]]; left; set_solver.
  - assert (x <= b_now b)%Z; [|lia]. apply IH. destruct Hx as [Hx|Hx]; [by left|done].
  - specialize (IH x Hx). lia.
  - specialize (IH x Hx). lia.
  - by apply IH.
  - destruct Hx as [Hx|Hx]; [|apply IH; by right]. apply elem_of_app in Hx as [Hx|Hx%elem_of_list_singleton]; [apply IH; by left|lia].
  - apply IH. destruct Hx as [Hx|Hx]; [left; set_solver|by right].
Qed.
Lemma lasttime_le (p : blab -> bool) ls t : Forall (fun l => (0 <= ticks l)%Z) ls -> lasttime p ls = Some t -> (t <= clock ls)%Z.
Proof.
  induction ls as [|l ls IH] using rev_ind; intros F E; [done|]. apply Forall_app in F as [F1 F2]. apply Forall_inv in F2.
  rewrite lasttime_snoc in E. rewrite clock_snoc. destruct (p l); [injection E as <-; lia|]. specialize (IH F1 E). lia.
Qed.
Lemma last_past ls s t : purun T G sh c g ls s -> lasttime (sign c) (side ls) = Some t -> (t <= b_now (u_b s))%Z.
Proof. intros H E. rewrite (pulse_now _ _ _ _ _ _ _ H). apply lasttime_le in E; [done|]. eapply brun_ticks, pulse_side, H. Qed.
Lemma dead_stays ls s : purun T G sh c g ls s -> PDie ∈ ls -> u_peer s = PDead.
Proof.
  induction 1 as [|ls s l s' H IH Hst _]; [by intros ?%elem_of_nil|]. intros [Hin| <-%elem_of_list_singleton]%elem_of_app; [|by inversion Hst].
  specialize (IH Hin). destruct Hst; simpl in *; done.
Qed.
Lemma dead_sends l1 l2 s : purun T G sh c g (l1 ++ PDie :: l2) s -> PSend ∉ l2.
Proof.
  intros H (a & b & ->)%elem_of_list_split.
  assert (l1 ++ PDie :: a ++ PSend :: b = ((l1 ++ PDie :: a) ++ [PSend]) ++ b) as E by (rewrite <-!app_assoc; done).
  rewrite E in H. apply purun_prefix in H as (s1 & H). apply purun_snoc_inv in H as (s2 & H & Hst & _).
  apply dead_stays in H; [|set_solver]. inversion Hst; subst. done.
Qed.
Lemma opened ls s : purun T G sh c g ls s -> PB (BOpen c) ∈ ls -> b_gs (u_b s) c <> GNone.
Proof.
  induction 1 as [|ls s l s' H IH Hst _]; [by intros ?%elem_of_nil|]. intros [Hin| <-%elem_of_list_singleton]%elem_of_app.
  - eapply pgs_mono; eauto.
  - inversion Hst as [? ? ? ? ? ? ? ? ? Hb| | | | | | |]; subst. inversion Hb; subst. simpl. by rewrite fn_lookup_insert.
Qed.
Lemma signed ls s : purun T G sh c g ls s -> b_gs (u_b s) c <> GNone -> exists t, lasttime (sign c) (side ls) = Some t.
Proof.
  induction 1 as [|ls s l s' H IH Hst _]; [done|]. rewrite side_app.
  assert (forall b' l', bstep T sh (u_b s) l' b' -> b_gs b' c <> GNone -> exists t, lasttime (sign c) (side ls ++ [l']) = Some t) as Hall.
  { intros b' l' Hb Hn. rewrite lasttime_snoc. destruct (sign c l') eqn:E; [eauto|]. apply IH. intros Hg. apply Hn.
    destruct Hb; simpl in *; fnl; try done; try congruence. by rewrite Nat.eqb_refl in E. }
  destruct Hst; simpl in *; rewrite ?app_nil_r; eauto.
Qed.
Lemma dead_reported l1 l2 s : (0 <= T)%Z -> lag_ok g -> purun T G sh c g (l1 ++ PDie :: l2) s ->
  sh = false \/ PB (BLost c) ∉ l1 -> PB (BOpen c) ∈ l1 -> PB (BClose c) ∉ l1 ++ l2 ->
  (ptime l1 + g_net g + notice T g < ptime (l1 ++ PDie :: l2))%Z -> reported c (side (l1 ++ PDie :: l2)) = true \/ (sh = true /\ PB (BLost c) ∈ l2).
Proof.
  intros HT Hg H Hl Ho Hc Hlt. destruct (decide (sh = true /\ PB (BLost c) ∈ l2)) as [|Hno]; [by right|left].
  pose proof (dead_sends _ _ _ H) as Hs. rewrite cons_middle, app_assoc in H.
  destruct (qinv_run (ptime l1) (l1 ++ [PDie]) l2 s Hg H Hs) as (s1 & H1 & Q); [set_solver|].
  assert (b_gs (u_b s1) c <> GNone) as Hg1 by (eapply opened; [done|set_solver]).
  assert (b_now (u_b s1) = ptime l1) as E1.
  { rewrite (pulse_now _ _ _ _ _ _ _ H1). unfold ptime. rewrite side_app. simpl. by rewrite app_nil_r. }
  destruct Q as (_ & _ & Q); [by right| |].
  { split; [|split].
    - intros t Ht. rewrite <-E1. by eapply flight_past.
    - done.
    - intros t Ht. pose proof (last_past _ _ _ H1 Ht). destruct Hg as (? & ? & ? & ?). lia. }
  destruct (signed _ _ H) as (t & Et).
  { eapply opened; [done|set_solver]. }
  specialize (Q t Et). rewrite cons_middle, app_assoc in Hlt |- *.
  destruct (silent_noticed _ s t HT Hg H) as [?|?]; [|set_solver|done|done|lia].
  destruct sh; [|by left]. right. destruct Hl as [?|Hl]; [done|]. intros Hin. apply Hno. split; [done|]. set_solver.
Qed.

(** Interval longer than the supervision can bear. *)
Lemma due_kept l1 l2 s : purun T G sh c g ((l1 ++ [PSend]) ++ l2) s -> PSend ∉ l2 -> PDie ∉ l2 ->
  u_peer s = PRun (ptime l1 + nsec G)%Z.
Proof.
  revert s. induction l2 as [|l l2 IH] using rev_ind; intros s H Hs Hd.
  - rewrite app_nil_r in H. apply purun_snoc_inv in H as (s1 & H & Hst & _). rewrite <-(pulse_now _ _ _ _ _ _ _ H). by inversion Hst; subst.
  - rewrite app_assoc in H. apply purun_snoc_inv in H as (s1 & H & Hst & _). rewrite not_elem_of_app, elem_of_list_singleton in Hs, Hd.
    specialize (IH s1 H ltac:(tauto) ltac:(tauto)). destruct Hst; simpl in *; try done; by destruct_and?.
Qed.
Lemma sent_there l1 l2 s : purun T G sh c g ((l1 ++ [PSend]) ++ l2) s -> PDie ∉ l2 ->
  (exists l, l ∈ side l2 /\ sign c l = true) \/ ptime l1 ∈ u_wire s \/ u_hand s = Some (ptime l1).
Proof.
  revert s. induction l2 as [|l l2 IH] using rev_ind; intros s H Hd.
  - rewrite app_nil_r in H. apply purun_snoc_inv in H as (s1 & H & Hst & _). rewrite <-(pulse_now _ _ _ _ _ _ _ H). inversion Hst; subst; simpl. right. left. set_solver.
  - rewrite app_assoc in H. apply purun_snoc_inv in H as (s1 & H & Hst & _). rewrite not_elem_of_app, elem_of_list_singleton in Hd. destruct Hd as [Hd1 Hd2].
    rewrite side_app. destruct (IH s1 H Hd1) as [(x & Hx & Hsx)|Hin]; [left; exists x; set_solver|].
    destruct Hst as [b b' l' p w h cd cs Hpl Hst|b b' p t w cd cs Hst|b b' p w t cd cs Hst|b b' todo p w h cd cs Hcd Hst|b b' p w h cd cs Hst
      |b w h cd cs|b due w h cd cs Hdue|b p w w' h cd cs]; simpl in *; try done.
    + by right.
    + destruct Hin as [[Hin|Hin]%elem_of_cons|?]; [right; right; by f_equal|right; by left|done].
    + left. exists (BBeat c). split; [set_solver|]. simpl. apply Nat.eqb_refl.
    + by right.
    + by right.
    + by right.
    + right. destruct Hin; [left; set_solver|by right].
Qed.
Lemma reported_in a b : reported c (a ++ b) = true -> (exists l, l ∈ b /\ sign c l = true) -> BLost c ∈ b.
Proof.
  induction b as [|l b IH] using rev_ind; intros E (x & Hx & Hs); [by apply elem_of_nil in Hx|]. rewrite app_assoc, reported_snoc in E.
  apply elem_of_app in Hx as [Hx|Hx%elem_of_list_singleton]; [|subst; by rewrite Hs in E].
  destruct (sign c l); [done|]. assert (reported c (a ++ b) = true -> BLost c ∈ b) as K by eauto. rewrite elem_of_app, elem_of_list_singleton.
  destruct l; try (left; by apply K). destruct (Nat.eqb_spec c0 c) as [->|]; [by right|]. left. by apply K.
Qed.
Lemma quiet_reported l1 l2 s : (0 <= T)%Z -> lag_ok g ->
  purun T G sh c g (l1 ++ PSend :: l2) s -> PSend ∉ l2 -> PDie ∉ l2 -> sh = false \/ PB (BLost c) ∉ l1 -> PB (BClose c) ∉ l1 ++ l2 ->
  (ptime l1 + g_net g + notice T g < ptime (l1 ++ PSend :: l2))%Z -> PB (BLost c) ∈ l2.
Proof.
  intros HT Hg H Hs Hd Hl Hc Hlt. destruct (decide (PB (BLost c) ∈ l2)) as [|Hno]; [done|exfalso].
  rewrite cons_middle, app_assoc in H, Hlt. rename s into s2.
  destruct (qinv_run (ptime l1) (l1 ++ [PSend]) l2 s2 Hg H Hs) as (s1 & H1 & Q); [set_solver|].
  pose proof (all_timely _ _ Hg H) as (_ & Ht & _). pose proof (pulse_now _ _ _ _ _ _ _ H) as Enow.
  destruct Hg as (L1 & L2 & L3 & L4 & L5) eqn:EHg.
  assert (0 <= notice T g)%Z as Hn0 by (unfold notice, nsec, second; lia).
  assert (b_now (u_b s1) = ptime l1) as E1.
  { rewrite (pulse_now _ _ _ _ _ _ _ H1). unfold ptime. rewrite side_app. simpl. by rewrite app_nil_r. }
  destruct Q as (Q1 & Q2 & Q3); [by left| |].
  { split; [|split].
    - intros t Hin. rewrite <-E1. by eapply flight_past.
    - apply purun_snoc_inv in H1 as (s0 & _ & Hst0 & _). inversion Hst0; subst; simpl. by destruct w.
    - intros t Hin. pose proof (last_past _ _ _ H1 Hin). lia. }
  assert (b_closed (u_b s2) c = false -> forall t, t ∈ u_wire s2 \/ u_hand s2 = Some t -> False) as Hemp.
  { intros Hop t Hin. assert (t ∈ u_wire s2 /\ b_closed (u_b s2) c = false \/ u_hand s2 = Some t) as Hin' by tauto.
    specialize (Ht t Hin'). specialize (Q1 t Hin). lia. }
  assert (PB (BClose c) ∉ (l1 ++ [PSend]) ++ l2) as Hc' by set_solver.
  assert (b_gs (u_b s2) c <> GNone) as Hg2.
  { intros Eg. specialize (Q2 Eg). destruct (u_wire s2) as [|t w]; [done|].
    apply (Hemp ltac:(by eapply still_new) t). left. by left. }
  destruct (signed _ _ H Hg2) as (t & Et). specialize (Q3 t Et).
  assert (sh = false \/ PB (BLost c) ∉ (l1 ++ [PSend]) ++ l2) as Hl' by (destruct Hl as [?|Hl]; [by left|right; set_solver]).
  destruct (silent_noticed _ s2 t HT Hg H Hl' Hc' Et) as [R|R]; [|lia].
  destruct (still_open _ s2 t HT Hg H Hl' Hc' Et) as [Hop|R']; [|lia].
  destruct (sent_there _ _ _ H Hd) as [Hsg|Hin]; [|by apply (Hemp Hop (ptime l1))].
  rewrite side_app in R. apply reported_in in R; [|done]. apply Hno. clear -R. unfold side in R.
  apply elem_of_list_omap in R as (x & Hx & Ex). destruct x; try done. by injection Ex as ->.
Qed.
Lemma gap_reported l1 l2 s : (0 <= T)%Z -> lag_ok g -> (g_net g + notice T g < nsec G)%Z ->
  purun T G sh c g (l1 ++ PSend :: l2 ++ [PSend]) s -> PSend ∉ l2 -> sh = false \/ PB (BLost c) ∉ l1 -> PB (BClose c) ∉ l1 ++ l2 ->
  PB (BLost c) ∈ l2.
Proof.
  intros HT Hg Hlt H Hs Hl Hc.
  assert (l1 ++ PSend :: l2 ++ [PSend] = ((l1 ++ [PSend]) ++ l2) ++ [PSend]) as E by (rewrite <-!app_assoc; done).
  rewrite E in H. apply purun_snoc_inv in H as (s2 & H & Hst & _).
  assert (PDie ∉ l2) as Hd.
  { intros Hin. assert (u_peer s2 = PDead) as E2 by (eapply dead_stays; [done|set_solver]). inversion Hst; subst. done. }
  pose proof (due_kept _ _ _ H Hs Hd) as Hdue. assert (ptime l1 + nsec G <= b_now (u_b s2))%Z as Hnow.
  { inversion Hst; subst; simpl in *. congruence. }
  rewrite (pulse_now _ _ _ _ _ _ _ H) in Hnow. rewrite <-app_assoc in H, Hnow. eapply quiet_reported; try done. simpl in Hnow |- *. lia.
Qed.
Lemma too_long l1 l2 s : (0 <= T)%Z -> lag_ok g -> (g_net g + notice T g < nsec G)%Z ->
  purun T G sh c g (l1 ++ PSend :: l2) s -> PDie ∉ l2 -> sh = false \/ PB (BLost c) ∉ l1 -> PB (BClose c) ∉ l1 ++ l2 ->
  (ptime l1 + g_net g + notice T g < ptime (l1 ++ PSend :: l2))%Z -> PB (BLost c) ∈ l2.
Proof.
  intros HT Hg Hlt H Hd Hl Hc Hti. destruct (decide (PSend ∈ l2)) as [Hin|Hin]; [|by eapply quiet_reported].
  apply elem_of_list_split_l in Hin as (a & b & -> & Hna).
  assert (l1 ++ PSend :: a ++ PSend :: b = (l1 ++ PSend :: a ++ [PSend]) ++ b) as E by (rewrite <-!app_assoc; simpl; by rewrite <-app_assoc).
  rewrite E in H. apply purun_prefix in H as (s1 & H). apply elem_of_app. left. eapply gap_reported; try done. set_solver.
Qed.
Lemma reported_lost ls : reported c ls = true -> BLost c ∈ ls.
Proof.
  induction ls as [|l ls IH] using rev_ind; [done|]. rewrite reported_snoc, elem_of_app, elem_of_list_singleton. destruct (sign c l); [done|].
  destruct l; auto. destruct (Nat.eqb_spec c0 c) as [->|]; auto.
Qed.
Lemma side_in l ls : l ∈ side ls -> PB l ∈ ls.
Proof. unfold side. intros (x & Hx & Ex)%elem_of_list_omap. destruct x; try done. by injection Ex as ->. Qed.
Lemma dead_lost l1 l2 s : (0 <= T)%Z -> lag_ok g -> purun T G sh c g (l1 ++ PDie :: l2) s ->
  PB (BLost c) ∉ l1 -> PB (BOpen c) ∈ l1 -> PB (BClose c) ∉ l1 ++ l2 ->
  (ptime l1 + g_net g + notice T g < ptime (l1 ++ PDie :: l2))%Z -> PB (BLost c) ∈ l2.
Proof.
  intros HT Hg H Hl Ho Hc Hlt. destruct (dead_reported l1 l2 s HT Hg H (or_intror Hl) Ho Hc Hlt) as [R|[_ ?]]; [|done].
  apply reported_lost, side_in in R. set_solver.
Qed.
Lemma dead_noted l1 l2 s : (0 <= T)%Z -> lag_ok g -> purun T G sh c g (l1 ++ PDie :: l2) s ->
  sh = false -> PB (BOpen c) ∈ l1 -> PB (BClose c) ∉ l1 ++ l2 ->
  (ptime l1 + g_net g + notice T g < ptime (l1 ++ PDie :: l2))%Z -> reported c (side (l1 ++ PDie :: l2)) = true.
Proof. intros HT Hg H Hl Ho Hc Hlt. by destruct (dead_reported l1 l2 s HT Hg H (or_introl Hl) Ho Hc Hlt) as [R|[? _]]; [|congruence]. Qed.
End silent.

(** ** Time goes on *)
Section goes_on.
Context (T G : Z) (sh : bool) (c : nat) (g : lag).
Definition still (l : plab) : Prop := match l with PB (BTick _) | PB (BClose _) | PDie => False | _ => True end.
Lemma still_timely s l s' : (0 <= G)%Z -> lag_ok g -> pstep T G sh c s l s' -> still l -> timely g c s -> timely g c s'.
Proof.
  intros HG (L1 & L2 & L3 & L4 & L5) Hst Hl (T1 & T2 & T3 & T4).
  assert (0 < second)%Z by done. assert (0 <= G * second)%Z by lia. unfold timely.
  assert (forall b b' l', bstep T sh b l' b' -> still (PB l') -> b_now b' = b_now b) as Hnow.
  { intros b b' l' Hb Hl'. by destruct Hb. }
  assert (forall b b' l' t, bstep T sh b l' b' -> b_mon b' c = Some t -> b_mon b c = Some t \/ t = b_now b') as Hmon.
  { intros b b' l' t Hb E. destruct (bstep_mon _ _ _ _ _ _ _ Hb E) as [?|[? _]]; tauto. }
  assert (forall b b' l', bstep T sh b l' b' -> b_closed b' c = false -> b_closed b c = false) as Hcl.
  { intros b b' l' Hb E. destruct Hb; simpl in *; fnl; done. }
  destruct Hst as [b b' l' p w h cd cs Hpl Hst|b b' p t w cd cs Hst|b b' p w t cd cs Hst|b b' todo p w h cd cs Hcd Hst|b b' p w h cd cs Hst
    |b w h cd cs|b due w h cd cs Hdue|b p w w' h cd cs]; simpl in *; try done;
    try (pose proof (Hnow _ _ _ Hst Hl) as En; rewrite ?En).
  - split; [|split; [|split]].
    + destruct p; try done. intros t Ht. destruct (Hmon _ _ _ _ Hst Ht) as [?| ->]; [auto|lia].
    + intros t [[? ?]|?]; apply T2; [left; split; [done|]; eauto|by right].
    + intros K. destruct Hst; simpl in *; try done; try (by apply T3).
    + intros K. destruct Hst; simpl in *; try done; try (by apply T4).
  - split; [|split; [|split]].
    + destruct p; try done. intros x Hx. destruct (Hmon _ _ _ _ Hst Hx) as [?| ->]; [auto|lia].
    + intros x [[? Hx]|[= <-]]; apply T2; left; (split; [set_solver|]); [eauto|]. by inversion Hst; subst.
    + intros K. apply T3. by inversion Hst; subst.
    + intros K. apply T4. by inversion Hst; subst.
  - split; [|split; [|split]].
    + destruct p; try done. intros x Hx. destruct (Hmon _ _ _ _ Hst Hx) as [?| ->]; [auto|lia].
    + intros x [[? Hx]|?]; [|done]. apply T2. left. eauto.
    + intros K. apply T3. by inversion Hst; subst.
    + intros K. apply T4. by inversion Hst; subst.
  - split; [|split; [|split]].
    + destruct p; try done. intros x Hx. destruct (Hmon _ _ _ _ Hst Hx) as [?| ->]; [auto|lia].
    + intros x [[? Hx]|?]; apply T2; [left; eauto|by right].
    + intros K. by inversion Hst; subst.
    + lia.
  - split; [|split; [|split]].
    + destruct p; try done. intros x Hx. destruct (Hmon _ _ _ _ Hst Hx) as [?| ->]; [auto|lia].
    + intros x [[? Hx]|?]; apply T2; [left; eauto|by right].
    + lia.
    + intros K. by inversion Hst; subst.
  - split; [lia|]. done.
  - split; [lia|]. split; [|done]. intros t [[[?|?%elem_of_list_singleton]%elem_of_app ?]|?]; [apply T2; by left|lia|apply T2; by right].
Qed.
Lemma hand_fly ls s : purun T G sh c g ls s -> (u_hand s = None <-> b_fly (u_b s) c = false).
Proof.
  induction 1 as [|ls s l s' H IH Hst _]; [done|].
  destruct Hst as [b b' l' p w h cd cs Hpl Hst|b b' p t w cd cs Hst|b b' p w t cd cs Hst|b b' todo p w h cd cs Hcd Hst|b b' p w h cd cs Hst
    |b w h cd cs|b due w h cd cs Hdue|b p w w' h cd cs]; simpl in *; try done.
  - destruct Hst; simpl in *; try done; apply negb_true_iff, Nat.eqb_neq in Hpl; by rewrite fn_lookup_insert_ne.
  - inversion Hst; subst; simpl. by rewrite fn_lookup_insert.
  - inversion Hst; subst; simpl. by rewrite fn_lookup_insert.
  - by inversion Hst; subst.
  - by inversion Hst; subst.
Qed.
(** Continuations in which no time passes. *)
Definition onward (ls : list plab) (s : pul) (P : pul -> Prop) : Prop :=
  exists ls' s', purun T G sh c g (ls ++ ls') s' /\ Forall still ls' /\ b_now (u_b s') = b_now (u_b s) /\ P s'.
Lemma onward_here ls s (P : pul -> Prop) : purun T G sh c g ls s -> P s -> onward ls s P.
Proof. intros H HP. exists [], s. rewrite app_nil_r. by split_and!. Qed.
Lemma onward_bind ls s P (Q : pul -> Prop) : onward ls s P ->
  (forall ls' s', purun T G sh c g ls' s' -> b_now (u_b s') = b_now (u_b s) -> P s' -> onward ls' s' Q) -> onward ls s Q.
Proof.
  intros (l1 & s1 & H1 & F1 & E1 & HP) Hk. destruct (Hk _ _ H1 E1 HP) as (l2 & s2 & H2 & F2 & E2 & HQ).
  exists (l1 ++ l2), s2. rewrite app_assoc. split_and!; try done; [by apply Forall_app|congruence].
Qed.
Ltac next ls s H K :=
  let l1 := fresh in let s1 := fresh in let H1 := fresh in let K1 := fresh in
  intros l1 s1 H1 _ K1; clear dependent s; try clear dependent ls; rename l1 into ls; rename s1 into s; rename H1 into H; rename K1 into K.
Hypothesis HG : (0 < G)%Z.
Hypothesis Hg : lag_ok g.
Lemma onward_step ls s l s' (P : pul -> Prop) : purun T G sh c g ls s -> pstep T G sh c s l s' -> still l -> b_now (u_b s') = b_now (u_b s) -> P s' -> onward ls s P.
Proof.
  intros H Hst Hl En HP. exists [l], s'. split_and!; try done; [|by constructor]. econstructor; [done..|].
  eapply still_timely; try done; [lia|]. by eapply all_timely.
Qed.
Lemma lift_own ls s ls' b' : purun T G sh c g ls s -> brun T sh (u_b s) ls' b' -> Forall own_step ls' ->
  exists s', purun T G sh c g (ls ++ map PB ls') s' /\ u_b s' = b' /\ u_peer s' = u_peer s /\ u_wire s' = u_wire s /\ u_hand s' = u_hand s /\
    (b_chk b' = CIdle -> (ls' = [] /\ u_cdue s' = u_cdue s) \/ u_cdue s' = (b_now b' + second)%Z).
Proof.
  intros H Hb. remember (u_b s) as b eqn:Eb. induction Hb as [|ls' b1 l b2 Hb IH Hst]; intros F.
  - exists s. rewrite app_nil_r. split_and!; try done. by left.
  - apply Forall_app in F as [F1 F2]. apply Forall_inv in F2. destruct (IH F1) as (s1 & H1 & E1 & E2 & E3 & E4 & _). clear IH.
    destruct s1 as [b1' p w h cd cs]; simpl in *. subst b1'. rewrite map_app, app_assoc. simpl.
    destruct (decide (l = BDone)) as [->|Hd].
    + exists (Pul b2 p w h (b_now b1 + second)%Z cs). assert (pstep T G sh c (Pul b1 p w h cd cs) (PB BDone) (Pul b2 p w h (b_now b1 + second)%Z cs)) as Hp by (by constructor).
      split_and!; try done; [|intros _; right; simpl; by inversion Hst; subst].
      econstructor; [done..|]. eapply still_timely; try done; [lia|]. by eapply all_timely.
    + exists (Pul b2 p w h cd cs). assert (pstep T G sh c (Pul b1 p w h cd cs) (PB l) (Pul b2 p w h cd cs)) as Hp by (constructor; [by destruct l|done]).
      split_and!; try done.
      * econstructor; [done..|]. eapply still_timely; try done; [lia|by destruct l|]. by eapply all_timely.
      * intros K. exfalso. destruct Hst; simpl in *; done.
Qed.
Lemma own_still ls' : Forall own_step ls' -> Forall still (map PB ls').
Proof. intros F. apply Forall_map. eapply Forall_impl; [exact F|]. by intros []. Qed.
Lemma own_now b ls' b' : brun T sh b ls' b' -> Forall own_step ls' -> b_now b' = b_now b.
Proof. induction 1 as [|ls' b1 l b2 Hb IH Hst]; [done|]. intros [F1 F2]%Forall_app. apply Forall_inv in F2. rewrite <-(IH F1). by destruct Hst. Qed.
Lemma to_idle ls s : purun T G sh c g ls s -> onward ls s (fun s' => b_chk (u_b s') = CIdle).
Proof.
  intros H. destruct (check_ends T sh (u_b s)) as (l1 & b1 & H1 & K1 & _ & _ & _ & F1); [exists (side ls); by eapply pulse_side|].
  destruct (lift_own ls s l1 b1 H H1 F1) as (s1 & Hs1 & E1 & _). exists (map PB l1), s1. split_and!; [done|by apply own_still| |congruence].
  rewrite E1. by eapply own_now.
Qed.
Definition checked (s : pul) : Prop := b_chk (u_b s) = CIdle /\ (b_now (u_b s) < u_cdue s)%Z.
Lemma to_checked ls s : purun T G sh c g ls s -> onward ls s checked.
Proof.
  intros H. eapply onward_bind; [by apply to_idle|]. next ls s H K. unfold checked.
  destruct (decide (b_now (u_b s) < u_cdue s)%Z) as [|Hlt]; [by apply onward_here|].
  destruct (binv_run _ _ _ _ (pulse_side _ _ _ _ _ _ _ H)) as (_ & _ & _ & _ & _ & (lst & I6)).
  set (todo := filter (fun d => b_mon (u_b s) d <> None) (remove_dups lst)).
  assert (NoDup todo) as N by (apply list.NoDup_filter, NoDup_remove_dups).
  assert (forall d, d ∈ todo <-> b_mon (u_b s) d <> None) as F.
  { intros d. unfold todo. rewrite elem_of_list_filter, elem_of_remove_dups. naive_solver. }
  clearbody todo. destruct s as [[now m k cl fl gs] p w h cd cs]; simpl in *. subst k.
  eapply onward_bind; [eapply (onward_step _ _ (PB (BCheck todo)) (Pul (Bst now m (CAt todo) cl fl gs) p w h cd now) (fun s' => b_chk (u_b s') = CAt todo)); [done| |done|done|done]|].
  { apply (pu_check T G sh c (Bst now m CIdle cl fl gs) (Bst now m (CAt todo) cl fl gs) todo p w h cd cs); [simpl; lia|]. by constructor. }
  clear dependent ls. intros ls s H _ K. destruct (check_ends T sh (u_b s)) as (l1 & b1 & H1 & K1 & _ & _ & _ & F1); [exists (side ls); by eapply pulse_side|].
  destruct (lift_own ls s l1 b1 H H1 F1) as (s1 & Hs1 & E1 & _ & _ & _ & E2). exists (map PB l1), s1. split_and!; [done|by apply own_still| |congruence|].
  - rewrite E1. by eapply own_now.
  - rewrite E1. destruct (E2 K1) as [[-> _]|E3]; [|rewrite E3; assert (0 < second)%Z by done; lia].
    exfalso. inversion H1 as [E|? ? ? ? ? ? E]; [congruence|by destruct ls0].
Qed.
Definition sent (s : pul) : Prop := checked s /\ match u_peer s with PWait => False | PRun due => (b_now (u_b s) < due)%Z | PDead => True end.
Lemma to_sent ls s : purun T G sh c g ls s -> onward ls s sent.
Proof.
  intros H. eapply onward_bind; [by apply to_checked|]. next ls s H K.
  eapply (onward_bind _ _ (fun s => checked s /\ u_peer s <> PWait)).
  { destruct s as [b p w h cd cs]. destruct p; [|by apply onward_here..].
    eapply onward_step; [done|apply pu_start|done|done|]. done. }
  next ls s H K. destruct K as [K Hp]. unfold sent. destruct s as [b p w h cd cs]; simpl in *. destruct p as [|due|]; [done| |by apply onward_here].
  destruct (decide (b_now b < due)%Z); [by apply onward_here|].
  eapply onward_step; [done|apply pu_send; lia|done|done|]. split; [done|]. simpl. assert (0 < second)%Z by done. lia.
Qed.
Definition quiet (s : pul) : Prop := sent s /\ u_hand s = None /\ (u_wire s = [] \/ b_closed (u_b s) c = true).
Lemma to_quiet ls s : purun T G sh c g ls s -> onward ls s quiet.
Proof.
  intros H. eapply onward_bind; [by apply to_sent|]. next ls s H K.
  eapply (onward_bind _ _ (fun s => sent s /\ u_hand s = None)).
  { pose proof (hand_fly _ _ H) as Hf. destruct s as [[now m k cl fl gs] p w h cd cs]. destruct h as [t|]; [|by apply onward_here].
    destruct K as [[K1 K2] K3]; simpl in *. subst k.
    eapply onward_step; [done|apply pu_beat, bk_beat; destruct (fl c); [done|by destruct Hf as [_ Hf]; discriminate Hf]|done|done|]. done. }
  next ls s H K. destruct K as [K Hh].
  eapply (onward_bind _ _ (fun s => sent s /\ u_hand s = None /\ b_gs (u_b s) c <> GNone)).
  { destruct (b_gs (u_b s) c) eqn:E; [|by apply onward_here; [|rewrite E]..].
    destruct s as [[now m k cl fl gs] p w h cd cs]. destruct K as [[K1 K2] K3]; simpl in *. subst k.
    eapply onward_step; [done|apply pu_plain; [|by apply bk_open]; done|done|done|]. simpl. by rewrite fn_lookup_insert. }
  next ls s H K. destruct K as (K & Hh & Hgs).
  remember (u_wire s) as w eqn:Ew. revert ls s H K Hh Hgs Ew. induction w as [|t w IH]; intros ls s H K Hh Hgs Ew.
  { apply onward_here; [done|]. split; [done|]. split; [done|]. by left. }
  destruct (b_closed (u_b s) c) eqn:Ec; [apply onward_here; [done|]; split; [done|]; split; [done|]; by right|].
  pose proof (hand_fly _ _ H) as Hf.
  destruct s as [[now m k cl fl gs] p w0 h cd cs]. destruct K as [[K1 K2] K3]; simpl in *. subst k w0 h.
  eapply (onward_bind _ _ (fun s => s = Pul (Bst now m CIdle cl (<[c := true]> fl) gs) p w (Some t) cd cs)).
  { eapply onward_step; [done|apply pu_arrive, bk_arrive|done|done|]; [done|done|by apply Hf|done]. }
  intros ls1 s1 H1 _ ->. eapply (onward_bind _ _ (fun s => s = Pul (Bst now (<[c := Some now]> m) CIdle cl (<[c := false]> (<[c := true]> fl)) gs) p w None cd cs)).
  { eapply onward_step; [done|apply pu_beat, bk_beat|done|done|]; [apply fn_lookup_insert|done]. }
  intros ls2 s2 H2 _ ->. by apply IH.
Qed.
Lemma one_on ls s : purun T G sh c g ls s -> exists ls' s', purun T G sh c g (ls ++ ls') s' /\
  PDie ∉ ls' /\ PB (BClose c) ∉ ls' /\ b_now (u_b s') = (b_now (u_b s) + 1)%Z.
Proof.
  intros H. destruct (to_quiet ls s H) as (l1 & s1 & H1 & F1 & E1 & ((K1 & K2) & K3) & K4 & K5).
  destruct s1 as [[now m k cl fl gs] p w h cd cs]; simpl in *. subst k h.
  exists (l1 ++ [PB (BTick 1)]), (Pul (Bst (now + 1) m CIdle cl fl gs) p w None cd cs). simpl in *.
  assert (forall l, ~ still l -> l ∉ l1) as Fn by (intros l Hl Hin; rewrite Forall_forall in F1; by apply Hl, F1).
  split; [|split_and!; [..|lia]].
  - rewrite app_assoc. econstructor; [done|by apply pu_plain; [|by constructor]|]. destruct Hg as (L1 & L2 & L3 & L4 & L5). split; simpl; [destruct p; try done; lia|].
    split; [|split; [lia|done]]. intros t [[Ht Hc]|?]; [|done]. destruct K5 as [->|K5]; [by apply elem_of_nil in Ht|congruence].
  - rewrite not_elem_of_app, elem_of_list_singleton. split; [|done]. apply Fn. tauto.
  - rewrite not_elem_of_app, elem_of_list_singleton. split; [|done]. apply Fn. tauto.
Qed.
Lemma goes_on ls s n : purun T G sh c g ls s -> exists ls' s', purun T G sh c g (ls ++ ls') s' /\
  PDie ∉ ls' /\ PB (BClose c) ∉ ls' /\ (n <= ptime (ls ++ ls'))%Z.
Proof.
  intros H. assert (forall k, exists ls' s', purun T G sh c g (ls ++ ls') s' /\ PDie ∉ ls' /\ PB (BClose c) ∉ ls' /\ b_now (u_b s') = (b_now (u_b s) + Z.of_nat k)%Z) as K.
  { induction k as [|k (l1 & s1 & H1 & D1 & C1 & E1)].
    - exists [], s. rewrite app_nil_r. split_and!; try apply not_elem_of_nil; [done|lia].
    - destruct (one_on _ _ H1) as (l2 & s2 & H2 & D2 & C2 & E2). exists (l1 ++ l2), s2. rewrite app_assoc, !not_elem_of_app. split_and!; try done. lia. }
  destruct (K (Z.to_nat (n - b_now (u_b s)))) as (l1 & s1 & H1 & D1 & C1 & E1). exists l1, s1. split_and!; try done.
  rewrite <-(pulse_now _ _ _ _ _ _ _ H1). lia.
Qed.
End goes_on.
Lemma pu_more T G sh c g ls s l s' : (0 <= G)%Z -> lag_ok g -> purun T G sh c g ls s -> pstep T G sh c s l s' -> still l -> purun T G sh c g (ls ++ [l]) s'.
Proof. intros HG Hg H Hst Hl. econstructor; [done..|]. eapply still_timely; try done. by eapply all_timely. Qed.
Lemma pu_wait T G sh c g ls now m k cl fl gs p w h cd cs d : purun T G sh c g ls (Pul (Bst now m k cl fl gs) p w h cd cs) -> (0 <= d)%Z ->
  timely g c (Pul (Bst (now + d) m k cl fl gs) p w h cd cs) -> purun T G sh c g (ls ++ [PB (BTick d)]) (Pul (Bst (now + d) m k cl fl gs) p w h cd cs).
Proof. intros H Hd Ht. econstructor; [done| |done]. by apply pu_plain; [|constructor]. Qed.
(** A heartbeat is followed by another one. *)
Lemma sends_again T G sh c g ls s : (0 < G)%Z -> lag_ok g -> purun T G sh c g (ls ++ [PSend]) s ->
  exists l2 s', purun T G sh c g (ls ++ PSend :: l2 ++ [PSend]) s' /\ PSend ∉ l2 /\ PB (BClose c) ∉ l2.
Proof.
  intros HG Hg H. destruct (goes_on T G sh c g HG Hg _ _ (ptime ls + nsec G + g_send g + 1) H) as (l' & s' & H' & Hd & Hc & Ht).
  destruct (decide (PSend ∈ l')) as [Hin|Hin].
  - apply elem_of_list_split_l in Hin as (a & b & -> & Hna).
    assert ((ls ++ [PSend]) ++ a ++ PSend :: b = (ls ++ PSend :: a ++ [PSend]) ++ b) as E by (rewrite <-!app_assoc; simpl; by rewrite <-app_assoc).
    rewrite E in H'. apply purun_prefix in H' as (s1 & H1). exists a, s1. split_and!; try done. set_solver.
  - exfalso. pose proof (due_kept _ _ _ _ _ _ _ _ H' Hin Hd) as E. pose proof (all_timely _ _ _ _ _ _ _ Hg H') as (T1 & _).
    rewrite E, (pulse_now _ _ _ _ _ _ _ H') in T1. lia.
Qed.
Lemma pulse_lost_closed T G sh c g ls s : purun T G sh c g ls s -> sh = true -> PB (BLost c) ∈ ls -> b_closed (u_b s) c = true.
Proof.
  intros H Hs. induction H as [|ls s l s' H IH Hst Ht]; [by intros ?%elem_of_nil|]. intros [Hin| <-%elem_of_list_singleton]%elem_of_app.
  - specialize (IH Hin). assert (forall b l b', bstep T sh b l b' -> b_closed b c = true -> b_closed b' c = true) as K.
    { intros b l' b' Hb E. destruct Hb; simpl in *; fnl; done. }
    destruct Hst; simpl in *; try done; by eapply K.
  - assert (brun T sh new_beat (side ls ++ [BLost c]) (u_b s')) as Hb.
    { change [BLost c] with (side [PB (BLost c)]). rewrite <-side_app. eapply pulse_side. by econstructor. }
    by eapply lost_closed.
Qed.

(** ** Not too often *)
Lemma check_due T G sh c g l1 todo l2 s : purun T G sh c g (l1 ++ PB (BCheck todo) :: l2) s ->
  b_chk (u_b s) <> CIdle \/ (ptime l1 + second <= u_cdue s)%Z.
Proof.
  revert s. induction l2 as [|l l2 IH] using rev_ind; intros s H.
  - destruct (purun_snoc_inv _ _ _ _ _ _ _ _ H) as (s1 & R & Hs & _). left. inversion Hs; subst; [done|].
    match goal with H : bstep _ _ _ (BCheck _) _ |- _ => by inversion H; subst end.
  - change (l1 ++ PB (BCheck todo) :: l2 ++ [l]) with (l1 ++ (PB (BCheck todo) :: l2) ++ [l]) in H. rewrite app_assoc in H.
    destruct (purun_snoc_inv _ _ _ _ _ _ _ _ H) as (s1 & R & Hs & _).
    pose proof (purun_time _ _ _ _ _ l1 (PB (BCheck todo) :: l2) _ R) as Ht. rewrite <- (pulse_now _ _ _ _ _ _ _ R) in Ht.
    destruct (IH _ R) as [Hk|Hk].
    + inversion Hs; subst; simpl in *; try by left.
      all: try (match goal with H : bstep _ _ _ _ _ |- _ => inversion H; subst; simpl in *; try done; try (by left); try (right; lia) end).
    + inversion Hs; subst; simpl in *; try by right.
      right. lia.
Qed.
Lemma send_due T G sh c g l1 l2 s : (0 <= G)%Z -> purun T G sh c g (l1 ++ PSend :: l2) s ->
  u_peer s <> PWait /\ forall due, u_peer s = PRun due -> (ptime l1 + nsec G <= due)%Z.
Proof.
  intros HG. revert s. induction l2 as [|l l2 IH] using rev_ind; intros s H.
  - destruct (purun_snoc_inv _ _ _ _ _ _ _ _ H) as (s1 & R & Hs & _). rewrite <- (pulse_now _ _ _ _ _ _ _ R).
    inversion Hs; subst; simpl. split; [done|]. intros due' [= <-]. unfold nsec, second. lia.
  - change (l1 ++ PSend :: l2 ++ [l]) with (l1 ++ (PSend :: l2) ++ [l]) in H. rewrite app_assoc in H.
    destruct (purun_snoc_inv _ _ _ _ _ _ _ _ H) as (s1 & R & Hs & _).
    pose proof (purun_time _ _ _ _ _ l1 (PSend :: l2) _ R) as Ht. rewrite <- (pulse_now _ _ _ _ _ _ _ R) in Ht.
    destruct (IH _ R) as [Hw Hk]. inversion Hs; subst; simpl in *; try done.
    split; [done|]. intros due' [= <-]. unfold nsec, second. lia.
Qed.
Lemma pace T G sh c g l1 l l2 l' s : (0 <= G)%Z -> purun T G sh c g (l1 ++ l :: l2 ++ [l']) s ->
  ((exists t t', l = PB (BCheck t) /\ l' = PB (BCheck t')) -> ptime l1 + second <= ptime (l1 ++ l :: l2))%Z /\
  (l = PSend /\ l' = PSend -> ptime l1 + nsec G <= ptime (l1 ++ l :: l2))%Z.
Proof.
  intros HG H. change (l1 ++ l :: l2 ++ [l']) with (l1 ++ (l :: l2) ++ [l']) in H. rewrite app_assoc in H.
  destruct (purun_snoc_inv _ _ _ _ _ _ _ _ H) as (s1 & R & Hs & _). pose proof (pulse_now _ _ _ _ _ _ _ R) as En. split.
  - intros (t & t' & -> & ->). destruct (check_due _ _ _ _ _ _ _ _ _ R) as [Hk|Hk].
    + inversion Hs as [? ? ? ? ? ? ? ? Hp|? ? ? ? ? ? ?|? ? ? ? ? ? ?|? ? ? ? ? ? ? ? Hd Hb|? ? ? ? ? ? ? |? ? ? ? ?|? ? ? ? ? ? ?|? ? ? ? ? ? ?]; subst; [done|].
      by inversion Hb; subst.
    + inversion Hs as [? ? ? ? ? ? ? ? Hp|? ? ? ? ? ? ?|? ? ? ? ? ? ?|? ? ? ? ? ? ? ? Hd Hb|? ? ? ? ? ? ? |? ? ? ? ?|? ? ? ? ? ? ?|? ? ? ? ? ? ?]; subst; [done|].
      simpl in *. lia.
  - intros [-> ->]. destruct (send_due _ _ _ _ _ _ _ _ HG R) as [_ Hk]. inversion Hs; subst. simpl in *. specialize (Hk _ eq_refl). lia.
Qed.
