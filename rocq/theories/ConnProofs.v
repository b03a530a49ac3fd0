(** * Proofs about the lower deck's connections *)
From Verif Require Import GoBase ConnModel ConnSpec.

Lemma trun_app s ls1 s1 ls2 s2 : trun s ls1 s1 -> trun s1 ls2 s2 -> trun s (ls1 ++ ls2) s2.
Proof.
  intros H1 H2. induction H2 as [|ls s3 l s4 H2 IH Hs]; [by rewrite app_nil_r|].
  rewrite app_assoc. econstructor; done.
Qed.
Lemma trun_one s l s' : tstep s l s' -> trun s [l] s'.
Proof. intros H. change [l] with ([] ++ [l]). econstructor; [constructor|done]. Qed.
Lemma trun_cons s l s1 ls s2 : tstep s l s1 -> trun s1 ls s2 -> trun s (l :: ls) s2.
Proof. intros H1 H2. change (l :: ls) with ([l] ++ ls). eapply trun_app; [by apply trun_one|done]. Qed.
Lemma at_insert {A} (l : list A) i j x y z : l !! i = Some z -> <[i := x]> l !! j = Some y -> (j = i /\ y = x) \/ (j <> i /\ l !! j = Some y).
Proof.
  intros Hi Hj. destruct (decide (i = j)) as [->|].
  - rewrite list_lookup_insert in Hj by (by eapply lookup_lt_Some). injection Hj as <-. by left.
  - rewrite list_lookup_insert_ne in Hj by done. right. done.
Qed.
Lemma announced_app c lg e : announced c (lg ++ [e]) = announced c lg + announced c [e].
Proof. unfold announced. by rewrite List.filter_app, app_length. Qed.
Lemma farewells_app c lg e : farewells c (lg ++ [e]) = farewells c lg + farewells c [e].
Proof. unfold farewells. by rewrite List.filter_app, app_length. Qed.
Lemma failures_app c ls l : failures c (ls ++ [l]) = failures c ls + failures c [l].
Proof. unfold failures. by rewrite List.filter_app, app_length. Qed.
Lemma one_new c c' : announced c [EvNew c'] = if decide (c' = c) then 1 else 0.
Proof. unfold announced. simpl. destruct (Nat.eqb_spec c' c); [by rewrite decide_True|by rewrite decide_False]. Qed.
Lemma one_farewell c c' : farewells c [EvClosed c'] = if decide (c' = c) then 1 else 0.
Proof. unfold farewells. simpl. destruct (Nat.eqb_spec c' c); [by rewrite decide_True|by rewrite decide_False]. Qed.
Lemma one_failure c w c' : failures c [TErrPublish w c'] = if decide (c' = c) then 1 else 0.
Proof. unfold failures. simpl. destruct (Nat.eqb_spec c' c); [by rewrite decide_True|by rewrite decide_False]. Qed.

(** What each connection's phase says about the log. *)
Definition opened (p : phase) : nat := match p with PTaken => 0 | _ => 1 end.
Definition ended (p : phase) : nat := match p with PEnded => 1 | _ => 0 end.
Definition tinv (ls : list tlab) (s : tst) : Prop :=
  (forall c p b, t_conns s !! c = Some (p, b) ->
     announced c (t_log s) = opened p /\ farewells c (t_log s) = failures c ls + ended p /\
     (p = PClosing \/ p = PEnded -> b = true)) /\
  (forall c, t_conns s !! c = None -> announced c (t_log s) = 0 /\ farewells c (t_log s) = 0 /\ failures c ls = 0) /\
  (forall w c p, t_writers s !! w = Some (c, p) -> announced c (t_log s) = 1).
Lemma announced_in c lg : EvNew c ∈ lg -> 1 <= announced c lg.
Proof.
  intros H. induction lg as [|e lg IH]; [by apply elem_of_nil in H|]. unfold announced in *. simpl.
  apply elem_of_cons in H as [<-|H]; [rewrite Nat.eqb_refl; simpl; lia|]. specialize (IH H). destruct e as [c'| |]; simpl; [destruct (c' =? c); simpl|..]; lia.
Qed.
Definition wa (c : nat) (e : cev) : nat := match e with EvNew c' => if decide (c' = c) then 1 else 0 | _ => 0 end.
Definition wf (c : nat) (e : cev) : nat := match e with EvClosed c' => if decide (c' = c) then 1 else 0 | _ => 0 end.
Definition wl (c : nat) (l : tlab) : nat := match l with TErrPublish _ c' => if decide (c' = c) then 1 else 0 | _ => 0 end.
Lemma announced_snoc c lg e : announced c (lg ++ [e]) = announced c lg + wa c e.
Proof. rewrite announced_app. f_equal. destruct e; [apply one_new|done..]. Qed.
Lemma farewells_snoc c lg e : farewells c (lg ++ [e]) = farewells c lg + wf c e.
Proof. rewrite farewells_app. f_equal. destruct e; [done..|apply one_farewell]. Qed.
Lemma failures_snoc c ls l : failures c (ls ++ [l]) = failures c ls + wl c l.
Proof. rewrite failures_app. f_equal. destruct l; try done. apply one_failure. Qed.
Lemma none_insert {A} (l : list A) i j x : <[i := x]> l !! j = None <-> l !! j = None.
Proof. rewrite !lookup_ge_None, insert_length. done. Qed.
Ltac fin := unfold wa, wf, wl; repeat case_decide; subst; simpl in *; try done; try congruence; try lia.
Lemma tinv_run ls s : trun new_conns ls s -> tinv ls s.
Proof.
  induction 1 as [|ls s1 l s2 H (I1 & I2 & I3) Hst]; [done|].
  assert (forall c p b, t_conns s1 !! c = Some (p, b) -> announced c (t_log s1) = opened p /\ farewells c (t_log s1) = failures c ls + ended p /\
     (p = PClosing \/ p = PEnded -> b = true)) as J1 by done. clear I1.
  inversion Hst; subst; unfold tinv; setoid_rewrite failures_snoc; simpl in *; try setoid_rewrite announced_snoc; try setoid_rewrite farewells_snoc; simpl.
  - split_and!.
    + intros c p b Hc. apply lookup_app_Some in Hc as [Hc|[Hge Hc]]; [destruct (J1 _ _ _ Hc) as (?&?&?); split_and!; fin|].
      destruct (c - length cs) as [|[]]; simpl in Hc; [|done..]. injection Hc as <- <-.
      destruct (I2 c) as (->&->&->); [by apply lookup_ge_None|]. by split_and!; [..|intros [|]].
    + intros c Hc. assert (cs !! c = None) as Hc'. { apply lookup_ge_None. apply lookup_ge_None in Hc. rewrite app_length in Hc. lia. } clear Hc. rename Hc' into Hc. destruct (I2 _ Hc) as (?&?&?). split_and!; fin.
    + done.
  - pose proof (J1 _ _ _ H0) as (K1 & K2 & K3). split_and!.
    + intros c' p' b' Hc. destruct (at_insert _ _ _ _ _ _ H0 Hc) as [[-> [= -> ->]]|[Hne Hc']]; [|destruct (J1 _ _ _ Hc') as (?&?&?)]; split_and!; fin; naive_solver.
    + intros c' Hc. apply none_insert in Hc. destruct (I2 _ Hc) as (?&?&?). split_and!; fin.
    + intros w c' p' Hw. pose proof (I3 _ _ _ Hw). fin.
  - pose proof (J1 _ _ _ H0) as (K1 & K2 & K3). split_and!.
    + intros c' p' b' Hc. destruct (at_insert _ _ _ _ _ _ H0 Hc) as [[-> [= -> ->]]|[Hne Hc']]; [|destruct (J1 _ _ _ Hc') as (?&?&?)]; split_and!; fin; naive_solver.
    + intros c' Hc. apply none_insert in Hc. destruct (I2 _ Hc) as (?&?&?). split_and!; fin.
    + intros w c' p' Hw. pose proof (I3 _ _ _ Hw). fin.
  - pose proof (J1 _ _ _ H0) as (K1 & K2 & K3). split_and!.
    + intros c' p' b' Hc. destruct (at_insert _ _ _ _ _ _ H0 Hc) as [[-> [= -> ->]]|[Hne Hc']]; [|destruct (J1 _ _ _ Hc') as (?&?&?)]; split_and!; fin; naive_solver.
    + intros c' Hc. apply none_insert in Hc. destruct (I2 _ Hc) as (?&?&?). split_and!; fin.
    + intros w c' p' Hw. pose proof (I3 _ _ _ Hw). fin.
  - pose proof (J1 _ _ _ H0) as (K1 & K2 & K3). split_and!.
    + intros c' p' b' Hc. destruct (at_insert _ _ _ _ _ _ H0 Hc) as [[-> [= -> ->]]|[Hne Hc']]; [|destruct (J1 _ _ _ Hc') as (?&?&?)]; split_and!; fin; naive_solver.
    + intros c' Hc. apply none_insert in Hc. destruct (I2 _ Hc) as (?&?&?). split_and!; fin.
    + intros w c' p' Hw. pose proof (I3 _ _ _ Hw). fin.
  - pose proof (J1 _ _ _ H0) as (K1 & K2 & K3). split_and!.
    + intros c' p' b' Hc. destruct (at_insert _ _ _ _ _ _ H0 Hc) as [[-> [= -> ->]]|[Hne Hc']]; [|destruct (J1 _ _ _ Hc') as (?&?&?)]; split_and!; fin; naive_solver.
    + intros c' Hc. apply none_insert in Hc. destruct (I2 _ Hc) as (?&?&?). split_and!; fin.
    + intros w c' p' Hw. pose proof (I3 _ _ _ Hw). fin.
  - pose proof (J1 _ _ _ H0) as (K1 & K2 & K3). split_and!.
    + intros c' p' b' Hc. destruct (at_insert _ _ _ _ _ _ H0 Hc) as [[-> [= -> ->]]|[Hne Hc']]; [|destruct (J1 _ _ _ Hc') as (?&?&?)]; split_and!; fin; naive_solver.
    + intros c' Hc. apply none_insert in Hc. destruct (I2 _ Hc) as (?&?&?). split_and!; fin.
    + intros w c' p' Hw. pose proof (I3 _ _ _ Hw). fin.
  - split_and!.
    + intros c' p' b' Hc. destruct (J1 _ _ _ Hc) as (?&?&?); split_and!; fin.
    + intros c' Hc. destruct (I2 _ Hc) as (?&?&?). split_and!; fin.
    + intros w c' p' Hw. apply lookup_app_Some in Hw as [Hw|[_ Hw]]; [by eapply I3|].
      destruct (w - length ws) as [|[]]; simpl in Hw; [|done..]. injection Hw as <- <-. apply announced_in in H0.
      destruct (cs !! c) as [[p b]|] eqn:E.
      * destruct (J1 _ _ _ E) as (K & _). destruct p; simpl in K; lia.
      * destruct (I2 _ E) as (K & _). lia.
  - split_and!.
    + intros c' p' b' Hc. destruct (J1 _ _ _ Hc) as (?&?&?); split_and!; fin.
    + intros c' Hc. destruct (I2 _ Hc) as (?&?&?). split_and!; fin.
    + intros w' c' p' Hw. destruct (at_insert _ _ _ _ _ _ H0 Hw) as [[-> [= -> ->]]|[Hne Hw']]; by eapply I3.
  - split_and!.
    + intros c' p' b' Hc. destruct (J1 _ _ _ Hc) as (?&?&?); split_and!; fin.
    + intros c' Hc. destruct (I2 _ Hc) as (?&?&?). split_and!; fin.
    + intros w' c' p' Hw. destruct (at_insert _ _ _ _ _ _ H0 Hw) as [[-> [= -> ->]]|[Hne Hw']]; by eapply I3.
  - pose proof (J1 _ _ _ H1) as (K1 & K2 & K3). split_and!.
    + intros c' p' b' Hc. destruct (at_insert _ _ _ _ _ _ H1 Hc) as [[-> [= -> ->]]|[Hne Hc']]; [|destruct (J1 _ _ _ Hc') as (?&?&?)]; split_and!; fin; naive_solver.
    + intros c' Hc. apply none_insert in Hc. destruct (I2 _ Hc) as (?&?&?). split_and!; fin.
    + intros w' c' p' Hw. destruct (at_insert _ _ _ _ _ _ H0 Hw) as [[-> [= -> ->]]|[Hne Hw']]; by eapply I3.
  - split_and!.
    + intros c' p' b' Hc. destruct (J1 _ _ _ Hc) as (?&?&?); split_and!; fin.
    + intros c' Hc. destruct (I2 _ Hc) as (?&?&?). split_and!; fin; pose proof (I3 _ _ _ H0); lia.
    + intros w' c' p' Hw. destruct (at_insert _ _ _ _ _ _ H0 Hw) as [[-> [= -> ->]]|[Hne Hw']]; [pose proof (I3 _ _ _ H0)|pose proof (I3 _ _ _ Hw')]; fin.
  - pose proof (J1 _ _ _ H0) as (K1 & K2 & K3). split_and!.
    + intros c' p' b' Hc. destruct (at_insert _ _ _ _ _ _ H0 Hc) as [[-> [= -> ->]]|[Hne Hc']]; [|destruct (J1 _ _ _ Hc') as (?&?&?)]; split_and!; fin; naive_solver.
    + intros c' Hc. apply none_insert in Hc. destruct (I2 _ Hc) as (?&?&?). split_and!; fin.
    + intros w c' p' Hw. pose proof (I3 _ _ _ Hw). fin.
Qed.

(** ** Order *)
Lemma snoc_split {A} (l1 l2 l : list A) x y : l ++ [x] = l1 ++ y :: l2 -> (l2 = [] /\ x = y /\ l = l1) \/ exists l3, l2 = l3 ++ [x] /\ l = l1 ++ y :: l3.
Proof.
  intros E. destruct (list_eq_nil_dec l2) as [->|Hne]. 
  - left. apply app_inj_tail in E as [-> ->]. done.
  - right. destruct (exists_last Hne) as (l3 & z & ->). exists l3. rewrite app_comm_cons, app_assoc in E. apply app_inj_tail in E as [-> ->]. done.
Qed.
Lemma announced_has c lg : 1 <= announced c lg -> EvNew c ∈ lg.
Proof.
  induction lg as [|e lg IH]; unfold announced in *; simpl; [lia|]. intros H. apply elem_of_cons.
  destruct e as [c'| |]; [destruct (Nat.eqb_spec c' c) as [->|]; [by left|]|..]; right; by apply IH.
Qed.
Lemma farewells_in c lg : EvClosed c ∈ lg -> 1 <= farewells c lg.
Proof.
  intros H. induction lg as [|e lg IH]; [by apply elem_of_nil in H|]. unfold farewells in *. simpl.
  apply elem_of_cons in H as [<-|H]; [rewrite Nat.eqb_refl; simpl; lia|]. specialize (IH H). destruct e as [| |c']; simpl; [..|destruct (c' =? c); simpl]; lia.
Qed.
Lemma new_first ls s l1 c l2 : trun new_conns ls s -> t_log s = l1 ++ EvData c :: l2 -> EvNew c ∈ l1.
Proof.
  intros H. revert l1 l2. induction H as [|ls s1 l s2 H IH Hst]; intros l1 l2 E; [by destruct l1|].
  destruct (tinv_run _ _ H) as (T1 & _).
  inversion Hst; subst; simpl in *; try (by apply (IH l1 l2));
    apply snoc_split in E as [(-> & E & ->)|(l3 & -> & E)]; try (by apply (IH l1 l3)); try done.
  injection E as ->. destruct (T1 _ _ _ H0) as (K & _). apply announced_has. rewrite K. done.
Qed.
Lemma announced_once ls s c : trun new_conns ls s -> announced c (t_log s) <= 1.
Proof.
  intros H. destruct (tinv_run _ _ H) as (T1 & T2 & _). destruct (t_conns s !! c) as [[p b]|] eqn:E.
  - destruct (T1 _ _ _ E) as (-> & _). by destruct p; simpl; lia.
  - destruct (T2 _ E) as (-> & _). lia.
Qed.
Lemma farewell_count ls s c p b : trun new_conns ls s -> t_conns s !! c = Some (p, b) ->
  farewells c (t_log s) = failures c ls + match p with PEnded => 1 | _ => 0 end /\ (p = PEnded -> b = true).
Proof.
  intros H E. destruct (tinv_run _ _ H) as (T1 & _). destruct (T1 _ _ _ E) as (_ & K & Hb). split.
  - rewrite K. by destruct p.
  - intros Hp. apply Hb. by right.
Qed.
Lemma last_word ls s c l1 l2 : trun new_conns ls s -> failures c ls = 0 -> t_log s = l1 ++ EvClosed c :: l2 ->
  EvData c ∉ l2 /\ EvClosed c ∉ l2.
Proof.
  intros H. revert l1 l2. induction H as [|ls s1 l s2 H IH Hst]; intros l1 l2 F E; [by destruct l1|].
  rewrite failures_snoc in F. destruct (tinv_run _ _ H) as (T1 & _).
  assert (failures c ls = 0) as F1 by lia.
  inversion Hst; subst; simpl in *; try (by eapply IH);
    apply snoc_split in E as [(-> & E & ->)|(l3 & -> & E)]; try (split; apply not_elem_of_nil).
  all: destruct (IH l1 l3 F1 E) as [N1 N2]; rewrite !not_elem_of_app, !elem_of_list_singleton; split_and!; try done.
  - intros [= ->]. destruct (T1 _ _ _ H0) as (_ & K & _). assert (1 <= farewells c0 lg); [apply farewells_in; rewrite E; apply elem_of_app; right; left|].
    simpl in K. lia.
  - intros [= ->]. destruct (T1 _ _ _ H0) as (_ & K & _). assert (1 <= farewells c0 lg); [apply farewells_in; rewrite E; apply elem_of_app; right; left|].
    simpl in K. lia.
  - intros [= ->]. rewrite decide_True in F by done. lia.
Qed.
Lemma closed_twice s c b w : t_conns s !! c = Some (PReading, b) -> t_writers s !! w = Some (c, WWriting) ->
  exists s', trun s [TWriteErr w c; TErrClose w c; TErrPublish w c; TEnd c; TEndClose c; TEndPublish c] s' /\
    t_log s' = t_log s ++ [EvClosed c; EvClosed c].
Proof.
  destruct s as [cs ws lg]. simpl. intros Hc Hw. assert (c < length cs) by (by eapply lookup_lt_Some). assert (w < length ws) by (by eapply lookup_lt_Some).
  eexists. split.
  - eapply trun_cons; [by eapply tk_write_err|]. eapply trun_cons; [eapply tk_err_close; [by apply list_lookup_insert|done]|].
    eapply trun_cons; [eapply tk_err_publish; apply list_lookup_insert; by rewrite insert_length|].
    eapply trun_cons; [eapply tk_end; by apply list_lookup_insert|].
    eapply trun_cons; [eapply tk_end_close; apply list_lookup_insert; by rewrite insert_length|].
    apply trun_one. eapply tk_end_publish. apply list_lookup_insert. by rewrite !insert_length.
  - simpl. by rewrite <-app_assoc.
Qed.
Lemma data_after_closed s c b w : t_conns s !! c = Some (PGot, b) -> t_writers s !! w = Some (c, WWriting) ->
  exists s', trun s [TWriteErr w c; TErrClose w c; TErrPublish w c; TDeliver c] s' /\
    t_log s' = t_log s ++ [EvClosed c; EvData c].
Proof.
  destruct s as [cs ws lg]. simpl. intros Hc Hw. assert (c < length cs) by (by eapply lookup_lt_Some). assert (w < length ws) by (by eapply lookup_lt_Some).
  eexists. split.
  - eapply trun_cons; [by eapply tk_write_err|]. eapply trun_cons; [eapply tk_err_close; [by apply list_lookup_insert|done]|].
    eapply trun_cons; [eapply tk_err_publish; apply list_lookup_insert; by rewrite insert_length|].
    apply trun_one. eapply tk_deliver. by apply list_lookup_insert.
  - simpl. by rewrite <-app_assoc.
Qed.
Lemma end_closes s c b : t_conns s !! c = Some (PReading, b) ->
  exists s', trun s [TEnd c; TEndClose c; TEndPublish c] s' /\ t_log s' = t_log s ++ [EvClosed c] /\ t_conns s' !! c = Some (PEnded, true).
Proof.
  destruct s as [cs ws lg]. simpl. intros Hc. assert (c < length cs) by (by eapply lookup_lt_Some). eexists. split.
  - eapply trun_cons; [by eapply tk_end|]. eapply trun_cons; [eapply tk_end_close; by apply list_lookup_insert|].
    apply trun_one. eapply tk_end_publish. apply list_lookup_insert. by rewrite insert_length.
  - simpl. split; [done|]. apply list_lookup_insert. by rewrite !insert_length.
Qed.
(** Nothing but a close closes a connection. *)
Lemma closed_by ls s c p : trun new_conns ls s -> t_conns s !! c = Some (p, true) ->
  TEndClose c ∈ ls \/ (exists w, TErrClose w c ∈ ls) \/ TClose c ∈ ls.
Proof.
  intros H. revert p. induction H as [|ls s1 l s2 H IH Hst]; intros p; [done|].
  assert ((exists p', t_conns s1 !! c = Some (p', true)) -> TEndClose c ∈ ls ++ [l] \/ (exists w, TErrClose w c ∈ ls ++ [l]) \/ TClose c ∈ ls ++ [l]) as Hold.
  { intros (p' & Hp). destruct (IH p' Hp) as [?|[(w & ?)|?]]; [left|right; left; exists w|right; right]; apply elem_of_app; by left. }
  assert (l ∈ ls ++ [l]) as Hl by (apply elem_of_app; right; left).
  inversion Hst; subst; simpl in *; intros Hc; try (by apply Hold; eauto);
    try (match type of Hc with <[?d := _]> _ !! _ = _ =>
      destruct (decide (c = d)) as [->|Hd]; [rewrite list_lookup_insert in Hc by (by eapply lookup_lt_Some)|rewrite list_lookup_insert_ne in Hc by done; by apply Hold; eauto]
    end; injection Hc as ?; subst; first [by apply Hold; eauto|by eauto]).
  apply lookup_app_Some in Hc as [Hc|[_ Hc]]; [by apply Hold; eauto|apply list_lookup_singleton_Some in Hc as [_ Hc]; done].
Qed.
