(** * Proofs about counting (C90) *)
From Verif Require Import GoBase IncModel IncSpec.
From stdpp Require Import list.

Lemma irun_one s l s' : istep s l s' -> irun s [l] s'.
Proof. intros H. by apply (ir_snoc s [] s l s'); [constructor|]. Qed.
Lemma irun_app s l1 s1 l2 s2 : irun s l1 s1 -> irun s1 l2 s2 -> irun s (l1 ++ l2) s2.
Proof. intros H. induction 1; [by rewrite app_nil_r|]. rewrite app_assoc. by econstructor. Qed.
Lemma irun_cons s l s1 ls s2 : istep s l s1 -> irun s1 ls s2 -> irun s (l :: ls) s2.
Proof. intros H1 H2. apply (irun_app _ [l] s1); [by apply irun_one|done]. Qed.
Lemma number_app P a b : number P (a ++ b) = number P a + number P b.
Proof. unfold number. by rewrite List.filter_app, app_length. Qed.
Lemma passed_app g a b : passed_by g (a ++ b) = passed_by g a + passed_by g b.
Proof. apply number_app. Qed.

(** One undisturbed message. *)
Definition whole (g : nat) : list ilab := [ILoad g; IStore g; IPass g].
Lemma whole_run v a g : a g = IIdle -> exists a', irun (Ist v a) (whole g) (Ist ((v + 1) mod 2^64) a') /\ a' g = IIdle /\ forall x, x <> g -> a' x = a x.
Proof.
  intros H. eexists. split; [|split].
  - eapply irun_cons; [by apply ik_load|]. eapply irun_cons; [apply ik_store; by rewrite fn_lookup_insert|].
    apply irun_one, ik_pass. by rewrite fn_lookup_insert.
  - by rewrite fn_lookup_insert.
  - intros x Hx. by rewrite !fn_lookup_insert_ne by done.
Qed.
Lemma wholes_run n : forall v a g, a g = IIdle -> exists v' a', irun (Ist v a) (concat (replicate n (whole g))) (Ist v' a') /\
  a' g = IIdle /\ (forall x, x <> g -> a' x = a x) /\ (0 < n \/ (0 <= v < 2^64)%Z -> v' = ((v + Z.of_nat n) mod 2^64)%Z).
Proof.
  induction n as [|n IH]; intros v a g H.
  - exists v, a. split_and!; try done; [constructor|]. intros [?|?]; [lia|]. rewrite Z.add_0_r, Z.mod_small by lia. done.
  - destruct (whole_run v a g H) as (a1 & R1 & I1 & O1). destruct (IH ((v + 1) mod 2^64)%Z a1 g I1) as (v2 & a2 & R2 & I2 & O2 & E2).
    exists v2, a2. split_and!; [by eapply irun_app|done| |].
    + intros x Hx. by rewrite O2, O1.
    + intros _. rewrite E2 by (right; apply Z.mod_pos_bound; lia). rewrite Z.add_mod_idemp_l by lia. f_equal. lia.
Qed.
Lemma passed_wholes g x n : passed_by x (concat (replicate n (whole g))) = if decide (x = g) then n else 0.
Proof.
  induction n as [|n IH]; [by case_decide|]. cbn [replicate concat]. rewrite passed_app, IH.
  unfold passed_by, number, whole. simpl. destruct (Nat.eqb_spec g x); case_decide; simplify_eq; simpl; lia.
Qed.
Lemma one_of_wholes g h x n : x = g \/ x = h -> Forall (one_of g h) (concat (replicate n (whole x))).
Proof. intros H. apply Forall_concat, Forall_replicate. repeat (apply Forall_cons; split; [done|]). constructor. Qed.

(** Two goroutines can lose all but two of their messages. *)
Lemma two_left s g h n m : g <> h -> i_at s g = IIdle -> i_at s h = IIdle ->
  exists ls s', irun s ls s' /\ Forall (one_of g h) ls /\ passed_by g ls = S n /\ passed_by h ls = S m /\
    i_at s' g = IIdle /\ i_at s' h = IIdle /\ i_val s' = ((i_val s + 2) mod 2^64)%Z.
Proof.
  destruct s as [v a]. simpl. intros Hgh Hg Hh.
  set (a1 := <[h := ILoaded v]> a).
  destruct (wholes_run n v a1 g) as (v2 & a2 & R2 & I2 & O2 & _); [by unfold a1; rewrite fn_lookup_insert_ne|].
  assert (a2 h = ILoaded v) as Eh by (rewrite O2 by done; unfold a1; by rewrite fn_lookup_insert).
  set (v3 := ((v + 1) mod 2^64)%Z). set (a3 := <[g := ILoaded v3]> (<[h := IIdle]> (<[h := ICounted]> a2))).
  destruct (wholes_run m v3 a3 h) as (v4 & a4 & R4 & I4 & O4 & _).
  { unfold a3. rewrite fn_lookup_insert_ne by done. by rewrite fn_lookup_insert. }
  assert (a4 g = ILoaded v3) as Eg by (rewrite O4 by done; unfold a3; by rewrite fn_lookup_insert).
  exists ([ILoad h] ++ concat (replicate n (whole g)) ++ [IStore h; IPass h; ILoad g] ++ concat (replicate m (whole h)) ++ [IStore g; IPass g]).
  eexists. split_and!.
  - eapply irun_app; [by apply irun_one, ik_load|]. eapply irun_app; [exact R2|].
    eapply irun_app; [|eapply irun_app; [exact R4|]].
    + eapply irun_cons; [by apply ik_store|]. eapply irun_cons; [apply ik_pass; by rewrite fn_lookup_insert|].
      apply irun_one, ik_load. rewrite fn_lookup_insert_ne by done. by rewrite fn_lookup_insert_ne.
    + eapply irun_cons; [by apply ik_store|]. apply irun_one, ik_pass. by rewrite fn_lookup_insert.
  - repeat (apply Forall_app; split); try (apply one_of_wholes; auto); repeat (apply Forall_cons; split; [by simpl; auto|]); constructor.
  - rewrite !passed_app, !passed_wholes. unfold passed_by, number. simpl. rewrite ?Nat.eqb_refl. destruct (Nat.eqb_spec g h), (Nat.eqb_spec h g); repeat case_decide; simplify_eq; simpl; lia.
  - rewrite !passed_app, !passed_wholes. unfold passed_by, number. simpl. rewrite ?Nat.eqb_refl. destruct (Nat.eqb_spec g h), (Nat.eqb_spec h g); repeat case_decide; simplify_eq; simpl; lia.
  - simpl. by rewrite fn_lookup_insert.
  - simpl. by rewrite !fn_lookup_insert_ne.
  - simpl. unfold v3. rewrite Z.add_mod_idemp_l by lia. f_equal. lia.
Qed.
(** The counter can go back. *)
Lemma goes_back s g h n : g <> h -> i_at s g = IIdle -> i_at s h = IIdle -> 0 < n ->
  exists ls ms s', irun s (ls ++ [IShow ((i_val s + Z.of_nat n) mod 2^64)%Z] ++ ms ++ [IShow ((i_val s + 1) mod 2^64)%Z]) s' /\
    Forall (one_of g h) (ls ++ ms) /\ passed_by g (ls ++ ms) = n /\ passed_by h (ls ++ ms) = 1.
Proof.
  destruct s as [v a]. simpl. intros Hgh Hg Hh Hn.
  set (a1 := <[h := ILoaded v]> a).
  destruct (wholes_run n v a1 g) as (v2 & a2 & R2 & I2 & O2 & E2); [by unfold a1; rewrite fn_lookup_insert_ne|].
  assert (a2 h = ILoaded v) as Eh by (rewrite O2 by done; unfold a1; by rewrite fn_lookup_insert).
  specialize (E2 (or_introl Hn)). subst v2.
  exists ([ILoad h] ++ concat (replicate n (whole g))), [IStore h; IPass h]. eexists. split_and!.
  - rewrite <- !app_assoc. eapply irun_app; [by apply irun_one, ik_load|]. eapply irun_app; [exact R2|].
    eapply irun_cons; [by apply ik_show|]. cbn [app].
    eapply irun_cons; [by apply ik_store|]. eapply irun_cons; [apply ik_pass; by rewrite fn_lookup_insert|]. apply irun_one, ik_show.
  - repeat (apply Forall_app; split); try (apply one_of_wholes; auto); repeat (apply Forall_cons; split; [by simpl; auto|]); constructor.
  - rewrite !passed_app, !passed_wholes. unfold passed_by, number. simpl. rewrite ?Nat.eqb_refl. destruct (Nat.eqb_spec g h), (Nat.eqb_spec h g); repeat case_decide; simplify_eq; simpl; lia.
  - rewrite !passed_app, !passed_wholes. unfold passed_by, number. simpl. rewrite ?Nat.eqb_refl. destruct (Nat.eqb_spec g h), (Nat.eqb_spec h g); repeat case_decide; simplify_eq; simpl; lia.
Qed.

(** Never more than was counted, never nothing. *)
Lemma bounds ls s : irun new_count ls s -> (Z.of_nat (number counts ls) < 2^64)%Z ->
  (0 <= i_val s <= Z.of_nat (number counts ls))%Z /\ (0 < number counts ls -> (1 <= i_val s)%Z) /\
  (forall g x, i_at s g = ILoaded x -> (0 <= x <= Z.of_nat (number counts ls))%Z).
Proof.
  induction 1 as [|ls s1 l s2 H IH Hs]; intros Hb; [change (number counts []) with 0; simpl; split_and!; try done; lia|]. rewrite number_app in Hb |- *.
  destruct IH as (H1 & H2 & H3); [lia|].
  destruct Hs as [v a g Hg|v a g x Hg|v a g Hg|v a]; simpl in *;
    change (number counts [_]) with 0 || change (number counts [_]) with 1; rewrite ?Nat.add_0_r.
  - split; [done|]. split; [done|]. intros y z. destruct (decide (y = g)) as [->|Hy]; [rewrite fn_lookup_insert|rewrite fn_lookup_insert_ne by done]; [intros [= <-]; done|by apply H3].
  - pose proof (H3 g x Hg) as Hx. change (number counts [IStore g]) with 1 in *.
    assert ((x + 1) mod 2^64 = x + 1 \/ (x + 1) mod 2^64 = x + 1)%Z as [E|E] by (left; apply Z.mod_small; lia); rewrite E.
    all: split; [lia|]; split; [lia|]; intros y z; destruct (decide (y = g)) as [->|Hy]; [by rewrite fn_lookup_insert|rewrite fn_lookup_insert_ne by done];
      intros Hz; specialize (H3 y z Hz); lia.
  - split; [done|]. split; [done|]. intros y z. destruct (decide (y = g)) as [->|Hy]; [by rewrite fn_lookup_insert|rewrite fn_lookup_insert_ne by done; by apply H3].
  - done.
Qed.
(** A single goroutine. *)
Lemma alone g ls s : irun new_count ls s -> Forall (only g) ls ->
  i_val s = (Z.of_nat (number counts ls) mod 2^64)%Z /\ forall x v, i_at s x = ILoaded v -> x = g /\ v = i_val s.
Proof.
  induction 1 as [|ls s1 l s2 H IH Hs]; intros Hf; [done|]. apply Forall_app in Hf as [Hf Hl]. apply Forall_cons_1 in Hl as [Hl _].
  destruct (IH Hf) as [E HL]. rewrite number_app.
  destruct Hs as [v a y Hg|v a y x Hg|v a y Hg|v a]; simpl in *; subst.
  - change (number counts [ILoad g]) with 0. rewrite Nat.add_0_r. split; [done|]. intros x z.
    destruct (decide (x = g)) as [->|Hx]; [rewrite fn_lookup_insert; by intros [= <-]|rewrite fn_lookup_insert_ne by done; apply HL].
  - destruct (HL y x Hg) as [-> ->]. change (number counts [IStore g]) with 1. split.
    + rewrite Z.add_mod_idemp_l by lia. f_equal. lia.
    + intros x z. destruct (decide (x = g)) as [->|Hx]; [by rewrite fn_lookup_insert|rewrite fn_lookup_insert_ne by done]. intros Hz.
      destruct (HL x z Hz). done.
  - change (number counts [IPass y]) with 0. rewrite Nat.add_0_r. split; [done|]. intros x z.
    destruct (decide (x = y)) as [->|Hx]; [by rewrite fn_lookup_insert|rewrite fn_lookup_insert_ne by done; apply HL].
  - change (number counts [IShow _]) with 0. rewrite Nat.add_0_r. done.
Qed.
Lemma irun_split s l1 l2 s2 : irun s (l1 ++ l2) s2 -> exists s1, irun s l1 s1 /\ irun s1 l2 s2.
Proof.
  revert s2. induction l2 as [|l l2 IH] using rev_ind; intros s2 H.
  - rewrite app_nil_r in H. exists s2. split; [done|constructor].
  - rewrite app_assoc in H. inversion H as [E|ls s1 l' s2' H1 H2 E]; [by destruct (l1 ++ l2)|].
    apply app_inj_tail in E as [-> ->]. subst. destruct (IH _ H1) as (s0 & R0 & R1). exists s0. split; [done|]. by econstructor.
Qed.
Lemma shown_at l1 v l2 s : irun new_count (l1 ++ IShow v :: l2) s -> exists s1, irun new_count l1 s1 /\ i_val s1 = v.
Proof.
  intros H. change (l1 ++ IShow v :: l2) with (l1 ++ [IShow v] ++ l2) in H. rewrite app_assoc in H.
  destruct (irun_split _ _ _ _ H) as (s1 & R1 & _). inversion R1 as [E|ls s0 l' s1' H0 H1 E]; [by destruct l1|].
  apply app_inj_tail in E as [-> ->]. subst. exists s0. split; [done|]. by inversion H1.
Qed.
