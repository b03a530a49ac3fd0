(** * Proofs about the example application *)
From Verif Require Import GoBase AppModel AppSpec.

(** ** The service center *)
Lemma ends_reg_spec r : ends_reg r = true <-> ends_in reg_word r.
Proof.
  unfold ends_reg, ends_in. rewrite bool_decide_eq_true. split.
  - intros [Hl Hd]. exists (take (length r - 3) r). rewrite <- Hd. by rewrite take_drop.
  - intros [p ->]. rewrite app_length. simpl. split; [lia|]. replace (length p + 3 - 3) with (length p) by lia. by rewrite drop_app.
Qed.
Lemma split_none l : colon ∉ l -> split_colon l = [l].
Proof.
  induction l as [|b l IH]; [done|]. intros Hn. apply not_elem_of_cons in Hn as [H1 H2]. simpl.
  rewrite decide_False by done. by rewrite IH.
Qed.
Lemma split_first n l : colon ∉ n -> split_colon (n ++ colon :: l) = n :: split_colon l.
Proof.
  induction n as [|b n IH]; [done|]. intros Hn. apply not_elem_of_cons in Hn as [H1 H2]. simpl.
  rewrite decide_False by done. by rewrite IH.
Qed.
Lemma split_nonempty l : split_colon l <> [].
Proof. destruct l as [|b l]; [done|]. simpl. destruct (decide _); [done|]. by destruct (split_colon l). Qed.
Lemma first_colon (l : text) : colon ∈ l -> exists n a, l = n ++ colon :: a /\ colon ∉ n.
Proof.
  induction l as [|b l IH]; intros H; [by apply elem_of_nil in H|].
  destruct (decide (b = colon)) as [->|Hb]; [exists [], l; split; [done|by apply not_elem_of_nil]|].
  apply elem_of_cons in H as [H|H]; [done|]. destruct (IH H) as (n & a & -> & Hn). exists (b :: n), a. split; [done|].
  by apply not_elem_of_cons.
Qed.
Lemma hears_none r m : center_hears r m = None <-> ends_in reg_word r /\ colon ∉ r.
Proof.
  unfold center_hears. rewrite <- ends_reg_spec. destruct (ends_reg r); [|split; [done|by intros [? _]]].
  destruct (decide (colon ∈ r)) as [H|H].
  - split; [|by intros [_ ?]]. destruct (first_colon r H) as (n & a & -> & Hn). rewrite split_first by done.
    pose proof (split_nonempty a). by destruct (split_colon a).
  - rewrite split_none by done. done.
Qed.
Lemma runs_none rs m : center_runs rs m = None <-> exists r, r ∈ rs /\ ends_in reg_word r /\ colon ∉ r.
Proof.
  revert m. induction rs as [|r rs IH]; intros m; simpl.
  - split; [done|]. intros (r & H & _). by apply elem_of_nil in H.
  - destruct (center_hears r m) as [[m1 a]|] eqn:E.
    + specialize (IH m1). destruct (center_runs rs m1) as [[m2 l]|].
      * split; [done|]. intros (r' & Hr & H). apply elem_of_cons in Hr as [->|Hr].
        -- apply (hears_none r m) in H. congruence.
        -- enough (Some (m2, l) = None) by done. apply IH. by exists r'.
      * split; [|done]. intros _. destruct (proj1 IH eq_refl) as (r' & Hr & H). exists r'. split; [by right|done].
    + split; [|done]. intros _. apply hears_none in E. exists r. split; [by left|done].
Qed.
Lemma runs_app rs1 rs2 m : center_runs (rs1 ++ rs2) m =
  match center_runs rs1 m with
  | None => None
  | Some (m1, l1) => match center_runs rs2 m1 with None => None | Some (m2, l2) => Some (m2, l1 ++ l2) end
  end.
Proof.
  revert m. induction rs1 as [|r rs1 IH]; intros m; simpl; [by destruct (center_runs rs2 m) as [[]|]|].
  destruct (center_hears r m) as [[m1 a]|]; [|done]. rewrite IH. destruct (center_runs rs1 m1) as [[m2 l1]|]; [|done].
  by destruct (center_runs rs2 m2) as [[]|].
Qed.
Lemma hears_other n r m m1 a : center_hears r m = Some (m1, a) -> ~ (names n r /\ ends_in reg_word r) -> colon ∉ n -> m1 n = m n.
Proof.
  unfold center_hears. destruct (ends_reg r) eqn:E; [|intros H; injection H; by intros _ ->].
  intros H Hn Hc. destruct (decide (colon ∈ r)) as [Hr|Hr]; [|by rewrite split_none in H].
  destruct (first_colon r Hr) as (n' & a' & -> & Hn'). rewrite split_first in H by done.
  destruct (split_colon a') as [|w ws] eqn:Es; [by apply split_nonempty in Es|].
  injection H as Hm _. rewrite <- Hm. rewrite fn_lookup_insert_ne; [done|]. intros <-. apply Hn. split; [by exists a'|by apply ends_reg_spec].
Qed.
Lemma runs_other n rs m m1 l : center_runs rs m = Some (m1, l) -> (forall r, r ∈ rs -> ~ (names n r /\ ends_in reg_word r)) ->
  colon ∉ n -> m1 n = m n.
Proof.
  revert m l. induction rs as [|r rs IH]; intros m l H Hn Hc; simpl in H; [by injection H as -> _|].
  destruct (center_hears r m) as [[m2 a]|] eqn:E; [|done]. destruct (center_runs rs m2) as [[m3 l']|] eqn:E2; [|done].
  injection H as <- _. rewrite (IH m2 l' E2) by (try done; intros; apply Hn; by right).
  eapply hears_other; [done| |done]. apply Hn. by left.
Qed.
Lemma ends_registers p : ends_in reg_word (p ++ [colon] ++ reg_word).
Proof. exists (p ++ [colon]). by rewrite <- app_assoc. Qed.
Lemma hears_register n a m x : colon ∉ n -> colon ∉ a ->
  center_hears (n ++ colon :: a ++ colon :: x ++ reg_word) m = Some (<[n := Some a]> m, None).
Proof.
  intros Hn Ha. unfold center_hears.
  assert (ends_reg (n ++ colon :: a ++ colon :: x ++ reg_word) = true) as ->.
  { apply ends_reg_spec. exists (n ++ colon :: a ++ colon :: x). by rewrite <- !app_assoc, <- !app_comm_cons, <- !app_assoc. }
  rewrite split_first, split_first by done. done.
Qed.
Lemma looks_up n m : ~ ends_in reg_word n -> center_hears n m = Some (m, m n).
Proof.
  intros H. unfold center_hears. destruct (ends_reg n) eqn:E; [|done]. by apply ends_reg_spec in E.
Qed.
(** A registration whose address goes on behind a colon as [x]: only [a] is kept. *)
Lemma found_gen n a x h k m : colon ∉ n -> colon ∉ a -> ~ ends_in reg_word n ->
  Forall harmless h -> Forall harmless k -> (forall r, r ∈ k -> ~ (names n r /\ ends_in reg_word r)) ->
  exists m' l, center_runs (h ++ (n ++ colon :: a ++ colon :: x ++ reg_word) :: k ++ [n]) m = Some (m', l ++ [Some a]) /\
    length l = length h + 1 + length k.
Proof.
  intros Hn Ha He Hh Hk Ho.
  assert (forall rs m, Forall harmless rs -> exists m1 l, center_runs rs m = Some (m1, l) /\ length l = length rs) as Hrun.
  { clear. intros rs m Hf. destruct (center_runs rs m) as [[m1 l]|] eqn:E.
    - exists m1, l. split; [done|]. clear Hf. revert m l E. induction rs as [|r rs IH]; intros m l E; simpl in E; [by injection E as _ <-|].
      destruct (center_hears r m) as [[m2 b]|]; [|done]. destruct (center_runs rs m2) as [[m3 l']|] eqn:E2; [|done].
      injection E as -> <-. simpl. f_equal. eapply IH, E2.
    - apply runs_none in E as (r & Hr & H1 & H2). rewrite list.Forall_forall in Hf. destruct H2. by apply (Hf r Hr). }
  destruct (Hrun h m Hh) as (m1 & l1 & E1 & L1).
  destruct (Hrun k (<[n := Some a]> m1) Hk) as (m2 & l2 & E2 & L2).
  exists m2, (l1 ++ None :: l2). rewrite runs_app, E1. cbn [center_runs]. rewrite hears_register by done.
  rewrite runs_app, E2. cbn [center_runs]. rewrite looks_up by done.
  assert (m2 n = Some a) as ->.
  { rewrite (runs_other n k _ _ _ E2) by done. by rewrite fn_lookup_insert. }
  split; [by rewrite <- app_assoc|]. rewrite app_length. simpl. lia.
Qed.
Lemma found n a h k m : colon ∉ n -> colon ∉ a -> ~ ends_in reg_word n ->
  Forall harmless h -> Forall harmless k -> (forall r, r ∈ k -> ~ (names n r /\ ends_in reg_word r)) ->
  exists m' l, center_runs (h ++ registers n a :: k ++ [n]) m = Some (m', l ++ [Some a]) /\ length l = length h + 1 + length k.
Proof. exact (found_gen n a [] h k m). Qed.
Lemma cut_off n a b h k m : colon ∉ n -> colon ∉ a -> ~ ends_in reg_word n ->
  Forall harmless h -> Forall harmless k -> (forall r, r ∈ k -> ~ (names n r /\ ends_in reg_word r)) ->
  exists m' l, center_runs (h ++ registers n (a ++ colon :: b) :: k ++ [n]) m = Some (m', l ++ [Some a]) /\ length l = length h + 1 + length k.
Proof.
  intros. destruct (found_gen n a (b ++ [colon]) h k m) as (m' & l & E & L); [done..|]. exists m', l. split; [|done].
  rewrite <- E. do 2 f_equal. unfold registers. simpl. by rewrite <- !app_assoc.
Qed.
Lemma unanswered n m m' a : ends_in reg_word n -> center_hears n m = Some (m', a) -> a = None.
Proof.
  intros H. apply ends_reg_spec in H. unfold center_hears. rewrite H. destruct (split_colon n) as [|x [|y ?]]; try done.
  by intros [= _ <-].
Qed.

(** ** Sessions *)
Lemma xrun_app s ls s1 ms s2 : xrun s ls s1 -> xrun s1 ms s2 -> xrun s (ls ++ ms) s2.
Proof. intros H. induction 1; [by rewrite app_nil_r|]. rewrite app_assoc. by econstructor. Qed.
Lemma xrun_one s l s' : xstep s l s' -> xrun s [l] s'.
Proof. intros. eapply (xr_snoc s [] s l); [constructor|done]. Qed.
Lemma xrun_cons s l s1 ls s2 : xstep s l s1 -> xrun s1 ls s2 -> xrun s (l :: ls) s2.
Proof. intros. eapply (xrun_app s [l]); [by apply xrun_one|done]. Qed.
Lemma touched_app ls l : last_touched (ls ++ [l]) = match l with XConnect c | XRead c _ => Some c | _ => last_touched ls end.
Proof. unfold last_touched. rewrite foldl_app. by destruct l. Qed.
Lemma session_c ls s : xrun new_session ls s -> x_c s = last_touched ls.
Proof. induction 1 as [|ls s1 l s2 R IH H]; [done|]. rewrite touched_app. inversion H; subst; simpl in *; congruence. Qed.
Lemma writes_to ls s d s' : xrun new_session ls s -> xstep s (XWrite d) s' ->
  exists c, last_touched ls = Some c /\ x_log s' = x_log s ++ [(c, d)].
Proof. intros R H. apply session_c in R. inversion H; subst. simpl in *. eauto. Qed.
Lemma connects_app l1 l2 : connects (l1 ++ l2) = connects l1 + connects l2.
Proof. unfold connects. by rewrite List.filter_app, app_length. Qed.
Definition in_listener (s : xst) : nat := match x_pub s with AReady _ => 1 | AWait => 0 end.
Lemma session_count ls s : xrun new_session ls s ->
  connects ls = length (x_open s) + in_listener s /\ length (x_open s) = x_ready s + (if x_waited s then 1 else 0) /\ x_ready s <= 1.
Proof.
  induction 1 as [|ls s1 l s2 R (I1 & I2 & I3) H]; [by vm_compute; auto|]. rewrite connects_app.
  inversion H; subst; unfold in_listener, connects in *; simpl in *; rewrite ?app_length; simpl; repeat case_match; lia.
Qed.
Lemma session_limit ls s : xrun new_session ls s -> length (x_open s) <= 2 /\ connects ls <= 3.
Proof.
  intros R. apply session_count in R as (I1 & I2 & I3). unfold in_listener in I1. destruct (x_pub s), (x_waited s); lia.
Qed.
Lemma session_first ls s c : xrun new_session ls s -> x_pub s = AReady c -> length (x_open s) <= 1 ->
  exists ms s', xrun s ms s' /\ x_open s' = x_open s ++ [c] /\ x_log s' = x_log s /\ x_rx s' = x_rx s.
Proof.
  intros R P L. apply session_count in R as (I1 & I2 & I3). destruct s as [sc r w p op rx lg]. simpl in *. subst p.
  destruct r as [|r].
  - eexists [XPut c], _. split; [apply xrun_one; apply xk_put; lia|done].
  - destruct w; [lia|]. eexists [XWait; XPut c], _. split; [eapply xrun_cons; [apply xk_wait|]; apply xrun_one; apply xk_put; lia|done].
Qed.
(** Somebody connects between a Read and the Write that answers it. *)
Lemma misdirected s c d c' d' : x_waited s = true -> x_pub s = AWait -> head (x_rx s) = Some (c, d) -> c' ∉ x_open s ->
  exists s', xrun s [XRead c d; XConnect c'; XWrite d'] s' /\ x_log s' = x_log s ++ [(c', d')].
Proof.
  destruct s as [sc r w p op rx lg]. simpl. intros -> -> H Hc. destruct rx as [|[? ?] rx]; [done|]. injection H as -> ->.
  eexists. split; [eapply xrun_cons; [apply xk_read|]; eapply xrun_cons; [by apply xk_connect|]; apply xrun_one; apply xk_write|done].
Qed.
(** The third connection is stored and never served. *)
Lemma third s c ls s' : x_waited s = true -> x_ready s = 1 -> x_pub s = AReady c -> xrun s ls s' ->
  x_waited s' = true /\ x_ready s' = 1 /\ x_pub s' = AReady c /\ x_open s' = x_open s /\ connects ls = 0.
Proof.
  intros H1 H2 H3. induction 1 as [|ls s1 l s2 R (I1 & I2 & I3 & I4 & I5) H]; [done|]. rewrite connects_app, I5.
  inversion H; subst; simpl in *; try done. lia.
Qed.
Lemma answered s c d d' : x_waited s = true -> c ∈ x_open s -> x_rx s = [] ->
  exists s', xrun s [XArrive c d; XRead c d; XWrite d'] s' /\ x_log s' = x_log s ++ [(c, d')] /\ x_rx s' = [].
Proof.
  destruct s as [sc r w p op rx lg]. simpl. intros -> Hc ->.
  eexists. split; [eapply xrun_cons; [by apply xk_arrive|]; eapply xrun_cons; [apply xk_read|]; apply xrun_one; apply xk_write|done].
Qed.
(** Requests are read in the order in which they arrive. *)
Lemma read_in_order ls s : xrun new_session ls s -> arrived ls = was_read ls ++ x_rx s.
Proof.
  induction 1 as [|ls s1 l s2 R IH H]; [done|]. unfold arrived, was_read in *. rewrite !omap_app, IH.
  inversion H; subst; simpl in *; rewrite ?app_nil_r; try done; by rewrite <- !app_assoc.
Qed.
