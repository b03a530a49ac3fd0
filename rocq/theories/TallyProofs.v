(** * Proofs about a listener that counts connections *)
From Verif Require Import GoBase ConnModel ConnSpec ConnProofs TallyModel TallySpec.

Lemma yrun_app ok s ls s1 ms s2 : yrun ok s ls s1 -> yrun ok s1 ms s2 -> yrun ok s (ls ++ ms) s2.
Proof. intros H. induction 1; [by rewrite app_nil_r|]. rewrite app_assoc. by econstructor. Qed.
Lemma yrun_one (ok : yst -> ylab -> Prop) s l s' : ok s l -> ystep s l s' -> yrun ok s [l] s'.
Proof. intros. eapply (yr_snoc ok s [] s l); [constructor|done|done]. Qed.
Lemma yrun_cons (ok : yst -> ylab -> Prop) s l s1 ls s2 : ok s l -> ystep s l s1 -> yrun ok s1 ls s2 -> yrun ok s (l :: ls) s2.
Proof. intros. eapply (yrun_app ok s [l]); [by apply yrun_one|done]. Qed.

Definition livep (p : phase * bool) : bool := match fst p with PTaken | PEnded => false | _ => true end.
Lemma living_insert (cs : list (phase * bool)) c p p' : cs !! c = Some p ->
  length (List.filter livep (<[c := p']> cs)) + Nat.b2n (livep p) = length (List.filter livep cs) + Nat.b2n (livep p').
Proof.
  revert c. induction cs as [|q cs IH]; intros [|c] H; simpl in *; [done|done| |].
  - injection H as ->. destruct (livep p), (livep p'); simpl; lia.
  - specialize (IH c H). destruct (livep q); simpl; lia.
Qed.
Lemma living_step t l t' : tstep t l t' -> match publishes l with
  | Some k => match l with TErrPublish _ _ => living t' = living t | _ => (Z.of_nat (living t') = Z.of_nat (living t) + k)%Z end
  | None => living t' = living t end.
Proof.
  intros H. unfold living. fold livep.
  inversion H as [| ? ? ? ? ? E| ? ? ? ? ? E| ? ? ? ? ? E| ? ? ? ? ? E| ? ? ? ? ? E| ? ? ? ? ? E| | | | ? ? ? ? ? ? ? E1 E| | ? ? ? ? ? ? E]; subst; simpl; try done.
  1: by rewrite List.filter_app, app_length; simpl; rewrite Nat.add_0_r.
  all: match goal with |- context [<[?c := ?p']> ?cs] => pose proof (living_insert cs c _ p' E) as G end;
    unfold livep in G; simpl in G; fold livep in G; try (destruct p); simpl in *; unfold livep in *; simpl in *; lia.
Qed.
Lemma failures_app l1 l2 : write_failures (l1 ++ l2) = write_failures l1 + write_failures l2.
Proof. unfold write_failures. by rewrite List.filter_app, app_length. Qed.
Definition balance (ls : list ylab) (s : yst) : Z := (Z.of_nat (living (y_t s)) - Z.of_nat (write_failures ls))%Z.
Definition yinv (ls : list ylab) (s : yst) : Prop :=
  (y_exit s = true -> y_busy s = [] /\ y_conn s = 0%Z) /\
  match y_busy s with
  | [] => y_conn s = balance ls s
  | [(l, h)] => exists k, publishes l = Some k /\
      match h with
      | HLoad => y_conn s = balance ls s
      | HStore v => y_conn s = balance ls s /\ v = (y_conn s + k)%Z
      | HCheck => y_conn s = (balance ls s + k)%Z
      end
  | _ => False
  end.
Lemma yinv_run ls s : yrun one_at_a_time new_tally ls s -> yinv ls s.
Proof.
  induction 1 as [|ls s1 l s2 R [I0 I] Hok H]; [by split|]. unfold yinv, balance in *. rewrite failures_app.
  inversion H as [t t' n bs l' E Ht|t t' n bs l' k E Ht Hn|t n bs i l' k Hi E|t n bs i l' v Hi|t t' n bs i l' k Hi E Ht]; subst; simpl in *; (split; [try done|]).
  - pose proof (living_step _ _ _ Ht) as G. rewrite E in G. rewrite G. change (write_failures [YOther l']) with 0. rewrite Nat.add_0_r. done.
  - subst bs. simpl. exists k. split; [done|]. unfold write_failures at 2. simpl. by rewrite Nat.add_0_r.
  - destruct bs as [|[l0 h0] [|]]; [done| |done]. destruct i as [|i]; [|done]. injection Hi as -> ->. simpl.
    exists k. split; [done|]. destruct I as (k' & E' & I). split; [|done]. unfold write_failures at 2. simpl. by rewrite Nat.add_0_r.
  - destruct bs as [|[l0 h0] [|]]; [done| |done]. destruct i as [|i]; [|done]. injection Hi as -> ->. simpl.
    destruct I as (k' & E' & I1 & I2). exists k'. split; [done|]. unfold write_failures at 2. simpl. rewrite Nat.add_0_r. lia.
  - destruct bs as [|[l0 h0] [|]]; [done| |done]. destruct i as [|i]; [|done]. simpl. intros [_ ?]%bool_decide_eq_true. done.
  - destruct bs as [|[l0 h0] [|]]; [done| |done]. destruct i as [|i]; [|done]. injection Hi as -> ->. simpl.
    destruct I as (k' & E' & I). rewrite E in E'. injection E' as <-. pose proof (living_step _ _ _ Ht) as G. rewrite E in G.
    unfold write_failures at 2. destruct l'; simpl in *; try done; try (injection E as <-); lia.
Qed.
Lemma tally_exact ls s : yrun one_at_a_time new_tally ls s ->
  (y_busy s = [] -> y_conn s = (Z.of_nat (living (y_t s)) - Z.of_nat (write_failures ls))%Z) /\
  (y_exit s = true -> living (y_t s) = write_failures ls).
Proof.
  intros H. apply yinv_run in H as [I0 I]. unfold balance in I. split.
  - intros E. by rewrite E in I.
  - intros E. destruct (I0 E) as [E1 E2]. rewrite E1 in I. lia.
Qed.

(** A connection whose write fails is counted out twice. *)
Lemma counted_twice t c b w c' p' : c <> c' -> t_conns t !! c = Some (PReading, b) -> t_writers t !! w = Some (c, WWriting) -> t_conns t !! c' = Some p' ->
  exists ls s', yrun one_at_a_time (Yst t 2 [] false) ls s' /\ y_exit s' = true /\ t_conns (y_t s') !! c' = Some p'.
Proof.
  intros Hc Hr Hw Hp. destruct t as [cs ws lg]. simpl in *.
  assert (c < length cs) as Lc by (by eapply lookup_lt_Some).
  assert (w < length ws) as Lw by (by eapply lookup_lt_Some).
  eexists [YOther (TWriteErr w c); YOther (TErrClose w c); YBegin (TErrPublish w c); YLoad 0; YStore 0; YEnd 0 (TErrPublish w c);
    YOther (TEnd c); YOther (TEndClose c); YBegin (TEndPublish c); YLoad 0; YStore 0; YEnd 0 (TEndPublish c)], _.
  split.
  { eapply yrun_cons; [done|apply yk_other; [done|by eapply tk_write_err]|].
    eapply yrun_cons; [done|apply yk_other; [done|eapply tk_err_close; [by rewrite list_lookup_insert|done]]|].
    eapply yrun_cons; [done|eapply yk_begin; [done|eapply tk_err_publish; rewrite list_lookup_insert; [done|by rewrite insert_length]|apply not_elem_of_nil]|].
    eapply yrun_cons; [done|by eapply (yk_load _ _ _ 0)|]. cbn [insert list_insert].
    eapply yrun_cons; [done|by eapply (yk_store _ _ _ 0)|]. cbn [insert list_insert].
    eapply yrun_cons; [done|eapply (yk_end _ _ _ _ 0); [done|done|eapply tk_err_publish; rewrite list_lookup_insert; [done|by rewrite insert_length]]|].
    cbn [delete list_delete bool_decide]. rewrite bool_decide_eq_false_2 by (intros [_ ?]; lia).
    eapply yrun_cons; [done|apply yk_other; [done|eapply tk_end; by rewrite list_lookup_insert]|].
    eapply yrun_cons; [done|apply yk_other; [done|eapply tk_end_close; rewrite list_lookup_insert; [done|by rewrite insert_length]]|].
    eapply yrun_cons; [done|eapply yk_begin; [done|eapply tk_end_publish; rewrite list_lookup_insert; [done|by rewrite !insert_length]|apply not_elem_of_nil]|].
    eapply yrun_cons; [done|by eapply (yk_load _ _ _ 0)|]. cbn [insert list_insert].
    eapply yrun_cons; [done|by eapply (yk_store _ _ _ 0)|]. cbn [insert list_insert].
    apply yrun_one; [done|]. eapply (yk_end _ _ _ _ 0); [done|done|eapply tk_end_publish; rewrite list_lookup_insert; [done|by rewrite !insert_length]]. }
  simpl. split; [done|]. by rewrite !list_lookup_insert_ne.
Qed.
(** Two connections announced at the same time are counted once. *)
Lemma counted_once t n c c' b b' : c <> c' -> t_conns t !! c = Some (PTaken, b) -> t_conns t !! c' = Some (PTaken, b') ->
  exists ls s', yrun any_order (Yst t n [] false) ls s' /\ y_busy s' = [] /\ y_exit s' = false /\ y_conn s' = (n + 1)%Z /\
    t_conns (y_t s') !! c = Some (PReading, b) /\ t_conns (y_t s') !! c' = Some (PReading, b').
Proof.
  intros Hc H1 H2. destruct t as [cs ws lg]. simpl in *.
  assert (c < length cs) as Lc by (by eapply lookup_lt_Some).
  assert (c' < length cs) as Lc' by (by eapply lookup_lt_Some).
  eexists [YBegin (TNew c); YBegin (TNew c'); YLoad 0; YLoad 1; YStore 0; YStore 1; YEnd 0 (TNew c); YEnd 0 (TNew c')], _.
  split.
  { eapply yrun_cons; [done|eapply yk_begin; [done|by eapply tk_new|apply not_elem_of_nil]|].
    eapply yrun_cons; [done|eapply yk_begin; [done|by eapply (tk_new _ _ _ c')|]|].
    { simpl. intros H. apply elem_of_list_singleton in H. congruence. }
    eapply yrun_cons; [done|by eapply (yk_load _ _ _ 0)|]. cbn [insert list_insert app].
    eapply yrun_cons; [done|by eapply (yk_load _ _ _ 1)|]. cbn [insert list_insert].
    eapply yrun_cons; [done|by eapply (yk_store _ _ _ 0)|]. cbn [insert list_insert].
    eapply yrun_cons; [done|by eapply (yk_store _ _ _ 1)|]. cbn [insert list_insert].
    eapply yrun_cons; [done|eapply (yk_end _ _ _ _ 0); [done|done|by eapply tk_new]|]. cbn [delete list_delete].
    rewrite bool_decide_eq_false_2 by (intros [? _]; lia).
    apply yrun_one; [done|]. eapply (yk_end _ _ _ _ 0); [done|done|eapply (tk_new _ _ _ c'); by rewrite list_lookup_insert_ne]. }
  simpl. split; [done|]. split; [done|]. split; [done|].
  rewrite list_lookup_insert_ne, list_lookup_insert by done. split; [done|]. rewrite list_lookup_insert; [done|by rewrite insert_length].
Qed.
(** Then the first of them to be closed ends the program. *)
Lemma ends_early t c c' b p' : c <> c' -> t_conns t !! c = Some (PReading, b) -> t_conns t !! c' = Some p' ->
  exists ls s', yrun one_at_a_time (Yst t 1 [] false) ls s' /\ y_exit s' = true /\ t_conns (y_t s') !! c' = Some p'.
Proof.
  intros Hc Hr Hp. destruct t as [cs ws lg]. simpl in *. assert (c < length cs) as Lc by (by eapply lookup_lt_Some).
  eexists [YOther (TEnd c); YOther (TEndClose c); YBegin (TEndPublish c); YLoad 0; YStore 0; YEnd 0 (TEndPublish c)], _. split.
  { eapply yrun_cons; [done|apply yk_other; [done|by eapply tk_end]|].
    eapply yrun_cons; [done|apply yk_other; [done|eapply tk_end_close; by rewrite list_lookup_insert]|].
    eapply yrun_cons; [done|eapply yk_begin; [done|eapply tk_end_publish; rewrite list_lookup_insert; [done|by rewrite !insert_length]|apply not_elem_of_nil]|].
    eapply yrun_cons; [done|by eapply (yk_load _ _ _ 0)|]. cbn [insert list_insert].
    eapply yrun_cons; [done|by eapply (yk_store _ _ _ 0)|]. cbn [insert list_insert].
    apply yrun_one; [done|]. eapply (yk_end _ _ _ _ 0); [done|done|eapply tk_end_publish; rewrite list_lookup_insert; [done|by rewrite !insert_length]]. }
  simpl. split; [done|]. by rewrite !list_lookup_insert_ne.
Qed.
Lemma yrun_any ok s ls s' : yrun ok s ls s' -> yrun any_order s ls s'.
Proof. induction 1; [constructor|]. by econstructor. Qed.
Lemma counted_once_ends t c c' b b' : c <> c' -> t_conns t !! c = Some (PTaken, b) -> t_conns t !! c' = Some (PTaken, b') ->
  exists ls s', yrun any_order (Yst t 0 [] false) ls s' /\ y_exit s' = true /\ t_conns (y_t s') !! c' = Some (PReading, b').
Proof.
  intros Hc H1 H2. destruct (counted_once t 0 c c' b b' Hc H1 H2) as (ls1 & s1 & R1 & B1 & E1 & N1 & P1 & P2).
  destruct s1 as [t1 n1 bs1 x1]. simpl in *. subst.
  destruct (ends_early t1 c c' b (PReading, b') Hc P1 P2) as (ls2 & s2 & R2 & E2 & P3). exists (ls1 ++ ls2), s2.
  split; [eapply yrun_app; [done|by eapply yrun_any]|done].
Qed.

(** ** The count grows and shrinks *)
Lemma living_snoc cs p ws lg : living (Tst (cs ++ [p]) ws lg) = living (Tst cs ws lg) + match fst p with PTaken | PEnded => 0 | _ => 1 end.
Proof. unfold living. simpl. rewrite List.filter_app, app_length. f_equal. simpl. by destruct (fst p). Qed.
Lemma counts_up n : exists ls cs lg, yrun one_at_a_time new_tally ls (Yst (Tst cs [] lg) (Z.of_nat n) [] false) /\
  living (Tst cs [] lg) = n /\ forall c p, cs !! c = Some p -> p = (PReading, false).
Proof.
  induction n as [|n (ls & cs & lg & H & Hl & Hp)]; [exists [], [], []; split; [constructor|done]|].
  exists (ls ++ [YOther TNext; YBegin (TNew (length cs)); YLoad 0; YStore 0; YEnd 0 (TNew (length cs))]), (cs ++ [(PReading, false)]), (lg ++ [EvNew (length cs)]).
  split; [|split].
  - eapply yrun_app; [exact H|].
    assert (<[length cs := (PReading, false)]> (cs ++ [(PTaken, false)]) = cs ++ [(PReading, false)]) as E by by rewrite insert_app_r_alt, Nat.sub_diag by lia.
    assert (tstep (Tst (cs ++ [(PTaken, false)]) [] lg) (TNew (length cs)) (Tst (cs ++ [(PReading, false)]) [] (lg ++ [EvNew (length cs)]))) as T.
    { rewrite <- E. apply tk_new. rewrite lookup_app_r, Nat.sub_diag by lia. done. }
    eapply yrun_cons; [done|apply yk_other; [done|apply tk_next]|].
    eapply yrun_cons; [done|eapply yk_begin; [done|exact T|apply not_elem_of_nil]|].
    eapply yrun_cons; [done|by eapply (yk_load _ _ _ 0)|].
    eapply yrun_cons; [done|by eapply (yk_store _ _ _ 0)|].
    assert ((Z.of_nat n + 1)%Z = Z.of_nat (S n)) as <- by lia.
    apply yrun_one; [done|]. cbn [insert list_insert].
    exact (yk_end _ _ _ [(TNew (length cs), HCheck)] 0 (TNew (length cs)) 1%Z eq_refl eq_refl T).
  - rewrite living_snoc. simpl. unfold living in *. simpl in *. lia.
  - intros c p Hc. apply lookup_app_Some in Hc as [Hc|[_ Hc]]; [by eapply Hp|by apply list_lookup_singleton_Some in Hc as [_ <-]].
Qed.
Lemma ends_last t c b : t_conns t !! c = Some (PReading, b) ->
  exists ls s', yrun one_at_a_time (Yst t 1 [] false) ls s' /\ y_exit s' = true /\ t_conns (y_t s') !! c = Some (PEnded, true).
Proof.
  intros Hr. destruct t as [cs ws lg]. simpl in *. assert (c < length cs) as Lc by (by eapply lookup_lt_Some).
  eexists [YOther (TEnd c); YOther (TEndClose c); YBegin (TEndPublish c); YLoad 0; YStore 0; YEnd 0 (TEndPublish c)], _. split.
  { eapply yrun_cons; [done|apply yk_other; [done|by eapply tk_end]|].
    eapply yrun_cons; [done|apply yk_other; [done|eapply tk_end_close; by rewrite list_lookup_insert]|].
    eapply yrun_cons; [done|eapply yk_begin; [done|eapply tk_end_publish; rewrite list_lookup_insert; [done|by rewrite !insert_length]|apply not_elem_of_nil]|].
    eapply yrun_cons; [done|by eapply (yk_load _ _ _ 0)|]. cbn [insert list_insert].
    eapply yrun_cons; [done|by eapply (yk_store _ _ _ 0)|]. cbn [insert list_insert].
    apply yrun_one; [done|]. eapply (yk_end _ _ _ _ 0); [done|done|eapply tk_end_publish; rewrite list_lookup_insert; [done|by rewrite !insert_length]]. }
  simpl. split; [done|]. apply list_lookup_insert. by rewrite !insert_length.
Qed.
