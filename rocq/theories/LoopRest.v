(** * More proofs about the endpoints of a stack with a Loopback: every schedule ends *)
From stdpp Require Import sets list.
From Verif Require Import NetProofs GoBase UBufModel FrameModel StackModel StackSpec StackFacts StackEffects LoopModel LoopSpec LoopProofs.

Section ends.
Context (L : lop) (k : kind) (Lo : looped L k) (Si : silent L).
Notation run := (lrun L).

(** Steps that are still to be made for what an endpoint holds, and for a receive channel. *)
Definition due_e (s : lst) (e : nat) : nat :=
  5 * length (o_tx s e) + match o_hand s e with HIdle => 0 | HTook _ => 4 | HUp _ [] => 1 | HUp _ (_ :: _) => 3 end.
Definition due_z (s : lst) (z : Z) : nat := length (o_rx s z).
Lemma due_local ls s o l s' : linv L ls s o -> (forall z, o_todo s z = []) -> lstep L s l s' -> exists e z,
  (forall f, f <> e -> due_e s' f = due_e s f) /\ (forall y, y <> z -> due_z s' y = due_z s y) /\
  due_e s' e + due_z s' z + 1 <= due_e s e + due_z s z + 6 * user_puts [l].
Proof.
  intros I T St. inversion St; subst; unfold due_e, due_z, user_puts; simpl in *.
  - exists e, 0%Z. split; [|split].
    + intros f Hf. by rewrite fn_lookup_insert_ne.
    + done.
    + rewrite fn_lookup_insert, !app_length. simpl. lia.
  - exists e, 0%Z. split; [|split].
    + intros f Hf. by rewrite !fn_lookup_insert_ne.
    + done.
    + rewrite !fn_lookup_insert, H, H0. simpl. lia.
  - exists e, 0%Z. split; [|split].
    + intros f Hf. by rewrite fn_lookup_insert_ne.
    + done.
    + rewrite fn_lookup_insert, H. destruct (omap is_delivery outs); simpl; lia.
  - exists e, z. split; [|split].
    + intros f Hf. by rewrite fn_lookup_insert_ne.
    + intros y Hy. by rewrite fn_lookup_insert_ne.
    + destruct (lv_up _ _ _ _ I _ _ _ H) as [?|[Ed _]]; [done|]. injection Ed as -> -> ->.
      rewrite !fn_lookup_insert, H, !app_length. simpl. lia.
  - exists e, 0%Z. split; [|split].
    + intros f Hf. by rewrite fn_lookup_insert_ne.
    + done.
    + rewrite fn_lookup_insert, H. simpl. lia.
  - exists 0, z. split; [done|split].
    + intros y Hy. by rewrite !fn_lookup_insert_ne.
    + rewrite !fn_lookup_insert, H0. simpl. lia.
  - rewrite T in H. done.
Qed.
Lemma due_bound a ls s : run (new_loop a) ls s -> all_returnable L k ls ->
  forall es zs, NoDup es -> NoDup zs -> sum_list_with (due_e s) es + sum_list_with (due_z s) zs + length ls <= 6 * user_puts ls.
Proof.
  induction 1 as [|ls s1 l s2 R IH St]; intros A es zs Ne Nz.
  - assert (forall A (xs : list A), sum_list_with (fun _ => 0) xs = 0) as E by (intros B xs; induction xs; simpl; lia).
    change (due_e (new_loop a)) with (fun _ : nat => 0). change (due_z (new_loop a)) with (fun _ : Z => 0). rewrite !E. simpl. lia.
  - assert (all_returnable L k ls) as A0. { intros e x Hx. apply (A e). rewrite put_to_app. apply elem_of_app. by left. }
    destruct (linv_reach L k Lo _ _ _ R A0) as [o I].
    destruct (due_local _ _ _ _ _ I (silent_todo L Si _ _ _ R) St) as (e & z & H1 & H2 & H3).
    destruct (sum_more (due_e s2) es e Ne) as (es' & Ne' & He & Le). destruct (sum_more (due_z s2) zs z Nz) as (zs' & Nz' & Hz & Lz).
    pose proof (sum_other (due_e s1) (due_e s2) es' e Ne' He H1). pose proof (sum_other (due_z s1) (due_z s2) zs' z Nz' Hz H2).
    specialize (IH A0 es' zs' Ne' Nz'). rewrite puts_snoc, app_length. simpl. lia.
Qed.
Lemma first_step s ms s' : run s ms s' -> Forall own ms -> ms = [] /\ s' = s \/ exists l s1, own l /\ lstep L s l s1.
Proof.
  induction 1 as [|ms s1 l s2 R IH St]; intros F; [by left|right]. apply Forall_app in F as [F1 F2]. inversion F2; subst.
  destruct (IH F1) as [[-> ->]|?]; [by eexists _, _|done].
Qed.
Lemma loop_ends a ls s : 0 < lrxcap L -> run (new_loop a) ls s -> all_returnable L k ls ->
  length ls <= 6 * user_puts ls /\ ((forall l s', own l -> ~ lstep L s l s') -> at_rest s).
Proof.
  intros Hc R A. split.
  - pose proof (due_bound _ _ _ R A [] [] (NoDup_nil_2) (NoDup_nil_2)). simpl in *. lia.
  - intros Hn. destruct (loop_finishes L k Lo Si _ _ _ Hc R A) as (ms & s' & R' & F & Hr).
    destruct (first_step _ _ _ R' F) as [[_ ->]|(l & s1 & Ho & St)]; [done|]. by destruct (Hn l s1 Ho).
Qed.
End ends.

(** Nothing that a call does is left out. *)
Lemma loop_all_kept L s e s' x outs a : lstep L s (LPass e) s' -> o_hand s e = HTook x ->
  finishes (fun f => send f (lenv L) (lsess L e) (pc_dest x) (pc_conn x) (Some (pc_msg x)) (o_st s)) (o_st s) outs a ->
  o_st s' = a /\ forall o, o ∈ outs ->
    match o with ODeliver z _ m => exists ds, o_hand s' e = HUp x ds /\ (z, m) ∈ ds | _ => o ∈ o_low s' end.
Proof.
  intros H Hx F. inversion H as [| |tx hd s0 rx td sn lo e' x' outs' s0' Hh F'| | | |]; subst. simpl in *.
  assert (x' = x) as -> by congruence. destruct (finishes_unique _ _ _ _ _ _ F F') as [-> ->]. split; [done|].
  intros o Ho. destruct o; try (apply elem_of_app; right; apply elem_of_list_omap; eexists; split; [exact Ho|done]).
  eexists. rewrite fn_lookup_insert. split; [done|]. apply elem_of_list_omap. eexists. by split; [exact Ho|].
Qed.
