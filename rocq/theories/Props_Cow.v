(** * Theorems about copy-on-write buffers used by several goroutines (property C62)

    Only statements: every proof is one lemma.  [crun cow_new ls s]: any number
    of goroutines, each with a buffer of its own, allocate, make copy-on-write
    snapshots, read, reset and write, interleaved in any way. *)
From Verif Require Import GoBase UBufModel UBufSpec CowModel CowSpec CowProofs.

(** Whatever a buffer contains, a snapshot in another goroutine can replace its first byte by any other: buffer 0 got [d :: ds ++ [y]] and now reads [x] at its front. *)
Theorem C62_isolation_refuted n d ds x y : S (length ds) < n ->
  exists ls s, crun cow_new (ls ++ [CLook 0 0 x]) s /\ q_data <$> meaning ls !! 0 = Some (d :: ds ++ [y]) /\
    (forall h b, cc_bufs s !! h = Some b -> b_pc b = PIdle).
Proof. exact (isolation_lost n d ds x y). Qed.
Print Assumptions C62_isolation_refuted.

(** While no goroutine loads the count of a storage that another is copying from, all buffers are independent (the bound keeps the int32 count from overflowing). *)
Theorem C62_isolated_partial ls s : calm_run cow_new ls s -> (Z.of_nat (length ls) < 2^31)%Z -> isolated ls s.
Proof. exact (calm_isolated ls s). Qed.
Print Assumptions C62_isolated_partial.

(** A write at the tail never waits for another goroutine. *)
Theorem C62_writes_finish_partial ls s h b : calm_run cow_new ls s -> (Z.of_nat (length ls) < 2^31)%Z -> cc_panic s = false ->
  cc_bufs s !! h = Some b -> tail_write b ->
  exists ls' s', crun s ls' s' /\ Forall (by_buf h) ls' /\ cc_panic s' = false /\
    exists b', cc_bufs s' !! h = Some b' /\ b_pc b' = PIdle.
Proof. exact (tail_writes_finish ls s h b). Qed.
Print Assumptions C62_writes_finish_partial.

(** In every schedule a write ends: whatever the other goroutines do from then on,
    it makes at most this many steps; and a write at the tail is never held up. *)
Theorem C62_write_steps_partial ls0 s h w x q s1 ls s' : calm_run cow_new ls0 s -> (Z.of_nat (length ls0) < 2^31)%Z ->
  meaning ls0 !! h = Some q -> cstep s (CBegin h w x) s1 -> crun s1 ls s' -> (forall w x, CBegin h w x ∉ ls) ->
  steps_by h ls <= 3 + length (q_data q) + length x.
Proof. exact (write_steps ls0 s h w x q s1 ls s'). Qed.
Print Assumptions C62_write_steps_partial.
Theorem C62_write_ends_partial ls s h b : calm_run cow_new ls s -> (Z.of_nat (length ls) < 2^31)%Z -> cc_panic s = false ->
  cc_bufs s !! h = Some b -> (forall l s', by_bufb h l = true -> ~ cstep s l s') -> ~ tail_write b.
Proof. exact (write_ends ls s h b). Qed.
Print Assumptions C62_write_ends_partial.

(** Between its calls every buffer takes exactly the calls its deque allows: any byte of the deque can be looked at and no other, any part of it skipped, and whatever the room at either end allows can be written. *)
Theorem C62_calls_partial ls s h b q l : calm_run cow_new ls s -> (Z.of_nat (length ls) < 2^31)%Z -> cc_panic s = false ->
  cc_bufs s !! h = Some b -> meaning ls !! h = Some q -> call_on l = Some h ->
  (exists s', cstep s l s') <-> b_pc b = PIdle /\ allowed q l.
Proof. exact (calls_allowed ls s h b q l). Qed.
Print Assumptions C62_calls_partial.

(** New buffers can be made as UBufAllocWithHeadReserved makes them. *)
Theorem C62_alloc_partial s n r : cc_panic s = false ->
  (exists s', cstep s (CAlloc n r) s') <-> exists v, v_alloc (Z.of_nat n) (Z.of_nat r) = Some v.
Proof. exact (alloc_allowed s n r). Qed.
Print Assumptions C62_alloc_partial.
Example C62_alloc_example : (exists v, v_alloc 4 4 = Some v) /\ v_alloc 0 0 = None /\ v_alloc 3 4 = None.
Proof. split; [by eexists|done]. Qed.

Ltac quiet := intros ? ? E ? ? ? (? & ? & ? & ? & Hb & ? & Hp); simplify_eq/=;
  repeat match goal with H : [] !! _ = Some _ |- _ => by inversion H | H : (_ :: _) !! ?h = Some _ |- _ => destruct h; simplify_eq/= end.
Ltac go := eapply calm_cons; [solve [econstructor; try (simpl; done); simpl; lia]|solve [quiet]|simpl; unfold at_pc; simpl].
(** Two buffers are written to, the writes overlap outside the window. *)
Example C62_isolated_example : exists s, calm_run cow_new
  [CAlloc 4 1; CBegin 0 Tail [7%Z]; CPut 0 7%Z; CSnap 0; CBegin 0 Tail [8%Z]; CBegin 1 Tail [9%Z];
   CLoad 0; CDec 0; CCopy 0; CSwap 0; CLoad 1; CPut 0 8%Z; CPut 1 9%Z; CLook 1 1 9%Z; CLook 0 1 8%Z;
   CBegin 1 Head [6%Z]; CHead 1 [6%Z]] s /\
  holds s 0 = Some [7; 8]%Z /\ holds s 1 = Some [6; 7; 9]%Z /\ length (cc_cells s) = 2.
Proof. eexists. split; [unfold cow_new; do 17 go; apply cm_nil|done]. Qed.
(** There, before the last two steps: buffer 1 holds 7, 9 and has room for one byte before and one behind them. *)
Example C62_calls_example : exists s b q, calm_run cow_new
  [CAlloc 4 1; CBegin 0 Tail [7%Z]; CPut 0 7%Z; CSnap 0; CBegin 0 Tail [8%Z]; CBegin 1 Tail [9%Z];
   CLoad 0; CDec 0; CCopy 0; CSwap 0; CLoad 1; CPut 1 9%Z] s /\ cc_panic s = false /\ cc_bufs s !! 1 = Some b /\ b_pc b = PIdle /\
  meaning [CAlloc 4 1; CBegin 0 Tail [7%Z]; CPut 0 7%Z; CSnap 0; CBegin 0 Tail [8%Z]; CBegin 1 Tail [9%Z];
   CLoad 0; CDec 0; CCopy 0; CSwap 0; CLoad 1; CPut 1 9%Z] !! 1 = Some q /\
  allowed q (CLook 1 1 9%Z) /\ allowed q (CBegin 1 Head [6%Z]) /\ ~ allowed q (CBegin 1 Tail [5; 5]%Z) /\ ~ allowed q (CSkip 1 3).
Proof.
  eexists _, _, _. split; [unfold cow_new; do 12 go; apply cm_nil|]. split_and!; try done; simpl; try lia; intros [? ?]; simpl in *; lia.
Qed.
(** A write interrupted in its copy. *)
Example C62_writes_finish_example : exists s b, calm_run cow_new
  [CAlloc 4 1; CBegin 0 Tail [7%Z; 5%Z]; CPut 0 7%Z; CPut 0 5%Z; CSnap 0; CBegin 0 Tail [8%Z]; CLoad 0; CDec 0; CCopy 0] s /\
  cc_bufs s !! 0 = Some b /\ tail_write b /\ cc_panic s = false /\ copying s 0 0.
Proof. eexists _, _. split; [unfold cow_new; do 9 go; apply cm_nil|]. split_and!; try done. eexists _, _, _, _. done. Qed.

(** A write that reaches the bound: one byte held, one written, five steps. *)
Example C62_write_steps_example : exists s s1 s' q, calm_run cow_new [CAlloc 4 1; CBegin 0 Tail [7%Z]; CPut 0 7%Z; CSnap 0] s /\
  meaning [CAlloc 4 1; CBegin 0 Tail [7%Z]; CPut 0 7%Z; CSnap 0] !! 0 = Some q /\ cstep s (CBegin 0 Tail [8%Z]) s1 /\
  crun s1 [CLoad 0; CDec 0; CCopy 0; CSwap 0; CPut 0 8%Z] s' /\
  steps_by 0 [CLoad 0; CDec 0; CCopy 0; CSwap 0; CPut 0 8%Z] = 3 + length (q_data q) + 1 /\
  forall l s2, by_bufb 0 l = true -> ~ cstep s' l s2.
Proof.
  eexists _, _, _, _. split; [unfold cow_new; do 4 go; apply cm_nil|]. split; [reflexivity|].
  split; [eapply ck_begin; try reflexivity; [done|simpl; lia]|].
  split; [apply calm_crun; simpl; do 5 go; apply cm_nil|]. split; [reflexivity|].
  intros l s2 Hl Hs. inversion Hs; subst; simpl in Hl; try discriminate Hl; apply Nat.eqb_eq in Hl; subst; simplify_eq/=.
Qed.

(** All programs that write to one of the buffers only are safe. *)
Theorem C62_one_writer_partial h ls s : crun cow_new ls s -> one_writer h ls -> (Z.of_nat (length ls) < 2^31)%Z -> isolated ls s.
Proof. exact (one_writer_isolated h ls s). Qed.
Print Assumptions C62_one_writer_partial.

Example C62_one_writer_example : exists s, crun cow_new
  [CAlloc 4 0; CBegin 0 Tail [7%Z]; CPut 0 7%Z; CSnap 0; CBegin 0 Tail [8%Z]; CLook 1 0 7%Z; CLoad 0; CSkip 1 1; CDec 0] s /\
  one_writer 0 [CAlloc 4 0; CBegin 0 Tail [7%Z]; CPut 0 7%Z; CSnap 0; CBegin 0 Tail [8%Z]; CLook 1 0 7%Z; CLoad 0; CSkip 1 1; CDec 0].
Proof.
  eexists. split; [apply calm_crun; unfold cow_new; do 9 go; apply cm_nil|]. intros h w l H. repeat (apply elem_of_cons in H as [H|H]; simplify_eq; try done).
  by apply elem_of_nil in H.
Qed.
