(** * C90: the counters of the processors when several goroutines pass messages

    Only statements: every proof is one lemma.  [irun s ls s']: any number of
    goroutines count and pass on messages, in any order. *)
From Verif Require Import GoBase IncModel IncSpec IncProofs.

(** ** C90 *)

(** Refuted: from every state, two goroutines that have nothing under way can
    pass on any numbers of messages and the counter grows by two only. *)
Theorem C90_lost_refuted s g h n m : g <> h -> i_at s g = IIdle -> i_at s h = IIdle ->
  exists ls s', irun s ls s' /\ Forall (one_of g h) ls /\ passed_by g ls = S n /\ passed_by h ls = S m /\
    i_at s' g = IIdle /\ i_at s' h = IIdle /\ i_val s' = ((i_val s + 2) mod 2^64)%Z.
Proof. exact (two_left s g h n m). Qed.
Print Assumptions C90_lost_refuted.

(** Nor do the statistics only grow: one response can show [n] more, and the
    next, after a further message, only one more. *)
Theorem C90_back_refuted s g h n : g <> h -> i_at s g = IIdle -> i_at s h = IIdle -> 0 < n ->
  exists ls ms s', irun s (ls ++ [IShow ((i_val s + Z.of_nat n) mod 2^64)%Z] ++ ms ++ [IShow ((i_val s + 1) mod 2^64)%Z]) s' /\
    Forall (one_of g h) (ls ++ ms) /\ passed_by g (ls ++ ms) = n /\ passed_by h (ls ++ ms) = 1.
Proof. exact (goes_back s g h n). Qed.
Print Assumptions C90_back_refuted.

(** But never more messages are shown than were counted, and never none if there were some. *)
Theorem C90_bounds_partial l1 v l2 s : irun new_count (l1 ++ IShow v :: l2) s -> (Z.of_nat (number counts l1) < 2^64)%Z ->
  (0 <= v <= Z.of_nat (number counts l1))%Z /\ (0 < number counts l1 -> (1 <= v)%Z).
Proof. intros H Hb. destruct (shown_at _ _ _ _ H) as (s1 & R & <-). destruct (bounds _ _ R Hb) as (H1 & H2 & _). done. Qed.
Print Assumptions C90_bounds_partial.

(** And if only one goroutine passes messages, exactly those are shown. *)
Theorem C90_alone_partial g l1 v l2 s : irun new_count (l1 ++ IShow v :: l2) s -> Forall (only g) l1 ->
  v = (Z.of_nat (number counts l1) mod 2^64)%Z.
Proof. intros H Hf. destruct (shown_at _ _ _ _ H) as (s1 & R & <-). by destruct (alone g _ _ R Hf). Qed.
Print Assumptions C90_alone_partial.

(** ** Examples *)
(** Goroutine 0 passes a thousand messages, goroutine 1 passes seven: the counter shows two. *)
Example C90_example_lost : exists ls s, irun new_count ls s /\ passed_by 0 ls = 1000 /\ passed_by 1 ls = 7 /\ i_val s = 2%Z.
Proof.
  destruct (C90_lost_refuted new_count 0 1 999 6) as (ls & s & R & _ & P1 & P2 & _ & _ & E); try done. exists ls, s. by rewrite P1, P2, E.
Qed.
(** Two goroutines one after the other, a response in the middle; then only one goroutine. *)
Example C90_example_shown : exists s, irun new_count ([ILoad 0; IStore 0; IPass 0; ILoad 1; IStore 1] ++ IShow 2 :: [IPass 1]) s /\
  number counts [ILoad 0; IStore 0; IPass 0; ILoad 1; IStore 1] = 2.
Proof.
  eexists. split; [|done]. cbn [app]. unfold new_count.
  eapply irun_cons; [by apply ik_load|]. eapply irun_cons; [by eapply ik_store|]. eapply irun_cons; [by apply ik_pass|].
  eapply irun_cons; [by apply ik_load|]. eapply irun_cons; [by eapply ik_store|]. eapply irun_cons; [by apply ik_show|].
  apply irun_one. by apply ik_pass.
Qed.
Example C90_example_alone : exists s, irun new_count ([ILoad 4; IStore 4; IPass 4; ILoad 4] ++ IShow 1 :: [IStore 4]) s /\
  Forall (only 4) [ILoad 4; IStore 4; IPass 4; ILoad 4].
Proof.
  eexists. split; [|by repeat constructor]. cbn [app]. unfold new_count.
  eapply irun_cons; [by apply ik_load|]. eapply irun_cons; [by eapply ik_store|]. eapply irun_cons; [by apply ik_pass|].
  eapply irun_cons; [by apply ik_load|]. eapply irun_cons; [by apply ik_show|].
  apply irun_one. by eapply ik_store.
Qed.
