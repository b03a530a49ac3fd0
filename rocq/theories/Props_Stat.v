(** * Theorems about collecting the statistics of a peer (property C77)

    Only statements: every proof is one lemma.  [exchange]: a StatCounter of
    stack A asks, stack B answers, A gets the answer; [exchanges]: several times.
    [asks], [answers]: the processors called on either side, those below the
    StatCounters only. *)
From Verif Require Import GoBase UBufModel UBufSpec FrameModel FrameSpec StackModel StackSpec StatSpec StatProofs StackEnd Props_Stack.
From stdpp Require Import list.

(** ** C77 *)

(** However often A asks: every time it shows what B counted, and the name of B as far as it fits; no endpoint gets anything, nothing above the StatCounters is called, and asking is not counted. *)
Theorem C77_collected_partial A B aA iA bA paA aB iB bB paB pb cA cB n sA sB :
  wired A (aA ++ iA :: bA) (paA ++ Proc KStat true :: pb) -> length aA = length paA ->
  wired B (aB ++ iB :: bB) (paB ++ Proc KStat true :: pb) -> length aB = length paB ->
  Forall (fun p => carries p = true) pb ->
  e_isref A cA = false -> accepts A cA -> (e_overhead A < e_mtu A < 2^32)%Z ->
  e_isref B cB = false -> accepts B cB -> (e_overhead B <= e_mtu B < 2^32)%Z ->
  (e_mtu B <= e_mtu A)%Z \/ (17 + Z.of_nat (length (e_name B)) + room pb <= e_mtu A)%Z ->
  caches_idle A sA -> caches_idle B sB -> reached B sB -> 16 <= space B ->
  exists sA' sB', exchanges A B iA cA cB (asks iA bA) (answers iB bB) sA sB (replicate n
    (OShow iA (line (take (space B - 16) (e_name B))) (Z.of_nat (count (passed_down B iB) (s_visits sB)) mod 2^64)%Z
       (Z.of_nat (count (passed_up B iB) (s_visits sB)) mod 2^64)%Z)) sA' sB'.
Proof. intros; by eapply collected. Qed.
Print Assumptions C77_collected_partial.

(** But if B has room for fewer than 16 bytes, A shows that B received nothing, whatever B received. *)
Theorem C77_small_room_refuted A B aA iA bA paA aB iB bB paB pb cA cB sA sB :
  wired A (aA ++ iA :: bA) (paA ++ Proc KStat true :: pb) -> length aA = length paA ->
  wired B (aB ++ iB :: bB) (paB ++ Proc KStat true :: pb) -> length aB = length paB ->
  Forall (fun p => carries p = true) pb ->
  e_isref A cA = false -> accepts A cA -> (e_overhead A < e_mtu A < 2^32)%Z ->
  e_isref B cB = false -> accepts B cB -> (e_overhead B <= e_mtu B < 2^32)%Z ->
  (e_mtu B <= e_mtu A)%Z \/ (17 + Z.of_nat (length (e_name B)) + room pb <= e_mtu A)%Z ->
  caches_idle A sA -> caches_idle B sB -> reached B sB -> space B < 16 ->
  exists name tx sA' sB', exchange A B iA cA cB sA sB [OShow iA name tx 0%Z] (asks iA bA) (answers iB bB) sA' sB'.
Proof. intros; by eapply collected_small. Qed.
Print Assumptions C77_small_room_refuted.

(** And if A's StatCounter is switched off, A asks all the same, and the answer goes to A's endpoint of session 0 as if it were a message. *)
Theorem C77_switched_off_refuted A B aA jA iA bA preA k aB iB bB paB pb cA cB sA sB m :
  wired A (aA ++ jA :: iA :: bA) (preA ++ Proc k true :: Proc KStat false :: pb) -> length aA = length preA ->
  wired B (aB ++ iB :: bB) (paB ++ Proc KStat true :: pb) -> length aB = length paB ->
  Forall (fun p => passes_message p = true) preA -> Forall (fun p => carries p = true) pb ->
  e_isref A cA = false -> accepts A cA -> (e_overhead A < e_mtu A < 2^32)%Z ->
  e_isref B cB = false -> accepts B cB -> (e_overhead B <= e_mtu B < 2^32)%Z ->
  (e_mtu B <= e_mtu A)%Z \/ (17 + Z.of_nat (length (e_name B)) + room pb <= e_mtu A)%Z ->
  caches_idle A sA -> caches_idle B sB -> reached B sB -> 16 <= space B -> 0%Z ∈ e_sessions A ->
  decodes k (digits BE W64 (Z.of_nat (count (passed_down B iB) (s_visits sB)) mod 2^64) ++
    digits BE W64 (Z.of_nat (count (passed_up B iB) (s_visits sB)) mod 2^64) ++ take (space B - 16) (e_name B)) m ->
  exists vA sA' sB', exchange A B iA cA cB sA sB [ODeliver 0 (Some cA) m] vA (answers iB bB) sA' sB'.
Proof. exact (off_exchange A B aA jA iA bA preA k aB iB bB paB pb cA cB sA sB m). Qed.
Print Assumptions C77_switched_off_refuted.

(** A StatCounter that is switched off answers nothing, and the codec above it drops the request. *)
Theorem C77_no_answer_partial E a i j b pre k pb sess c s :
  wired E (a ++ j :: i :: b) (pre ++ Proc k true :: Proc KStat false :: pb) -> length a = length pre ->
  refuses_nothing k -> Forall (fun p => carries p = true) pb -> e_isref E c = false ->
  (Z.of_nat (length (wire_of sess pb [16%Z])) <= e_mtu E)%Z -> (e_mtu E < 2^32)%Z -> caches_idle E s ->
  exists s', finishes (fun f => receive f E c (wire_of sess pb [16%Z]) s) s [] s' /\ caches_idle E s' /\
    fst <$> s_visits s' = (fst <$> s_visits s) ++ ((fun i => (i, Up)) <$> rev b) ++ [(i, Up); (j, Up)].
Proof. exact (answerer_off E a i j b pre k pb sess c s). Qed.
Print Assumptions C77_no_answer_partial.

(** The stacks of the examples: B has received two messages and sent one. *)
Definition st_ps : list proc := [on KHeartbeat; on KSession; on (KFrame None)].
Definition stA (en : bool) : env := ex_env (on KBytes :: Proc KStat en :: st_ps) 64 [0]%Z false.
Definition stB (mtu : Z) : env := ex_env (on KBytes :: on KStat :: st_ps) mtu [0]%Z false.
Definition run_done (r : option outcome) (s : st) : st := match r with Some (Done _ s') => s' | _ => s end.
Definition busy (mtu : Z) : st :=
  let E := stB mtu in let w := wire_of 0 (on KStat :: st_ps) [9]%Z in
  let s1 := run_done (receive 9 E 5 w (started E)) (started E) in
  let s2 := run_done (receive 9 E 5 w s1) s1 in
  run_done (send 9 E 0 None (Some 5) (Some (MBytes [8]%Z)) s2) s2.
Example ex_busy mtu : mtu = 64%Z \/ mtu = 20%Z -> reached (stB mtu) (busy mtu) /\ caches_idle (stB mtu) (busy mtu) /\
  count (passed_down (stB mtu) 1) (s_visits (busy mtu)) = 1 /\ count (passed_up (stB mtu) 1) (s_visits (busy mtu)) = 2.
Proof.
  intros H. split.
  - set (E := stB mtu). set (w := wire_of 0 (on KStat :: st_ps) [9]%Z).
    set (s1 := run_done (receive 9 E 5 w (started E)) (started E)). set (s2 := run_done (receive 9 E 5 w s1) s1).
    assert (reached E (started E)) as R0 by (apply reached_run; destruct H as [-> | ->]; by vm_compute).
    assert (exists x, receive 9 E 5 w (started E) = Some (Done x s1)) as [x1 H1] by (destruct H as [-> | ->]; vm_compute; eexists; done).
    assert (exists x, receive 9 E 5 w s1 = Some (Done x s2)) as [x2 H2] by (destruct H as [-> | ->]; vm_compute; eexists; done).
    assert (exists x, send 9 E 0 None (Some 5) (Some (MBytes [8]%Z)) s2 = Some (Done x (busy mtu))) as [x3 H3]
      by (destruct H as [-> | ->]; vm_compute; eexists; done).
    eapply reached_send, H3. eapply reached_receive, H2. eapply reached_receive, H1. done.
  - split; [|destruct H as [-> | ->]; by vm_compute].
    intros i cap en Hi. destruct H as [-> | ->]; destruct i as [|[|[|[|[|i]]]]]; try discriminate Hi; [exists 128|exists 40];
      eexists; (split; [lia|]); (split; [by vm_compute|]); repeat split; by vm_compute.
Qed.
(** A shows "na", 1 and 2; *)
Ltac meets := match goal with
  | |- wired (stA ?b) _ _ => exact (ex_wired (on KBytes :: Proc KStat b :: st_ps) 64 [0]%Z false)
  | |- wired (stB ?m) _ _ => exact (ex_wired (on KBytes :: on KStat :: st_ps) m [0]%Z false)
  | |- length _ = length _ => reflexivity
  | |- Forall _ _ => by repeat constructor
  | |- e_isref _ _ = false => reflexivity
  | |- accepts _ _ => apply ex_accepts
  | |- (_ <= _ < _)%Z => vm_compute; split; congruence
  | |- (_ < _ < _)%Z => vm_compute; split; congruence
  | |- _ \/ _ => left; vm_compute; congruence
  | |- caches_idle _ (started _) => apply C24_caches_idle_after_run; reflexivity
  | |- (_ ∈ _) => by left
  | |- decodes _ _ _ => reflexivity
  | |- (_ <= _)%nat => vm_compute; lia
  | |- (_ < _)%nat => vm_compute; lia
  | |- _ => assumption
  end.
Example C77_example : exists sA' sB', exchange (stA true) (stB 64) 1 3 5 (started (stA true)) (busy 64)
  [OShow 1 ([110; 97] ++ replicate 126 0)%Z 1 2] (asks 1 [2; 3; 4]) (answers 1 [2; 3; 4]) sA' sB'.
Proof.
  destruct (ex_busy 64) as (R & I & Hd & Hu); [by left|].
  destruct (C77_collected_partial (stA true) (stB 64) [0] 1 [2; 3; 4] [on KBytes] [0] 1 [2; 3; 4] [on KBytes] st_ps 3 5 1
    (started (stA true)) (busy 64)) as (sA' & sB' & H); [meets..|].
  rewrite Hd, Hu in H. apply exchanges_one in H. exists sA', sB'.
  replace (line (take (space (stB 64) - 16) (e_name (stB 64)))) with ([110; 97] ++ replicate 126 0)%Z in H by (by vm_compute).
  exact H.
Qed.
(** with an MTU of 20 bytes at B it shows 1 and 0; *)
Example C77_example_small : space (stB 20) = 10 /\ exists sA' sB' name tx, exchange (stA true) (stB 20) 1 3 5 (started (stA true)) (busy 20)
  [OShow 1 name tx 0]%Z (asks 1 [2; 3; 4]) (answers 1 [2; 3; 4]) sA' sB'.
Proof.
  split; [done|]. destruct (ex_busy 20) as (R & I & Hd & Hu); [by right|].
  destruct (C77_small_room_refuted (stA true) (stB 20) [0] 1 [2; 3; 4] [on KBytes] [0] 1 [2; 3; 4] [on KBytes] st_ps 3 5
    (started (stA true)) (busy 20)) as (name & tx & sA' & sB' & H); [meets..|]. by exists sA', sB', name, tx.
Qed.
(** with its StatCounter switched off A's endpoint gets 18 bytes. *)
Example C77_example_off : exists vA sA' sB', exchange (stA false) (stB 64) 1 3 5 (started (stA false)) (busy 64)
  [ODeliver 0 (Some 3) (MBytes (digits BE W64 1 ++ digits BE W64 2 ++ [110; 97])%Z)] vA (answers 1 [2; 3; 4]) sA' sB'.
Proof.
  destruct (ex_busy 64) as (R & I & Hd & Hu); [by left|].
  apply (C77_switched_off_refuted (stA false) (stB 64) [] 0 1 [2; 3; 4] [] KBytes [0] 1 [2; 3; 4] [on KBytes] st_ps 3 5
    (started (stA false)) (busy 64)); [meets..|]. rewrite Hd, Hu. reflexivity.
Qed.
Example C77_example_no_answer : exists s', finishes (fun f => receive f (stA false) 3 (wire_of 0 st_ps [16]%Z) (started (stA false))) (started (stA false)) [] s'.
Proof.
  destruct (C77_no_answer_partial (stA false) [] 1 0 [2; 3; 4] [] KBytes st_ps 0 3 (started (stA false))) as (s' & H & _); [meets|meets|exact I|meets|meets| | |meets|by exists s'].
  - vm_compute. congruence.
  - vm_compute. congruence.
Qed.
