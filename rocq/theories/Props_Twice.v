(** * Theorems about processor instances appended more than once (C102, C103)

    Only statements: every proof is one lemma.  The statement-level definitions
    are in TwiceSpec and StackSpec.  [build_links ids lk] are the links after Run
    of a stack with the appended instances [ids], whatever they were before. *)
From Verif Require Import GoBase UBufModel UBufSpec StackModel StackSpec TwiceModel TwiceSpec TwiceProofs TwiceShare Props_Stack.
From stdpp Require Import sets.

(** ** C102: one instance twice in one stack *)

(** Every instance is linked to the neighbours of the place where it was appended last. *)
Theorem C102_last_place_partial p i q lk : i ∉ q ->
  l_lower (build_links (p ++ i :: q) lk) (PProc i) = Some (next_below q) /\
  l_upper (build_links (p ++ i :: q) lk) (PProc i) = Some (next_above p).
Proof. exact (fun H => conj (build_lower p i q lk H) (build_upper p i q lk H)). Qed.
Print Assumptions C102_last_place_partial.

(** If any instance is appended twice, nothing that arrives on a connection ever reaches an endpoint: for every processors and switches, bytes, objects and states, whether the call returns or panics. *)
Theorem C102_deaf_refuted E lk ids f c l m s o : e_links E = build_links ids lk -> ~ NoDup ids ->
  receive f E c l s = Some o \/ receive_ref f E c m s = Some o -> hands_nothing o s.
Proof. exact (twice_deaf E lk ids f c l m s o). Qed.
Print Assumptions C102_deaf_refuted.

(** If the processors from the first of the two places down let everything pass, the first thing that arrives is passed round and round until the goroutine's stack overflows. *)
Theorem C102_endless_refuted E lk a i r c l m s : e_links E = build_links (a ++ i :: r) lk -> i ∈ r ->
  (forall x, x ∈ r -> exists p, e_procs E !! x = Some p /\ passes_message p = true) ->
  never_returns (fun f => receive f E c l s) /\ never_returns (fun f => receive_ref f E c m s).
Proof. exact (twice_endless E lk a i r c l m s). Qed.
Print Assumptions C102_endless_refuted.

(** A message that is sent passes the instance once and none of the processors between its two places. *)
Theorem C102_skipped_refuted E lk a i b c pa p pb pc pre k ps session dest cn m l s :
  e_links E = build_links (a ++ i :: b ++ i :: c) lk -> NoDup (a ++ i :: b ++ c) ->
  e_overhead E = build_overhead (p_kind <$> pa ++ p :: pb ++ p :: pc) 0 ->
  Forall2 (fun i p => e_procs E !! i = Some p) (a ++ i :: b ++ i :: c) (pa ++ p :: pb ++ p :: pc) ->
  length pa = length a -> length pb = length b -> pa ++ p :: pc = pre ++ Proc k true :: ps ->
  Forall (fun p => passes_message p = true) pre -> Forall (fun p => sends_on p = true) ps ->
  encodes k m l -> l <> [] -> e_isref E cn = false ->
  (Z.of_nat (length l) <= e_mtu E - e_overhead E)%Z -> (e_mtu E < 2^32)%Z ->
  exists s', finishes (fun f => send f E session dest (Some cn) (Some m) s) s
      (offered E (s_out s) cn (wire_of (dest_of session dest) ps l)) s' /\
    fst <$> s_visits s' = (fst <$> s_visits s) ++ ((fun i => (i, Down)) <$> a ++ i :: c).
Proof. exact (twice_send E lk a i b c pa p pb pc pre k ps session dest cn m l s). Qed.
Print Assumptions C102_skipped_refuted.

(** A Bytes codec, a Heartbeat (1), a SessionResolver (2), the same Heartbeat again, a FrameDecoder (3). *)
Definition ex_twice : env :=
  Env (build_links [0; 1; 2; 1; 3] no_links) [on KBytes; on KHeartbeat; on KSession; on (KFrame None)] 64
    (build_overhead (p_kind <$> [on KBytes; on KHeartbeat; on KSession; on KHeartbeat; on (KFrame None)]) 0)
    [110; 97]%Z [0; 7]%Z (fun _ => false) (fun _ _ l => (length l, false)) (fun _ _ _ => false).
Example C102_example :
  ~ NoDup [0; 1; 2; 1; 3] /\ NoDup ([0] ++ 1 :: [2] ++ [3]) /\
  Forall2 (fun i p => e_procs ex_twice !! i = Some p) ([0] ++ 1 :: [2] ++ 1 :: [3])
    ([on KBytes] ++ on KHeartbeat :: [on KSession] ++ on KHeartbeat :: [on (KFrame None)]) /\
  (** the session's four bytes are not sent *)
  outs_of (send 10 ex_twice 7 None (Some 3) (Some (MBytes [1; 2]%Z)) (started ex_twice)) =
    Some [OWire 3 [0; 0; 0; 3; 0; 1; 2]%Z] /\
  (** what the stack sent, and what it should have sent, is not heard *)
  outs_of (receive 10 ex_twice 3 [0; 0; 0; 3; 0; 1; 2]%Z (started ex_twice)) = Some [] /\
  outs_of (receive 10 ex_twice 3 [0; 0; 0; 8; 0; 0; 0; 0; 7; 0; 1; 2]%Z (started ex_twice)) = Some [] /\
  (** the links of the instance that was appended twice, and of the one between *)
  l_upper (e_links ex_twice) (PProc 1) = Some (PProc 2) /\ l_upper (e_links ex_twice) (PProc 2) = Some (PProc 1) /\
  (** a flow controller appended twice *)
  (forall x, x ∈ [1] -> exists p, e_procs (ex_env [on KBytes; on KFlow] 64 [0]%Z false) !! x = Some p /\ passes_message p = true).
Proof.
  split. { intros H. apply NoDup_cons in H as [_ H]. apply NoDup_cons in H as [H _]. apply H. set_solver. }
  split; [by apply (bool_decide_unpack _); vm_compute|].
  split; [by repeat constructor|].
  split_and!; try (vm_compute; done).
  intros x Hx. apply elem_of_list_singleton in Hx as ->. by exists (on KFlow).
Qed.

(** ** C103: one instance in several stacks *)

(** A stack whose instances no later Run uses has its own chain, whatever the stacks before it were built from. *)
Theorem C103_own_partial k ids F post : NoDup ids ->
  (forall k' ids', (k', ids') ∈ post -> k' <> k /\ forall x, x ∈ ids -> x ∉ ids') ->
  sends_through (tbuilds post (tbuild k ids F)) k ids k /\ hears_through (tbuilds post (tbuild k ids F)) k (rev ids) k /\
  (forall x, x ∈ ids -> t_stack (tbuilds post (tbuild k ids F)) x = Some k).
Proof. exact (later k ids F post). Qed.
Print Assumptions C103_own_partial.

(** A later stack that has one of its instances takes it over: what the first stack sends leaves through the other stack's processors and transports, what it receives goes to the other stack's endpoints. *)
Theorem C103_taken_over_refuted k1 k2 a1 a2 i c1 c2 F (F' := tbuild k2 (a2 ++ i :: c2) (tbuild k1 (a1 ++ i :: c1) F)) : k1 <> k2 ->
  NoDup (a1 ++ i :: c1) -> NoDup (a2 ++ i :: c2) -> (forall x, x ∈ a1 ++ c1 -> x ∉ a2 ++ c2) ->
  sends_through F' k1 (a1 ++ i :: c2) k2 /\ hears_through F' k1 (rev c1 ++ i :: rev a2) k2 /\ t_stack F' i = Some k2.
Proof. exact (shared k1 k2 a1 a2 i c1 c2 F). Qed.
Print Assumptions C103_taken_over_refuted.

(** In a program with one stack the fields are those of StackModel. *)
Theorem C103_one_stack_partial k ids F p :
  let L := build_links ids no_links in
  t_upper (tbuild k ids F) (emb k p) = match l_upper L p with Some q => Some (emb k q) | None => t_upper F (emb k p) end /\
  t_lower (tbuild k ids F) (emb k p) = match l_lower L p with Some q => Some (emb k q) | None => t_lower F (emb k p) end.
Proof. exact (conj (proj1 (proj1 (shows_build k ids F)) p) (proj1 (proj2 (shows_build k ids F)) p)). Qed.
Print Assumptions C103_one_stack_partial.

(** Stack 1 has the codec 0, the session resolver 1, the frame decoder 2; stack 2 the codec 3, the same session resolver, the frame decoder 4. *)
Example C103_example :
  let none := Fields (fun _ => None) (fun _ => None) (fun _ => None) in
  let F := tbuilds [(1, [0; 1; 2]); (2, [3; 1; 4])] none in
  twalk (t_lower F) 4 (TUpper 1) = [Some (TProc 0); Some (TProc 1); Some (TProc 4); Some (TLower 2)] /\
  twalk (t_upper F) 4 (TLower 1) = [Some (TProc 2); Some (TProc 1); Some (TProc 3); Some (TUpper 2)] /\
  sends_through F 2 [3; 1; 4] 2 /\ hears_through F 2 [4; 1; 3] 2 /\ t_stack F 1 = Some 2 /\
  sends_through (tbuilds [(1, [0; 1; 2]); (2, [3; 5; 4])] none) 1 [0; 1; 2] 1 /\
  NoDup ([0] ++ 1 :: [2]) /\ NoDup ([3] ++ 1 :: [4]) /\ (forall x, x ∈ [0] ++ [2] -> x ∉ [3] ++ [4]).
Proof.
  split_and!; try (vm_compute; done); try (by apply (bool_decide_unpack _); vm_compute).
  intros x Hx Hx'. simpl in *. set_solver.
Qed.
