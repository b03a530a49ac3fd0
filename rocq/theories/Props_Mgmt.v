(** * Theorems about the administration of a stack (properties C37 - C41, C56)

    Only statements: every proof is one lemma.  [returns V cs s s'] says that the
    calls [cs], made in state [s], return normally in state [s']; [V] has the
    event handlers (arbitrary code that may call the stack).  [stack_state s]:
    [s] can be reached from a new stack by calls, with whatever handlers. *)
From Verif Require Import GoBase MgmtModel MgmtSpec MgmtProofs MgmtFacts.

(** ** Handlers and states for the examples *)
Definition ex_quiet : menv := Menv (fun n => n) (fun _ _ _ => []) Z.of_nat.
Definition ex_once (p : party) (ev : event) (cs : list cmd) : menv :=
  Menv (fun n => n) (fun log p' ev' => if decide ((p', ev') = (p, ev) /\ (p, ev) ∉ log) then cs else []) Z.of_nat.
Definition ex_always (p : party) (ev : event) (cs : list cmd) : menv :=
  Menv (fun n => n) (fun _ p' ev' => if decide ((p', ev') = (p, ev)) then cs else []) Z.of_nat.
Definition after (V : menv) (cs : list cmd) (s : mst) : mst :=
  match calls 20 V cs s with Some (MDone s') => s' | _ => new_stack end.
Example ex_passive : passive ex_quiet.
Proof. done. Qed.
Example ex_reacts_once p ev cs : reacts_once (ex_once p ev cs) p ev cs.
Proof. done. Qed.
Example ex_reacts p ev cs : reacts (ex_always p ev cs) p ev cs.
Proof. done. Qed.
(** A stack with listener 9, endpoints 1 2 3 4 and transport 5. *)
Definition ex_history : list cmd :=
  [SetEventListener 9; AddEndPoint 1; AddEndPoint 2; AddTransport 5; AddEndPoint 3; Run; AddEndPoint 4].
Definition ex_state : mst := after ex_quiet ex_history new_stack.
Example ex_stack_state : stack_state ex_state.
Proof.
  exists ex_quiet, ex_history. apply (returns_intro _ _ _ _ 20). vm_compute. done.
Qed.
Example ex_endpoints : get_endpoints ex_state = [1; 2; 3; 4] /\ get_transports ex_state = [5] /\
  m_listeners ex_state = [9] /\ m_decks ex_state = true.
Proof. vm_compute. done. Qed.

(** ** C37 *)
(** Handlers that make no calls. *)
Theorem C37_ordered_sets_partial V cs : passive V ->
  exists s, returns V cs new_stack s /\
    in_order_of_addition (omap ep_op cs) (get_endpoints s) /\ NoDup (get_endpoints s) /\
    in_order_of_addition (omap tp_op cs) (get_transports s) /\ NoDup (get_transports s).
Proof. exact (ordered_sets V cs). Qed.
Print Assumptions C37_ordered_sets_partial.

(** Whatever the handlers. *)
Theorem C37_no_effect V s x :
  (x ∈ get_endpoints s -> returns V [AddEndPoint x] s s) /\
  (x ∉ get_endpoints s -> returns V [DeleteEndPoint x] s s) /\
  (x ∈ get_transports s -> returns V [AddTransport x] s s) /\
  (x ∉ get_transports s -> returns V [DeleteTransport x] s s).
Proof. exact (no_effect V s x). Qed.
Print Assumptions C37_no_effect.

(** A listener that adds the endpoint when told of its addition. *)
Theorem C37_nested_add_duplicates_refuted V l e s : reacts_once V (ToListener l) (EvEndpointAdded e) [AddEndPoint e] ->
  stack_state s -> l ∈ m_listeners s -> (ToListener l, EvEndpointAdded e) ∉ m_log s -> e ∉ get_endpoints s ->
  exists s', returns V [AddEndPoint e] s s' /\ get_endpoints s' = get_endpoints s ++ [e; e].
Proof. exact (nested_add' V l e s). Qed.
Print Assumptions C37_nested_add_duplicates_refuted.

(** A listener that deletes the endpoint when told of its deletion: the next one goes too, without an event. *)
Theorem C37_nested_delete_removes_another_refuted V l e x s l1' l2' : reacts_once V (ToListener l) (EvEndpointDeleted e) [DeleteEndPoint e] ->
  stack_state s -> l ∈ m_listeners s -> (ToListener l, EvEndpointDeleted e) ∉ m_log s ->
  get_endpoints s = l1' ++ e :: x :: l2' -> e ∉ l1' ->
  exists s', returns V [DeleteEndPoint e] s s' /\ get_endpoints s' = l1' ++ l2'.
Proof. exact (nested_delete' V l e x s l1' l2'). Qed.
Print Assumptions C37_nested_delete_removes_another_refuted.

(** If the endpoint was the last one, the stack panics. *)
Theorem C37_nested_delete_crashes_refuted V l e s l1' : reacts_once V (ToListener l) (EvEndpointDeleted e) [DeleteEndPoint e] ->
  stack_state s -> l ∈ m_listeners s -> (ToListener l, EvEndpointDeleted e) ∉ m_log s ->
  get_endpoints s = l1' ++ [e] -> e ∉ l1' -> panics V [DeleteEndPoint e] s.
Proof. exact (nested_delete_last' V l e s l1'). Qed.
Print Assumptions C37_nested_delete_crashes_refuted.

(** If the listener always does that, the call does not return. *)
Theorem C37_endless_delete_refuted V l e : reacts V (ToListener l) (EvEndpointDeleted e) [DeleteEndPoint e] ->
  forall s, l ∈ m_listeners s -> e ∈ get_endpoints s -> endless V [DeleteEndPoint e] s.
Proof. exact (endless_delete V l e). Qed.
Print Assumptions C37_endless_delete_refuted.

Example C37_example :
  let cs := [AddEndPoint 1; AddEndPoint 2; AddEndPoint 1; DeleteEndPoint 1; DeleteEndPoint 7; AddTransport 4; AddEndPoint 1] in
  get_endpoints (after ex_quiet cs new_stack) = [2; 1] /\
  present_since (omap ep_op cs) 1 = Some 5 /\ present_since (omap ep_op cs) 2 = Some 1 /\
  (let V := ex_once (ToListener 9) (EvEndpointAdded 7) [AddEndPoint 7] in
   get_endpoints (after V [AddEndPoint 7] ex_state) = [1; 2; 3; 4; 7; 7]) /\
  (let V := ex_once (ToListener 9) (EvEndpointDeleted 2) [DeleteEndPoint 2] in
   get_endpoints (after V [DeleteEndPoint 2] ex_state) = [1; 4]) /\
  (ToListener 9, EvEndpointDeleted 2) ∉ m_log ex_state /\ (ToListener 9, EvEndpointAdded 7) ∉ m_log ex_state /\
  9 ∈ m_listeners ex_state.
Proof.
  cbv zeta. split_and!; [vm_compute; reflexivity..| | |]; apply (bool_decide_unpack _); vm_compute; exact I.
Qed.
Example C37_example_last : (ToListener 9, EvEndpointDeleted 4) ∉ m_log ex_state /\ get_endpoints ex_state = [1; 2; 3] ++ [4] /\ 4 ∉ [1; 2; 3] /\
  (let V := ex_once (ToListener 9) (EvEndpointDeleted 4) [DeleteEndPoint 4] in
   exists s', calls 30 V [DeleteEndPoint 4] ex_state = Some (MCrash s')) /\
  calls 30 (ex_always (ToListener 9) (EvEndpointDeleted 4) [DeleteEndPoint 4]) [DeleteEndPoint 4] ex_state = None.
Proof. split_and!; [by vm_compute; intros H; repeat (apply elem_of_cons in H as [H|H]; [done|]); apply elem_of_nil in H|done|by intros H; repeat (apply elem_of_cons in H as [H|H]; [done|]); apply elem_of_nil in H|eexists; vm_compute; reflexivity|vm_compute; reflexivity]. Qed.

(** ** C38 *)
(** The whole effect of PublishEvent, for handlers that make no calls. *)
Theorem C38_publish_delivers_partial V ev s : stack_state s -> passive V ->
  returns V [PublishEvent ev] s (with_log s (m_log s ++ ((., ev) <$> audience s))).
Proof. exact (publish_delivers' V ev s). Qed.
Print Assumptions C38_publish_delivers_partial.

(** ... that is, to every listener and every processor the calls [cs] so far have given, to the endpoints, and to the decks if there was a Run. *)
Theorem C38_everybody_told_partial V cs ev : passive V ->
  exists s es s', returns V cs new_stack s /\ in_order_of_addition (omap ep_op cs) es /\
    returns V [PublishEvent ev] s s' /\ m_log s' = m_log s ++ ((., ev) <$> everybody cs es).
Proof. exact (everybody_told V cs ev). Qed.
Print Assumptions C38_everybody_told_partial.

(** Also for Add and Delete. *)
Theorem C38_effective_calls_publish_once_partial V x s : stack_state s -> passive V ->
  (x ∉ get_endpoints s -> exists s', returns V [AddEndPoint x] s s' /\
     m_log s' = m_log s ++ ((., EvEndpointAdded x) <$> audience s)) /\
  (x ∈ get_endpoints s -> exists s', returns V [DeleteEndPoint x] s s' /\
     m_log s' = m_log s ++ ((., EvEndpointDeleted x) <$> audience s)) /\
  (x ∉ get_transports s -> exists s', returns V [AddTransport x] s s' /\
     m_log s' = m_log s ++ ((., EvTransportAdded x) <$> audience s)) /\
  (x ∈ get_transports s -> exists s', returns V [DeleteTransport x] s s' /\
     m_log s' = m_log s ++ ((., EvTransportDeleted x) <$> audience s)).
Proof. exact (effective_publish' V x s). Qed.
Print Assumptions C38_effective_calls_publish_once_partial.

Example C38_example :
  audience ex_state = [ToListener 9; ToEndpoint 1; ToEndpoint 2; ToEndpoint 3; ToEndpoint 4; ToUpperDeck; ToLowerDeck] /\
  drop (length (m_log ex_state)) (m_log (after ex_quiet [DeleteEndPoint 3; DeleteEndPoint 3] ex_state)) =
    ((., EvEndpointDeleted 3) <$> audience ex_state) /\
  everybody [SetEventListener 9; AddEndPoint 1; SetEventListener 8; AppendDataProcessor 6; Run; AppendDataProcessor 7] [1] =
    [ToListener 9; ToListener 8; ToEndpoint 1; ToUpperDeck; ToProcessor 6; ToProcessor 7; ToLowerDeck].
Proof. vm_compute. done. Qed.

(** ** C39 *)
(** A list obtained before the deletion of any endpoint but the last: it loses that endpoint and shows the last one twice. *)
Theorem C39_returned_list_changes_refuted V s e l1 l2 z : stack_state s -> passive V -> get_endpoints s = l1 ++ e :: l2 ++ [z] ->
  NoDup (l1 ++ e :: l2 ++ [z]) ->
  exists s', returns V [DeleteEndPoint e] s s' /\ obtained s s' = l1 ++ l2 ++ [z; z] /\
    obtained s s' <> get_endpoints s.
Proof. exact (obtained_changes' V s e l1 l2 z). Qed.
Print Assumptions C39_returned_list_changes_refuted.

(** After the last endpoint is deleted, the next addition writes into the list obtained earlier. *)
Theorem C39_returned_list_overwritten_refuted V s e y l1 : stack_state s -> passive V -> get_endpoints s = l1 ++ [e] -> NoDup (l1 ++ [e]) ->
  y ∉ l1 ->
  exists s', returns V [DeleteEndPoint e; AddEndPoint y] s s' /\ obtained s s' = l1 ++ [y].
Proof. exact (obtained_replaced' V s e y l1). Qed.
Print Assumptions C39_returned_list_overwritten_refuted.

(** As long as no endpoint is deleted. *)
Theorem C39_returned_list_stable_partial V s cs : stack_state s -> passive V -> Forall no_deletion cs ->
  exists s', returns V cs s s' /\ obtained s s' = get_endpoints s.
Proof. exact (obtained_stable' V s cs). Qed.
Print Assumptions C39_returned_list_stable_partial.

(** An endpoint that deletes itself when it gets the event: its successor [x] does not get it, and the last endpoint gets it twice. *)
Theorem C39_self_deletion_misses_refuted V s ev e l1 x r z : reacts V (ToEndpoint e) ev [DeleteEndPoint e] -> ev <> EvEndpointDeleted e ->
  stack_state s -> get_endpoints s = l1 ++ e :: x :: r ++ [z] -> NoDup (l1 ++ e :: x :: r ++ [z]) ->
  exists s', returns V [PublishEvent ev] s s' /\
    got ev (drop (length (m_log s)) (m_log s')) = l1 ++ e :: r ++ [z; z].
Proof. exact (self_deletion_misses' V s ev e l1 x r z). Qed.
Print Assumptions C39_self_deletion_misses_refuted.

(** It is harmless for the last two endpoints of the list. *)
Theorem C39_self_deletion_harmless_partial V s ev e l1 r : reacts V (ToEndpoint e) ev [DeleteEndPoint e] -> ev <> EvEndpointDeleted e ->
  stack_state s -> get_endpoints s = l1 ++ e :: r -> length r <= 1 -> NoDup (l1 ++ e :: r) ->
  exists s', returns V [PublishEvent ev] s s' /\
    got ev (drop (length (m_log s)) (m_log s')) = get_endpoints s.
Proof. exact (self_deletion_harmless' V s ev e l1 r). Qed.
Print Assumptions C39_self_deletion_harmless_partial.

Example C39_example :
  obtained ex_state (after ex_quiet [DeleteEndPoint 2] ex_state) = [1; 3; 4; 4] /\
  obtained ex_state (after ex_quiet [DeleteEndPoint 4; AddEndPoint 8] ex_state) = [1; 2; 3; 8] /\
  obtained ex_state (after ex_quiet [AddEndPoint 8; AddEndPoint 9; DeleteTransport 5] ex_state) = [1; 2; 3; 4] /\
  (let V := ex_always (ToEndpoint 1) (EvOther 0) [DeleteEndPoint 1] in
   got (EvOther 0) (m_log (after V [PublishEvent (EvOther 0)] ex_state)) = [1; 3; 4; 4]) /\
  (let V := ex_always (ToEndpoint 3) (EvOther 0) [DeleteEndPoint 3] in
   got (EvOther 0) (m_log (after V [PublishEvent (EvOther 0)] ex_state)) = [1; 2; 3; 4]).
Proof. vm_compute. done. Qed.

(** ** C40 *)
(** Every Run adds the sum once more. *)
Theorem C40_overhead_multiplied_refuted V ps k : exists s,
  returns V ((AppendDataProcessor <$> ps) ++ replicate k Run) new_stack s /\
  m_overhead s = (Z.of_nat k * total V ps)%Z.
Proof. exact (overhead_after_runs V ps k). Qed.
Print Assumptions C40_overhead_multiplied_refuted.

Theorem C40_overhead_wrong_refuted V ps k : 2 <= k -> total V ps <> 0%Z -> exists s,
  returns V ((AppendDataProcessor <$> ps) ++ replicate k Run) new_stack s /\ m_overhead s <> total V ps.
Proof. exact (overhead_refuted V ps k). Qed.
Print Assumptions C40_overhead_wrong_refuted.

Theorem C40_overhead_after_one_run_partial V ps : exists s,
  returns V ((AppendDataProcessor <$> ps) ++ [Run]) new_stack s /\ m_overhead s = total V ps.
Proof. exact (overhead_once V ps). Qed.
Print Assumptions C40_overhead_after_one_run_partial.

Example C40_example : total ex_quiet [3; 4] = 7%Z /\
  m_overhead (after ex_quiet [AppendDataProcessor 3; AppendDataProcessor 4; Run; Run] new_stack) = 14%Z.
Proof. vm_compute. done. Qed.

(** ** C41 *)
Theorem C41_last_set_wins h name :
  get_option (foldl (fun o p => set_option o (fst p) (snd p)) [] h) name = last_set h name.
Proof. exact (options_last h name). Qed.
Print Assumptions C41_last_set_wins.

Theorem C41_typed_reads v :
  (forall d z, parse_int v d = (z, true) <-> v = Some (GInt z)) /\
  (forall d b, parse_byte v d = (b, true) <-> v = Some (GByte b)) /\
  (forall d b, parse_bool v d = (b, true) <-> v = Some (GBool b)) /\
  (forall l, parse_bytes v = (l, true) <-> v = Some (GBytes l)) /\
  (forall d, (forall z, v <> Some (GInt z)) -> parse_int v d = (d, false)) /\
  (forall d, (forall b, v <> Some (GByte b)) -> parse_byte v d = (d, false)) /\
  (forall d, (forall b, v <> Some (GBool b)) -> parse_bool v d = (d, false)) /\
  ((forall l, v <> Some (GBytes l)) -> parse_bytes v = ([], false)).
Proof. exact (parse_typed v). Qed.
Print Assumptions C41_typed_reads.

Theorem C41_mtu_in_force h name :
  let o := foldl (fun o p => set_option o (fst p) (snd p)) [] h in
  (forall z, last_set h name = Some (GInt z) -> mtu_after_run o name = z) /\
  ((forall z, last_set h name <> Some (GInt z)) -> mtu_after_run o name = 2048%Z).
Proof. exact (mtu_in_force h name). Qed.
Print Assumptions C41_mtu_in_force.

Example C41_example :
  let h := [(1, Some (GInt 5)); (2, Some (GBool true)); (1, Some (GBytes [7]%Z)); (2, None); (3, Some (GInt 100))] in
  last_set h 1 = Some (GBytes [7]%Z) /\ last_set h 2 = None /\ last_set h 9 = None /\
  mtu_after_run (foldl (fun o p => set_option o (fst p) (snd p)) [] h) 3 = 100%Z /\
  mtu_after_run (foldl (fun o p => set_option o (fst p) (snd p)) [] h) 1 = 2048%Z.
Proof. vm_compute. done. Qed.

(** ** C56 *)
(** Every processor that embeds ProcBase. *)
Theorem C56_setters_return_the_object_partial os name n :
  let '(os1, o) := new_embedding os name in
  exists os2, set_name os1 o n = Some (os2, o) /\ name_of os2 o = Some n.
Proof. exact (chained_embedding os name n). Qed.
Print Assumptions C56_setters_return_the_object_partial.

(** NewProcBase(), NewFeatBase() and every feature that embeds FeatBase. *)
Theorem C56_base_setters_return_another_refuted os name n : n <> name ->
  let '(os1, o) := new_base os name in
  exists os2 o', set_name os1 o n = Some (os2, o') /\ o' <> o /\ name_of os2 o' = Some name.
Proof. exact (chained_base os name n). Qed.
Print Assumptions C56_base_setters_return_another_refuted.

Example C56_example :
  let '(os, o) := new_base [] 5 in
  match set_name os o 6 with
  | Some (os', o') => o = 1 /\ o' = 0 /\ name_of os' o' = Some 5 /\ name_of os' o = Some 6
  | None => False
  end.
Proof. vm_compute. done. Qed.
