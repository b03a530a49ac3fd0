(** * C94: the features of a stack

    Only statements: every proof is one lemma.  [frun cs new_fstack] is a new
    stack after the calls [cs], which are arbitrary. *)
From Verif Require Import GoBase FeatModel FeatSpec FeatProofs.
From stdpp Require Import sets list.

(** ** C94 *)

(** GetFeatures lists exactly what was added, in order. *)
Theorem C94_listed_partial cs : f_feats (frun cs new_fstack) = added cs.
Proof. exact (feats_run cs new_fstack). Qed.
Print Assumptions C94_listed_partial.

(** GetFeature returns the first added feature that carries the name now, and nil only if none does. *)
Theorem C94_found_partial cs n : let s := frun cs new_fstack in
  (forall o, get_feature s n = Some o <-> first_named s (added cs) n o) /\
  (get_feature s n = None <-> Forall (fun o => ~ named s o n) (added cs)).
Proof. exact (found cs n). Qed.
Print Assumptions C94_found_partial.

(** SetName is what GetFeature and GetName go by. *)
Theorem C94_renamed_partial cs o n ds : o < length (f_objs (frun cs new_fstack)) -> (forall m, FSetName o m ∉ ds) ->
  named (frun (cs ++ FSetName o n :: ds) new_fstack) o n.
Proof. exact (renamed cs o n ds). Qed.
Print Assumptions C94_renamed_partial.

(** Run runs every feature, in the order they were added, before the upper deck, the processors and, last, the lower deck. *)
Theorem C94_started_partial cs : f_started (frun (cs ++ [FRun]) new_fstack) =
  f_started (frun cs new_fstack) ++ (PFeat <$> added cs) ++ [PUpper] ++ (PProc <$> appended cs) ++ [PLower].
Proof. exact (started cs). Qed.
Print Assumptions C94_started_partial.

(** Refuted: a feature that was added twice is run twice by one Run. *)
Theorem C94_twice_refuted cs o : times (PFeat o) (f_started (frun (cs ++ [FRun]) new_fstack)) =
  times (PFeat o) (f_started (frun cs new_fstack)) + times o (added cs).
Proof. exact (started_times cs o). Qed.
Print Assumptions C94_twice_refuted.

(** Refuted: no event is ever told to a feature. *)
Theorem C94_told_refuted cs ev o : (ev, PFeat o) ∉ f_told (frun cs new_fstack).
Proof. exact (told_new cs ev o). Qed.
Print Assumptions C94_told_refuted.

(** Told are the listeners, the endpoints, the decks once the stack was run, and the processors, in this order; of
    published events and, once each, of new endpoints. *)
Theorem C94_told_exactly_partial cs c : f_told (frun (cs ++ [c]) new_fstack) =
  f_told (frun cs new_fstack) ++ match published cs c with Some ev => (fun p => (ev, p)) <$> parties cs | None => [] end.
Proof. exact (told_exactly cs c). Qed.
Print Assumptions C94_told_exactly_partial.

(** Whereas every listener, endpoint and processor is told, and the decks once the stack was run. *)
Theorem C94_others_told_partial cs ev p : let s := frun cs new_fstack in
  (ev, p) ∈ f_told (frun (cs ++ [FPublish ev]) new_fstack) <->
  (ev, p) ∈ f_told s \/
  match p with
  | PListener l => l ∈ f_listeners s
  | PEnd e => e ∈ f_ends s
  | PProc q => q ∈ appended cs
  | PUpper | PLower => FRun ∈ cs
  | PFeat _ => False
  end.
Proof. exact (others_told cs ev p). Qed.
Print Assumptions C94_others_told_partial.

(** Refuted: adding a feature and running the stack never gives the feature its stack. *)
Theorem C94_stackless_refuted cs o : FSetStack o ∉ cs -> ~ knows_stack (frun cs new_fstack) o.
Proof. exact (stackless cs o). Qed.
Print Assumptions C94_stackless_refuted.

(** Only SetUStack gives a feature its stack, and for good. *)
Theorem C94_stack_given_partial cs o ds : o < length (f_objs (frun cs new_fstack)) ->
  knows_stack (frun (cs ++ FSetStack o :: ds) new_fstack) o.
Proof. exact (stack_given cs o ds). Qed.
Print Assumptions C94_stack_given_partial.
Example ex_told_exactly : let cs := [FListen 3; FEndpoint 5; FAppend 7; FNewOwn 1; FAdd 0; FRun; FEndpoint 5] in
  f_told (frun (cs ++ [FEndpoint 6]) new_fstack) =
  [(FAdded 5, PListener 3); (FAdded 6, PListener 3); (FAdded 6, PEnd 5); (FAdded 6, PUpper); (FAdded 6, PProc 7); (FAdded 6, PLower)] /\
  knows_stack (frun (cs ++ [FSetStack 0; FRun]) new_fstack) 0.
Proof. split; [reflexivity|]. eexists. split; reflexivity. Qed.

(** Refuted: a feature added under a name that another one has is never found by that name, whatever is called later, unless the other one is renamed. *)
Theorem C94_hidden_refuted cs f g n ds : f ∈ added cs -> g ∉ added cs -> named (frun cs new_fstack) f n ->
  (forall m, FSetName f m ∉ ds) -> get_feature (frun (cs ++ FAdd g :: ds) new_fstack) n <> Some g.
Proof. exact (hidden cs f g n ds). Qed.
Print Assumptions C94_hidden_refuted.

(** Refuted: AddFeature(NewFeatBase().SetName(n)) adds a feature that is not found by the name [n]. *)
Theorem C94_chained_refuted cs m n : let s := frun cs new_fstack in
  m <> n -> Forall (fun o => ~ named s o n) (added cs) -> (forall o, o ∈ added cs -> o < length (f_objs s)) ->
  exists o o', returned s (FNewBase m) = Some o /\ returned (fstep s (FNewBase m)) (FSetName o n) = Some o' /\
    get_feature (frun (cs ++ [FNewBase m; FSetName o n; FAdd o']) new_fstack) n = None.
Proof. exact (chained_run cs m n). Qed.
Print Assumptions C94_chained_refuted.

(** Two features of name 7, one of them renamed to 8 and added twice; a processor, an endpoint, a listener; the stack is run and an event published. *)
Definition ex_calls : list fop :=
  [FNewOwn 7; FNewOwn 7; FAdd 0; FAdd 1; FSetName 1 8; FAdd 1; FAppend 5; FListen 3; FEndpoint 2; FRun; FPublish (FOther 9)].
Example ex_found : get_feature (frun ex_calls new_fstack) 7 = Some 0 /\ get_feature (frun ex_calls new_fstack) 8 = Some 1 /\
  get_feature (frun ex_calls new_fstack) 9 = None /\ added ex_calls = [0; 1; 1].
Proof. done. Qed.
Example ex_started : f_started (frun ex_calls new_fstack) = [PFeat 0; PFeat 1; PFeat 1; PUpper; PProc 5; PLower].
Proof. done. Qed.
Example ex_told : f_told (frun ex_calls new_fstack) =
  [(FAdded 2, PListener 3); (FAdded 2, PProc 5); (FOther 9, PListener 3); (FOther 9, PEnd 2); (FOther 9, PUpper); (FOther 9, PProc 5); (FOther 9, PLower)].
Proof. done. Qed.
(** The hypotheses of [C94_hidden_refuted]: after the first three calls, feature 1 is added under the name of feature 0, and a Run follows. *)
Example ex_hidden : get_feature (frun (take 3 ex_calls ++ FAdd 1 :: [FRun; FSetName 1 7]) new_fstack) 7 <> Some 1.
Proof.
  apply C94_hidden_refuted with (f := 0).
  - set_solver.
  - cbn. rewrite elem_of_list_singleton. done.
  - by eexists.
  - intros m H. rewrite !elem_of_cons in H. destruct H as [H|[H|H]]; [done|done|by apply elem_of_nil in H].
Qed.
(** Those of [C94_chained_refuted]: a stack that has features, none of name 4; NewFeatBase's name is 6. *)
Example ex_chained : exists o o', returned (frun ex_calls new_fstack) (FNewBase 6) = Some o /\
  returned (fstep (frun ex_calls new_fstack) (FNewBase 6)) (FSetName o 4) = Some o' /\
  get_feature (frun (ex_calls ++ [FNewBase 6; FSetName o 4; FAdd o']) new_fstack) 4 = None.
Proof.
  apply C94_chained_refuted; [done| |].
  - repeat constructor; intros (b & E & T); cbn in E; injection E as <-; done.
  - intros o H. cbn in H. rewrite !elem_of_cons, elem_of_nil in H. assert (length (f_objs (frun ex_calls new_fstack)) = 2) as -> by done.
    destruct H as [?|[?|[?|[]]]]; lia.
Qed.
Example ex_renamed : named (frun (take 4 ex_calls ++ FSetName 1 8 :: drop 5 ex_calls) new_fstack) 1 8.
Proof.
  apply C94_renamed_partial; [cbn; lia|]. intros m H. apply elem_of_list_In in H. cbn in H. intuition discriminate.
Qed.
Example ex_stackless : ~ knows_stack (frun ex_calls new_fstack) 1.
Proof. apply C94_stackless_refuted. intros H. apply elem_of_list_In in H. cbn in H. intuition discriminate. Qed.
Example ex_twice : times (PFeat 1) (f_started (frun ex_calls new_fstack)) = 2.
Proof. done. Qed.
