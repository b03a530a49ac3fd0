(** * Theorems about administration by several goroutines (properties C80, C81)

    Only statements: every proof is one lemma.  [arun]: any interleaving of calls
    of AddEndPoint and DeleteEndPoint and of publications; [orun]: the calls are
    made one after the other, publications go on meanwhile.  [listed]: what
    GetEndPoint returns; [a_served]: the endpoints the upper deck serves; [g]: how
    the runtime grows arrays. *)
From Verif Require Import GoBase MgmtModel MgmtSpec AdmModel AdmSpec AdmProofs AdmSeq AdmTold AdmRuns AdmEnds.

(** The states the theorems speak about: every list of endpoints can come about. *)
Example ex_states g l : NoDup l ->
  exists ls s, orun g new_ast ls s /\ all_returned s /\ a_panic s = false /\ listed s = l.
Proof. exact (can_list g l). Qed.
Example ex_state_1234 g : exists ls s, arun g new_ast ls s /\ all_returned s /\ a_panic s = false /\ listed s = [1; 2; 3; 4].
Proof.
  destruct (can_list g [1; 2; 3; 4]) as (ls & s & Hr & H).
  { repeat (constructor; [rewrite ?not_elem_of_cons; split_and?; try done; apply not_elem_of_nil|]). constructor. }
  exists ls, s. split; [by apply orun_arun|done].
Qed.

(** ** C80 *)
(** One call after the other, whatever is published meanwhile. *)
Theorem C80_one_at_a_time_partial g ls s : orun g new_ast ls s ->
  a_panic s = false /\
  (all_returned s -> in_order_of_addition (omap a_op ls) (listed s) /\ NoDup (listed s) /\
     forall x, x ∈ a_served s <-> x ∈ listed s).
Proof. exact (one_at_a_time g ls s). Qed.
Print Assumptions C80_one_at_a_time_partial.

(** In every interleaving: an endpoint whose addition has returned is served
    unless its deletion was called too. *)
Theorem C80_served_partial g ls s c e : arun g new_ast ls s -> omap a_op ls !! c = Some (Ins e) ->
  a_calls s !! c = Some CDone -> ADel e ∉ ls -> e ∈ a_served s.
Proof. exact (served_unless_deleted g ls s c e). Qed.
Print Assumptions C80_served_partial.

(** Two additions at the same time: one endpoint is lost from the list, its
    deletion does nothing and it goes on being served. *)
Theorem C80_lost_addition_refuted g ls0 s e1 e2 : arun g new_ast ls0 s -> all_returned s -> a_panic s = false ->
  e1 ∉ listed s -> e2 ∉ listed s -> e1 <> e2 ->
  exists ls s1, arun g s ls s1 /\ omap a_op ls = [Ins e1; Ins e2] /\ all_returned s1 /\
    listed s1 = listed s ++ [e2] /\ e1 ∈ a_served s1 /\
    forall ls2 s2, orun g s1 ls2 s2 -> omap a_op ls2 = [Rem e1] -> all_returned s2 -> e1 ∈ a_served s2.
Proof. exact (lost_update g ls0 s e1 e2). Qed.
Print Assumptions C80_lost_addition_refuted.

(** The same endpoint added twice at the same time is listed twice; deleting it
    leaves it in the list, but no longer served. *)
Theorem C80_listed_twice_refuted g ls0 s e : arun g new_ast ls0 s -> all_returned s -> a_panic s = false -> e ∉ listed s ->
  exists ls s1, arun g s ls s1 /\ omap a_op ls = [Ins e; Ins e] /\ all_returned s1 /\ listed s1 = listed s ++ [e; e] /\
    forall ls2 s2, orun g s1 ls2 s2 -> omap a_op ls2 = [Rem e] -> all_returned s2 ->
      listed s2 = listed s ++ [e] /\ e ∉ a_served s2.
Proof. exact (listed_twice g ls0 s e). Qed.
Print Assumptions C80_listed_twice_refuted.

(** Two endpoints deleted at the same time: the one behind the second goes
    instead of it, and if there is none, the stack panics. *)
Theorem C80_wrong_deletion_refuted g ls0 s e y l1 l2 l3 : arun g new_ast ls0 s -> all_returned s -> a_panic s = false ->
  listed s = l1 ++ e :: l2 ++ y :: l3 -> e ∉ l1 -> y ∉ l1 ++ e :: l2 ->
  exists ls s', arun g s ls s' /\ omap a_op ls = [Rem e; Rem y] /\
    match l3 with
    | [] => a_panic s' = true
    | z :: l3' => all_returned s' /\ a_panic s' = false /\ listed s' = l1 ++ l2 ++ y :: l3' /\
        forall x, x ∈ a_served s' <-> x ∈ a_served s /\ x <> e /\ x <> y
    end.
Proof. exact (fun Hr Hret Hp => two_dels g ls0 s Hr Hret Hp e y l1 l2 l3). Qed.
Print Assumptions C80_wrong_deletion_refuted.

(** That panic is final: no call returns and nothing is published after it. *)
Theorem C80_panic_ends_partial g s ls s' : a_panic s = true -> arun g s ls s' -> ls = [] /\ s' = s.
Proof. exact (adm_crash_ends g s ls s'). Qed.
Print Assumptions C80_panic_ends_partial.

(** Every interleaving ends: the calls and publications make only so many steps,
    and if none can go on, all have ended. *)
Theorem C80_steps_partial g ls s : arun g new_ast ls s ->
  inner_steps ls <= length (omap a_op ls) * (2 * additions ls + 5) + publications ls * additions ls.
Proof. exact (adm_steps g ls s). Qed.
Print Assumptions C80_steps_partial.
Theorem C80_ends_partial g ls s : arun g new_ast ls s -> a_panic s = false ->
  (forall l s', a_inner l = true -> ~ astep g s l s') ->
  all_returned s /\ forall p, p < length (a_pubs s) -> finished p s.
Proof. exact (adm_ends g ls s). Qed.
Print Assumptions C80_ends_partial.
(** Two additions and an event; the second addition looks at one element, tells
    the first endpoint, and the event reaches both. *)
Example C80_example_ends : exists s,
  arun (fun _ => 1) new_ast [AAdd 7; AScan 0; ADeck 0; ARead 0; AWrite 0; AStore 0; AAdd 8; AScan 1; AScan 1; ADeliver 1;
    ADeck 1; ARead 1; AWrite 1; AStore 1; APublish; ADeliver 2; ADeliver 2] s /\
  a_panic s = false /\ listed s = [7; 8] /\ told 2 s = [7; 8] /\ (forall l s', a_inner l = true -> ~ astep (fun _ => 1) s l s').
Proof.
  eexists. split_and!.
  - do 17 (eapply (arun_trans _ _ [_]); [apply arun_one; first
      [ apply as_add | apply as_publish | eapply as_scan_next; [reflexivity|simpl; lia|reflexivity|lia]
      | eapply as_scan_end; [reflexivity|simpl; lia] | eapply as_add_deck; [reflexivity|reflexivity|simpl; lia]
      | eapply as_add_read; reflexivity | eapply as_add_write; [reflexivity|reflexivity] | eapply as_add_store; reflexivity
      | eapply as_deliver; [reflexivity|simpl; lia|reflexivity] ]|simpl]).
    apply ar_nil.
  - reflexivity.
  - reflexivity.
  - reflexivity.
  - intros l s' Hl Hs. inversion Hs; subst; try discriminate Hl;
      try (match goal with H : _ !! ?c = Some _ |- _ => destruct c as [|[|c]]; discriminate H end).
    match goal with H : _ !! ?p = Some _, H' : _ < _ |- _ => destruct p as [|[|[|p]]]; try discriminate H; injection H as <- <-; simpl in H'; lia end.
Qed.

Example C80_example g : exists ls s,
  arun g new_ast ls s /\ all_returned s /\ a_panic s = false /\
  listed s = [] ++ 1 :: [2] ++ 3 :: [4] /\ 1 ∉ @nil nat /\ 3 ∉ [] ++ 1 :: [2] /\ 5 ∉ listed s /\ 6 ∉ listed s.
Proof.
  destruct (ex_state_1234 g) as (ls & s & Hr & Hret & Hp & Hl). exists ls, s. rewrite Hl.
  split_and!; try done; simpl; rewrite ?elem_of_cons, ?elem_of_nil; naive_solver.
Qed.
Example C80_example_served g : exists ls s, arun g new_ast ls s /\ omap a_op ls !! 0 = Some (Ins 7) /\
  a_calls s !! 0 = Some CDone /\ ADel 7 ∉ ls /\ listed s = [8] /\ 7 ∈ a_served s.
Proof.
  destruct (lost_update g [] new_ast 7 8) as (ls & s & Hr & Ho & Hret & Hl & Hs & _);
    [constructor|by intros ? ?%elem_of_nil|done|by apply not_elem_of_nil|by apply not_elem_of_nil|done|].
  exists ls, s. assert (ADel 7 ∉ ls).
  { intros Hin. assert (Rem 7 ∈ omap a_op ls) as Hin'; [apply elem_of_list_omap; by exists (ADel 7)|].
    rewrite Ho in Hin'. rewrite !elem_of_cons, elem_of_nil in Hin'. naive_solver. }
  split_and!; try done.
  - by rewrite Ho.
  - pose proof (Forall2_length _ _ _ (ai_calls _ _ _ (ainv_given _ _ _ Hr))) as Hlen. rewrite Ho in Hlen.
    destruct (a_calls s) as [|pc cs] eqn:E; [done|]. simpl. f_equal. apply Hret. rewrite E. by left.
Qed.

(** ** C81 *)
(** One call after the other: a publication reaches the endpoints listed when it
    began, in order, as far as nothing is deleted in front of them meanwhile; and
    it reaches these once. *)
Theorem C81_in_front_partial g ls1 s1 lab s2 ls2 s m : orun g new_ast ls1 s1 -> ~ erasing s1 ->
  orun g s1 [lab] s2 -> a_pubs s2 = a_pubs s1 ++ [(a_eps s1, 0)] -> orun g s2 ls2 s ->
  erases_from m ls2 -> m <= length (listed s1) -> finished (length (a_pubs s1)) s ->
  let t := told (length (a_pubs s1)) s in
  length t = length (listed s1) /\ take m t = take m (listed s1) /\ NoDup (take m t) /\
  (forall x, x ∈ take m t -> x ∉ drop m t).
Proof. exact (told_once g ls1 s1 lab s2 ls2 s m). Qed.
Print Assumptions C81_in_front_partial.

(** Without deletions meanwhile: exactly the endpoints listed when it began. *)
Theorem C81_no_deletion_partial g ls1 s1 lab s2 ls2 s : orun g new_ast ls1 s1 -> ~ erasing s1 ->
  orun g s1 [lab] s2 -> a_pubs s2 = a_pubs s1 ++ [(a_eps s1, 0)] -> orun g s2 ls2 s ->
  (forall c i, AErase c i ∉ ls2) -> finished (length (a_pubs s1)) s ->
  told (length (a_pubs s1)) s = listed s1.
Proof. exact (told_all g ls1 s1 lab s2 ls2 s). Qed.
Print Assumptions C81_no_deletion_partial.

(** In every interleaving a publication can go on, and it reaches only
    endpoints that were added some time. *)
Theorem C81_goes_on_partial g ls s p sl i : arun g new_ast ls s -> a_panic s = false ->
  a_pubs s !! p = Some (sl, i) -> i < sl_len sl ->
  exists e s', astep g s (ADeliver p) s' /\ a_log s' = a_log s ++ [(p, e)] /\ AAdd e ∈ ls.
Proof. exact (publications_go_on g ls s p sl i). Qed.
Print Assumptions C81_goes_on_partial.

(** In every interleaving a publication makes as many calls as endpoints were
    listed when it began, if not to these. *)
Theorem C81_number_partial g ls1 s1 lab s2 ls2 s : arun g new_ast ls1 s1 -> astep g s1 lab s2 ->
  a_pubs s2 = a_pubs s1 ++ [(a_eps s1, 0)] -> arun g s2 ls2 s ->
  let t := told (length (a_pubs s1)) s in
  length t <= length (listed s1) /\ (finished (length (a_pubs s1)) s <-> length t = length (listed s1)).
Proof. exact (told_number g ls1 s1 lab s2 ls2 s). Qed.
Print Assumptions C81_number_partial.

(** One deletion, of [d], when the publication has reached [x]: [x] is passed
    over although it stays, and the last endpoint is told twice. *)
Theorem C81_passed_over_refuted g ls0 s l1 d l2 x l3 z : orun g new_ast ls0 s -> all_returned s ->
  listed s = l1 ++ d :: l2 ++ x :: l3 ++ [z] ->
  exists ls s', orun g s (APublish :: ls) s' /\ omap a_op ls = [Rem d] /\ all_returned s' /\
    finished (length (a_pubs s)) s' /\
    told (length (a_pubs s)) s' = l1 ++ d :: l2 ++ l3 ++ [z; z] /\ x ∉ told (length (a_pubs s)) s' /\
    listed s' = l1 ++ l2 ++ x :: l3 ++ [z].
Proof. exact (missed g ls0 s l1 d l2 x l3 z). Qed.
Print Assumptions C81_passed_over_refuted.

(** A publication that begins in the middle of the deletion: the last endpoint
    is told twice although nothing is deleted later. *)
Theorem C81_told_twice_refuted g ls0 s l1 d l2 z : orun g new_ast ls0 s -> all_returned s -> listed s = l1 ++ d :: l2 ++ [z] ->
  exists ls1 s1 ls2 s2, orun g s ls1 s1 /\ omap a_op ls1 = [Rem d] /\ erasing s1 /\
    orun g s1 (APublish :: ls2) s2 /\ omap a_op ls2 = [] /\ (forall c i, AErase c i ∉ ls2) /\
    finished (length (a_pubs s1)) s2 /\ told (length (a_pubs s1)) s2 = l1 ++ l2 ++ [z; z].
Proof. exact (told_twice g ls0 s l1 d l2 z). Qed.
Print Assumptions C81_told_twice_refuted.

(** A case of the first theorem, with a deletion behind; and of the others. *)
Example C81_example g : exists ls1 s1 s2 ls2 s, orun g new_ast ls1 s1 /\ ~ erasing s1 /\
  orun g s1 [APublish] s2 /\ a_pubs s2 = a_pubs s1 ++ [(a_eps s1, 0)] /\ orun g s2 ls2 s /\
  omap a_op ls2 = [Rem 3] /\ erases_from 2 ls2 /\ 2 <= length (listed s1) /\ finished (length (a_pubs s1)) s /\
  listed s1 = [1; 2; 3; 4] /\ told (length (a_pubs s1)) s = [1; 2; 4; 4] /\ all_returned s1.
Proof.
  destruct (can_list g [1; 2; 3; 4]) as (ls1 & s1 & Hr & Hret & Hp & Hl).
  { repeat (constructor; [rewrite ?not_elem_of_cons; split_and?; try done; apply not_elem_of_nil|]). constructor. }
  destruct (one_deletion g ls1 s1 [1; 2] 3 [4] 1 Hr Hret Hl) as (ls & s & A1 & A2 & A3 & A4 & A5 & A6 & _); [rewrite Hl; simpl; lia|].
  apply (orun_split g s1 [APublish] ls) in A1 as (s2 & B1 & B2).
  exists ls1, s1, s2, ls, s. split_and!; try done.
  - intros (c & e & sl & Hc). apply elem_of_list_lookup_2, Hret in Hc. done.
  - by apply publish_adds in B1.
  - rewrite Hl. simpl. lia.
Qed.
Example C81_example_none g : exists s2 s, orun g new_ast [APublish] s2 /\ a_pubs s2 = [(Slice None 0, 0)] /\
  orun g s2 [] s /\ ~ erasing new_ast /\ finished 0 s.
Proof.
  eexists _, _. split_and!; [apply arun_orun; [apply arun_one; constructor|done]|done|constructor| |].
  - intros (c & e & sl & Hc). done.
  - exists (Slice None 0), 0. split; [done|]. simpl. lia.
Qed.
