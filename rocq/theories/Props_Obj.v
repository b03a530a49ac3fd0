(** * Theorems about stacks joined by reference transports (property C84)

    Only statements: every proof is one lemma.  [orun N s ls s']: the goroutines
    of all stacks run, in any order. *)
From Verif Require Import GoBase UBufModel FrameModel StackModel StackSpec StackFacts NetModel NetProofs ObjModel ObjSpec ObjProofs ObjRest.

(** ** C84 *)

(** Whatever is given to endpoints on one side of the address, the same objects reach the other side, each exactly one stack there, in an order in which those of every endpoint stay in order, and that stack's endpoint with session 0 hears them in that order; once nothing is under way, every object that was sent has been heard. *)
Theorem C84_in_order_partial N ss ls s b : joined N -> orun N (new_objs ss) ls s ->
  exists o, Forall (fun p => ob_server N p.1.1.1 = negb b) o /\
    (forall e, ob_server N (fst e) = negb b -> from e o ++ held e s = entrusted e ls) /\
    (forall j, ob_server N j = b -> exists rest, listened j 0 s ++ rest = got_by j o /\ (at_rest s -> rest = [])) /\
    (at_rest s -> Forall (fun p => exists j, p.2 = Some j /\ ob_server N j = b) o).
Proof. exact (fun J => objs_in_order N J ss ls s b). Qed.
Print Assumptions C84_in_order_partial.

(** With a stack on each side it is always possible that everything given so far is sent and heard, whatever the channels' capacity. *)
Theorem C84_finishes_partial N ss ls s rd : joined N -> 0 < ob_rxcap N -> (forall b, ob_server N (rd b) = b) ->
  orun N (new_objs ss) ls s -> exists ms s', orun N s ms s' /\ Forall own ms /\ at_rest s' /\ all_gone s'.
Proof. exact (fun J C Hrd => objs_finish N J rd Hrd ss ls s C). Qed.
Print Assumptions C84_finishes_partial.

(** And it cannot be otherwise: in whatever order the goroutines run, there are never more than seven steps for each object that was given, and they stop only when everything was sent and heard. *)
Theorem C84_ends_partial N ss ls s rd : joined N -> 0 < ob_rxcap N -> (forall b, ob_server N (rd b) = b) ->
  orun N (new_objs ss) ls s -> length ls <= 7 * objects_put ls /\ ((forall l s', own l -> ~ ostep N s l s') -> at_rest s /\ all_gone s).
Proof. exact (fun J => objs_end N J rd ss ls s). Qed.
Print Assumptions C84_ends_partial.

(** No channel ever holds more than it was made for. *)
Theorem C84_bounded_partial N ss ls s : orun N (new_objs ss) ls s ->
  (forall e, length (o_tx s e) <= ob_txcap N) /\ (forall b, length (o_chan s b) <= ob_cap N) /\ forall e, length (o_rx s e) <= ob_rxcap N.
Proof. exact (objs_bounded N ss ls s). Qed.
Print Assumptions C84_bounded_partial.

(** But no endpoint of another session ever hears anything, whatever the destination of what is sent. *)
Theorem C84_session_refuted N ss ls s j z : joined N -> orun N (new_objs ss) ls s -> z <> 0%Z -> listened j z s = [].
Proof. exact (fun J => objs_session_0 N J ss ls s j z). Qed.
Print Assumptions C84_session_refuted.

(** And whenever all is quiet, what is sent next can reach any one stack of the other side, and no other. *)
Theorem C84_anyone_refuted N s e x j : joined N -> 0 < ob_txcap N -> 0 < ob_rxcap N -> at_rest s -> all_gone s ->
  ob_server N j = negb (ob_server N (fst e)) ->
  exists ms s', orun N s (OPut e x :: ms) s' /\ Forall own ms /\ at_rest s' /\ all_gone s' /\
    listened j 0 s' = listened j 0 s ++ [ml_msg x] /\ forall i z, (i, z) <> (j, 0%Z) -> listened i z s' = listened i z s.
Proof. exact (anyone N s e x j). Qed.
Print Assumptions C84_anyone_refuted.

(** Stack 0 is a server, the others are clients; all have a StatCounter, a Heartbeat and a LoadBalancer, and endpoints with sessions 0 and 7. *)
Definition ex_procs : list proc := [Proc KStat true; Proc KHeartbeat true; Proc KLoadBalancer true].
Definition ex_side : env :=
  Env (build_links (seq 0 3) no_links) ex_procs 64 3 [110; 97]%Z [0; 7]%Z (fun _ => true) (fun _ _ l => (length l, false)) (fun _ _ _ => false).
Definition ex_start : st := match init_st ex_side with Some s => s | None => St [] [] [] end.
Definition ex_objs : objs := Objs (fun _ => ex_side) (fun j => j + 3) (fun j => j =? 0) (fun _ => 7%Z) 2 1 2.
Example ex_joined : joined ex_objs.
Proof.
  intros j. exists (seq 0 3), ex_procs. split.
  { split_and!; [done|apply NoDup_seq|done|]. apply Forall2_same_length_lookup_2; [done|].
    intros i x y Hx Hy. apply lookup_seq in Hx as [-> _]. done. }
  split; [by repeat constructor|]. split; [done|]. split; [done|]. by left.
Qed.
(** The server sends two objects to its clients: client 1 hears the first, client 2 has the second waiting; the third is in the channel. *)
Definition ex_labels : list olab :=
  [OPut (0, 0) (Mail None (MObj 4)); OTake (0, 0); OPass (0, 0); OSend (0, 0); OPut (0, 0) (Mail (Some 7%Z) (MObj 5)); OTake (0, 0); OPass (0, 0);
   OGet 1; OHand (0, 0) 2; OGive 1; OListen 1 0; OGive 2; OPut (0, 0) (Mail None (MObj 6)); OTake (0, 0); OPass (0, 0); OSend (0, 0)].
Example C84_example : exists s, orun ex_objs (new_objs (fun _ => ex_start)) ex_labels s /\
  listened 1 0 s = [MObj 4] /\ o_rx s (2, 0%Z) = [MObj 5] /\ o_chan s false = [MObj 6].
Proof.
  eexists. split.
  { unfold ex_labels.
    eapply orun_cons; [apply ok_put; simpl; lia|].
    eapply orun_cons; [by eapply ok_take|].
    eapply orun_cons; [eapply ok_pass; [done|eapply (finishes_exec _ _ _ _ _ _ _ _ 20); [vm_compute; reflexivity|vm_compute; reflexivity]]|].
    eapply orun_cons; [eapply ok_send; [done|simpl; lia]|].
    eapply orun_cons; [apply ok_put; simpl; lia|].
    eapply orun_cons; [by eapply ok_take|].
    eapply orun_cons; [eapply ok_pass; [done|eapply (finishes_exec _ _ _ _ _ _ _ _ 20); [vm_compute; reflexivity|vm_compute; reflexivity]]|].
    eapply orun_cons; [eapply ok_get; [done|done|eapply (finishes_exec _ _ _ _ _ _ _ _ 20); [vm_compute; reflexivity|vm_compute; reflexivity]]|].
    eapply orun_cons; [eapply ok_hand; [done|done|done|done|eapply (finishes_exec _ _ _ _ _ _ _ _ 20); [vm_compute; reflexivity|vm_compute; reflexivity]]|].
    eapply orun_cons; [eapply ok_give; [vm_compute; done|simpl; lia]|].
    eapply orun_cons; [eapply ok_listen; vm_compute; done|].
    eapply orun_cons; [eapply ok_give; [vm_compute; done|simpl; lia]|].
    eapply orun_cons; [apply ok_put; simpl; lia|].
    eapply orun_cons; [by eapply ok_take|].
    eapply orun_cons; [eapply ok_pass; [done|eapply (finishes_exec _ _ _ _ _ _ _ _ 20); [vm_compute; reflexivity|vm_compute; reflexivity]]|].
    apply orun_one. eapply ok_send; [done|simpl; lia]. }
  by vm_compute.
Qed.
(** The hypotheses of the other three. *)
Example C84_example_quiet : 0 < ob_txcap ex_objs /\ 0 < ob_rxcap ex_objs /\ (forall b : bool, ob_server ex_objs (if b then 0 else 1) = b) /\
  let s := new_objs (fun _ => ex_start) in at_rest s /\ all_gone s /\ ob_server ex_objs 2 = negb (ob_server ex_objs 0).
Proof. split; [simpl; lia|]. split; [simpl; lia|]. split; [by intros []|]. done. Qed.
