(** * Theorems about two stacks joined by a byte connection (property C71)

    Only statements: every proof is one lemma.  [nrun N ok s ls s']: the
    goroutines of both stacks and the connection run, in any order, as long as
    [ok] holds of every step. *)
From Verif Require Import GoBase UBufModel UBufSpec FrameModel FrameSpec StackModel StackSpec StackFacts StackEnd NetModel NetSpec NetProofs NetRest.

(** ** C71 *)

(** If every Read ends where a Write ended (and, without a frame decoder lowest, returns one Write), the listeners of B's endpoints are called with the messages given to A's endpoints, whole, each to the right session, in an order in which the mails of every endpoint of A stay in order, and once nothing is under way all of those that were sent have been seen. *)
Theorem C71_in_order_partial N k ps a b ls s : matching N k ps -> caches_idle (nb N) b ->
  nrun N (whole_read (framed ps)) (new_net a b) ls s -> all_sendable N k ps ls ->
  exists o, (forall e, mails_of e o ++ unsent e s = given e ls) /\
    forall z, exists rest, heard z s ++ rest = mails_for N z o /\ (settled s -> rest = []).
Proof. exact (fun M => net_in_order N k ps M a b ls s). Qed.
Print Assumptions C71_in_order_partial.

(** Then it is always possible that everything given so far is sent, received and seen. *)
Theorem C71_finishes_partial N k ps a b ls s : matching N k ps -> 0 < nrxcap N -> caches_idle (nb N) b ->
  nrun N (whole_read (framed ps)) (new_net a b) ls s -> all_sendable N k ps ls ->
  exists ms s', nrun N (whole_read (framed ps)) s ms s' /\ Forall inner ms /\ settled s' /\ all_sent s'.
Proof. exact (fun M => net_finishes N k ps M a b ls s). Qed.
Print Assumptions C71_finishes_partial.

(** And it cannot be otherwise: in whatever order the goroutines run, there are never more than six steps for each message that was given, and they stop only when everything was sent, received and seen. *)
Theorem C71_ends_partial N k ps a b ls s : matching N k ps -> 0 < nrxcap N -> caches_idle (nb N) b ->
  nrun N (whole_read (framed ps)) (new_net a b) ls s -> all_sendable N k ps ls ->
  length ls <= 6 * mails_put ls /\
  ((forall l s', inner l -> whole_read (framed ps) s l -> ~ nstep N s l s') -> settled s /\ all_sent s).
Proof. exact (fun M => net_ends N k ps M a b ls s). Qed.
Print Assumptions C71_ends_partial.

(** However the bytes are divided: no channel ever holds more than its capacity. *)
Theorem C71_bounded_partial N a b ls s : nrun N any_read (new_net a b) ls s ->
  (forall e, length (n_tx s e) <= ntxcap N) /\ forall z, length (n_rx s z) <= nrxcap N.
Proof. exact (net_bounded N any_read a b ls s). Qed.
Print Assumptions C71_bounded_partial.

(** But if the first Read returns all of a frame but its last four bytes, the listener is called with a message nobody sent: what the codec makes of the encoding without its last four bytes. *)
Theorem C71_truncated_refuted N k qs cap e x l m a b : matching N k (qs ++ [Proc (KFrame cap) true]) ->
  Forall (fun p => framing p = false) qs -> caches_idle (nb N) b -> 0 < ntxcap N -> 0 < nrxcap N ->
  sendable_as N k (qs ++ [Proc (KFrame cap) true]) e x l -> 4 < length l -> decodes k (take (length l - 4) l) m ->
  let z := dest_of (nsess N e) (ml_dest x) in
  exists n s, nrun N any_read (new_net a b) [NPut e x; NTake e; NPass e; NRead n; NDeliver; NListen z] s /\ heard z s = [m].
Proof. exact (net_cut N k qs cap e x l m a b). Qed.
Print Assumptions C71_truncated_refuted.

(** Two stacks with sessions, statistics, heartbeats and frames over connections 3 and 5; endpoints 0 and 1 of A serve sessions 7 and 0. *)
Definition ex_qs : list proc := [Proc KSession true; Proc KStat true; Proc KHeartbeat true; Proc KLoadBalancer false].
Definition ex_low : list proc := ex_qs ++ [Proc (KFrame None) true].
Definition ex_procs : list proc := Proc KBytes true :: ex_low.
Definition ex_side : env :=
  Env (build_links (seq 0 6) no_links) ex_procs 64 (build_overhead (p_kind <$> ex_procs) 0) [110; 97]%Z [0; 7]%Z
    (fun _ => false) (fun _ _ l => (length l, false)) (fun _ _ _ => false).
Definition ex_start : st := match init_st ex_side with Some s => s | None => St [] [] [] end.
Definition ex_net : net := Net ex_side ex_side 3 5 (fun e => if e =? 0 then 7%Z else 0%Z) 2 2.
Example ex_matching : matching ex_net KBytes ex_low.
Proof.
  assert (wired ex_side (seq 0 6) ([] ++ Proc KBytes true :: ex_low)) as W.
  { split_and!; [done|apply NoDup_seq|done|]. apply Forall2_same_length_lookup_2; [done|].
    intros i x y Hx Hy. apply lookup_seq in Hx as [-> _]. done. }
  exists (seq 0 6), (seq 0 6), [], []. split_and!; try done; by repeat constructor.
Qed.
Example ex_idle : caches_idle (nb ex_net) ex_start.
Proof. apply init_idle. by vm_compute. Qed.
(** Both endpoints send to session 7, endpoint 1 first; B reads both frames at once. *)
Definition ex_labels : list nlab :=
  [NPut 0 (Mail None (MBytes [131; 2])); NPut 1 (Mail (Some 7) (MBytes [9])); NTake 1; NTake 0; NPass 1; NPass 0;
   NRead 25; NDeliver; NDeliver; NListen 7]%Z.
Example C71_example : exists s, nrun ex_net (whole_read (framed ex_low)) (new_net ex_start ex_start) ex_labels s /\
  all_sendable ex_net KBytes ex_low ex_labels /\ heard 7%Z s = [MBytes [9]%Z] /\ n_rx s 7%Z = [MBytes [131; 2]%Z].
Proof.
  eexists. split; [|split].
  { unfold ex_labels.
    eapply nrun_cons; [done|apply nk_put; simpl; lia|].
    eapply nrun_cons; [done|apply nk_put; simpl; lia|].
    eapply nrun_cons; [done|by apply nk_take|].
    eapply nrun_cons; [done|by apply nk_take|].
    eapply nrun_cons; [done|eapply nk_pass; [done|eapply (finishes_exec _ _ _ _ _ _ _ _ 20); [vm_compute; reflexivity|vm_compute; reflexivity]]|].
    eapply nrun_cons; [done|eapply nk_pass; [done|eapply (finishes_exec _ _ _ _ _ _ _ _ 20); [vm_compute; reflexivity|vm_compute; reflexivity]]|].
    eapply nrun_cons; [exists 0, 2; vm_compute; split; [done|split; [done|discriminate]]
      |eapply nk_read; [lia|vm_compute; lia|done|eapply (finishes_exec _ _ _ _ _ _ _ _ 20); [vm_compute; reflexivity|vm_compute; reflexivity]]|].
    eapply nrun_cons; [done|apply nk_deliver; simpl; lia|].
    eapply nrun_cons; [done|apply nk_deliver; simpl; lia|].
    apply nrun_one; [done|by apply nk_listen]. }
  { assert (7%Z ∈ e_sessions (nb ex_net)) by (right; left).
    intros e x Hx. unfold ex_labels in Hx. repeat (apply elem_of_cons in Hx as [Hx|Hx]; [try discriminate Hx|]);
      [| |by apply elem_of_nil in Hx]; injection Hx as -> ->; eexists; (split; [done|]); (split; [done|]); (split; [done|]);
      (split; [vm_compute; done|]); (split; [vm_compute; done|]); (split; [simpl; lia|]); (split; [by left|]); done. }
  by vm_compute.
Qed.
(** Endpoint 0 sends the six bytes 1 ... 6: session 7 of B gets the message 1, 2. *)
Example C71_example_truncated : let x := Mail None (MBytes [1; 2; 3; 4; 5; 6])%Z in
  Forall (fun p => framing p = false) ex_qs /\ 0 < ntxcap ex_net /\ 0 < nrxcap ex_net /\
  sendable_as ex_net KBytes (ex_qs ++ [Proc (KFrame None) true]) 0 x [1; 2; 3; 4; 5; 6]%Z /\
  decodes KBytes (take 2 [1; 2; 3; 4; 5; 6]%Z) (MBytes [1; 2]%Z).
Proof.
  split; [by repeat constructor|]. split; [simpl; lia|]. split; [simpl; lia|]. split; [|done].
  assert (7%Z ∈ e_sessions (nb ex_net)) by (right; left).
  (split; [done|]); (split; [done|]); (split; [done|]);
      (split; [vm_compute; done|]); (split; [vm_compute; done|]); (split; [simpl; lia|]); (split; [by left|]); done.
Qed.
