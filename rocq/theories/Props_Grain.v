(** * Theorems about goroutines inside the processors at the same time (property C101)

    Only statements: every proof is one lemma.  [grun N ok s ls s']: the
    goroutines of A's endpoints call one processor after the other, the
    connection, the goroutines of B and the users' calls of SetEnable run, in any
    order, as long as [ok] holds of every step. *)
From Verif Require Import GoBase UBufModel UBufSpec FrameModel FrameSpec StackModel StackSpec StackFacts StackEnd NetModel NetSpec NetProofs SwapModel SwapSpec SwapProofs Props_Swap GrainModel GrainSpec GrainProofs GrainAlone GrainEnds GrainExact.

(** ** C101 *)

(** A goroutine that is not interrupted does what StackModel says of one call: the calls, one after the other, are the whole call. *)
Theorem C101_alone_partial N n s e l s' : ends_with e l -> grun N any_step s (GTake e :: replicate n (GHop e) ++ [l]) s' ->
  exists m, nstep (now N (g_on s)) (g_net s) (NTake e) m /\ nstep (now N (g_on s)) m (NPass e) (g_net s') /\ g_on s' = g_on s.
Proof. exact (alone N n s e l s'). Qed.
Print Assumptions C101_alone_partial.

(** Whatever the order in which the goroutines call the processors, and whichever statistics counters, heartbeats and flow controllers are switched meanwhile: all that is seen outside the processors is as if each message had passed them at once, when it was written. *)
Theorem C101_as_one_partial L N a b ls s : ready L N -> caches_idle (nb N) b -> grun N (gently L N) (new_grain N a b) ls s ->
  all_sendable N (lo_codec L) (below (nb N) (lo_b L) (lo_above_b L)) (net_labels (outside ls)) ->
  exists t, wrun N (discreet L N) (new_swap N a b) (outside ls) t /\ same_outside (g_net s) (w_net t) /\ g_on s = w_on t.
Proof.
  intros R Hi H A. destruct (grain_seen L N R a b ls s Hi H A) as (t & H1 & H2 & H3 & _). exact (ex_intro _ t (conj H1 (conj H2 H3))).
Qed.
Print Assumptions C101_as_one_partial.

(** So every message is heard, whole, by the right session, in order. *)
Theorem C101_in_order_partial L N a b ls s : ready L N -> caches_idle (nb N) b -> grun N (gently L N) (new_grain N a b) ls s ->
  all_sendable N (lo_codec L) (below (nb N) (lo_b L) (lo_above_b L)) (net_labels (outside ls)) ->
  exists o, (forall e, mails_of e o ++ unsent e (g_net s) = given e (net_labels (outside ls))) /\
    forall z, exists rest, heard z (g_net s) ++ rest = mails_for N z o /\ (settled (g_net s) -> rest = []).
Proof. exact (fun R => grain_in_order L N R a b ls s). Qed.
Print Assumptions C101_in_order_partial.

(** The goroutines stop only when everything has been heard. *)
Theorem C101_stops_partial L N a b ls s : ready L N -> 0 < nrxcap N -> unseen (lo_codec L) = false -> caches_idle (nb N) b ->
  grun N (gently L N) (new_grain N a b) ls s ->
  all_sendable N (lo_codec L) (below (nb N) (lo_b L) (lo_above_b L)) (net_labels (outside ls)) ->
  (forall l s', at_work l -> gently L N s l -> ~ gstep N s l s') -> settled (g_net s) /\ all_sent (g_net s).
Proof. exact (fun R => grain_stops L N R a b ls s). Qed.
Print Assumptions C101_stops_partial.

(** And they stop: each message takes at most one step for each processor, and six. *)
Theorem C101_ends_partial L N a b ls s : ready L N -> caches_idle (nb N) b -> grun N (gently L N) (new_grain N a b) ls s ->
  all_sendable N (lo_codec L) (below (nb N) (lo_b L) (lo_above_b L)) (net_labels (outside ls)) ->
  length (List.filter not_set ls) <= (6 + length (lo_a L)) * mails_put (net_labels (outside ls)).
Proof. exact (fun R => grain_ends L N R a b ls s). Qed.
Print Assumptions C101_ends_partial.

(** Any processors below the codec may be switched at any moment, if they send messages on in either case: what is written is the message as the switches that it met, one after the other, make it, and of no other moment. *)
Theorem C101_exact_partial L N a b ls s e x l s' : ready L N -> grun N (lower_switches L N) (new_grain N a b) ls s ->
  n_hand (g_net s) e = Some x -> encoded L N x l -> gstep N s (GWrite e) s' ->
  length (wa_met (watched L N ls) e) = length (lo_a L) /\
  n_writes (g_net s') = n_writes (g_net s) ++ [wire_of (dest_of (nsess N e) (ml_dest x)) (as_met L N e ls) l] /\
  n_wire (g_net s') = n_wire (g_net s) ++ wire_of (dest_of (nsess N e) (ml_dest x)) (as_met L N e ls) l.
Proof. exact (fun R => exact_write L N R a b ls s e x l s'). Qed.
Print Assumptions C101_exact_partial.

(** And it is written: no processor drops it, and the goroutine that has it can go on. *)
Theorem C101_gets_out_partial L N a b ls s e x l : ready L N -> grun N (lower_switches L N) (new_grain N a b) ls s ->
  n_hand (g_net s) e = Some x -> encoded L N x l ->
  (forall s', ~ gstep N s (GBack e) s') /\ exists lb s', (lb = GHop e \/ lb = GWrite e) /\ gstep N s lb s'.
Proof. exact (fun R => exact_goes_on L N R a b ls s e x l). Qed.
Print Assumptions C101_gets_out_partial.

(** So in every stack, with every processor below the codec that sends messages on in either case: switched off when a message is before it and on again when it is past, it leaves the message without its header, though every switch is as it was made, before and after. *)
Theorem C101_any_between_refuted L N a b e x l n i kd : ready L N -> encoded L N x l -> lo_above_a L < n -> lo_a L !! n = Some i ->
  e_procs (na N) !! i = Some (Proc kd true) -> (forall o, sends_on (Proc kd o) = true) -> 0 < ntxcap N ->
  exists s, grun N (lower_switches L N) (new_grain N a b) (between_labels L e x i n) s /\ (forall j, g_on s SideA j = as_made (na N) j) /\
    n_writes (g_net s) = [wire_of (dest_of (nsess N e) (ml_dest x))
      (<[n - S (lo_above_a L) := Proc kd false]> (below (na N) (lo_a L) (lo_above_a L))) l].
Proof. exact (fun R => between L N R a b e x l n i kd). Qed.
Print Assumptions C101_any_between_refuted.

(** The session resolver of the example. *)
Example C101_between_example : exists s,
  grun ex_net (lower_switches ex_lay ex_net) (new_grain ex_net ex_start ex_start) (between_labels ex_lay 0 (Mail None (MBytes [0; 0; 0; 0; 9]%Z)) 1 1) s /\
  n_writes (g_net s) = [wire_of 7 (<[0 := Proc KSession false]> (below (na ex_net) (seq 0 6) 0)) [0; 0; 0; 0; 9]%Z] /\
  n_writes (g_net s) <> [wire_of 7 (below (na ex_net) (seq 0 6) 0) [0; 0; 0; 0; 9]%Z].
Proof.
  destruct (C101_any_between_refuted ex_lay ex_net ex_start ex_start 0 (Mail None (MBytes [0; 0; 0; 0; 9]%Z)) [0; 0; 0; 0; 9]%Z 1 1 KSession)
    as (s & H1 & _ & H2); [exact ex_ready| |simpl; lia|done|done|by intros []|simpl; lia|].
  { split; [by vm_compute|]. split; [done|vm_compute; done]. }
  exists s. split; [exact H1|]. simpl in H2. split; [exact H2|]. rewrite H2. by vm_compute.
Qed.

(** The messages of both endpoints are inside the processors at the same time; the statistics counter is switched while one is before it and the other behind it; the second overtakes the first. *)
Definition ex_grain : list glab :=
  [GNet (NPut 0 ex_x); GNet (NPut 1 ex_y); GTake 0; GHop 0; GTake 1; GHop 0; GHop 1; GHop 1; GHop 1; GSet SideA 2 false;
   GHop 0; GHop 1; GHop 1; GHop 1; GWrite 1; GHop 0; GHop 0; GHop 0; GWrite 0; GNet (NRead 25); GNet NDeliver; GNet NDeliver;
   GNet (NListen 7); GNet (NListen 7)].
Ltac hop := eapply gk_hop; [vm_compute; reflexivity|eexists; split; [vm_compute; reflexivity|intros d u w; vm_compute; reflexivity]|vm_compute; reflexivity].
Ltac put_out := eapply gk_write; [vm_compute; reflexivity|vm_compute; reflexivity|vm_compute; reflexivity].
Ltac take_up := eapply gk_take; [vm_compute; reflexivity|vm_compute; reflexivity|vm_compute; reflexivity].
Example C101_example : exists s, grun ex_net (gently ex_lay ex_net) (new_grain ex_net ex_start ex_start) ex_grain s /\
  all_sendable ex_net KBytes (below (nb ex_net) (seq 0 6) 0) (net_labels (outside ex_grain)) /\
  heard 7%Z (g_net s) = [MBytes [9]; MBytes [131; 2]]%Z /\ settled (g_net s).
Proof.
  eexists. split; [|split; [|split]].
  { unfold ex_grain.
    eapply grun_cons; [done|apply gk_net; [done|]; apply nk_put; simpl; lia|].
    eapply grun_cons; [done|apply gk_net; [done|]; apply nk_put; simpl; lia|].
    eapply grun_cons; [done|take_up|]. eapply grun_cons; [done|hop|]. eapply grun_cons; [done|take_up|].
    eapply grun_cons; [done|hop|]. eapply grun_cons; [done|hop|]. eapply grun_cons; [done|hop|]. eapply grun_cons; [done|hop|].
    eapply grun_cons; [intros p Hp; by injection Hp as <-|apply gk_set|].
    eapply grun_cons; [done|hop|]. eapply grun_cons; [done|hop|]. eapply grun_cons; [done|hop|]. eapply grun_cons; [done|hop|].
    eapply grun_cons; [done|put_out|].
    eapply grun_cons; [done|hop|]. eapply grun_cons; [done|hop|]. eapply grun_cons; [done|hop|].
    eapply grun_cons; [done|put_out|].
    eapply grun_cons; [exists 0, 2; vm_compute; split; [done|split; [done|discriminate]]
      |apply gk_net; [done|]; eapply nk_read; [lia|vm_compute; lia|done|one]|].
    eapply grun_cons; [done|apply gk_net; [done|]; apply nk_deliver; simpl; lia|].
    eapply grun_cons; [done|apply gk_net; [done|]; apply nk_deliver; simpl; lia|].
    eapply grun_cons; [done|apply gk_net; [done|]; by apply nk_listen|].
    eapply grun_cons; [done|apply gk_net; [done|]; by apply nk_listen|]. constructor. }
  { intros e x Hx. unfold ex_grain, net_labels, outside in Hx. simpl in Hx. repeat (apply elem_of_cons in Hx as [Hx|Hx]; [try discriminate Hx|]);
      [| |by apply elem_of_nil in Hx]; injection Hx as -> ->; eexists; (apply ex_sendable; try done; simpl; lia). }
  { by vm_compute. }
  split; [by vm_compute|]. split; [done|]. intros z.
  destruct (decide (z = 7%Z)) as [->|Hz]; [by vm_compute|]. simpl. by rewrite !fn_lookup_insert_ne by congruence.
Qed.

(** A session resolver switched off and on again while a message for session 7 is before it: whenever a message is taken, written or read, the two stacks agree; yet the listener of session 0 is called with the last byte of the message and nobody hears the rest. *)
Definition ex_between : list glab :=
  [GNet (NPut 0 (Mail None (MBytes [0; 0; 0; 0; 9]%Z))); GTake 0; GHop 0; GSet SideA 1 false; GHop 0; GSet SideA 1 true;
   GHop 0; GHop 0; GHop 0; GHop 0; GWrite 0; GNet (NRead 12); GNet NDeliver; GNet (NListen 0)].
Definition agreed (N : net) (s : gst) (l : glab) : Prop :=
  match l with
  | GTake _ | GWrite _ => forall d i, g_on s d i = w_on (new_swap N (n_a (g_net s)) (n_b (g_net s))) d i
  | GNet l => whole_read false (g_net s) l
  | _ => True
  end.
Theorem C101_between_refuted : exists s, grun ex_net (agreed ex_net) (new_grain ex_net ex_start ex_start) ex_between s /\
  ready ex_lay ex_net /\ all_sendable ex_net KBytes (below (nb ex_net) (seq 0 6) 0) (net_labels (outside ex_between)) /\
  n_seen (g_net s) = [(0, MBytes [9])]%Z /\ mails_for ex_net 0 [(0, Mail None (MBytes [0; 0; 0; 0; 9]%Z))] = [] /\
  settled (g_net s) /\ all_sent (g_net s).
Proof.
  eexists. split; [|split; [exact ex_ready|split; [|split; [|split; [|split]]]]].
  { unfold ex_between.
    eapply grun_cons; [done|apply gk_net; [done|]; apply nk_put; simpl; lia|].
    eapply grun_cons; [done|take_up|]. eapply grun_cons; [done|hop|].
    eapply grun_cons; [done|apply gk_set|]. eapply grun_cons; [done|hop|]. eapply grun_cons; [done|apply gk_set|].
    eapply grun_cons; [done|hop|]. eapply grun_cons; [done|hop|]. eapply grun_cons; [done|hop|]. eapply grun_cons; [done|hop|].
    eapply grun_cons; [|put_out|].
    { intros [] i; [|done]. destruct i as [|[|i]]; done. }
    eapply grun_cons; [exists 0, 1; vm_compute; split; [done|split; [done|done]]
      |apply gk_net; [done|]; eapply nk_read; [lia|vm_compute; lia|done|one]|].
    eapply grun_cons; [done|apply gk_net; [done|]; apply nk_deliver; simpl; lia|].
    eapply grun_cons; [done|apply gk_net; [done|]; by apply nk_listen|]. constructor. }
  { intros e x Hx. unfold ex_between, net_labels, outside in Hx. simpl in Hx. repeat (apply elem_of_cons in Hx as [Hx|Hx]; [try discriminate Hx|]);
      [|by apply elem_of_nil in Hx]. injection Hx as -> ->. eexists. apply ex_sendable; try done; simpl; lia. }
  { by vm_compute. }
  { by vm_compute. }
  { split; [by vm_compute|]. split; [by vm_compute|]. intros z. destruct (decide (z = 0%Z)) as [->|Hz]; [by vm_compute|]. simpl. by rewrite !fn_lookup_insert_ne by congruence. }
  intros [|e]; by vm_compute.
Qed.
Print Assumptions C101_between_refuted.
