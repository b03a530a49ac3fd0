(** * Theorems about switching processors while two stacks talk (property C100)

    Only statements: every proof is one lemma.  [wrun N ok s ls s']: the
    goroutines of both stacks, the connection and the users' calls of SetEnable
    run, in any order, as long as [ok] holds of every step. *)
From Verif Require Import GoBase UBufModel UBufSpec FrameModel FrameSpec StackModel StackSpec StackFacts StackEnd NetModel NetSpec NetProofs SwapModel SwapSpec SwapProofs SwapRest SwapCross.

(** ** C100 *)

(** What SetEnable does: that switch and no other, and nothing to a message. *)
Theorem C100_switch_partial N s d i b s' : wstep N s (WSet d i b) s' <->
  w_net s' = w_net s /\ (w_on s' = <[d := <[i := b]> (w_on s d)]> (w_on s)).
Proof. exact (switch_does N s d i b s'). Qed.
Print Assumptions C100_switch_partial.

(** If only statistics counters, heartbeats and flow controllers are switched, at any moment and on either side, every message is still heard, whole, by the right session, in order. *)
Theorem C100_unseen_partial L N a b ls s : ready L N -> caches_idle (nb N) b -> wrun N (discreet L N) (new_swap N a b) ls s ->
  all_sendable N (lo_codec L) (below (nb N) (lo_b L) (lo_above_b L)) (net_labels ls) ->
  exists o, (forall e, mails_of e o ++ unsent e (w_net s) = given e (net_labels ls)) /\
    forall z, exists rest, heard z (w_net s) ++ rest = mails_for N z o /\ (settled (w_net s) -> rest = []).
Proof. exact (discreet_in_order L N a b ls s). Qed.
Print Assumptions C100_unseen_partial.

(** And everything given so far can still be sent, received and heard, and the goroutines stop only when it has been. *)
Theorem C100_unseen_finishes_partial L N a b ls s : ready L N -> 0 < nrxcap N -> caches_idle (nb N) b ->
  wrun N (discreet L N) (new_swap N a b) ls s ->
  all_sendable N (lo_codec L) (below (nb N) (lo_b L) (lo_above_b L)) (net_labels ls) -> unseen (lo_codec L) = false ->
  (exists ms s', wrun N (discreet L N) s (WNet <$> ms) s' /\ Forall inner ms /\ settled (w_net s') /\ all_sent (w_net s')) /\
  ((forall l s', inner l -> discreet L N s (WNet l) -> ~ wstep N s (WNet l) s') -> settled (w_net s) /\ all_sent (w_net s)).
Proof. exact (discreet_finishes L N a b ls s). Qed.
Print Assumptions C100_unseen_finishes_partial.

(** Whatever is switched meanwhile, this takes at most six steps for each message. *)
Theorem C100_unseen_ends_partial L N a b ls s : ready L N -> caches_idle (nb N) b -> wrun N (discreet L N) (new_swap N a b) ls s ->
  all_sendable N (lo_codec L) (below (nb N) (lo_b L) (lo_above_b L)) (net_labels ls) ->
  length (net_labels ls) <= 6 * mails_put (net_labels ls).
Proof. exact (swap_ends L N a b ls s). Qed.
Print Assumptions C100_unseen_ends_partial.

(** If any processor is switched, but the receiver's only while nothing is under way, and a message is sent only while the two stacks agree, every message is heard, whole, by the right session, in order. *)
Theorem C100_careful_partial L N a b ls s : caches_idle (nb N) b -> wrun N (careful L N) (new_swap N a b) ls s ->
  exists o, (forall e, mails_of e o ++ unsent e (w_net s) = given e (net_labels ls)) /\
    forall z, exists rest, heard z (w_net s) ++ rest = mails_for N z o /\ (settled (w_net s) -> rest = []).
Proof. exact (careful_in_order L N a b ls s). Qed.
Print Assumptions C100_careful_partial.

(** Whenever the stacks agree, everything given so far can be sent, received and heard, and the goroutines stop only when it has been. *)
Theorem C100_finishes_partial L N a b ls s : 0 < nrxcap N -> caches_idle (nb N) b -> wrun N (careful L N) (new_swap N a b) ls s ->
  let M := now N (w_on s) in ready L M ->
  (forall e x, x ∈ unsent e (w_net s) -> sendable M (lo_codec L) (below (nb M) (lo_b L) (lo_above_b L)) e x) ->
  (exists ms s', wrun N (careful L N) s (WNet <$> ms) s' /\ Forall inner ms /\ settled (w_net s') /\ all_sent (w_net s')) /\
  ((forall l s', inner l -> careful L N s (WNet l) -> ~ wstep N s (WNet l) s') -> settled (w_net s) /\ all_sent (w_net s)).
Proof. exact (careful_finishes L N a b ls s). Qed.
Print Assumptions C100_finishes_partial.

(** But if the receiver switches its session resolver (or frame decoder) off while a message is under way, the listener of session 0 is called with that message and the header before it, for whatever session it was. *)
Theorem C100_receiver_refuted L N e x l i kd bs a b : ready L N -> lo_codec L = KBytes -> caches_idle (nb N) b -> 0 < ntxcap N -> 0 < nrxcap N ->
  lo_b L !! S (lo_above_b L) = Some i -> below (nb N) (lo_b L) (lo_above_b L) = Proc kd true :: bs -> visible_header kd ->
  existsb resolves bs = false -> sendable_as N KBytes (Proc kd true :: bs) e x l -> 0%Z ∈ e_sessions (nb N) ->
  let z := dest_of (nsess N e) (ml_dest x) in
  exists n s, wrun N one_by_one (new_swap N a b)
    [WNet (NPut e x); WNet (NTake e); WNet (NPass e); WSet SideB i false; WNet (NRead n); WNet NDeliver; WNet (NListen 0)] s /\
    heard 0 (w_net s) = [MBytes (StackSpec.put z (Proc kd true) l)].
Proof. exact (off_at_b L N e x l i kd bs a b). Qed.
Print Assumptions C100_receiver_refuted.

(** If the sender switches its session resolver off, the first four bytes of a message choose the session that hears the rest. *)
Theorem C100_sender_refuted L N e x i z r bs cs a b : ready L N -> lo_codec L = KBytes -> caches_idle (nb N) b -> 0 < ntxcap N -> 0 < nrxcap N ->
  lo_a L !! S (lo_above_a L) = Some i -> below (na N) (lo_a L) (lo_above_a L) = Proc KSession true :: cs ->
  below (nb N) (lo_b L) (lo_above_b L) = Proc KSession true :: bs ->
  existsb resolves bs = false -> (0 <= z < 2^32)%Z -> r <> [] -> z ∈ e_sessions (nb N) ->
  sendable_as N KBytes (Proc KSession true :: bs) e x (digits BE W32 z ++ r) ->
  exists n s, wrun N one_by_one (new_swap N a b)
    [WSet SideA i false; WNet (NPut e x); WNet (NTake e); WNet (NPass e); WNet (NRead n); WNet NDeliver; WNet (NListen z)] s /\
    heard z (w_net s) = [MBytes r].
Proof. exact (off_at_a L N e x i z r bs cs a b). Qed.
Print Assumptions C100_sender_refuted.

(** If the sender switches its codec off, a message is taken from the endpoint and gone: nothing is written, nothing is under way, nobody hears it. *)
Theorem C100_codec_refuted L N e x l i a b : ready L N -> encodes (lo_codec L) (ml_msg x) l -> 0 < ntxcap N -> lo_a L !! lo_above_a L = Some i ->
  exists s, wrun N one_by_one (new_swap N a b) [WSet SideA i false; WNet (NPut e x); WNet (NTake e); WNet (NPass e)] s /\
    settled (w_net s) /\ all_sent (w_net s) /\ n_writes (w_net s) = [] /\ forall z, heard z (w_net s) = [].
Proof. exact (codec_off L N e x l i a b). Qed.
Print Assumptions C100_codec_refuted.

(** If the receiver switches a discarder on while a message is under way, nobody hears it. *)
Theorem C100_discarder_refuted L N e x i ids a b : ready L N -> sendable N (lo_codec L) (below (nb N) (lo_b L) (lo_above_b L)) e x ->
  lo_b L = ids ++ [i] -> e_procs (nb N) !! i = Some (Proc KDiscarder false) -> 0 < ntxcap N ->
  exists n s, wrun N one_by_one (new_swap N a b) [WNet (NPut e x); WNet (NTake e); WNet (NPass e); WSet SideB i true; WNet (NRead n)] s /\
    0 < n /\ settled (w_net s) /\ all_sent (w_net s) /\ forall z, heard z (w_net s) = [].
Proof. exact (discarded L N e x i ids a b). Qed.
Print Assumptions C100_discarder_refuted.

(** Two stacks with sessions, statistics, heartbeats and frames; endpoints 0 and 1 of A serve sessions 7 and 0. *)
Definition ex_low : list proc := [Proc KSession true; Proc KStat true; Proc KHeartbeat true; Proc KLoadBalancer false; Proc (KFrame None) true].
Definition ex_procs : list proc := Proc KBytes true :: ex_low.
Definition ex_side : env :=
  Env (build_links (seq 0 6) no_links) ex_procs 64 (build_overhead (p_kind <$> ex_procs) 0) [110; 97]%Z [0; 7]%Z
    (fun _ => false) (fun _ _ l => (length l, false)) (fun _ _ _ => false).
Definition ex_start : st := match init_st ex_side with Some s => s | None => St [] [] [] end.
Definition ex_net : net := Net ex_side ex_side 3 5 (fun e => if e =? 0 then 7%Z else 0%Z) 2 2.
Definition ex_lay : layout := Layout KBytes (seq 0 6) 0 (seq 0 6) 0.
(** Whatever switches both sides share, if codec on and load balancer off. *)
Lemma ex_fit E c : e_links E = build_links (seq 0 6) no_links -> e_overhead E = build_overhead (p_kind <$> ex_procs) 0 ->
  e_mtu E = 64%Z -> (e_isref E c = false) -> p_kind <$> e_procs E = p_kind <$> ex_procs ->
  p_enable <$> e_procs E !! 0 = Some true -> p_enable <$> e_procs E !! 4 = Some false -> fit E KBytes (seq 0 6) 0 c.
Proof.
  intros El Eo Em Er Ek E0 E4. destruct E as [links procs mtu ov nm ss ir w sr]. simpl in *. subst.
  destruct procs as [|[k0 b0] [|[k1 b1] [|[k2 b2] [|[k3 b3] [|[k4 b4] [|[k5 b5] [|? ?]]]]]]]; try discriminate Ek.
  injection Ek as -> -> -> -> -> ->. injection E0 as ->. injection E4 as ->.
  split; [|split; [constructor|split; [|done]]].
  - split_and!; [done|apply (NoDup_seq 0 6)|done|by repeat constructor].
  - repeat constructor; by destruct b1, b2, b3, b5.
Qed.
Example ex_ready : ready ex_lay ex_net.
Proof.
  split; [by apply ex_fit|]. split; [done|]. split; [by apply ex_fit|]. by repeat constructor; right.
Qed.
Example ex_idle : caches_idle (nb ex_net) ex_start.
Proof. apply init_idle. by vm_compute. Qed.
Lemma ex_sendable (N : net) e x l : e_mtu (na N) = 64%Z -> e_mtu (nb N) = 64%Z -> e_overhead (na N) = build_overhead (p_kind <$> ex_procs) 0 ->
  ml_msg x = MBytes l -> 0 < length l < 20 -> e_sessions (nb N) = [0; 7]%Z ->
  dest_of (nsess N e) (ml_dest x) = 7%Z -> sendable_as N KBytes ex_low e x l.
Proof.
  intros M1 M2 O1 Hm Hl Hs Hd. unfold sendable_as. rewrite M1, M2, O1, Hm, Hs, Hd.
  assert (room ex_low = 11%Z /\ build_overhead (p_kind <$> ex_procs) 0 = 11%Z) as [-> ->] by (split; vm_compute; reflexivity).
  split; [done|]. split; [done|]. split; [by intros ->; simpl in Hl; lia|]. split; [lia|]. split; [lia|]. split; [lia|].
  split; [by left|]. right. left.
Qed.
(** A message under way, statistics counter off at A, heartbeat off at B, another message, read together. *)
Definition ex_x : mail := Mail None (MBytes [131; 2])%Z.
Definition ex_y : mail := Mail (Some 7%Z) (MBytes [9])%Z.
Definition ex_discreet : list wlab :=
  [WNet (NPut 0 ex_x); WNet (NTake 0); WNet (NPass 0); WSet SideA 2 false; WSet SideB 3 false;
   WNet (NPut 1 ex_y); WNet (NTake 1); WNet (NPass 1); WNet (NRead 25); WNet NDeliver; WNet NDeliver; WNet (NListen 7); WNet (NListen 7)].
Ltac one := eapply (finishes_exec _ _ _ _ _ _ _ _ 20); [vm_compute; reflexivity|vm_compute; reflexivity].
Example C100_example_unseen : exists s, wrun ex_net (discreet ex_lay ex_net) (new_swap ex_net ex_start ex_start) ex_discreet s /\
  all_sendable ex_net KBytes (below (nb ex_net) (seq 0 6) 0) (net_labels ex_discreet) /\
  heard 7%Z (w_net s) = [MBytes [131; 2]; MBytes [9]]%Z /\ settled (w_net s) /\ 0 < nrxcap ex_net /\ unseen (lo_codec ex_lay) = false.
Proof.
  eexists. split; [|split; [|split; [|split; [|split]]]].
  { unfold ex_discreet.
    eapply wrun_cons; [done|apply wk_net, nk_put; simpl; lia|].
    eapply wrun_cons; [done|by apply wk_net, nk_take|].
    eapply wrun_cons; [done|apply wk_net; eapply nk_pass; [done|one]|].
    eapply wrun_cons; [intros p Hp; by injection Hp as <-|apply wk_set|].
    eapply wrun_cons; [intros p Hp; by injection Hp as <-|apply wk_set|].
    eapply wrun_cons; [done|apply wk_net, nk_put; simpl; lia|].
    eapply wrun_cons; [done|by apply wk_net, nk_take|].
    eapply wrun_cons; [done|apply wk_net; eapply nk_pass; [done|one]|].
    eapply wrun_cons; [exists 0, 2; vm_compute; split; [done|split; [done|discriminate]]
      |apply wk_net; eapply nk_read; [lia|vm_compute; lia|done|one]|].
    eapply wrun_cons; [done|apply wk_net, nk_deliver; simpl; lia|].
    eapply wrun_cons; [done|apply wk_net, nk_deliver; simpl; lia|].
    eapply wrun_cons; [done|by apply wk_net, nk_listen|].
    apply wrun_one; [done|by apply wk_net, nk_listen]. }
  { intros e x Hx. unfold ex_discreet, net_labels in Hx. simpl in Hx. repeat (apply elem_of_cons in Hx as [Hx|Hx]; [try discriminate Hx|]);
      [| |by apply elem_of_nil in Hx]; injection Hx as -> ->; eexists; (apply ex_sendable; try done; simpl; lia). }
  1, 4: by vm_compute. 2: simpl; lia. split; [by vm_compute|]. split; [done|]. intros z.
  destruct (decide (z = 7%Z)) as [->|Hz]; [by vm_compute|]. simpl. by rewrite !fn_lookup_insert_ne by congruence.
Qed.
(** A message is sent and read; then both sides switch their session resolvers off, and a message for session 0 is sent and read. *)
Definition ex_w : mail := Mail (Some 0%Z) (MBytes [5; 6])%Z.
Definition ex_careful : list wlab :=
  [WNet (NPut 0 ex_x); WNet (NTake 0); WNet (NPass 0); WSet SideA 1 false; WNet (NRead 13); WSet SideB 1 false; WNet NDeliver; WNet (NListen 7);
   WNet (NPut 1 ex_w); WNet (NTake 1); WNet (NPass 1); WNet (NRead 9); WNet NDeliver].
Example C100_example_careful : exists s, wrun ex_net (careful ex_lay ex_net) (new_swap ex_net ex_start ex_start) ex_careful s /\
  heard 7%Z (w_net s) = [MBytes [131; 2]]%Z /\ n_rx (w_net s) 0%Z = [MBytes [5; 6]]%Z /\ 0 < nrxcap ex_net /\
  ready ex_lay (now ex_net (w_on s)) /\ all_sent (w_net s).
Proof.
  assert (forall on, on SideA 0 = true -> on SideB 0 = true -> on SideA 4 = false -> on SideB 4 = false ->
    on SideA 1 = on SideB 1 -> on SideA 5 = on SideB 5 -> ready ex_lay (now ex_net on)) as Hr.
  { intros on A0 B0 A4 B4 E1 E5. split; [apply ex_fit; simpl; try done; by rewrite ?A0, ?A4|]. split; [done|].
    split; [apply ex_fit; simpl; try done; by rewrite ?B0, ?B4|].
    unfold below, stack_of. simpl. rewrite E1, E5, A4, B4. repeat constructor; by (left; done) || right. }
  eexists. split; [|split; [|split; [|split; [|split]]]].
  { unfold ex_careful.
    eapply wrun_cons; [done|apply wk_net, nk_put; simpl; lia|].
    eapply wrun_cons; [done|by apply wk_net, nk_take|].
    eapply wrun_cons; [split; [by apply Hr|]; intros x Hx; vm_compute in Hx; injection Hx as <-; eexists; apply (ex_sendable _ 0 ex_x); try done; simpl; lia
      |apply wk_net; eapply nk_pass; [done|one]|].
    eapply wrun_cons; [done|apply wk_set|].
    eapply wrun_cons; [exists 0, 1; vm_compute; split; [done|split; [done|discriminate]]
      |apply wk_net; eapply nk_read; [lia|vm_compute; lia|done|one]|].
    eapply wrun_cons; [right; by vm_compute|apply wk_set|].
    eapply wrun_cons; [done|apply wk_net, nk_deliver; simpl; lia|].
    eapply wrun_cons; [done|by apply wk_net, nk_listen|].
    eapply wrun_cons; [done|apply wk_net, nk_put; simpl; lia|].
    eapply wrun_cons; [done|by apply wk_net, nk_take|].
    eapply wrun_cons; [|apply wk_net; eapply nk_pass; [done|one]|].
    { split; [by apply Hr|]. intros x Hx. vm_compute in Hx. injection Hx as <-. exists [5; 6]%Z. vm_compute.
      repeat split; try done; try (by right); try (by intros ?); left. }
    eapply wrun_cons; [exists 1, 1; vm_compute; split; [done|split; [done|discriminate]]
      |apply wk_net; eapply nk_read; [lia|vm_compute; lia|done|one]|].
    apply wrun_one; [done|apply wk_net, nk_deliver; simpl; lia]. }
  1,2: by vm_compute. 1: simpl; lia. 1: by apply Hr. intros [|[|e]]; by vm_compute.
Qed.
(** Endpoint 0 of A sends to session 7; its message may be the five bytes 0, 0, 0, 7, 1, which a sender without session resolver sends to session 7, too. *)
Example C100_example_refuted : let l := (digits BE W32 7 ++ [1])%Z in
  seq 0 6 !! 1 = Some 1 /\ seq 0 6 !! 0 = Some 0 /\ below ex_side (seq 0 6) 0 = Proc KSession true :: drop 1 ex_low /\ visible_header KSession /\
  existsb resolves (drop 1 ex_low) = false /\ sendable_as ex_net KBytes ex_low 0 (Mail None (MBytes l)) l /\
  0%Z ∈ e_sessions (nb ex_net) /\ 7%Z ∈ e_sessions (nb ex_net) /\ 0 < ntxcap ex_net /\ 0 < nrxcap ex_net /\
  StackSpec.put 7 (Proc KSession true) l = [0; 0; 0; 7; 0; 0; 0; 7; 1]%Z.
Proof.
  cbv zeta. split_and!; try done; try (simpl; lia); try (by left); try (right; left).
  apply ex_sendable; try done. simpl. lia.
Qed.
(** Two stacks with a discarder, off, below a session resolver. *)
Definition ex_low2 : list proc := [Proc KSession true; Proc KDiscarder false].
Definition ex_side2 : env :=
  Env (build_links (seq 0 3) no_links) (Proc KBytes true :: ex_low2) 64 (build_overhead (p_kind <$> Proc KBytes true :: ex_low2) 0) [110; 97]%Z [0; 7]%Z
    (fun _ => false) (fun _ _ l => (length l, false)) (fun _ _ _ => false).
Definition ex_net2 : net := Net ex_side2 ex_side2 3 5 (fun e => if e =? 0 then 7%Z else 0%Z) 2 2.
Example C100_example_discarder : let L := Layout KBytes (seq 0 3) 0 (seq 0 3) 0 in
  ready L ex_net2 /\ sendable ex_net2 KBytes (below ex_side2 (seq 0 3) 0) 0 ex_x /\ lo_b L = [0; 1] ++ [2] /\
  e_procs (nb ex_net2) !! 2 = Some (Proc KDiscarder false) /\ 0 < ntxcap ex_net2.
Proof.
  assert (fit ex_side2 KBytes (seq 0 3) 0 3 /\ fit ex_side2 KBytes (seq 0 3) 0 5) as [F3 F5].
  { split; (split; [|split; [constructor|split; [by repeat constructor|done]]]); (split_and!; [done|apply (NoDup_seq 0 3)|done|by repeat constructor]). }
  split; [|split; [|split; [done|split; [done|simpl; lia]]]].
  - split; [done|]. split; [done|]. split; [done|]. by repeat constructor; right.
  - exists [131; 2]%Z. unfold sendable_as. split; [done|]. split; [done|]. split; [done|]. split; [by vm_compute|]. split; [by vm_compute|].
    split; [simpl; lia|]. split; [by left|]. right. left.
Qed.
