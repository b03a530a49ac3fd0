(** * Theorems about two stacks that talk in both directions (property C88)

    Only statements: every proof is one lemma.  [drun D ok s ls s']: the
    goroutines of both stacks, of their processors and the connection run, in
    any order, as long as [ok] holds of every step. *)
From Verif Require Import GoBase UBufModel UBufSpec FrameModel FrameSpec StackModel StackSpec StackFacts StackEnd NetModel NetSpec DuoModel DuoSpec DuoProofs DuoRest.

(** ** C88 *)

(** If every Read ends where a Write of the other side ended (and, without a frame decoder lowest, returns one Write), then in both directions, whatever heartbeats, requests for statistics and answers are sent in between: the listeners of the other side are called with the messages given to this side's endpoints and with nothing else, whole, each to the right session, in an order in which the mails of every endpoint stay in order, and once nothing is under way all of those that were sent have been seen. *)
Theorem C88_in_order_partial D k ps ss ls s : paired D k ps -> (forall b, init_st (du_env D b) = Some (ss b)) ->
  drun D (whole_reads (framed ps)) (new_duo ss) ls s -> dall_sendable D k ps ls ->
  forall b, exists o, (forall e, mails_of e o ++ dunsent (b, e) s = dgiven (b, e) ls) /\
    forall z, exists rest, dheard (negb b) z s ++ rest = mails_for (one_way D b) z o /\ (dsettled s -> rest = []).
Proof. exact (fun P => duo_in_order D k ps P ss ls s). Qed.
Print Assumptions C88_in_order_partial.

(** Then also the other side notes at most the heartbeats this side sent, and this side shows the numbers of the other side at most as often as it asked for them; once nothing is under way, exactly as often. *)
Theorem C88_own_partial D k ps ss ls s : paired D k ps -> (forall b, init_st (du_env D b) = Some (ss b)) ->
  drun D (whole_reads (framed ps)) (new_duo ss) ls s -> dall_sendable D k ps ls ->
  forall b, noted (negb b) s <= selfs b 131%Z ls /\ showed b s <= selfs b 16%Z ls /\
    (dsettled s -> noted (negb b) s = selfs b 131%Z ls /\ showed b s = selfs b 16%Z ls).
Proof. exact (fun P => duo_own D k ps P ss ls s). Qed.
Print Assumptions C88_own_partial.

(** Then it is always possible that everything given so far, in both directions, is sent, received and seen, and all questions are answered. *)
Theorem C88_finishes_partial D k ps ss ls s : paired D k ps -> answers_fit D ps -> 0 < du_rxcap D ->
  (forall b, init_st (du_env D b) = Some (ss b)) ->
  drun D (whole_reads (framed ps)) (new_duo ss) ls s -> dall_sendable D k ps ls ->
  exists ms s', drun D (whole_reads (framed ps)) s ms s' /\ Forall dinner ms /\ dsettled s' /\ dall_sent s'.
Proof. exact (fun P A C => duo_finishes D k ps P A C ss ls s). Qed.
Print Assumptions C88_finishes_partial.

(** And it cannot be otherwise: in whatever order the goroutines run, there are never more than six steps for each message that was given and three for each heartbeat and each request for statistics, and they stop only when everything was sent, received and seen. *)
Theorem C88_ends_partial D k ps ss ls s : paired D k ps -> answers_fit D ps -> 0 < du_rxcap D ->
  (forall b, init_st (du_env D b) = Some (ss b)) ->
  drun D (whole_reads (framed ps)) (new_duo ss) ls s -> dall_sendable D k ps ls ->
  length ls <= 6 * dmails_put ls + 3 * own_sent ls /\
  ((forall l s', dinner l -> whole_reads (framed ps) s l -> ~ dstep D s l s') -> dsettled s /\ dall_sent s).
Proof. exact (fun P => duo_ends D k ps P ss ls s). Qed.
Print Assumptions C88_ends_partial.

(** However the bytes are divided: no channel ever holds more than its capacity. *)
Theorem C88_bounded_partial D ss ls s : drun D any_reads (new_duo ss) ls s ->
  (forall e, length (d_tx s e) <= du_txcap D) /\ forall z, length (d_rx s z) <= du_rxcap D.
Proof. exact (duo_bounded D any_reads ss ls s). Qed.
Print Assumptions C88_bounded_partial.

(** But if the first Read returns all of a frame but its last four bytes, the listener is called with a message nobody sent: what the codec makes of the encoding without its last four bytes. *)
Theorem C88_truncated_refuted D k qs cap b e x l m ss : paired D k (qs ++ [Proc (KFrame cap) true]) ->
  Forall (fun p => framing p = false) qs -> (forall b, init_st (du_env D b) = Some (ss b)) -> 0 < du_txcap D -> 0 < du_rxcap D ->
  sendable_as (one_way D b) k (qs ++ [Proc (KFrame cap) true]) e x l -> 4 < length l -> decodes k (take (length l - 4) l) m ->
  let z := dest_of (du_sess D b e) (ml_dest x) in
  exists n s, drun D any_reads (new_duo ss) [DPut (b, e) x; DTake (b, e); DPass (b, e); DRead (negb b) n; DDeliver (negb b); DListen (negb b) z] s /\
    dheard (negb b) z s = [m].
Proof. exact (duo_cut D k qs cap b e x l m ss). Qed.
Print Assumptions C88_truncated_refuted.

(** Two stacks with sessions, statistics, heartbeats and frames over connections 3 and 5; endpoints 0 and 1 of both serve sessions 7 and 0. *)
Definition ex_qs : list proc := [Proc KSession true; Proc KStat true; Proc KHeartbeat true; Proc KLoadBalancer false].
Definition ex_low : list proc := ex_qs ++ [Proc (KFrame None) true].
Definition ex_procs : list proc := Proc KBytes true :: ex_low.
Definition ex_side : env :=
  Env (build_links (seq 0 6) no_links) ex_procs 64 (build_overhead (p_kind <$> ex_procs) 0) [110; 97]%Z [0; 7]%Z
    (fun _ => false) (fun _ _ l => (length l, false)) (fun _ _ _ => false).
Definition ex_start : st := match init_st ex_side with Some s => s | None => St [] [] [] end.
Definition ex_duo : duo := Duo (fun _ => ex_side) (fun b => if b then 3 else 5) (fun _ e => if e =? 0 then 7%Z else 0%Z) 2 2.
Example ex_paired : paired ex_duo KBytes ex_low.
Proof.
  assert (wired ex_side (seq 0 6) ([] ++ Proc KBytes true :: ex_low)) as W.
  { split_and!; [done|apply NoDup_seq|done|]. apply Forall2_same_length_lookup_2; [done|].
    intros i x y Hx Hy. apply lookup_seq in Hx as [-> _]. done. }
  split; [|by repeat constructor]. intros b. split; [|done].
  exists (seq 0 6), (seq 0 6), [], []. split_and!; try done; by repeat constructor.
Qed.
Example ex_fit : answers_fit ex_duo ex_low /\ forall b : bool, init_st (du_env ex_duo b) = Some ex_start.
Proof. split; [by intros b; vm_compute|]. by intros b; vm_compute. Qed.
(** Side true sends a mail and a heartbeat, side false asks for statistics and sends a mail; the question is answered. *)
Definition ex_labels : list dlab :=
  [DPut (true, 0%nat) (Mail None (MBytes [131; 2])); DPut (false, 1%nat) (Mail (Some 7) (MBytes [9])); DSelf true 3 131; DSelf false 2 16;
   DTake (true, 0%nat); DTake (false, 1%nat); DPass (true, 0%nat); DRead true 7; DPass (false, 1%nat); DRead false 44; DRead true 12;
   DDeliver true; DDeliver false; DListen true 7; DListen false 7]%Z.
Example C88_example : exists s, drun ex_duo (whole_reads (framed ex_low)) (new_duo (fun _ => ex_start)) ex_labels s /\
  dall_sendable ex_duo KBytes ex_low ex_labels /\ dheard true 7%Z s = [MBytes [9]%Z] /\ dheard false 7%Z s = [MBytes [131; 2]%Z] /\
  noted false s = 1 /\ showed false s = 1 /\ d_wire s true = [] /\ d_wire s false = [].
Proof.
  Ltac run20 := eapply (finishes_exec _ _ _ _ _ _ _ _ 20); [vm_compute; reflexivity|vm_compute; reflexivity].
  eexists. split; [|split].
  { unfold ex_labels.
    eapply drun_cons; [done|apply dk_put; simpl; lia|].
    eapply drun_cons; [done|apply dk_put; simpl; lia|].
    eapply drun_cons; [done|eapply dk_self; [done|done|done|run20]|].
    eapply drun_cons; [done|eapply dk_self; [done|done|done|run20]|].
    eapply drun_cons; [done|by apply dk_take|].
    eapply drun_cons; [done|by apply dk_take|].
    eapply drun_cons; [done|eapply dk_pass; [done|run20]|].
    eapply drun_cons; [exists 0, 1; vm_compute; split; [done|split; [done|discriminate]]
      |eapply dk_read; [done|lia|vm_compute; lia|done|run20]|].
    eapply drun_cons; [done|eapply dk_pass; [done|run20]|].
    eapply drun_cons; [exists 0, 3; vm_compute; split; [done|split; [done|discriminate]]
      |eapply dk_read; [done|lia|vm_compute; lia|done|run20]|].
    eapply drun_cons; [exists 1, 1; vm_compute; split; [done|split; [done|discriminate]]
      |eapply dk_read; [done|lia|vm_compute; lia|done|run20]|].
    eapply drun_cons; [done|apply dk_deliver; [done|simpl; lia]|].
    eapply drun_cons; [done|apply dk_deliver; [done|simpl; lia]|].
    eapply drun_cons; [done|by apply dk_listen|].
    apply drun_one; [done|by apply dk_listen]. }
  { assert (7%Z ∈ e_sessions ex_side) by (right; left).
    intros b e x Hx. unfold ex_labels in Hx. repeat (apply elem_of_cons in Hx as [Hx|Hx]; [try discriminate Hx|]);
      [| |by apply elem_of_nil in Hx]; injection Hx as -> -> ->; eexists; (split; [done|]); (split; [done|]); (split; [done|]);
      (split; [vm_compute; done|]); (split; [vm_compute; done|]); (split; [simpl; lia|]); (split; [by left|]); done. }
  by vm_compute.
Qed.
(** Endpoint 0 of side true sends the six bytes 1 ... 6: session 7 of the other side gets the message 1, 2. *)
Example C88_example_truncated : let x := Mail None (MBytes [1; 2; 3; 4; 5; 6])%Z in
  Forall (fun p => framing p = false) ex_qs /\ 0 < du_txcap ex_duo /\ 0 < du_rxcap ex_duo /\
  sendable_as (one_way ex_duo true) KBytes (ex_qs ++ [Proc (KFrame None) true]) 0 x [1; 2; 3; 4; 5; 6]%Z /\
  decodes KBytes (take 2 [1; 2; 3; 4; 5; 6]%Z) (MBytes [1; 2]%Z).
Proof.
  split; [by repeat constructor|]. split; [simpl; lia|]. split; [simpl; lia|]. split; [|done].
  assert (7%Z ∈ e_sessions ex_side) by (right; left).
  (split; [done|]); (split; [done|]); (split; [done|]);
      (split; [vm_compute; done|]); (split; [vm_compute; done|]); (split; [simpl; lia|]); (split; [by left|]); done.
Qed.
