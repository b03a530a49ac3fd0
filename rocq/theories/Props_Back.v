(** * Theorems about a client and an echo server (properties C93, C95)

    Only statements: every proof is one lemma.  Side [c] is the client, the
    lowest processor of the other side is an enabled Echo. *)
From Verif Require Import GoBase UBufModel UBufSpec FrameModel FrameSpec StackModel StackSpec StackFacts StackEnd NetModel NetSpec SiftSpec
  DuoModel DuoSpec DuoProofs HushSpec BackSpec BackSift BackProofs BackRest.

(** ** C95: an echo server returns to the client what it sent *)

(** However the connection divides the bytes, the server has written what it read, so far as it read, and no endpoint of it hears anything. *)
Theorem C95_stream D c ss ls s : echoes D c -> drun D any_reads (new_duo ss) ls s -> Forall (quietly c) ls ->
  sent (negb c) s = take (d_got s c) (sent c s) /\ d_up s (negb c) = [] /\
  (forall z, d_rx s (negb c, z) = []) /\ forall z, dheard (negb c) z s = [].
Proof. exact (fun S => returned_stream D c S any_reads ss ls s). Qed.
Print Assumptions C95_stream.

(** So what the client's endpoints hear lies one behind the other in what the client itself wrote. *)
Theorem C95_pieces D c k ps ss ls s z : echoes D c -> hears_by (one_way (twice D c) c) k ps -> init_st (du_env D c) = Some (ss c) ->
  drun D any_reads (new_duo ss) ls s -> Forall (quietly c) ls ->
  laid k (heads ps) (e_mtu (du_env D c)) (sent c s) (dheard c z s) (d_got s (negb c)).
Proof. exact (fun S => own_laid D c S k ps ss ls s z). Qed.
Print Assumptions C95_pieces.

(** If the client's Reads end where its own Writes ended, then every message it sends comes back to its own endpoint of the session the message was for: as it was, once, and in the order in which they were sent. *)
Theorem C95_in_order_partial D c k ps ss ls s : echoes D c -> paired (twice D c) k ps -> init_st (du_env D c) = Some (ss c) ->
  drun D (own_reads c (framed ps)) (new_duo ss) ls s -> Forall (quietly c) ls -> cl_sendable D c k ps ls ->
  exists o, (forall e, mails_of e o ++ dunsent (c, e) s = dgiven (c, e) ls) /\
    forall z, exists rest, dheard c z s ++ rest = mails_for (one_way (twice D c) c) z o /\ (dsettled s -> rest = []).
Proof. exact (fun S P => echo_in_order D c k ps S P ss ls s). Qed.
Print Assumptions C95_in_order_partial.

(** The client's Heartbeat takes its own heartbeats for the server's, and its StatCounter answers its own questions. *)
Theorem C95_own_partial D c k ps ss ls s : echoes D c -> paired (twice D c) k ps -> init_st (du_env D c) = Some (ss c) ->
  drun D (own_reads c (framed ps)) (new_duo ss) ls s -> Forall (quietly c) ls -> cl_sendable D c k ps ls ->
  noted c s <= selfs c 131%Z ls /\ showed c s <= selfs c 16%Z ls /\
  (dsettled s -> noted c s = selfs c 131%Z ls /\ showed c s = selfs c 16%Z ls).
Proof. exact (fun S P => echo_own D c k ps S P ss ls s). Qed.
Print Assumptions C95_own_partial.

(** Whatever has happened, all that the client was given can still come back. *)
Theorem C95_finishes_partial D c k ps ss ls s : echoes D c -> paired (twice D c) k ps -> answers_fit (twice D c) ps -> 0 < du_rxcap D ->
  init_st (du_env D c) = Some (ss c) ->
  drun D (own_reads c (framed ps)) (new_duo ss) ls s -> Forall (quietly c) ls -> cl_sendable D c k ps ls ->
  exists ms s', drun D (own_reads c (framed ps)) s ms s' /\ Forall dinner ms /\ Forall (quietly c) ms /\ dsettled s' /\
    forall e, dunsent (c, e) s' = [].
Proof. exact (fun S P A C => echo_finishes D c k ps S P A C ss ls s). Qed.
Print Assumptions C95_finishes_partial.

(** And it cannot be otherwise: in whatever order the goroutines run, the number of their steps is bounded by what was given and the bytes that were written, and they stop only when everything has come back. *)
Theorem C95_ends_partial D c k ps ss ls s : echoes D c -> paired (twice D c) k ps -> answers_fit (twice D c) ps -> 0 < du_rxcap D ->
  init_st (du_env D c) = Some (ss c) ->
  drun D (own_reads c (framed ps)) (new_duo ss) ls s -> Forall (quietly c) ls -> cl_sendable D c k ps ls ->
  length ls <= 5 * dmails_put ls + own_sent ls + 2 * length (sent c s) /\
  ((forall l s', dinner l -> quietly c l -> own_reads c (framed ps) s l -> ~ dstep D s l s') ->
    dsettled s /\ forall e, dunsent (c, e) s = []).
Proof. exact (fun S P => echo_ends D c k ps S P ss ls s). Qed.
Print Assumptions C95_ends_partial.

(** But without frames, as in examples/echo, two messages that come back in one Read are heard as one: the second, with its headers, is the end of the first. *)
Theorem C95_joined_refuted D c ps e d l1 l2 ss : echoes D c -> paired (twice D c) KBytes ps -> Forall (fun p => framing p = false) ps ->
  init_st (du_env D c) = Some (ss c) -> 0 < du_txcap D -> 0 < du_rxcap D ->
  let z := dest_of (du_sess D c e) d in let l := l1 ++ wire_of z ps l2 in
  sendable_as (one_way (twice D c) c) KBytes ps e (Mail d (MBytes l1)) l1 ->
  sendable_as (one_way (twice D c) c) KBytes ps e (Mail d (MBytes l2)) l2 ->
  sendable_as (one_way (twice D c) c) KBytes ps e (Mail d (MBytes l)) l ->
  (Z.of_nat (length (wire_of z ps l)) <= e_mtu (du_env D (negb c)))%Z ->
  exists n s, drun D any_reads (new_duo ss)
    [DPut (c, e) (Mail d (MBytes l1)); DTake (c, e); DPass (c, e); DPut (c, e) (Mail d (MBytes l2)); DTake (c, e); DPass (c, e);
     DRead (negb c) n; DRead c n; DDeliver c; DListen c z] s /\ dheard c z s = [MBytes l].
Proof. exact (echo_joins D c ps e d l1 l2 ss). Qed.
Print Assumptions C95_joined_refuted.

(** ** C93, in both directions: what side [v] of two stacks hears lies one behind the other in what the other side wrote *)
Theorem C93_both_ways D v k ps ss ls s z : hears_by (one_way D (negb v)) k ps -> init_st (du_env D v) = Some (ss v) ->
  drun D any_reads (new_duo ss) ls s ->
  laid k (heads ps) (e_mtu (du_env D v)) (sent (negb v) s) (dheard v z s) (d_got s (negb v)).
Proof. exact (duo_laid D v k ps ss ls s z). Qed.
Print Assumptions C93_both_ways.

(** The stacks of examples/echo: side true the client with endpoints of sessions 1 and 2, side false the server. *)
Definition ex_env (procs : list proc) : env :=
  Env (build_links (seq 0 (length procs)) no_links) procs 64 (build_overhead (p_kind <$> procs) 0) [110; 97]%Z [1; 2]%Z
    (fun _ => false) (fun _ _ l => (length l, false)) (fun _ _ _ => false).
Definition ex_duo (low : list proc) : duo :=
  Duo (fun b => if b then ex_env (Proc KBytes true :: low) else ex_env [Proc KEcho true]) (fun b => if b then 3 else 5)
    (fun _ e => if e =? 0 then 1%Z else 2%Z) 2 2.
Definition ex_ss (low : list proc) (b : bool) : st := match init_st (du_env (ex_duo low) b) with Some s => s | None => St [] [] [] end.
Definition ex_plain : list proc := [Proc KSession true].
Definition ex_framed : list proc := [Proc KSession true; Proc KStat true; Proc KHeartbeat true; Proc (KFrame None) true].
Lemma ex_wired procs : wired (ex_env procs) (seq 0 (length procs)) procs.
Proof.
  split_and!; [done|apply NoDup_seq|done|]. apply Forall2_same_length_lookup_2; [by rewrite seq_length|].
  intros i x y Hx Hy. apply lookup_seq in Hx as [-> _]. done.
Qed.
Example ex_echoes low : echoes (ex_duo low) true.
Proof. exists (seq 0 1), []. split; [apply (ex_wired [Proc KEcho true])|]. by split. Qed.
Example ex_paired : paired (twice (ex_duo ex_plain) true) KBytes ex_plain /\ paired (twice (ex_duo ex_framed) true) KBytes ex_framed /\
  answers_fit (twice (ex_duo ex_plain) true) ex_plain /\ answers_fit (twice (ex_duo ex_framed) true) ex_framed /\
  init_st (du_env (ex_duo ex_plain) true) = Some (ex_ss ex_plain true) /\ init_st (du_env (ex_duo ex_framed) true) = Some (ex_ss ex_framed true).
Proof.
  split; [|split; [|split; [by intros []; vm_compute|split; [by intros []; vm_compute|by split]]]].
  all: split; [|by repeat constructor]; intros b; split; [|done].
  - exists (seq 0 2), (seq 0 2), [], []. pose proof (ex_wired (Proc KBytes true :: ex_plain)) as W. split_and!; try done; by repeat constructor.
  - exists (seq 0 5), (seq 0 5), [], []. pose proof (ex_wired (Proc KBytes true :: ex_framed)) as W. split_and!; try done; by repeat constructor.
Qed.
Example ex_hears b : hears_by (one_way (twice (ex_duo ex_framed) true) b) KBytes ex_framed /\ hears_by (one_way (ex_duo ex_framed) false) KBytes ex_framed.
Proof.
  pose proof (ex_wired (Proc KBytes true :: ex_framed)) as W.
  split; (exists (seq 0 5), []; split; [exact W|]; split; [done|]; split; [by repeat constructor|]; split; [done|]; split; [done|]; by exists [1%Z], (MBytes [1%Z])).
Qed.
(** Endpoint 0 of the client sends "1234" to session 2 and a Heartbeat sends a heartbeat: endpoint 1 hears the message, the Heartbeat notes its own heartbeat. *)
Definition ex_mail : mail := Mail (Some 2%Z) (MBytes [49; 50; 51; 52]%Z).
Definition ex_labels : list dlab :=
  [DPut (true, 0) ex_mail; DTake (true, 0); DPass (true, 0); DSelf true 3 131%Z; DRead false 5; DRead false 9; DRead true 14; DDeliver true;
   DRead false 5; DRead true 5; DListen true 2%Z].
Example C95_example : exists s, drun (ex_duo ex_framed) (own_reads true (framed ex_framed)) (new_duo (ex_ss ex_framed)) ex_labels s /\
  Forall (quietly true) ex_labels /\ cl_sendable (ex_duo ex_framed) true KBytes ex_framed ex_labels /\
  dheard true 2%Z s = [MBytes [49; 50; 51; 52]%Z] /\ noted true s = 1 /\ length (sent true s) = 19 /\ d_wire s true = [] /\ d_wire s false = [].
Proof.
  Ltac run20 := eapply (finishes_exec _ _ _ _ _ _ _ _ 20); [vm_compute; reflexivity|vm_compute; reflexivity].
  eexists. split; [|split; [by repeat constructor|split]].
  { unfold ex_labels.
    eapply drun_cons; [done|apply dk_put; simpl; lia|].
    eapply drun_cons; [done|by apply dk_take|].
    eapply drun_cons; [done|eapply dk_pass; [done|run20]|].
    eapply drun_cons; [done|eapply dk_self; [done|done|done|run20]|].
    eapply drun_cons; [done|eapply dk_read; [done|lia|vm_compute; lia|done|run20]|].
    eapply drun_cons; [done|eapply dk_read; [done|lia|vm_compute; lia|done|run20]|].
    eapply drun_cons; [intros _; exists 0, 1; vm_compute; split; [done|split; [done|discriminate]]
      |eapply dk_read; [done|lia|vm_compute; lia|done|run20]|].
    eapply drun_cons; [done|apply dk_deliver; [done|simpl; lia]|].
    eapply drun_cons; [done|eapply dk_read; [done|lia|vm_compute; lia|done|run20]|].
    eapply drun_cons; [intros _; exists 1, 1; vm_compute; split; [done|split; [done|discriminate]]
      |eapply dk_read; [done|lia|vm_compute; lia|done|run20]|].
    apply drun_one; [done|by apply dk_listen]. }
  { intros e x Hx. unfold ex_labels in Hx. repeat (apply elem_of_cons in Hx as [Hx|Hx]; [try discriminate Hx|]); [|by apply elem_of_nil in Hx].
    injection Hx as -> ->. eexists. (split; [done|]); (split; [done|]); (split; [done|]);
      (split; [vm_compute; done|]); (split; [vm_compute; done|]); (split; [simpl; lia|]); (split; [by left|]). right. left. }
  by vm_compute.
Qed.
(** As in examples/echo, without frames, "1234" twice: endpoint 1 can hear "1234", the session number 2 and "1234" as one message. *)
Example C95_example_joined : let l := [49; 50; 51; 52]%Z in let l2 := [49; 50; 51; 52; 0; 0; 0; 2; 49; 50; 51; 52]%Z in
  Forall (fun p => framing p = false) ex_plain /\ l ++ wire_of 2 ex_plain l = l2 /\
  (forall l0, l0 = l \/ l0 = l2 -> sendable_as (one_way (twice (ex_duo ex_plain) true) true) KBytes ex_plain 0 (Mail (Some 2%Z) (MBytes l0)) l0) /\
  (Z.of_nat (length (wire_of 2 ex_plain l2)) <= e_mtu (du_env (ex_duo ex_plain) false))%Z.
Proof.
  split; [by repeat constructor|]. split; [done|]. split; [|by vm_compute].
  intros l0 [-> | ->]; (split; [done|]); (split; [done|]); (split; [done|]);
      (split; [vm_compute; done|]); (split; [vm_compute; done|]); (split; [simpl; lia|]); (split; [by left|]); right; left.
Qed.
