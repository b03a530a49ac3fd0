(** * Theorems about the endpoints of a stack with a Loopback (property C97)

    Only statements: every proof is one lemma.  [lrun L s ls s']: users, the
    goroutines of the endpoints and the listeners run, in any order. *)
From Verif Require Import GoBase UBufModel UBufSpec FrameModel FrameSpec StackModel StackSpec StackFacts StackEnd LoopModel LoopSpec LoopProofs LoopRest.

(** ** C97 *)

(** Whatever the listeners send: what was put into the transmit channels, less what still waits there, is in the receive channels or was heard; each message at the session it is for, whole, once, those of one endpoint in the order they were put. Nothing is done below the Loopback: no Write, no closed connection. *)
Theorem C97_in_order_partial L k a ls s : looped L k -> lrun L (new_loop a) ls s -> all_returnable L k ls ->
  o_low s = [] /\
  exists o, (forall e, from e o ++ waiting e s = put_to e ls) /\
    (forall z, z ∈ e_sessions (lenv L) -> told z s ++ o_rx s z = meant_for L z o).
Proof. exact (fun Lo => loop_in_order L k Lo a ls s). Qed.
Print Assumptions C97_in_order_partial.

(** If the listeners send nothing it is always possible that everything that was put is heard. *)
Theorem C97_finishes_partial L k a ls s : looped L k -> silent L -> 0 < lrxcap L ->
  lrun L (new_loop a) ls s -> all_returnable L k ls ->
  exists ms s', lrun L s ms s' /\ Forall own ms /\ at_rest s'.
Proof. exact (fun Lo Si => loop_finishes L k Lo Si a ls s). Qed.
Print Assumptions C97_finishes_partial.

(** And it cannot be otherwise: however the goroutines are scheduled, there are never more than six steps for each message that was put, and they stop only when all was heard. *)
Theorem C97_ends_partial L k a ls s : looped L k -> silent L -> 0 < lrxcap L ->
  lrun L (new_loop a) ls s -> all_returnable L k ls ->
  length ls <= 6 * user_puts ls /\ ((forall l s', own l -> ~ lstep L s l s') -> at_rest s).
Proof. exact (fun Lo Si => loop_ends L k Lo Si a ls s). Qed.
Print Assumptions C97_ends_partial.

(** If the listeners send at most one message for each they hear, and users have put no more messages than a transmit channel, a receive channel and one goroutine hold, somebody who has something to do can do it. *)
Theorem C97_never_stuck_partial L k a ls s : looped L k -> one_each L -> 0 < ltxcap L -> 0 < lrxcap L ->
  lrun L (new_loop a) ls s -> all_returnable L k ls -> user_puts ls <= ltxcap L + lrxcap L + 1 ->
  busy s -> exists l s', own l /\ lstep L s l s'.
Proof. exact (fun Lo On => loop_never_stuck L k Lo On a ls s). Qed.
Print Assumptions C97_never_stuck_partial.

(** No channel ever holds more than its capacity. *)
Theorem C97_bounded_partial L a ls s : lrun L (new_loop a) ls s ->
  (forall e, length (o_tx s e) <= ltxcap L) /\ forall z, length (o_rx s z) <= lrxcap L.
Proof. exact (loop_bounded L a ls s). Qed.
Print Assumptions C97_bounded_partial.

(** One message more is enough: if the listener that hears [x] sends from the endpoint [x] came from, then after so many [x] its first call never returns: whatever happens afterwards, nothing else is heard there, and nothing more can be put into the endpoint's channel. *)
Theorem C97_stuck_refuted L k e x y q a : looped L k -> returnable L k x -> goes_to L e x ∈ e_sessions (lenv L) ->
  lreply L (goes_to L e x) (pc_msg x) = (e, y) :: q -> 0 < ltxcap L -> 0 < lrxcap L ->
  exists ls s, lrun L (new_loop a) ls s /\ user_puts ls = ltxcap L + lrxcap L + 2 /\
    (forall f w, LPut f w ∈ ls -> f = e /\ w = x) /\
    forall ms s', lrun L s ms s' -> told (goes_to L e x) s' = [pc_msg x] /\ forall w, LPut e w ∉ ms.
Proof. exact (fun Lo Hx Hz Hr Ht Hc => loop_stuck L k Lo e x y q Hx Hz Hr Ht Hc a). Qed.
Print Assumptions C97_stuck_refuted.

(** Whatever the stack is: a call of the processors does what StackModel says; the messages it hands up are those the goroutine puts into the receive channels, everything else is counted as done below. *)
Theorem C97_all_kept_partial L s e s' x outs a : lstep L s (LPass e) s' -> o_hand s e = HTook x ->
  finishes (fun f => send f (lenv L) (lsess L e) (pc_dest x) (pc_conn x) (Some (pc_msg x)) (o_st s)) (o_st s) outs a ->
  o_st s' = a /\ forall o, o ∈ outs ->
    match o with ODeliver z _ m => exists ds, o_hand s' e = HUp x ds /\ (z, m) ∈ ds | _ => o ∈ o_low s' end.
Proof. exact (loop_all_kept L s e s' x outs a). Qed.
Print Assumptions C97_all_kept_partial.

(** examples/loopback/main.go: a bytes codec on a Loopback, the channels of endp_default.go:100-101; here with a second endpoint, of session 7. *)
Definition ex_procs : list proc := [Proc KBytes true; Proc KLoopback true].
Definition ex_env : env :=
  Env (build_links (seq 0 2) no_links) ex_procs 4096 (build_overhead (p_kind <$> ex_procs) 0) [67; 108]%Z [0; 7]%Z
    (fun _ => false) (fun _ _ l => (length l, false)) (fun _ _ _ => false).
Definition ex_loop (reply : Z -> msg -> list (nat * parcel)) : lop :=
  Lop ex_env (fun e => if e =? 0 then 0%Z else 7%Z) 512 512 reply.
Definition ex_start : st := match init_st ex_env with Some s => s | None => St [] [] [] end.
Example ex_over reply : over (ex_loop reply) KBytes [].
Proof.
  exists (seq 0 2), [], true, []. split; [|done].
  split_and!; [done|apply NoDup_seq|done|]. apply Forall2_same_length_lookup_2; [done|].
  intros i x y Hx Hy. apply lookup_seq in Hx as [-> _]. done.
Qed.
Example ex_looped reply : looped (ex_loop reply) KBytes.
Proof. left. apply ex_over. Qed.
Definition ex_text : parcel := Parcel (Some 3) None (MBytes [49; 50; 51; 52]%Z).
Example ex_returnable reply : returnable (ex_loop reply) KBytes ex_text.
Proof.
  split; [|left; apply ex_over]. exists [49; 50; 51; 52]%Z. split; [done|]. split; [done|]. split; [done|]. vm_compute. discriminate.
Qed.

(** The endpoint of session 7 answers to session 0 whatever it hears. *)
Definition ex_answers (z : Z) (m : msg) : list (nat * parcel) := if decide (z = 7%Z) then [(1, Parcel None (Some 0%Z) m)] else [].
Definition ex_asks : parcel := Parcel None (Some 7%Z) (MBytes [63]%Z).
Definition ex_labels : list llab :=
  [LPut 0 ex_text; LPut 0 ex_asks; LTake 0; LPass 0; LDeliver 0; LBack 0; LTake 0; LPass 0; LDeliver 0; LBack 0; LListen 7;
   LSend 7 1 (Parcel None (Some 0%Z) (MBytes [63]%Z)); LTake 1; LPass 1; LDeliver 1; LListen 0].
Example C97_example : exists s, lrun (ex_loop ex_answers) (new_loop ex_start) ex_labels s /\
  all_returnable (ex_loop ex_answers) KBytes ex_labels /\ one_each (ex_loop ex_answers) /\
  user_puts ex_labels <= 512 + 512 + 1 /\ busy s /\
  told 7 s = [MBytes [63]%Z] /\ told 0 s = [MBytes [49; 50; 51; 52]%Z] /\ o_rx s 0%Z = [MBytes [63]%Z].
Proof.
  eexists. split; [|split; [|split; [|split; [|split]]]].
  - unfold ex_labels.
    eapply lrun_cons; [apply lk_put; simpl; lia|].
    eapply lrun_cons; [apply lk_put; simpl; lia|].
    eapply lrun_cons; [by eapply lk_take|].
    eapply lrun_cons; [eapply lk_pass; [by vm_compute|eapply (finishes_exec _ _ _ _ _ _ _ _ 20); [vm_compute; reflexivity|vm_compute; reflexivity]]|].
    eapply lrun_cons; [eapply lk_deliver; [by vm_compute|simpl; lia]|].
    eapply lrun_cons; [by eapply lk_back|].
    eapply lrun_cons; [by eapply lk_take|].
    eapply lrun_cons; [eapply lk_pass; [by vm_compute|eapply (finishes_exec _ _ _ _ _ _ _ _ 20); [vm_compute; reflexivity|vm_compute; reflexivity]]|].
    eapply lrun_cons; [eapply lk_deliver; [by vm_compute|simpl; lia]|].
    eapply lrun_cons; [by eapply lk_back|].
    eapply lrun_cons; [by eapply lk_listen|].
    eapply lrun_cons; [eapply lk_send; [by vm_compute|simpl; lia]|].
    eapply lrun_cons; [by eapply lk_take|].
    eapply lrun_cons; [eapply lk_pass; [by vm_compute|eapply (finishes_exec _ _ _ _ _ _ _ _ 20); [vm_compute; reflexivity|vm_compute; reflexivity]]|].
    eapply lrun_cons; [eapply lk_deliver; [by vm_compute|simpl; lia]|].
    apply lrun_one. by eapply lk_listen.
  - intros e x Hx.
    assert (x = ex_text \/ x = ex_asks \/ x = Parcel None (Some 0%Z) (MBytes [63]%Z)) as [-> |Hx'].
    { destruct e as [|[|e]]; apply elem_of_list_In in Hx; cbn in Hx; naive_solver. }
    { apply ex_returnable. }
    split; [|left; apply ex_over]. exists [63]%Z. destruct Hx' as [-> | ->]; (split; [done|]); (split; [done|]); (split; [done|]); vm_compute; discriminate.
  - intros z m. simpl. unfold ex_answers. case_decide; simpl; lia.
  - vm_compute. lia.
  - right. exists 0%Z. left. by vm_compute.
  - by vm_compute.
Qed.
(** With listeners that only print. *)
Example C97_example_silent : silent (ex_loop (fun _ _ => [])).
Proof. done. Qed.
(** A listener that sends back what it hears, as in examples/echo: after 1026 messages nothing moves. *)
Example C97_example_stuck : let L := ex_loop (fun _ m => [(0, Parcel (Some 3) None m)]) in
  looped L KBytes /\ returnable L KBytes ex_text /\ goes_to L 0 ex_text ∈ e_sessions (lenv L) /\
  lreply L (goes_to L 0 ex_text) (pc_msg ex_text) = [(0, ex_text)] /\ one_each L /\
  ltxcap L + lrxcap L + 2 = 1026.
Proof.
  split; [apply ex_looped|]. split; [apply ex_returnable|]. split; [by left|]. split; [done|]. split; [|by vm_compute].
  intros z m. simpl. lia.
Qed.

(** The same with a session resolver, a statistics counter and a heartbeat between the codec and the Loopback. *)
Definition ex_procs2 : list proc := [Proc KBytes true; Proc KSession true; Proc KStat true; Proc KHeartbeat true; Proc KLoopback true].
Definition ex_env2 : env :=
  Env (build_links (seq 0 5) no_links) ex_procs2 4096 (build_overhead (p_kind <$> ex_procs2) 0) [67; 108]%Z [0; 7]%Z
    (fun _ => false) (fun _ _ l => (length l, false)) (fun _ _ _ => false).
Definition ex_loop2 (reply : Z -> msg -> list (nat * parcel)) : lop :=
  Lop ex_env2 (fun e => if e =? 0 then 0%Z else 7%Z) 512 512 reply.
Definition ex_start2 : st := match init_st ex_env2 with Some s => s | None => St [] [] [] end.
Definition ex_asks2 : parcel := Parcel (Some 3) (Some 7%Z) (MBytes [63]%Z).
Example C97_example_between reply : looped (ex_loop2 reply) KBytes /\ returnable (ex_loop2 reply) KBytes ex_asks2 /\
  exists s, lrun (ex_loop2 reply) (new_loop ex_start2) [LPut 0 ex_asks2; LTake 0; LPass 0; LDeliver 0; LListen 7] s /\
    told 7 s = [MBytes [63]%Z].
Proof.
  split; [|split].
  - right. exists [Proc KSession true; Proc KStat true; Proc KHeartbeat true]. split; [|split; [by repeat constructor|split; [|split]]].
    + exists (seq 0 5), [], true, []. split; [|done]. split_and!; [done|apply NoDup_seq|done|].
      apply Forall2_same_length_lookup_2; [done|]. intros i x y Hx Hy. apply lookup_seq in Hx as [-> _]. done.
    + intros i cap en E. do 5 (destruct i as [|i]; [discriminate E|]). discriminate E.
    + vm_compute. reflexivity.
    + intros e. simpl. destruct (e =? 0); vm_compute; (split; [discriminate|reflexivity]).
  - split.
    + exists [63]%Z. split; [done|]. split; [done|]. split; [done|]. vm_compute. discriminate.
    + right. split; [by exists 3|]. intros z [= <-]. vm_compute. split; [discriminate|reflexivity].
  - eexists. split.
    + eapply lrun_cons; [apply lk_put; simpl; lia|]. eapply lrun_cons; [by eapply lk_take|].
      eapply lrun_cons; [eapply lk_pass; [by vm_compute|eapply (finishes_exec _ _ _ _ _ _ _ _ 40); [vm_compute; reflexivity|vm_compute; reflexivity]]|].
      eapply lrun_cons; [eapply lk_deliver; [by vm_compute|simpl; lia]|]. apply lrun_one. by eapply lk_listen.
    + done.
Qed.
