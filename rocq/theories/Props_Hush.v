(** * C91: when the traffic between two stacks comes to rest

    Only statements: every proof is one lemma.  [drun D ok s ls s']: the
    goroutines of both stacks, of their processors and the connection run, in
    any order, as long as [ok] holds of every step. *)
From Verif Require Import GoBase UBufModel UBufSpec FrameModel FrameSpec StackModel StackSpec StackFacts StackEnd NetModel NetSpec DuoModel DuoSpec DuoProofs HushSpec HushProofs.
From Verif Require Props_Duo.

(** ** C91 *)

(** Refuted: if an enabled Echo is the lowest processor of both stacks, then once anything was sent, the bytes under way never get fewer, however they are read, and the reading can go on for ever; no listener is ever called. *)
Theorem C91_forever_refuted D ss ls s : (forall b, mirrors (du_env D b) (du_conn D b)) ->
  drun D any_reads (new_duo ss) ls s -> 0 < on_way s -> d_seen s = [] /\
  (forall ms s', drun D any_reads s ms s' -> Forall onward ms -> on_way s' = on_way s) /\
  forall n, exists ms s', drun D any_reads s ms s' /\ length ms = n /\ Forall reading ms.
Proof. exact (fun M => mirror_forever D M ss ls s). Qed.
Print Assumptions C91_forever_refuted.

(** If side [b] has neither an enabled Echo nor an enabled StatCounter, then from every state, whatever bytes are under way, the other side reads at most as often as there are bytes of [b] under way. *)
Theorem C91_one_mute_partial D b s ms s' : mute (du_env D b) -> drun D any_reads s ms s' -> Forall onward ms ->
  reads_by (negb b) ms + length (d_wire s' b) <= length (d_wire s b).
Proof. exact (mute_bounds D any_reads b s ms s'). Qed.
Print Assumptions C91_one_mute_partial.

(** If neither side has one, the traffic is over after at most as many Reads as there are bytes under way. *)
Theorem C91_mute_partial D s ms s' : (forall b, mute (du_env D b)) -> drun D any_reads s ms s' -> Forall onward ms ->
  reads ms + on_way s' <= on_way s.
Proof. exact (mutes_bound D any_reads s ms s'). Qed.
Print Assumptions C91_mute_partial.

(** If one side is such and the other one has an Echo lowest, it is over after every byte was read at most twice. *)
Theorem C91_mirror_partial D b s ms s' : mute (du_env D b) -> mirrors (du_env D (negb b)) (du_conn D (negb b)) ->
  drun D any_reads s ms s' -> Forall onward ms -> reads ms + on_way s' + length (d_wire s' b) <= on_way s + length (d_wire s b).
Proof. exact (mirror_bounds D any_reads b s ms s'). Qed.
Print Assumptions C91_mirror_partial.

(** Two stacks with the same processors, none of them an Echo, that read what they write to each other in whole Writes: there is at most one Read for every message that was passed down and every heartbeat, and two for every request for statistics. *)
Theorem C91_honest_partial D k ps ss ls s : paired D k ps -> (forall b, init_st (du_env D b) = Some (ss b)) ->
  drun D (whole_reads (framed ps)) (new_duo ss) ls s -> dall_sendable D k ps ls ->
  reads ls <= passes ls + selfs true 131%Z ls + selfs false 131%Z ls + 2 * (selfs true 16%Z ls + selfs false 16%Z ls).
Proof. exact (honest_bounds D k ps ss ls s). Qed.
Print Assumptions C91_honest_partial.

(** Two stacks of a Bytes codec over an Echo: endpoint 0 of side true sends three bytes. *)
Definition ex_env (ps : list proc) : env :=
  Env (build_links (seq 0 (length ps)) no_links) ps 64 (build_overhead (p_kind <$> ps) 0) [110; 97]%Z [0; 7]%Z
    (fun _ => false) (fun _ _ l => (length l, false)) (fun _ _ _ => false).
Definition ex_loud : list proc := [Proc KBytes true; Proc KEcho true].
Definition ex_mute : list proc := [Proc KBytes true; Proc KEcho false; Proc (KFrame None) true].
Definition ex_duo (p q : list proc) : duo := Duo (fun b => ex_env (if b then p else q)) (fun b => if b then 3 else 5) (fun _ _ => 0%Z) 2 2.
Definition ex_start (p q : list proc) : dst :=
  new_duo (fun b => match init_st (ex_env (if b then p else q)) with Some s => s | None => St [] [] [] end).
Example ex_mirrors c : mirrors (ex_env ex_loud) c.
Proof.
  exists (seq 0 2), [Proc KBytes true]. split; [|by split_and!].
  split_and!; [done|apply NoDup_seq|done|]. by repeat constructor.
Qed.
Example ex_mutes : mute (ex_env ex_mute).
Proof. by repeat constructor. Qed.
Ltac run20 := eapply (finishes_exec _ _ _ _ _ _ _ _ 20); [vm_compute; reflexivity|vm_compute; reflexivity].
Example C91_example_forever : exists s, on_way s = 3 /\ drun (ex_duo ex_loud ex_loud) any_reads (ex_start ex_loud ex_loud)
  [DPut (true, 0) (Mail None (MBytes [1; 2; 3]%Z)); DTake (true, 0); DPass (true, 0); DRead false 2; DRead true 2] s.
Proof.
  eexists. split; [|
    eapply drun_cons; [done|apply dk_put; simpl; lia|];
    eapply drun_cons; [done|by apply dk_take|];
    eapply drun_cons; [done|eapply dk_pass; [done|run20]|];
    eapply drun_cons; [done|eapply dk_read; [done|lia|vm_compute; lia|done|run20]|];
    apply drun_one; [done|eapply dk_read; [done|lia|vm_compute; lia|done|run20]]].
  by vm_compute.
Qed.
(** A stack that answers nothing sends to an Echo and gets its frame back. *)
Example C91_example_mirror : exists s s', on_way s = 7 /\ on_way s' = 0 /\
  drun (ex_duo ex_mute ex_loud) any_reads (ex_start ex_mute ex_loud)
    [DPut (true, 0) (Mail None (MBytes [1; 2; 3]%Z)); DTake (true, 0); DPass (true, 0)] s /\
  drun (ex_duo ex_mute ex_loud) any_reads s [DRead false 7; DRead true 4; DRead true 3] s'.
Proof.
  eexists _, _. split; [|split; [|split; [
    eapply drun_cons; [done|apply dk_put; simpl; lia|];
    eapply drun_cons; [done|by apply dk_take|];
    apply drun_one; [done|eapply dk_pass; [done|run20]]|
    eapply drun_cons; [done|eapply dk_read; [done|lia|vm_compute; lia|done|run20]|];
    eapply drun_cons; [done|eapply dk_read; [done|lia|vm_compute; lia|done|run20]|];
    apply drun_one; [done|eapply dk_read; [done|lia|vm_compute; lia|done|run20]]]]].
  - by vm_compute.
  - by vm_compute.
Qed.
(** Two stacks that answer nothing. *)
Example C91_example_mute : exists s s', on_way s = 7 /\
  drun (ex_duo ex_mute ex_mute) any_reads (ex_start ex_mute ex_mute)
    [DPut (true, 0) (Mail None (MBytes [1; 2; 3]%Z)); DTake (true, 0); DPass (true, 0)] s /\
  drun (ex_duo ex_mute ex_mute) any_reads s [DRead false 7; DDeliver false] s'.
Proof.
  eexists _, _. split; [|split; [
    eapply drun_cons; [done|apply dk_put; simpl; lia|];
    eapply drun_cons; [done|by apply dk_take|];
    apply drun_one; [done|eapply dk_pass; [done|run20]]|
    eapply drun_cons; [done|eapply dk_read; [done|lia|vm_compute; lia|done|run20]|];
    apply drun_one; [done|eapply dk_deliver; [vm_compute; reflexivity|vm_compute; lia]]]].
  by vm_compute.
Qed.
(** The run of [Props_Duo]: two mails, a heartbeat and a question; three Reads, at most five. *)
Example C91_example_honest : reads Props_Duo.ex_labels = 3 /\ passes Props_Duo.ex_labels = 2 /\
  exists s, drun Props_Duo.ex_duo (whole_reads (framed Props_Duo.ex_low)) (new_duo (fun _ => Props_Duo.ex_start)) Props_Duo.ex_labels s /\
    dall_sendable Props_Duo.ex_duo KBytes Props_Duo.ex_low Props_Duo.ex_labels.
Proof.
  split; [done|]. split; [done|]. destruct Props_Duo.C88_example as (s & H1 & H2 & _). eauto.
Qed.
