(** * The speed test (C99) *)
From Verif Require Import GoBase FlowProofs SpeedSpec SpeedProofs SpeedRest.
From Verif Require Import StackModel StackSpec StackProofs Props_Stack.

(** The counters show what happened, modulo 2^64; nothing is answered that was not heard, nor heard that was not put;
    TxCount is at most one behind. *)
Theorem C99_counters_partial okc oks k1 k2 tr s : spruns okc oks k1 k2 (new_speed k1 k2) tr s ->
  sp_ctx s = wrapped (times SpCount tr) /\ sp_crx s = wrapped (times SpGot tr) /\ sp_stx s = wrapped (times SpReturn tr) /\ sp_srx s = wrapped (times SpHear tr).
Proof. exact (counters okc oks k1 k2 tr s). Qed.
Print Assumptions C99_counters_partial.
Theorem C99_in_order_partial okc oks k1 k2 tr s : spruns okc oks k1 k2 (new_speed k1 k2) tr s ->
  times SpCount tr <= times SpPutReq tr <= S (times SpCount tr) /\ times SpReturn tr <= times SpReply tr <= S (times SpReturn tr) /\
  times SpGot tr <= times SpReply tr /\ times SpReply tr <= times SpHear tr /\ times SpHear tr <= times SpPutReq tr.
Proof. exact (in_order okc oks k1 k2 tr s). Qed.
Print Assumptions C99_in_order_partial.

(** If both sizes fit, what was put and not yet heard, or not yet answered, is what the places between hold, at most. *)
Theorem C99_under_way_partial okc oks k1 k2 tr s : okc = true -> oks = true -> spruns okc oks k1 k2 (new_speed k1 k2) tr s ->
  times SpPutReq tr <= times SpHear tr + (1027 + k1) /\ times SpReply tr <= times SpGot tr + (1027 + k2) /\
  times SpPutReq tr <= times SpGot tr + (2054 + k1 + k2).
Proof. exact (under_way okc oks k1 k2 tr s). Qed.
Print Assumptions C99_under_way_partial.

(** The test never comes to a standstill, and in every schedule answers keep coming: between two of them
    there are at most so many steps. *)
Theorem C99_never_stuck_partial okc oks k1 k2 tr s : okc = true -> oks = true -> 1 <= k1 -> 1 <= k2 ->
  spruns okc oks k1 k2 (new_speed k1 k2) tr s -> ~ (forall l s', ~ spstep okc oks k1 k2 s l s').
Proof. exact (never_stuck okc oks k1 k2 tr s). Qed.
Print Assumptions C99_never_stuck_partial.
Theorem C99_keeps_going_partial okc oks k1 k2 tr s tr' s' : okc = true -> oks = true -> spruns okc oks k1 k2 (new_speed k1 k2) tr s ->
  spruns okc oks k1 k2 s tr' s' -> times SpGot tr' = 0 -> length tr' <= 8 + 12 * 2054 + 8 * k1 + 16 * k2.
Proof. exact (answers_keep_coming okc oks k1 k2 tr s tr' s'). Qed.
Print Assumptions C99_keeps_going_partial.

(** If the client's size does not fit, nothing is ever heard, and TxCount grows all the same. *)
Theorem C99_silent_refuted okc oks k1 k2 : okc = false ->
  (forall tr s, spruns okc oks k1 k2 (new_speed k1 k2) tr s -> times SpHear tr = 0 /\ times SpGot tr = 0) /\
  forall n, exists tr s, spruns okc oks k1 k2 (new_speed k1 k2) tr s /\ times SpCount tr = n.
Proof. intros E. split; [intros tr s; by apply silent|intros n; by apply many_lost]. Qed.
Print Assumptions C99_silent_refuted.
(** If the server's does not, the server counts answers that never come. *)
Theorem C99_unanswered_refuted okc oks k1 k2 : okc = true -> oks = false -> 1 <= k1 ->
  (forall tr s, spruns okc oks k1 k2 (new_speed k1 k2) tr s -> times SpGot tr = 0) /\
  forall n, exists tr s, spruns okc oks k1 k2 (new_speed k1 k2) tr s /\ times SpReturn tr = n /\ times SpCount tr = n.
Proof. intros E1 E2 K. split; [intros tr s; by apply unanswered|intros n; by apply many_unanswered]. Qed.
Print Assumptions C99_unanswered_refuted.

(** Which sizes fit: what the program's stack does with a package of [p] bytes 0x41. *)
Theorem C99_sizes_partial E ids cap c p s : wired E ids [Proc KBytes true; Proc (KFrame cap) true] -> e_isref E c = false -> (0 < e_mtu E < 2^32)%Z -> (e_overhead E <= e_mtu E)%Z ->
  ((1 <= Z.of_nat p <= e_mtu E - e_overhead E)%Z ->
     exists s', finishes (fun f => send f E 0 None (Some c) (Some (MBytes (replicate p 65%Z))) s) s (offered E (s_out s) c (wire_of 0 [Proc (KFrame cap) true] (replicate p 65%Z))) s') /\
  (p = 0 \/ (e_mtu E - e_overhead E < Z.of_nat p)%Z ->
     exists s', finishes (fun f => send f E 0 None (Some c) (Some (MBytes (replicate p 65%Z))) s) s [] s').
Proof. exact (sizes E ids cap c p s). Qed.
Print Assumptions C99_sizes_partial.

Definition sp_stack : env := ex_env [on KBytes; on (KFrame None)] 2048 [0%Z] false.
Example C99_example_sizes : e_overhead sp_stack = 4%Z /\ e_mtu sp_stack = 2048%Z /\ e_isref sp_stack 3 = false /\
  wired sp_stack [0; 1] [Proc KBytes true; Proc (KFrame None) true] /\
  outs_of (send 10 sp_stack 0 None (Some 3) (Some (MBytes (replicate 2 65%Z))) (started sp_stack)) = Some [OWire 3 [0; 0; 0; 2; 65; 65]%Z] /\
  outs_of (send 10 sp_stack 0 None (Some 3) (Some (MBytes [])) (started sp_stack)) = Some [].
Proof. split_and!; [vm_compute; done|done|done|apply (ex_wired [on KBytes; on (KFrame None)])|vm_compute; done|vm_compute; done]. Qed.

(** A round trip, with the second message already put. *)
Ltac sps t := eapply (spruns_app _ _ _ _ _ [_]); [eapply (sr_snoc _ _ _ _ _ []); [apply sr_nil|t]|simpl].
Ltac spput := apply pk_put; eexists _, _; split; [reflexivity|]; split; [reflexivity|]; split; [simpl; lia|reflexivity].
Ltac spreq i := apply pk_req; [eapply (lm_move _ _ i); [reflexivity|reflexivity|reflexivity|simpl; lia]|by left].
Ltac spans i := apply pk_ans; [eapply (lm_move _ _ i); [reflexivity|reflexivity|reflexivity|simpl; lia]|by left].
Definition sp_trip : list splab := [SpPutReq; SpCount; SpPutReq; SpReq 0; SpReq 1; SpReq 2; SpReq 3; SpReq 4; SpHear; SpReply; SpReturn; SpAns 0; SpAns 1; SpAns 2; SpAns 3; SpAns 4; SpGot].
Example C99_example : exists s, spruns true true 1 1 (new_speed 1 1) sp_trip s /\ sp_owes s = true /\ sp_ctx s = 1%Z /\ sp_srx s = 1%Z /\ sp_stx s = 1%Z /\ sp_crx s = 1%Z /\
  times SpPutReq sp_trip = 2.
Proof.
  eexists. split.
  { unfold new_speed, nothing; simpl. sps ltac:(spput). sps ltac:(apply pk_count). sps ltac:(spput).
    sps ltac:(spreq 0). sps ltac:(spreq 1). sps ltac:(spreq 2). sps ltac:(spreq 3). sps ltac:(spreq 4).
    sps ltac:(eapply pk_hear; reflexivity).
    sps ltac:(apply pk_reply; eexists _, _; split; [reflexivity|]; split; [reflexivity|]; split; [simpl; lia|reflexivity]).
    sps ltac:(eapply pk_return; eexists; split; reflexivity).
    sps ltac:(spans 0). sps ltac:(spans 1). sps ltac:(spans 2). sps ltac:(spans 3). sps ltac:(spans 4).
    sps ltac:(eapply pk_got; eexists; split; reflexivity). apply sr_nil. }
  done.
Qed.
