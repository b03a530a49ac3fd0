(** * Theorems about sending on a socket connection (properties C68, C69)

    Only statements: every proof is one lemma.  [xrun s ls s']: any number of
    goroutines send on one connection, others close it, interleaved in any way.
    A goroutine's Write writes all of its bytes or fails after some of them. *)
From Verif Require Import GoBase UBufModel UBufSpec FrameModel FrameSpec WireModel WireSpec WireProofs.
From stdpp Require Import sets.

(** ** C68 *)

(** On a connection that has been closed every message is dropped: OnUpperData returns, nothing is written, no event is published. *)
Theorem C68_dropped_refuted s g m : x_closed s = true -> x_at s g = XIdle -> m <> [] ->
  exists s', xrun s [XCall g m; XDrop g m] s' /\ x_at s' g = XIdle /\ x_wire s' = x_wire s /\ x_events s' = x_events s.
Proof. exact (dropped s g m). Qed.
Print Assumptions C68_dropped_refuted.

(** ... whatever the goroutines send from then on. *)
Theorem C68_lost_silently_refuted s ls s' : x_closed s = true -> (forall g, x_at s g = XIdle) -> xrun s ls s' ->
  x_wire s' = x_wire s /\ x_events s' = x_events s.
Proof. exact (lost_silently s ls s'). Qed.
Print Assumptions C68_lost_silently_refuted.

(** Every call whose Write fails publishes one ConnectionClosed event, or is about to, *)
Theorem C68_reported_partial ls s g : xrun new_wire ls s -> failures g ls = reports g s + reporting g s.
Proof. exact (reported ls s g). Qed.
Print Assumptions C68_reported_partial.

(** and nothing can keep it from doing so. *)
Theorem C68_report_comes_partial s g : xreach s -> reporting g s = 1 ->
  exists ls s', xrun s ls s' /\ Forall (fun l => l = XMark g \/ l = XShutdown g \/ l = XPublish g) ls /\
    reports g s' = reports g s + 1 /\ reporting g s' = 0.
Proof. exact (report_comes s g). Qed.
Print Assumptions C68_report_comes_partial.

(** If nobody closes the connection and no Write fails, everything asked for is written or about to be. *)
Theorem C68_all_sent_partial ls s : xrun new_wire ls s -> Forall quiet ls ->
  exists o, x_wire s = concat (snd <$> o) /\ x_events s = [] /\ forall g, asked g ls = of_sender g o ++ under_way g s.
Proof. exact (quiet_sent ls s). Qed.
Print Assumptions C68_all_sent_partial.

(** And it can be written, and so can every further message. *)
Theorem C68_goes_on_partial ls s g : xrun new_wire ls s -> Forall quiet ls ->
  (forall m, under_way g s = [m] ->
    exists ms s', xrun s ms s' /\ ms `suffix_of` [XGo g; XWrite g m] /\ x_wire s' = x_wire s ++ m /\ under_way g s' = []) /\
  (forall m, m <> [] -> x_at s g = XIdle ->
    exists s', xrun s [XCall g m; XGo g; XWrite g m] s' /\ x_wire s' = x_wire s ++ m /\ x_at s' g = XIdle).
Proof. intros H Hq. split; [exact (quiet_finishes ls s g H Hq)|exact (quiet_sends ls s g H Hq)]. Qed.
Print Assumptions C68_goes_on_partial.

Ltac one := first [ by apply xk_call | by eapply xk_go | by eapply xk_write | by eapply xk_drop | by apply xk_close
  | by apply xk_mark | by apply xk_shut | by apply xk_publish | by apply xk_call_empty
  | eapply xk_fail; [done|simpl; lia|simpl; intros; try done; lia] ].
Ltac go := eapply xrun_cons; [one|].
(** Two senders; the connection breaks in the middle of a message. *)
Definition ex_calls : list xlab :=
  [XCall 0 (frame [1; 2]%Z); XCall 1 (frame [3]%Z); XGo 1; XGo 0; XWrite 1 (frame [3]%Z); XWrite 0 (frame [1; 2]%Z);
   XCall 1 (frame [4]%Z); XGo 1].
Example C68_C69_example_sent : exists s, xrun new_wire ex_calls s /\ Forall quiet ex_calls /\
  x_wire s = frame [3]%Z ++ frame [1; 2]%Z /\ asked 1 ex_calls = [frame [3]%Z; frame [4]%Z] /\ under_way 1 s = [frame [4]%Z].
Proof.
  eexists. split; [unfold ex_calls, new_wire; do 7 go; apply xrun_one; one|].
  split; [repeat constructor|]. by vm_compute.
Qed.
Example C68_example_failed : exists s, xrun new_wire (ex_calls ++ [XFail 1 (frame [4]%Z) 3; XMark 1]) s /\
  reporting 1 s = 1 /\ failures 1 (ex_calls ++ [XFail 1 (frame [4]%Z) 3; XMark 1]) = 1 /\
  x_wire s = frame [3]%Z ++ frame [1; 2]%Z ++ [0; 0; 0]%Z.
Proof.
  eexists. split; [unfold ex_calls, new_wire; cbn [app]; do 9 go; apply xrun_one; one|]. by vm_compute.
Qed.
(** In every schedule a sender's calls end: each makes at most five steps, and
    the sender is never held up before its end, whatever the others do. *)
Theorem C68_steps_partial ls s g : xrun new_wire ls s -> own_moves g ls <= 5 * length (asked g ls).
Proof. intros H. pose proof (wire_steps ls s g H). lia. Qed.
Print Assumptions C68_steps_partial.
Theorem C68_ends_partial ls s g : xrun new_wire ls s -> (forall l s', own_move g l = true -> ~ xstep s l s') ->
  x_at s g = XIdle /\ failures g ls = reports g s /\ under_way g s = [].
Proof. exact (wire_ends ls s g). Qed.
Print Assumptions C68_ends_partial.
Example C68_example_ends : exists s, xrun new_wire (ex_calls ++ [XFail 1 (frame [4]%Z) 3; XMark 1; XShutdown 1; XPublish 1]) s /\
  (forall l s', own_move 1 l = true -> ~ xstep s l s') /\ reports 1 s = 1 /\
  own_moves 1 (ex_calls ++ [XFail 1 (frame [4]%Z) 3; XMark 1; XShutdown 1; XPublish 1]) = 7.
Proof.
  eexists. split; [unfold ex_calls, new_wire; cbn [app]; do 11 go; apply xrun_one; one|]. split; [|by vm_compute].
  intros l s' Hl Hs. inversion Hs; subst; simpl in Hl; try discriminate Hl; apply Nat.eqb_eq in Hl; subst;
    match goal with H : _ 1 = _ |- _ => vm_compute in H; discriminate H end.
Qed.
(** A closed connection with idle senders. *)
Example C68_example_closed : exists s, xreach s /\ x_closed s = true /\ (forall g, x_at s g = XIdle).
Proof. eexists. split; [eexists; unfold new_wire; apply xrun_one; by apply xk_close|done]. Qed.

(** ** C69 *)

(** What has been written is whole messages one after the other, and then at most the beginning of one: each goroutine's messages in the order it was asked to send them, without gaps. *)
Theorem C69_whole_in_order ls s : xrun new_wire ls s -> exists o t, x_wire s = concat (snd <$> o) ++ t /\
  (forall g, of_sender g o `prefix_of` asked g ls) /\
  (t = [] \/ exists g m, cut_off t m /\ of_sender g o ++ [m] `prefix_of` asked g ls).
Proof. exact (whole_in_order ls s). Qed.
Print Assumptions C69_whole_in_order.

(** Once the system's connection has been closed, or a Write has failed, nothing more is written. *)
Theorem C69_after_the_end l1 l l2 s : xrun new_wire (l1 ++ l :: l2) s ->
  l = XCloseConn \/ (exists g, l = XShutdown g) \/ (exists g m k, l = XFail g m k) ->
  (forall g m, XWrite g m ∉ l2) /\ exists s1, xrun new_wire (l1 ++ [l]) s1 /\ x_wire s1 = x_wire s.
Proof. exact (after_end l1 l l2 s). Qed.
Print Assumptions C69_after_the_end.
(** The receiving goroutine closes the connection; goroutine 1 is in its Write, which fails. *)
Example C69_example_end : exists s, xrun new_wire (ex_calls ++ [XClose] ++ XCloseConn :: [XFail 1 (frame [4]%Z) 0; XMark 1]) s /\
  x_wire s = frame [3]%Z ++ frame [1; 2]%Z.
Proof.
  eexists. split; [unfold ex_calls, new_wire; cbn [app]; do 9 go; eapply xrun_cons; [by apply xk_close_conn|]; go; apply xrun_one; one|]. by vm_compute.
Qed.

(** If the messages are frames and the peer reads whole frames at a time, its decoder hands up their payloads one after the other: each goroutine's in order, without gaps. *)
Theorem C69_handed_up fuel k mtu c pss ls s : xrun new_wire ls s ->
  (forall g m, m ∈ asked g ls -> exists p, payload_ok p /\ m = frame p) ->
  idle k c -> 0 < k -> Forall (Forall payload_ok) pss ->
  Forall (fun ps => length (frames ps) <= mtu /\ (Z.of_nat (length (frames ps)) < 2^32)%Z /\
                    length (frames ps) < fuel) pss ->
  concat (frames <$> pss) `prefix_of` x_wire s ->
  exists c' o, fd_feed fuel mtu c (frames <$> pss) = Some (pss, c', false) /\ idle k c' /\
    concat pss = snd <$> o /\ forall g, frame <$> of_sender g o `prefix_of` asked g ls.
Proof. exact (handed_up fuel k mtu c pss ls s). Qed.
Print Assumptions C69_handed_up.

(** The frames of the example, read at once by a decoder with 32 bytes of cache. *)
Example C69_example : exists s c, xrun new_wire ex_calls s /\ idle 32 c /\
  (forall g m, m ∈ asked g ex_calls -> exists p, payload_ok p /\ m = frame p) /\
  concat (frames <$> [[[3]; [1; 2]]]%Z) `prefix_of` x_wire s.
Proof.
  eexists _, (VB 0 0 0 (Store (replicate 32 0%Z) 32)). split; [unfold ex_calls, new_wire; do 7 go; apply xrun_one; one|].
  split; [done|]. split.
  - intros g m Hm. assert (m ∈ [frame [1; 2]; frame [3]; frame [4]]%Z) as Hm'.
    { unfold asked in Hm. apply elem_of_list_omap in Hm as (l & Hl & E).
      repeat (apply elem_of_cons in Hl as [->|Hl]; [try done; case_decide; simplify_eq; set_solver|]).
      by apply elem_of_nil in Hl. }
    repeat (apply elem_of_cons in Hm' as [->|Hm']; [by eexists; split; [|done]|]). by apply elem_of_nil in Hm'.
  - exists []. by vm_compute.
Qed.
