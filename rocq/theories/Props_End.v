(** * Theorems about an endpoint's receiving side (properties C43, C44)

    Only statements: every proof is one lemma.  [ereach s]: some interleaving of
    deliveries, SetDataListener calls and receiving goroutines leads to [s]. *)
From Verif Require Import GoBase EndModel EndSpec EndProofs.

(** ** C43 *)
(** SetDataListener called once: calls, messages in hand and messages queued are the arrivals, in order. *)
Theorem C43_one_listener_in_order_partial s l : ereach s -> e_sets s = [Some l] ->
  e_panic s = false /\ (e_calls s).*2 ++ in_hands s ++ e_queue s = e_arrived s /\
  Forall (fun c => fst c = l) (e_calls s).
Proof. exact (one_listener_in_order s l). Qed.
Print Assumptions C43_one_listener_in_order_partial.

(** Any number of calls with non-nil listeners: nothing is lost or passed twice, but the order may change. *)
Theorem C43_non_nil_exactly_once_partial s : ereach s -> Forall is_Some (e_sets s) ->
  e_panic s = false /\ (e_calls s).*2 ++ in_hands s ++ e_queue s ≡ₚ e_arrived s /\
  Forall (fun c => Some (fst c) ∈ e_sets s) (e_calls s).
Proof. exact (non_nil_exactly_once s). Qed.
Print Assumptions C43_non_nil_exactly_once_partial.

(** Listeners replaced any number of times, but inAutoReceive never tested before a goroutine just started has set it: the order is kept as well. *)
Theorem C43_replaced_in_order_partial s : paced new_end s -> Forall is_Some (e_sets s) ->
  e_panic s = false /\ (e_calls s).*2 ++ in_hands s ++ e_queue s = e_arrived s /\
  Forall (fun c => Some (fst c) ∈ e_sets s) (e_calls s).
Proof. exact (paced_in_order s). Qed.
Print Assumptions C43_replaced_in_order_partial.

(** Two calls start two goroutines, and the messages overtake each other. *)
Theorem C43_reordered_refuted l m1 m2 : exists s, ereach s /\ e_sets s = [Some l; Some l] /\ e_arrived s = [m1; m2] /\
  e_calls s = [(l, m2); (l, m1)].
Proof. exact (reorder l m1 m2). Qed.
Print Assumptions C43_reordered_refuted.

(** Setting nil while a message is being handed over crashes. *)
Theorem C43_nil_call_refuted l m : exists s, ereach s /\ e_sets s = [Some l; None] /\ e_arrived s = [m] /\ e_panic s = true.
Proof. exact (nil_call l m). Qed.
Print Assumptions C43_nil_call_refuted.

(** A message received while the listener is nil is lost, although a listener is set later. *)
Theorem C43_dropped_refuted l m : exists s, ereach s /\ e_sets s = [Some l; None; Some l] /\ e_arrived s = [m] /\
  e_setters s = 0 /\ e_listener s = Some l /\ e_queue s = [] /\ in_hands s = [] /\ e_calls s = [].
Proof. exact (dropped l m). Qed.
Print Assumptions C43_dropped_refuted.

(** One listener, two messages, both passed on. *)
Example C43_example : exists s, ereach s /\ e_sets s = [Some 7] /\ e_arrived s = [1; 2] /\ e_calls s = [(7, 1); (7, 2)].
Proof.
  eexists. split.
  { eexists.
    eapply erun_cons; [apply (st_set _ (Some 7))|]. eapply erun_cons; [by eapply st_check|]. cbn.
    eapply erun_cons; [by apply (st_start _ 0)|]. eapply erun_cons; [by apply (st_mark _ 0)|]. cbn.
    eapply erun_cons; [by apply (st_arrive _ 1)|]. eapply erun_cons; [by apply (st_arrive _ 2)|]. cbn.
    eapply erun_cons; [by eapply (st_receive _ 0)|]. eapply erun_cons; [by eapply (st_got _ 0)|]. cbn.
    eapply erun_cons; [by eapply (st_call _ 0)|]. eapply erun_cons; [by eapply (st_return _ 0)|]. cbn.
    eapply erun_cons; [by eapply (st_receive _ 0)|]. eapply erun_cons; [by eapply (st_got _ 0)|]. cbn.
    apply erun_one. by eapply (st_call _ 0). }
  done.
Qed.

(** The listener is replaced between the messages. *)
Example C43_example_replaced : exists s, paced new_end s /\ e_sets s = [Some 7; Some 8] /\ e_arrived s = [1; 2] /\
  e_calls s = [(7, 1); (8, 2)].
Proof.
  eexists. split.
  { eapply paced_cons; [apply (st_set _ (Some 7))|done|].
    eapply paced_cons; [by eapply st_check|by constructor|]. cbn.
    eapply paced_cons; [by apply (st_start _ 0)|done|]. eapply paced_cons; [by apply (st_mark _ 0)|done|]. cbn.
    eapply paced_cons; [by apply (st_arrive _ 1)|done|]. eapply paced_cons; [by apply (st_arrive _ 2)|done|]. cbn.
    eapply paced_cons; [by eapply (st_receive _ 0)|done|]. eapply paced_cons; [by eapply (st_got _ 0)|done|]. cbn.
    eapply paced_cons; [by eapply (st_call _ 0)|done|]. cbn.
    eapply paced_cons; [apply (st_set _ (Some 8))|done|].
    eapply paced_cons; [by eapply st_check|intros _; repeat constructor; by intros []|]. cbn.
    eapply paced_cons; [by eapply (st_return _ 0)|done|]. cbn.
    eapply paced_cons; [by eapply (st_receive _ 0)|done|]. eapply paced_cons; [by eapply (st_got _ 0)|done|]. cbn.
    eapply paced_cons; [by eapply (st_call _ 0)|done|]. apply paced_nil. }
  done.
Qed.

(** ** C44 *)
(** If nil is never set. *)
Theorem C44_non_nil_keeps_receiving_partial s : ereach s -> Forall is_Some (e_sets s) -> e_sets s <> [] -> e_setters s = 0 ->
  keeps_receiving s.
Proof. exact (non_nil_keeps s). Qed.
Print Assumptions C44_non_nil_keeps_receiving_partial.

(** With nil, if inAutoReceive is not tested in the window in which a goroutine is about to clear it. *)
Theorem C44_outside_window_keeps_receiving_partial s : calm new_end s -> is_Some (e_listener s) -> e_setters s = 0 -> keeps_receiving s.
Proof. exact (calm_keeps s). Qed.
Print Assumptions C44_outside_window_keeps_receiving_partial.

(** Otherwise reception can end for good, with a listener set and any messages waiting. *)
Theorem C44_lost_wakeup_refuted l1 l2 m ms : exists s, ereach s /\ e_sets s = [Some l1; None; Some l2] /\ e_setters s = 0 /\
  e_listener s = Some l2 /\ e_arrived s = m :: ms /\ e_queue s = ms /\ e_calls s = [] /\
  forall ls s', Forall no_set ls -> erun s ls s' -> e_calls s' = [].
Proof. exact (lost_wakeup l1 l2 m ms). Qed.
Print Assumptions C44_lost_wakeup_refuted.

(** A calm execution that sets nil and a listener again. *)
Example C44_example : exists s, calm new_end s /\ e_sets s = [Some 7; None; Some 8] /\ e_listener s = Some 8 /\ e_setters s = 0.
Proof.
  eexists. split.
  { eapply calm_cons; [apply (st_set _ (Some 7))|done|]. cbn.
    eapply calm_cons; [by eapply st_check|by intros _ ?%elem_of_nil|]. cbn.
    eapply calm_cons; [by apply (st_start _ 0)|done|]. eapply calm_cons; [by apply (st_mark _ 0)|done|]. cbn.
    eapply calm_cons; [apply (st_set _ None)|done|]. cbn.
    eapply calm_cons; [by eapply st_check|intros _; cbn; rewrite elem_of_list_singleton; done|]. cbn.
    eapply calm_cons; [by apply (st_arrive _ 1)|done|]. cbn.
    eapply calm_cons; [by eapply (st_receive _ 0)|done|]. eapply calm_cons; [by eapply (st_got _ 0)|done|]. cbn.
    eapply calm_cons; [by eapply (st_clear _ 0)|done|]. cbn.
    eapply calm_cons; [apply (st_set _ (Some 8))|done|]. cbn.
    eapply calm_cons; [by eapply st_check|intros _; cbn; rewrite elem_of_list_singleton; done|]. apply calm_nil. }
  done.
Qed.
