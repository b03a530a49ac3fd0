(** * Theorems about the upper deck (properties C42, C45, C46, C57, C67)

    Only statements: every proof is one lemma.  [σ] gives each endpoint's
    session.  [registered_after σ ops]: any sequence of additions, deletions and
    Runs; [drun], [hrun]: any interleaving of the deck's methods, its goroutines
    and the users of the channels. *)
From Verif Require Import GoBase DeckModel DeckSpec DeckProofs DeckRest.

(** ** C42 *)
(** One call after the other: at most one endpoint serves a session, and it is registered. *)
Theorem C42_one_per_session_partial (σ : nat -> Z) ops k :
  length (served_for σ (registered_after σ ops) k) <= 1 /\
  forall x, x ∈ served_for σ (registered_after σ ops) k -> x ∈ r_list (registered_after σ ops) /\ σ x = k.
Proof. exact (one_per_session σ ops k). Qed.
Print Assumptions C42_one_per_session_partial.

(** It is the first registered one, if each deleted endpoint was alone in its session. *)
Theorem C42_first_serves_partial (σ : nat -> Z) ops k : lonely_deletions σ (Reg [] None) ops -> r_deck (registered_after σ ops) <> None ->
  served_for σ (registered_after σ ops) k = option_list (first_registered σ (registered_after σ ops) k).
Proof. exact (first_serves σ ops k). Qed.
Print Assumptions C42_first_serves_partial.

(** Otherwise the endpoints that remain are not served, and a later one is served instead. *)
Theorem C42_starvation_refuted (σ : nat -> Z) ops d e1 e2 : let r := registered_after σ ops in
  r_deck r = Some d -> e1 ∈ d -> e2 ∈ r_list r -> e1 <> e2 -> σ e1 = σ e2 ->
  let r1 := registered_after σ (ops ++ [RDel e1]) in
  e2 ∈ r_list r1 /\ served_for σ r1 (σ e2) = [] /\
  forall e3, e3 ∉ r_list r -> σ e3 = σ e2 ->
    served_for σ (registered_after σ (ops ++ [RDel e1; RAdd e3])) (σ e2) = [e3] /\
    first_registered σ (registered_after σ (ops ++ [RDel e1; RAdd e3])) (σ e2) <> Some e3.
Proof. exact (starvation σ ops d e1 e2). Qed.
Print Assumptions C42_starvation_refuted.

(** Two additions at the same time can both succeed. *)
Theorem C42_two_serve_refuted (σ : nat -> Z) s e1 e2 : dreach σ s -> e1 <> e2 -> σ e1 = σ e2 -> serving σ s (σ e1) = [] ->
  exists s', drun σ s [DCheck e1; DCheck e2; DInsert e1; DInsert e2] s' /\ serving σ s' (σ e1) = [e2; e1].
Proof. exact (two_serve σ s e1 e2). Qed.
Print Assumptions C42_two_serve_refuted.

(** If additions do not overlap, one endpoint serves, whatever else is interleaved. *)
Theorem C42_serial_one_partial (σ : nat -> Z) s k : dserial σ s -> length (serving σ s k) <= 1.
Proof. exact (serial_one σ s k). Qed.
Print Assumptions C42_serial_one_partial.

(** What is delivered for a session that an endpoint serves reaches its channel, in order per delivering goroutine. *)
Theorem C42_delivered_partial (σ : nat -> Z) cap ls0 s ls s' e k c : hrun σ cap new_hand ls0 s -> hrun σ cap s ls s' -> serves_throughout σ e k s ls ->
  of_conn c (h_handed s' e ++ found_for e s') = of_conn c (h_handed s e ++ found_for e s) ++ delivered c k ls.
Proof. exact (deliver_all σ cap ls0 s ls s' e k c). Qed.
Print Assumptions C42_delivered_partial.

(** Sessions 0 and 1: endpoints 0 and 2 share session 0. *)
Example C42_example : let σ := fun e => Z.of_nat (e mod 2) in
  registered_after σ [RAdd 0; RRun; RAdd 2; RAdd 1] = Reg [0; 2; 1] (Some [0; 1]) /\
  lonely_deletions σ (Reg [] None) [RAdd 0; RRun; RAdd 2; RAdd 1; RDel 1] /\
  registered_after σ [RAdd 0; RRun; RAdd 2; RAdd 1; RDel 0] = Reg [2; 1] (Some [1]).
Proof.
  cbv zeta. split_and!; [done| |done]. cbn. split_and!; try done.
  intros e He x. injection He as <-. change (x ∈ [0; 2; 1] -> Z.of_nat (x mod 2) = 1%Z -> x = 1).
  rewrite !elem_of_cons, elem_of_nil. intros [->|[->|[->|[]]]]; done.
Qed.
Example C42_example_serial : let σ := fun e => Z.of_nat (e mod 2) in
  exists s, dserial σ s /\ serving σ s 0 = [0] /\ serving σ s 1 = [1].
Proof.
  cbv zeta. eexists. split.
  { eapply se_snoc; [eapply se_snoc; [eapply se_snoc; [eapply se_snoc; [apply se_nil| |]| |]| |]| |].
    - apply (dk_check _ _ 0).
    - done.
    - by apply (dk_insert _ _ 0 [] []).
    - done.
    - apply (dk_check _ _ 1).
    - done.
    - by apply (dk_insert _ _ 1 [] []).
    - done. }
  done.
Qed.
Example C42_example_delivered : let σ := fun e => Z.of_nat (e mod 2) in exists s s', let ls := [HReceive 5 1 7; HReceive 6 1 8; HSend 6; HGet 3] in
  hrun σ 1 new_hand [HServe [0; 3]] s /\ hrun σ 1 s ls s' /\ serves_throughout σ 3 1 s ls /\
  h_got s' 3 = [(6, 8)] /\ found_for 3 s' = [(5, 7)] /\ delivered 5 1 ls = [7].
Proof.
  cbv zeta. eexists. eexists. split; [apply hrun_one; apply hs_serve|]. split.
  { eapply hrun_cons; [apply (hs_find _ _ _ 3); [split; cbn; intros; apply not_elem_of_nil|cbn; right; left|done]|]. cbn.
    eapply hrun_cons; [apply (hs_find _ _ _ 3); [split; cbn; intros ? ?; rewrite ?elem_of_list_singleton; [done|apply not_elem_of_nil]|cbn; right; left|done]|]. cbn.
    eapply hrun_cons; [by eapply (hs_hand _ _ _ [(3, (5, 7))] 3 6 8 []); [done|cbn; lia]|]. cbn.
    apply hrun_one. by eapply (hs_get _ _ _ 3). }
  split; [|done]. split; [done|]. intros l. rewrite !elem_of_cons, elem_of_nil. naive_solver.
Qed.

(** ** C45 *)
(** Deleted while it passes a message down, the goroutine goes on sending all that is put. *)
Theorem C45_deleted_goes_on_refuted (σ : nat -> Z) e m0 ms : exists s s1 ls s2, dreach σ s /\ dstep σ s (DDelete e) s1 /\ look (d_map s1) e = None /\
  drun σ s1 ls s2 /\ Forall (fun l => l = DLoop e \/ exists m, l = DPut e m) ls /\
  omap (fun l => match l with DPut _ m => Some m | _ => None end) ls = ms /\
  sent_for e s1 = [] /\ sent_for e s2 = m0 :: ms.
Proof. exact (deleted_goes_on σ e m0 ms). Qed.
Print Assumptions C45_deleted_goes_on_refuted.

(** The same from any state with a busy goroutine and nobody else waiting. *)
Theorem C45_busy_goes_on_refuted (σ : nat -> Z) s i e c ch m0 ms : look (d_map s) e = Some c -> d_loops s !! i = Some (e, LSending m0) ->
  (forall j e' ch', d_loops s !! j <> Some (e', LParked ch')) -> d_chans s !! c = Some ch -> sc_buf ch = [] ->
  d_tx s e = [] ->
  exists s1 ls s2, dstep σ s (DDelete e) s1 /\ look (d_map s1) e = None /\ drun σ s1 ls s2 /\
    Forall (fun l => l = DLoop e \/ exists m, l = DPut e m) ls /\
    omap (fun l => match l with DPut _ m => Some m | _ => None end) ls = ms /\
    d_sent s2 = d_sent s1 ++ (e, m0) :: ((e,.) <$> ms).
Proof. exact (busy_goes_on σ s i e c ch m0 ms). Qed.
Print Assumptions C45_busy_goes_on_refuted.

(** Deleted while its goroutine waits, nothing is sent any more until it is registered again. *)
Theorem C45_idle_stops_partial (σ : nat -> Z) s e i c s1 ls s2 : dreach σ s -> only_parked s e i c -> dstep σ s (DDelete e) s1 ->
  drun σ s1 ls s2 -> Forall (not_again e) ls -> sent_for e s2 = sent_for e s.
Proof. exact (parked_stops σ s e i c s1 ls s2). Qed.
Print Assumptions C45_idle_stops_partial.

(** Deletion never blocks. *)
Theorem C45_delete_never_blocks (σ : nat -> Z) s e : dreach σ s -> exists s', dstep σ s (DDelete e) s'.
Proof. exact (delete_enabled σ s e). Qed.
Print Assumptions C45_delete_never_blocks.

(** A goroutine that has looked up its stop channel and not yet begun to wait: it stops exactly if the value sent by
    the deletion is in it, and otherwise takes a message, waits, or looks again if the channel is closed. *)
Theorem C45_turn_partial (σ : nat -> Z) s i e c ch : d_loops s !! i = Some (e, LReady (Some c)) -> d_chans s !! c = Some ch ->
  let becomes pc := exists s', dstep σ s (DLoop e) s' /\ d_loops s' !! i = Some (e, pc) in
  (becomes LStopped <-> exists b, sc_buf ch = true :: b) /\
  (becomes LTop <-> sc_buf ch = [] /\ sc_closed ch = true) /\
  (forall m, becomes (LSending m) <-> exists q, d_tx s e = m :: q) /\
  (becomes (LParked (Some c)) <-> d_tx s e = [] /\ sc_buf ch = [] /\ sc_closed ch = false).
Proof. exact (turn σ s i e c ch). Qed.
Print Assumptions C45_turn_partial.

(** A goroutine that has looked up its stop channel, which was then sent true: it will stop. *)
Example C45_example_turn : exists s, dreach (fun _ => 0%Z) s /\ d_loops s !! 0 = Some (4, LReady (Some 0)) /\ d_chans s !! 0 = Some (Schan 4 [true] true).
Proof.
  eexists. split.
  { eexists. eapply drun_cons; [apply (dk_check _ _ 4)|]. cbn.
    eapply drun_cons; [apply (dk_insert _ _ 4 [] []); done|]. cbn.
    eapply drun_cons; [by apply (dk_read _ _ 0)|]. cbn.
    apply drun_one. apply (dk_delete_buffer _ _ 4 0 (Schan 4 [] false)); try done. cbn. by intros [|[]]. }
  split; done.
Qed.

(** A waiting goroutine is reached. *)
Example C45_example : exists s, dreach (fun _ => 0%Z) s /\ only_parked s 4 0 0.
Proof.
  eexists. split.
  { eexists. eapply drun_cons; [apply (dk_check _ _ 4)|]. cbn.
    eapply drun_cons; [apply (dk_insert _ _ 4 [] []); done|]. cbn.
    eapply drun_cons; [by apply (dk_read _ _ 0)|]. cbn.
    apply drun_one. eapply (dk_park _ _ 0); [done|done|]. cbn. by intros c sc [= <-] [= <-]. }
  split_and!; [done|done|]. intros [|[]]; done.
Qed.

(** A goroutine that is sending is reached. *)
Example C45_example_busy : exists s, dreach (fun _ => 0%Z) s /\ look (d_map s) 4 = Some 0 /\ d_loops s !! 0 = Some (4, LSending 7) /\
  (forall j e' ch', d_loops s !! j <> Some (e', LParked ch')) /\ d_chans s !! 0 = Some (Schan 4 [] false) /\ d_tx s 4 = [].
Proof.
  eexists. split.
  { eexists. eapply drun_cons; [apply (dk_check _ _ 4)|]. cbn.
    eapply drun_cons; [apply (dk_insert _ _ 4 [] []); done|]. cbn.
    eapply drun_cons; [by apply (dk_read _ _ 0)|]. cbn.
    eapply drun_cons; [eapply (dk_park _ _ 0); [done|done|]; cbn; by intros c sc [= <-] [= <-]|]. cbn.
    apply drun_one. by apply (dk_put_parked _ _ 4 7 0 (Some 0)). }
  split_and!; try done. intros [|[|j]]; done.
Qed.

(** ** C46 *)
(** Received, buffered and blocked messages are those handed over, in order; a sender blocks only when the channel is full. *)
Theorem C46_hand_over (σ : nat -> Z) cap ls s e : hrun σ cap new_hand ls s ->
  h_got s e ++ h_buf s e ++ h_blocked s e = h_handed s e /\ length (h_buf s e) <= cap /\
  (h_blocked s e <> [] -> length (h_buf s e) = cap) /\
  forall c, exists rest, of_conn c (h_got s e) ++ rest = of_conn c (h_handed s e).
Proof. exact (hand_over σ cap ls s e). Qed.
Print Assumptions C46_hand_over.

(** A full channel and a blocked sender. *)
Example C46_example : exists s, hrun (fun _ => 0%Z) 1 new_hand [HServe [0]; HReceive 5 0 7; HReceive 6 0 8; HSend 6; HSend 5] s /\
  h_buf s 0 = [(6, 8)] /\ h_blocked s 0 = [(5, 7)].
Proof.
  eexists. split.
  { eapply hrun_cons; [apply hs_serve|].
    eapply hrun_cons; [apply (hs_find _ _ _ 0); [split; cbn; intros; apply not_elem_of_nil|cbn; left|done]|]. cbn.
    eapply hrun_cons; [apply (hs_find _ _ _ 0); [split; cbn; intros ? ?; rewrite ?elem_of_list_singleton; [done|apply not_elem_of_nil]|cbn; left|done]|]. cbn.
    eapply hrun_cons; [by eapply (hs_hand _ _ _ [(0, (5, 7))] 0 6 8 []); [done|cbn; lia]|]. cbn.
    apply hrun_one. by eapply (hs_block _ _ _ [] 0 5 7 []); [done|vm_compute; lia]. }
  done.
Qed.

(** ** C57 *)
(** Whatever happens, sent, taken and queued messages are those put, none lost or sent twice. *)
Theorem C57_sent_exactly_once_partial (σ : nat -> Z) ls s e : drun σ new_deck ls s -> sent_for e s ++ in_hand e s ++ d_tx s e ≡ₚ puts e ls.
Proof. exact (sent_exactly_once σ ls s e). Qed.
Print Assumptions C57_sent_exactly_once_partial.

(** Registered at most once, an endpoint sends in order. *)
Theorem C57_sent_in_order_partial (σ : nat -> Z) ls s e : drun σ new_deck ls s -> registrations e ls <= 1 ->
  sent_for e s ++ in_hand e s ++ d_tx s e = puts e ls.
Proof. exact (sent_in_order σ ls s e). Qed.
Print Assumptions C57_sent_in_order_partial.

(** Deleted while busy and registered again, it sends out of order. *)
Theorem C57_overtaking_refuted (σ : nat -> Z) e m0 m1 m2 : exists ls s, drun σ new_deck ls s /\ puts e ls = [m0; m1; m2] /\
  registrations e ls = 2 /\ sent_for e s = [m0; m2; m1].
Proof. exact (overtaking σ e m0 m1 m2). Qed.
Print Assumptions C57_overtaking_refuted.

(** A sender blocks only when the channel is full. *)
Theorem C57_put_enabled (σ : nat -> Z) s e m : dreach σ s -> length (d_tx s e) < 512 -> exists s', dstep σ s (DPut e m) s'.
Proof. exact (put_enabled σ s e m). Qed.
Print Assumptions C57_put_enabled.

(** Never deleted, an endpoint's goroutines cannot go on for ever by themselves, in no schedule. *)
Theorem C57_steps_partial (σ : nat -> Z) ls s e : drun σ new_deck ls s -> DDelete e ∉ ls ->
  loop_steps e ls <= 2 * registrations e ls + 3 * length (puts e ls).
Proof. exact (loop_steps_bound σ ls s e). Qed.
Print Assumptions C57_steps_partial.

(** When they cannot go on, all that was put has been passed down; in order if registered once. *)
Theorem C57_ends_partial (σ : nat -> Z) ls s e : drun σ new_deck ls s -> DDelete e ∉ ls -> 1 <= registrations e ls ->
  (forall s', ~ dstep σ s (DLoop e) s') -> sent_for e s ≡ₚ puts e ls /\ (registrations e ls = 1 -> sent_for e s = puts e ls).
Proof. exact (all_passed σ ls s e). Qed.
Print Assumptions C57_ends_partial.

Example C57_example : exists ls s, drun (fun _ => 0%Z) new_deck ls s /\ registrations 4 ls = 1 /\ puts 4 ls = [7] /\
  sent_for 4 s = [7].
Proof.
  exists [DCheck 4; DInsert 4; DLoop 4; DPut 4 7; DLoop 4; DLoop 4]. eexists. split.
  { eapply drun_cons; [apply (dk_check _ _ 4)|]. cbn.
    eapply drun_cons; [apply (dk_insert _ _ 4 [] []); done|]. cbn.
    eapply drun_cons; [by apply (dk_read _ _ 0)|]. cbn.
    eapply drun_cons; [eapply dk_put_buffer; [by intros [|[]]|cbn; lia]|]. cbn.
    eapply drun_cons; [by eapply (dk_take _ _ 0 4 _ 7 [])|]. cbn.
    apply drun_one. by apply (dk_send _ _ 0). }
  done.
Qed.

(** A state in which the goroutine cannot go on is reached, after sending. *)
Example C57_example_ends : exists ls s, drun (fun _ => 0%Z) new_deck ls s /\ DDelete 4 ∉ ls /\ registrations 4 ls = 1 /\
  puts 4 ls = [7; 8] /\ loop_steps 4 ls = 8 /\ (forall s', ~ dstep (fun _ => 0%Z) s (DLoop 4) s') /\ sent_for 4 s = [7; 8].
Proof.
  exists [DCheck 4; DInsert 4; DLoop 4; DPut 4 7; DPut 4 8; DLoop 4; DLoop 4; DLoop 4; DLoop 4; DLoop 4; DLoop 4; DLoop 4]. eexists. split.
  { eapply drun_cons; [apply (dk_check _ _ 4)|]. cbn.
    eapply drun_cons; [apply (dk_insert _ _ 4 [] []); done|]. cbn.
    eapply drun_cons; [by apply (dk_read _ _ 0)|]. cbn.
    eapply drun_cons; [eapply dk_put_buffer; [by intros [|[]]|cbn; lia]|]. cbn.
    eapply drun_cons; [eapply dk_put_buffer; [by intros [|[]]|by apply Nat.ltb_lt]|]. cbn.
    eapply drun_cons; [by eapply (dk_take _ _ 0 4 _ 7 [8])|]. cbn.
    eapply drun_cons; [by apply (dk_send _ _ 0)|]. cbn.
    eapply drun_cons; [by apply (dk_read _ _ 0)|]. cbn.
    eapply drun_cons; [by eapply (dk_take _ _ 0 4 _ 8 [])|]. cbn.
    eapply drun_cons; [by apply (dk_send _ _ 0)|]. cbn.
    eapply drun_cons; [by apply (dk_read _ _ 0)|]. cbn.
    apply drun_one. eapply (dk_park _ _ 0); [done|done|]. cbn. by intros c sc [= <-] [= <-]. }
  split_and!; try done.
  - intros H. by repeat (apply elem_of_cons in H as [|H]; [done|]); apply elem_of_nil in H.
  - intros s' H. inversion H; subst; simpl in *; destruct i as [|i]; simpl in *; try done; by rewrite lookup_nil in *.
Qed.

(** ** C67 *)
(** While a receiving goroutine waits for room in one endpoint's channel, and until that endpoint's user receives something, it delivers nothing to any endpoint, whatever else happens. *)
Theorem C67_held_up_refuted (σ : nat -> Z) cap s ls s' e c m : (c, m) ∈ h_blocked s e -> hrun σ cap s ls s' -> HGet e ∉ ls ->
  (c, m) ∈ h_blocked s' e /\ forall k x, HReceive c k x ∉ ls.
Proof. exact (held_up σ cap s ls s' e c m). Qed.
Print Assumptions C67_held_up_refuted.

(** The other goroutines deliver as ever: one that has nothing in hand takes any message, and one that has found the endpoint hands the message over if there is room. *)
Theorem C67_others_go_on_partial (σ : nat -> Z) cap s c : 
  (free s c -> forall k x, exists s', hstep σ cap s (HReceive c k x) s') /\
  (forall e x, (e, (c, x)) ∈ h_found s -> exists s', hstep σ cap s (HSend c) s' /\
     (length (h_buf s e) < cap -> (c, x) ∈ h_buf s' e)).
Proof. exact (others_go_on σ cap s c). Qed.
Print Assumptions C67_others_go_on_partial.

(** Receiving from the full channel lets the goroutine go. *)
Theorem C67_let_go_partial (σ : nat -> Z) cap ls0 s e c m l1 l2 : hrun σ cap new_hand ls0 s -> h_blocked s e = l1 ++ (c, m) :: l2 ->
  exists s', hrun σ cap s (replicate (S (length l1)) (HGet e)) s' /\ h_blocked s' e = l2.
Proof. exact (let_go σ cap ls0 s e c m l1 l2). Qed.
Print Assumptions C67_let_go_partial.

(** The goroutine of connection 5 waits at endpoint 0, that of connection 6 is free. *)
Example C67_example : exists s, hrun (fun _ => 0%Z) 1 new_hand [HServe [0]; HReceive 5 0 7; HReceive 6 0 8; HSend 6; HSend 5] s /\
  h_blocked s 0 = [(5, 7)] /\ free s 6.
Proof.
  eexists. split.
  { eapply hrun_cons; [apply hs_serve|].
    eapply hrun_cons; [apply (hs_find _ _ _ 0); [split; cbn; intros; apply not_elem_of_nil|cbn; left|done]|]. cbn.
    eapply hrun_cons; [apply (hs_find _ _ _ 0); [split; cbn; intros ? ?; rewrite ?elem_of_list_singleton; [done|apply not_elem_of_nil]|cbn; left|done]|]. cbn.
    eapply hrun_cons; [by eapply (hs_hand _ _ _ [(0, (5, 7))] 0 6 8 []); [done|cbn; lia]|]. cbn.
    apply hrun_one. by eapply (hs_block _ _ _ [] 0 5 7 []); [done|vm_compute; lia]. }
  split; [done|]. split; cbn; intros ? ?; [apply not_elem_of_nil|]. unfold upd. case_decide; cbn; [|apply not_elem_of_nil].
  by rewrite elem_of_list_singleton.
Qed.
