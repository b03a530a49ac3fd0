(** * Theorems about a stack that is run several times (property C66)

    Only statements: every proof is one lemma.  [grun σ procs s ls s']: any
    interleaving of the users, the goroutines of all Runs and the peers; [σ] gives
    the endpoints' sessions, [procs] says whether there are data processors. *)
From Verif Require Import GoBase AgainModel AgainSpec AgainProofs.
From stdpp Require Import sets.

(** From every state in which [e] is served: after another Run, a deleted endpoint still sends, by the goroutine of the former Run. *)
Theorem C66_still_sends_refuted σ procs s e m : greach σ procs s -> is_served s e ->
  exists ls i s', grun σ procs s (GRun :: GDel e :: GPut e m :: ls ++ [GPass i e m]) s' /\ Forall (by_goroutine i e) ls /\ e ∉ g_list s'.
Proof. exact (still_sends σ procs s e m). Qed.
Print Assumptions C66_still_sends_refuted.

(** ... and without processors it still receives from the connections of the former Run. *)
Theorem C66_still_receives_refuted σ procs s e c : procs = false -> greach σ procs s -> is_served s e -> g_conns s !! c = Some (length (g_decks s) - 1) ->
  exists s', grun σ procs s [GRun; GDel e; GRecv c (σ e) e] s' /\ e ∉ g_list s'.
Proof. exact (still_receives σ procs s e c). Qed.
Print Assumptions C66_still_receives_refuted.

(** Without processors, an endpoint added after another Run never receives from the connections there were before. *)
Theorem C66_never_seen_refuted σ procs l0 s c e k ls s' : procs = false -> grun σ procs new_again l0 s -> GAdd e ∉ l0 -> c < length (g_conns s) ->
  grun σ procs s (GRun :: ls) s' -> GRecv c k e ∉ ls.
Proof. exact (never_seen σ procs l0 s c e k ls s'). Qed.
Print Assumptions C66_never_seen_refuted.

(** After another Run two messages can be sent in the opposite order. *)
Theorem C66_out_of_order_refuted σ procs s e d a b : greach σ procs s -> last (g_decks s) = Some d -> (e, None) ∈ d -> g_tx s e = [] ->
  first_of σ s (σ e) = Some e ->
  exists i j s', grun σ procs s [GRun; GPut e a; GPut e b; GTake i e a; GTake j e b; GPass j e b; GPass i e a] s' /\
    down_for e s' = down_for e s ++ [b; a].
Proof. exact (out_of_order σ procs s e d a b). Qed.
Print Assumptions C66_out_of_order_refuted.

(** Every Run starts another goroutine for the endpoint that serves a session; none of the former ones ends. *)
Theorem C66_goroutines_refuted σ procs k s s' e : greach σ procs s -> first_of σ s (σ e) = Some e -> grun σ procs s (replicate k GRun) s' ->
  length (goroutines e s') = length (goroutines e s) + k.
Proof. exact (goroutines_grow σ procs k s s' e). Qed.
Print Assumptions C66_goroutines_refuted.

Ltac one := first
  [ eapply gk_add_first; set_solver | eapply (gk_add _ _ _ []); set_solver
  | eapply (gk_del _ _ _ []); set_solver | eapply gk_run | eapply gk_put
  | eapply (gk_take _ _ _ _ _ _ _ 0 []); done | eapply (gk_pass _ _ _ _ _ _ _ 0 []); done
  | eapply gk_conn; simpl; lia ].
(** The hypotheses of all of them: endpoint 1 is served, connection 0 is its Run's. *)
Example C66_refuted_example : exists ls s, grun Z.of_nat false new_again ls s /\
  is_served s 1 /\ last (g_decks s) = Some [(1, None)] /\ g_tx s 1 = [] /\ first_of Z.of_nat s 1 = Some 1 /\
  g_conns s !! 0 = Some (length (g_decks s) - 1) /\ GAdd 2 ∉ ls /\
  exists s', grun Z.of_nat false s (replicate 3 GRun) s' /\ length (goroutines 1 s') = 4.
Proof.
  exists [GAdd 1; GRun; GConn 0]. eexists. split.
  { unfold new_again. eapply grun_cons; [one|]. eapply grun_cons; [one|]. eapply grun_one. one. }
  split_and!; try done; [by exists [(1, None)]; split; [|left]|set_solver|].
  eexists. split; [|].
  { simpl. eapply grun_cons; [one|]. eapply grun_cons; [one|]. eapply grun_one. one. }
  done.
Qed.

(** With one Run a deleted endpoint neither sends nor receives until it is added again, *)
Theorem C66_stopped_partial σ procs l0 e l1 s : grun σ procs new_again (l0 ++ GDel e :: l1) s -> runs (l0 ++ GDel e :: l1) <= 1 -> GAdd e ∉ l1 ->
  Forall (fun l => ~ alive e l) l1.
Proof. exact (stopped σ procs l0 e l1 s). Qed.
Print Assumptions C66_stopped_partial.

(** the messages of an endpoint are passed down in the order they were put; at most one is in hand, the others wait, *)
Theorem C66_in_order_partial σ procs ls s e : grun σ procs new_again ls s -> runs ls <= 1 ->
  exists h, length h <= 1 /\ put_for e ls = down_for e s ++ h ++ g_tx s e.
Proof. exact (in_order σ procs ls s e). Qed.
Print Assumptions C66_in_order_partial.

(** and only registered endpoints receive; with processors also after further Runs. *)
Theorem C66_receives_registered_partial σ procs ls s c k e s' : runs ls <= 1 \/ procs = true -> grun σ procs new_again ls s -> gstep σ procs s (GRecv c k e) s' ->
  e ∈ g_list s /\ σ e = k.
Proof. exact (receives_registered σ procs ls s c k e s'). Qed.
Print Assumptions C66_receives_registered_partial.

(** A message is given to nobody only if no registered endpoint has its session, when the endpoints ever added have different sessions. *)
Theorem C66_lost_nobody_partial σ procs ls s c k s' e : runs ls <= 1 \/ procs = true -> grun σ procs new_again ls s ->
  (forall x y, GAdd x ∈ ls -> GAdd y ∈ ls -> σ x = σ y -> x = y) ->
  gstep σ procs s (GLost c k) s' -> e ∈ g_list s -> σ e <> k.
Proof. exact (lost_nobody σ procs ls s c k s' e). Qed.
Print Assumptions C66_lost_nobody_partial.

(** However often the stack is run: adding an endpoint registers it and deleting it unregisters it, and neither touches another. *)
Theorem C66_registers_partial σ procs s e s' : (gstep σ procs s (GAdd e) s' -> e ∈ g_list s' /\ forall x, x <> e -> (x ∈ g_list s' <-> x ∈ g_list s)) /\
  (gstep σ procs s (GDel e) s' -> e ∉ g_list s' /\ forall x, x <> e -> (x ∈ g_list s' <-> x ∈ g_list s)).
Proof. exact (conj (add_registers σ procs s e s') (del_unregisters σ procs s e s')). Qed.
Print Assumptions C66_registers_partial.

(** AddEndPoint never waits and does nothing if the endpoint is there; DeleteEndPoint does nothing if it is not, and else waits only for a message in its hand. *)
Theorem C66_calls_partial σ procs s e :
  (exists s', gstep σ procs s (GAdd e) s') /\ (e ∈ g_list s -> forall s', gstep σ procs s (GAdd e) s' <-> s' = s) /\
  (e ∉ g_list s -> forall s', gstep σ procs s (GDel e) s' <-> s' = s) /\
  (e ∈ g_list s -> (exists s', gstep σ procs s (GDel e) s') <-> forall d m, last (g_decks s) = Some d -> (e, Some m) ∉ d).
Proof. exact (calls_possible σ procs s e). Qed.
Print Assumptions C66_calls_partial.

(** Every message that comes on a connection is given to an endpoint with its session or lost. *)
Theorem C66_given_or_lost_partial σ procs ls s c k : grun σ procs new_again ls s -> c < length (g_conns s) ->
  gstep σ procs s (GLost c k) s \/ exists e, σ e = k /\ gstep σ procs s (GRecv c k e) s.
Proof. exact (given_or_lost σ procs ls s c k). Qed.
Print Assumptions C66_given_or_lost_partial.

(** Endpoint 1 sends a message, is deleted with another waiting and added again; 2 is added as well. *)
Example C66_partial_example : exists s s',
  grun Z.of_nat true new_again ([GAdd 1; GPut 1 7; GRun; GTake 0 1 7; GPass 0 1 7; GPut 1 8] ++ GDel 1 :: [GConn 0; GAdd 2; GPut 1 9]) s /\
  runs ([GAdd 1; GPut 1 7; GRun; GTake 0 1 7; GPass 0 1 7; GPut 1 8] ++ GDel 1 :: [GConn 0; GAdd 2; GPut 1 9]) <= 1 /\
  GAdd 1 ∉ [GConn 0; GAdd 2; GPut 1 9] /\ down_for 1 s = [7] /\ g_tx s 1 = [8; 9] /\
  gstep Z.of_nat true s (GRecv 0 2 2) s'.
Proof.
  eexists _, _. split.
  { cbn [app]. unfold new_again. do 9 (eapply grun_cons; [one|]; cbn). eapply grun_one. one. }
  split; [vm_compute; lia|]. split; [set_solver|]. split; [done|]. split; [done|].
  change 2%Z with (Z.of_nat 2). eapply gk_recv; [done|done|]. by left.
Qed.
(** There a message for the deleted endpoint 1 is lost, and endpoint 2 is registered. *)
Example C66_example_lost : exists s s',
  grun Z.of_nat true new_again ([GAdd 1; GPut 1 7; GRun; GTake 0 1 7; GPass 0 1 7; GPut 1 8] ++ GDel 1 :: [GConn 0; GAdd 2; GPut 1 9]) s /\
  gstep Z.of_nat true s (GLost 0 1) s' /\ 2 ∈ g_list s /\ forall x y, Z.of_nat x = Z.of_nat y -> x = y.
Proof.
  eexists _, _. split.
  { cbn [app]. unfold new_again. do 9 (eapply grun_cons; [one|]; cbn). eapply grun_one. one. }
  split; [|split; [by left|lia]]. eapply gk_lost; [done|done|]. intros e He.
  apply elem_of_list_singleton in He as ->. done.
Qed.
