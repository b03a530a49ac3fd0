(** * Theorems about the example program microservices (properties C86, C87)

    Only statements: every proof is one lemma. *)
From Verif Require Import GoBase AppModel AppSpec AppProofs.

(** ** C86 *)

(** A service whose name and address contain no colon, and whose name does not end in reg, is found after it has been registered, whatever harmless requests come before and between, unless it is registered anew. *)
Theorem C86_found_partial n a h k m : col ∉ n -> col ∉ a -> ~ ends_in reg n ->
  Forall harmless h -> Forall harmless k -> (forall r, r ∈ k -> ~ (names n r /\ ends_in reg r)) ->
  exists m' l, center_runs (h ++ registers n a :: k ++ [n]) m = Some (m', l ++ [Some a]) /\ length l = length h + 1 + length k.
Proof. exact (found n a h k m). Qed.
Print Assumptions C86_found_partial.

(** But of an address with a colon, such as host and port, only the part before it is kept. *)
Theorem C86_port_refuted n a b h k m : col ∉ n -> col ∉ a -> ~ ends_in reg n ->
  Forall harmless h -> Forall harmless k -> (forall r, r ∈ k -> ~ (names n r /\ ends_in reg r)) ->
  exists m' l, center_runs (h ++ registers n (a ++ col :: b) :: k ++ [n]) m = Some (m', l ++ [Some a]) /\ length l = length h + 1 + length k.
Proof. exact (cut_off n a b h k m). Qed.
Print Assumptions C86_port_refuted.

(** A service whose name ends in reg is never found. *)
Theorem C86_name_refuted n m m' a : ends_in reg n -> center_hears n m = Some (m', a) -> a = None.
Proof. exact (unanswered n m m' a). Qed.
Print Assumptions C86_name_refuted.

(** And the center ends exactly when some request ends in reg and contains no colon: any client can send one. *)
Theorem C86_ends_refuted rs m : center_runs rs m = None <-> exists r, r ∈ rs /\ ends_in reg r /\ col ∉ r.
Proof. exact (runs_none rs m). Qed.
Print Assumptions C86_ends_refuted.

(** Name "a", address "b" with port "1". *)
Example C86_example : let n := [97]%Z in let a := [98]%Z in
  col ∉ n /\ col ∉ a /\ ~ ends_in reg n /\ Forall harmless [n; a] /\ (forall r, r ∈ [a] -> ~ (names n r /\ ends_in reg r)) /\
  (snd <$> center_runs [n; registers n a; a; n] (fun _ => None)) = Some [None; None; None; Some a] /\
  (snd <$> center_runs [registers n (a ++ [col; 49])%Z; n] (fun _ => None)) = Some [None; Some a] /\
  ends_in reg ([98; 58] ++ reg)%Z /\ center_runs [reg] (fun _ => None) = None.
Proof.
  assert (forall x : byte, ~ ends_in reg [x]) as Hx.
  { intros x [p Hp]. apply (f_equal length) in Hp. rewrite app_length in Hp. simpl in Hp. lia. }
  split; [by intros H%elem_of_list_singleton|]. split; [by intros H%elem_of_list_singleton|]. split; [apply Hx|].
  split; [by repeat (constructor; [intros H; by apply Hx in H|])|]. split; [intros r ->%elem_of_list_singleton [_ H]; by apply Hx in H|].
  split; [by vm_compute|]. split; [by vm_compute|]. split; [by exists [98; 58]%Z|by vm_compute].
Qed.

(** ** C87 *)

(** What is written goes to the connection that was announced or read from last: to the one the request came from, if none has been announced since. *)
Theorem C87_last_partial ls s d s' : xrun new_session ls s -> xstep s (XWrite d) s' ->
  exists c, last_touched ls = Some c /\ x_log s' = x_log s ++ [(c, d)].
Proof. exact (writes_to ls s d s'). Qed.
Print Assumptions C87_last_partial.

(** A request that comes in can be read and is answered on its connection. *)
Theorem C87_answered_partial s c d d' : x_waited s = true -> c ∈ x_open s -> x_rx s = [] ->
  exists s', xrun s [XArrive c d; XRead c d; XWrite d'] s' /\ x_log s' = x_log s ++ [(c, d')] /\ x_rx s' = [].
Proof. exact (answered s c d d'). Qed.
Print Assumptions C87_answered_partial.

(** Requests are read in the order in which they arrive, each once. *)
Theorem C87_in_order_partial ls s : xrun new_session ls s -> arrived ls = was_read ls ++ x_rx s.
Proof. exact (read_in_order ls s). Qed.
Print Assumptions C87_in_order_partial.

(** The first two connections can be served, *)
Theorem C87_first_two_partial ls s c : xrun new_session ls s -> x_pub s = AReady c -> length (x_open s) <= 1 ->
  exists ms s', xrun s ms s' /\ x_open s' = x_open s ++ [c] /\ x_log s' = x_log s /\ x_rx s' = x_rx s.
Proof. exact (session_first ls s c). Qed.
Print Assumptions C87_first_two_partial.

(** but no session ever serves more than two, or is told of more than three: *)
Theorem C87_only_two_refuted ls s : xrun new_session ls s -> length (x_open s) <= 2 /\ connects ls <= 3.
Proof. exact (session_limit ls s). Qed.
Print Assumptions C87_only_two_refuted.

(** the goroutine that announces connections stays in the listener for good. *)
Theorem C87_third_blocks_refuted s c ls s' : x_waited s = true -> x_ready s = 1 -> x_pub s = AReady c -> xrun s ls s' ->
  x_waited s' = true /\ x_ready s' = 1 /\ x_pub s' = AReady c /\ x_open s' = x_open s /\ connects ls = 0.
Proof. exact (third s c ls s'). Qed.
Print Assumptions C87_third_blocks_refuted.

(** And whenever a request waits, its answer goes to somebody who connects in between. *)
Theorem C87_misdirected_refuted s c d c' d' : x_waited s = true -> x_pub s = AWait -> head (x_rx s) = Some (c, d) -> c' ∉ x_open s ->
  exists s', xrun s [XRead c d; XConnect c'; XWrite d'] s' /\ x_log s' = x_log s ++ [(c', d')].
Proof. exact (misdirected s c d c' d'). Qed.
Print Assumptions C87_misdirected_refuted.

Definition ex_first : list xlab := [XConnect 1; XPut 1; XWait; XArrive 1 7].
Definition ex_session : xst := Xst (Some 1) 0 true AWait [1] [(1, 7)] [].
Lemma first_run : xrun new_session ex_first ex_session.
Proof.
  unfold ex_first. eapply xrun_cons; [apply xk_connect; apply not_elem_of_nil|]. eapply xrun_cons; [apply xk_put; lia|].
  eapply xrun_cons; [apply xk_wait|]. apply xrun_one. apply xk_arrive. by left.
Qed.
Example C87_example : xrun new_session ex_first ex_session /\ x_waited ex_session = true /\ x_pub ex_session = AWait /\
  head (x_rx ex_session) = Some (1, 7) /\ 2 ∉ x_open ex_session /\
  exists s, xrun ex_session [XRead 1 7; XWrite 8; XConnect 2; XPut 2; XConnect 3] s /\
    x_waited s = true /\ x_ready s = 1 /\ x_pub s = AReady 3 /\ x_log s = [(1, 8)] /\ x_open s = [1; 2].
Proof.
  split; [apply first_run|]. split; [done|]. split; [done|]. split; [done|]. split; [by intros ?%elem_of_list_singleton|].
  eexists. split.
  { unfold ex_session. eapply xrun_cons; [apply xk_read|]. eapply xrun_cons; [apply xk_write|]. eapply xrun_cons; [apply xk_connect; by intros ?%elem_of_list_singleton|].
    eapply xrun_cons; [apply xk_put; lia|]. apply xrun_one. apply xk_connect. simpl. intros [?|?%elem_of_list_singleton]%elem_of_cons; done. }
  done.
Qed.
Example C87_example_first : exists s, xrun new_session [XConnect 1] s /\ x_pub s = AReady 1 /\ length (x_open s) <= 1.
Proof. eexists. split; [apply xrun_one; apply xk_connect; apply not_elem_of_nil|]. split; [done|simpl; lia]. Qed.
Example C87_example_answered : exists s, xrun new_session [XConnect 1; XPut 1; XWait] s /\ x_waited s = true /\ 1 ∈ x_open s /\ x_rx s = [].
Proof.
  eexists. split; [eapply xrun_cons; [apply xk_connect; apply not_elem_of_nil|]; eapply xrun_cons; [apply xk_put; lia|]; apply xrun_one; apply xk_wait|].
  split; [done|]. split; [by left|done].
Qed.
