(** * Theorems about clients that ask a server (property C74)

    Only statements: every proof is one lemma.  [rrun R ok s ls s']: the
    clients, the server and the connections run, in any order, as long as [ok]
    holds of every step.  [v_log] is what the server's listener was called with. *)
From Verif Require Import GoBase UBufModel UBufSpec FrameModel FrameSpec StackModel StackSpec StackFacts StackEnd NetModel NetSpec NetProofs RpcModel RpcSpec RpcProofs.

(** ** C74 *)

(** If a Read of a connection returns all the bytes that are there, then, for every client: the listener was called with its requests, in order, except the last one if that is under way, and its Reads returned the answers to them, in order, except the last one if that is under way or was not given; while the client is not waiting nothing is missing. *)
Theorem C74_own_answers_partial R k ps a b ls s i : fitting R k ps -> answers_fit R k ps -> all_idle R a b ->
  rrun R all_there (new_rpc R a b) ls s -> requests_fit R k ps ls -> i < rn R ->
  exists p q, ml_msg <$> asked i ls = calls_of (rsc R i) (v_log (r_sv s)) ++ p /\
    answers_to R (rsc R i) (v_log (r_sv s)) = (Some <$> c_got (r_cl s i)) ++ q /\
    length p + length q <= 1 /\ (c_wait (r_cl s i) = false -> p = [] /\ q = []).
Proof. exact (fun H1 H2 => own_answer R k ps H1 H2 a b ls s i). Qed.
Print Assumptions C74_own_answers_partial.

(** The listener is called for clients only. *)
Theorem C74_clients_only_partial R k ps a b ls s : fitting R k ps -> answers_fit R k ps -> all_idle R a b ->
  rrun R all_there (new_rpc R a b) ls s -> requests_fit R k ps ls ->
  Forall (fun p => exists i, i < rn R /\ fst p = Some (rsc R i)) (v_log (r_sv s)).
Proof. exact (fun H1 H2 => from_clients R k ps H1 H2 a b ls s). Qed.
Print Assumptions C74_clients_only_partial.

(** If the answer depends on the request only, the n-th Read of a client returns the answer to its n-th request. *)
Theorem C74_same_answers_partial R k ps f a b ls s i : fitting R k ps -> answers_fit R k ps -> all_idle R a b ->
  rrun R all_there (new_rpc R a b) ls s -> requests_fit R k ps ls -> i < rn R ->
  (forall log c m, ml_msg <$> rans R log (c, m) = f m) ->
  exists q, f <$> (ml_msg <$> asked i ls) = (Some <$> c_got (r_cl s i)) ++ q /\ length q <= 1.
Proof. exact (fun H1 H2 => same_answer R k ps H1 H2 f a b ls s i). Qed.
Print Assumptions C74_same_answers_partial.

(** Without new requests all comes to rest, after at most eleven steps for every client. *)
Theorem C74_comes_to_rest_partial R k ps a b ls s ms s' : fitting R k ps -> answers_fit R k ps -> all_idle R a b ->
  rrun R all_there (new_rpc R a b) ls s -> requests_fit R k ps ls ->
  rrun R all_there s ms s' -> Forall onward ms -> length ms <= 11 * rn R.
Proof. exact (fun H1 H2 => bounded R k ps H1 H2 a b ls s ms s'). Qed.
Print Assumptions C74_comes_to_rest_partial.

(** At rest every request has been served, and a client that still waits waits for an answer the listener did not give. *)
Theorem C74_all_served_partial R k ps a b ls s i : fitting R k ps -> answers_fit R k ps -> 0 < rtxcap R -> 0 < rrxcap R -> all_idle R a b ->
  rrun R all_there (new_rpc R a b) ls s -> requests_fit R k ps ls -> at_rest R s -> i < rn R ->
  ml_msg <$> asked i ls = calls_of (rsc R i) (v_log (r_sv s)) /\
  (c_wait (r_cl s i) = false /\ answers_to R (rsc R i) (v_log (r_sv s)) = Some <$> c_got (r_cl s i) \/
   c_wait (r_cl s i) = true /\ answers_to R (rsc R i) (v_log (r_sv s)) = (Some <$> c_got (r_cl s i)) ++ [None]).
Proof. exact (fun H1 H2 => all_served R k ps H1 H2 a b ls s i). Qed.
Print Assumptions C74_all_served_partial.

(** However the bytes are divided: no channel ever holds more than its capacity. *)
Theorem C74_bounded_partial R a b ls s : rrun R any_chunks (new_rpc R a b) ls s ->
  length (v_rx (r_sv s)) <= rrxcap R /\ length (v_tx (r_sv s)) <= rtxcap R /\
  forall i, length (c_tx (r_cl s i)) <= rtxcap R /\ length (c_rx (r_cl s i)) <= rrxcap R.
Proof. exact (rpc_bounded R any_chunks a b ls s). Qed.
Print Assumptions C74_bounded_partial.

(** But if the server's Read returns all of a request's frame but its last four bytes, the listener is called with a message nobody sent, and the client reads the answer to that. *)
Theorem C74_truncated_refuted R k qs cap i x l m y a b : fitting R k (qs ++ [Proc (KFrame cap) true]) ->
  answers_fit R k (qs ++ [Proc (KFrame cap) true]) -> Forall (fun p => framing p = false) qs -> all_idle R a b ->
  0 < rtxcap R -> 0 < rrxcap R -> i < rn R ->
  sendable_as (up R i) k (qs ++ [Proc (KFrame cap) true]) 0 x l -> dest_of (rcs R i) (ml_dest x) = rss R ->
  4 < length l -> decodes k (take (length l - 4) l) m -> rans R [] (Some (rsc R i), m) = Some y ->
  exists n n' s, rrun R any_chunks (new_rpc R a b)
    [RWrite i x; RTake i; RPass i; RRead i n; RDeliver i; RCall; RReply; RSrvTake; RSrvPass; RBack i n'; RArrive i; RGet i] s /\
    v_log (r_sv s) = [(Some (rsc R i), m)] /\ c_got (r_cl s i) = [ml_msg y].
Proof. exact (rpc_cut R k qs cap i x l m y a b). Qed.
Print Assumptions C74_truncated_refuted.

(** The stacks of the example: strings, sessions, frames; three clients.  The server answers every string that begins with h (104) by how often it was asked before. *)
Definition ex_low : list proc := [Proc KSession true; Proc (KFrame None) true].
Definition ex_procs : list proc := Proc KString true :: ex_low.
Definition ex_side : env :=
  Env (build_links (seq 0 3) no_links) ex_procs 64 (build_overhead (p_kind <$> ex_procs) 0) [110; 97]%Z [0]%Z
    (fun _ => false) (fun _ _ l => (length l, false)) (fun _ _ _ => false).
Definition ex_start : st := match init_st ex_side with Some s => s | None => St [] [] [] end.
Definition ex_listener (log : list (epd msg)) (p : epd msg) : option mail :=
  match snd p with MStr (104%Z :: _) => Some (Mail None (MStr [Z.of_nat (Nat.min 9 (length log))])) | _ => None end.
Definition ex_rpc : rpc := Rpc ex_side 0 (fun _ => ex_side) (fun _ => 0%Z) (fun _ => 2) (fun i => 5 + i) 3 1 1 ex_listener.
Definition hello : mail := Mail None (MStr [104; 101; 108; 108; 111]%Z).
Definition hullo : mail := Mail None (MStr [104; 117]%Z).
Definition other : mail := Mail None (MStr [1; 2]%Z).
Example ex_fitting : fitting ex_rpc KString ex_low.
Proof.
  assert (wired ex_side (seq 0 3) ([] ++ Proc KString true :: ex_low)) as W.
  { split_and!; [done|apply NoDup_seq|done|]. apply Forall2_same_length_lookup_2; [done|].
    intros i x y Hx Hy. apply lookup_seq in Hx as [-> _]. done. }
  split; [|intros i j _ _; simpl; lia]. intros i _.
  split; exists (seq 0 3), (seq 0 3), [], []; split_and!; try done; by repeat constructor.
Qed.
Example ex_answers : answers_fit ex_rpc KString ex_low.
Proof.
  intros log i m y _ Hy. simpl in Hy. unfold ex_listener in Hy. simpl in Hy. destruct m as [l|[|c l]|o]; try done.
  assert (y = Mail None (MStr [Z.of_nat (Nat.min 9 (length log))])) as ->.
  { destruct c as [|c|c]; [done| |done]. repeat (destruct c as [c|c|]; [done || idtac..|]; try done); by injection Hy as <-. }
  assert (0%Z ∈ e_sessions ex_side) by left.
  split; [|done]. exists [Z.of_nat (Nat.min 9 (length log))]. split_and!; try done; simpl; (by left) || lia || idtac.
Qed.
Example ex_idle : all_idle ex_rpc (fun _ => ex_start) ex_start.
Proof. split; [|intros i _]; apply init_idle; by vm_compute. Qed.
(** Clients 0, 2 and 1 ask; the server gets the requests in the order 2, 0, 1, and answers the first two. *)
Definition ex_labels : list rlab :=
  [RWrite 0 hello; RWrite 2 hullo; RWrite 1 other; RTake 2; RTake 0; RPass 2; RPass 0; RTake 1; RPass 1;
   RRead 2 10; RRead 0 13; RRead 1 10; RDeliver 2; RCall; RDeliver 0; RReply; RCall; RSrvTake; RReply; RSrvPass; RSrvTake; RSrvPass;
   RBack 0 9; RBack 2 9; RArrive 2; RGet 2; RArrive 0; RGet 0; RDeliver 1; RCall].
Ltac go := match goal with
  | |- finishes _ _ _ _ => eapply (finishes_exec _ _ _ _ _ _ _ _ 20); [vm_compute; reflexivity|vm_compute; reflexivity]
  | |- @eq srv _ _ => reflexivity
  | |- @eq cl _ _ => vm_compute; reflexivity
  | |- (_ <= _)%Z => vm_compute; discriminate
  | |- _ <= _ => vm_compute; lia
  | |- _ < _ => vm_compute; lia
  end.
Example C74_example : exists s, rrun ex_rpc all_there (new_rpc ex_rpc (fun _ => ex_start) ex_start) ex_labels s /\
  requests_fit ex_rpc KString ex_low ex_labels /\
  c_got (r_cl s 2) = [MStr [0]%Z] /\ c_got (r_cl s 0) = [MStr [1]%Z] /\ c_wait (r_cl s 1) = true /\ answers_to ex_rpc 6 (v_log (r_sv s)) = [None].
Proof.
  eexists. split; [|split].
  { unfold ex_labels. do 30 (eapply rrun_cons; [by vm_compute|econstructor; go|]). constructor. }
  { assert (0%Z ∈ e_sessions ex_side) by left.
    intros e x Hx. unfold ex_labels in Hx. repeat (apply elem_of_cons in Hx as [Hx|Hx]; [try discriminate Hx|]);
      [| | |by apply elem_of_nil in Hx]; injection Hx as -> ->; (split; [|done]); eexists; (split; [done|]); (split; [done|]); (split; [done|]);
      (split; [vm_compute; done|]); (split; [vm_compute; done|]); (split; [simpl; lia|]); (split; [by left|]); done. }
  by vm_compute.
Qed.
(** Client 1 asks h, 1, ..., 6: the server is asked h, 1, 2, and client 1 reads the answer to that. *)
Example C74_example_truncated : let x := Mail None (MStr [104; 1; 2; 3; 4; 5; 6])%Z in
  Forall (fun p => framing p = false) [Proc KSession true] /\
  sendable_as (up ex_rpc 1) KString ([Proc KSession true] ++ [Proc (KFrame None) true]) 0 x [104; 1; 2; 3; 4; 5; 6]%Z /\
  dest_of (rcs ex_rpc 1) (ml_dest x) = rss ex_rpc /\
  decodes KString (take 3 [104; 1; 2; 3; 4; 5; 6]%Z) (MStr [104; 1; 2]%Z) /\
  rans ex_rpc [] (Some (rsc ex_rpc 1), MStr [104; 1; 2]%Z) = Some (Mail None (MStr [0]%Z)).
Proof.
  assert (0%Z ∈ e_sessions ex_side) by left.
  split; [by repeat constructor|]. split; [|done].
  (split; [done|]); (split; [done|]); (split; [done|]);
      (split; [vm_compute; done|]); (split; [vm_compute; done|]); (split; [simpl; lia|]); (split; [by left|]); done.
Qed.
