(** * C92, C93: what is heard and what the peer wrote

    Only statements: every proof is one lemma.  [nrun N any_read s ls s']: the
    goroutines of both stacks and the connection run in any order, every Read
    returns as many bytes as the connection likes. *)
From Verif Require Import GoBase UBufModel UBufSpec FrameModel FrameSpec StackModel StackSpec StackFacts StackEnd NetModel NetSpec NetProofs SafeSpec HonSpec HonProofs SiftSpec SiftProofs Props_Net.

(** ** C92 *)

(** Refuted for every pair of stacks: a message whose encoding fits the sender's
    MTU, but not with its headers the receiver's, is written whole by the sender and never heard by anyone, however the
    bytes are divided into Reads and whatever else is sent.  (The last hypothesis
    holds of the bytes and string codecs: C92_plain_codecs_refuted.) *)
Theorem C92_lost_refuted N k ps e x l a b : matching N k ps -> hears_by N k ps -> init_st (nb N) = Some b -> 0 < ntxcap N ->
  encodes k (ml_msg x) l -> l <> [] -> (Z.of_nat (length l) <= e_mtu (na N) - e_overhead (na N))%Z ->
  (e_mtu (nb N) < Z.of_nat (heads ps + length l))%Z -> (forall l', read_as k l' (ml_msg x) -> length l <= length l') ->
  (exists s, nrun N any_read (new_net a b) [NPut e x; NTake e; NPass e] s /\ n_wire s = wire_of (dest_of (nsess N e) (ml_dest x)) ps l) /\
  forall ls s z, nrun N any_read (new_net a b) ls s -> ml_msg x ∉ heard z s.
Proof. exact (sent_lost N k ps e x l a b). Qed.
Print Assumptions C92_lost_refuted.
Theorem C92_plain_codecs_refuted l l' : (read_as KBytes l' (MBytes l) -> length l <= length l') /\ (read_as KString l' (MStr l) -> length l <= length l').
Proof. split; by intros [= ->]. Qed.
Print Assumptions C92_plain_codecs_refuted.

(** What fits the MTUs of both sides, whatever they are, can always arrive: if
    every Read ends where a Write ended, all that has been given so far can be sent and heard, in the order of each sender. *)
Theorem C92_fitting_partial N k ps a b ls s : matching N k ps -> 0 < nrxcap N -> caches_idle (nb N) b ->
  nrun N (whole_read (framed ps)) (new_net a b) ls s -> all_sendable N k ps ls ->
  exists ms s' o, nrun N (whole_read (framed ps)) s ms s' /\ Forall inner ms /\
    (forall e, mails_of e o = given e ls) /\ forall z, heard z s' = mails_for N z o.
Proof. exact (fitting_arrives N k ps a b ls s). Qed.
Print Assumptions C92_fitting_partial.

(** ** C93 *)

(** Whatever the peer writes and however it is divided into Reads: every message
    heard is made by the codec of consecutive bytes of what the peer wrote, which
    come after as many bytes as the headers need and fit one Read with them. *)
Theorem C93_heard_was_written N k ps a b ls s z m : hears_by N k ps -> init_st (nb N) = Some b ->
  nrun N any_read (new_net a b) ls s -> m ∈ heard z s -> stands_in N k ps (stream s) m.
Proof. exact (heard_stands N k ps a b ls s z m). Qed.
Print Assumptions C93_heard_was_written.
(** And in order: the messages a listener hears lie one behind the other in what
    the peer wrote and was read; none is heard twice, none before one written
    earlier. *)
Theorem C93_heard_in_order N k ps a b ls s z : hears_by N k ps -> init_st (nb N) = Some b ->
  nrun N any_read (new_net a b) ls s -> laid k (heads ps) (e_mtu (nb N)) (stream s) (heard z s) (n_got s).
Proof. exact (heard_laid N k ps a b ls s z). Qed.
Print Assumptions C93_heard_in_order.

(** The sender's MTU is 64, the receiver's 32. *)
Definition ex_small : env :=
  Env (build_links (seq 0 6) no_links) ex_procs 32 (build_overhead (p_kind <$> ex_procs) 0) [110; 97]%Z [0; 7]%Z
    (fun _ => false) (fun _ _ l => (length l, false)) (fun _ _ _ => false).
Definition ex_small_start : st := match init_st ex_small with Some s => s | None => St [] [] [] end.
Definition ex_uneven : net := Net ex_side ex_small 3 5 (fun e => if e =? 0 then 7%Z else 0%Z) 2 2.
Lemma ex_small_wired E : E = ex_side \/ E = ex_small -> wired E (seq 0 6) ([] ++ Proc KBytes true :: ex_low).
Proof.
  intros [-> | ->]; (split_and!; [done|apply NoDup_seq|done|]; apply Forall2_same_length_lookup_2; [done|]);
    intros i x y Hx Hy; apply lookup_seq in Hx as [-> _]; done.
Qed.
Example ex_uneven_matching : matching ex_uneven KBytes ex_low.
Proof.
  exists (seq 0 6), (seq 0 6), [], []. split; [apply ex_small_wired; by left|]. split; [apply ex_small_wired; by right|].
  split_and!; try done; by repeat constructor.
Qed.
Example ex_uneven_hears : hears_by ex_uneven KBytes ex_low /\ init_st (nb ex_uneven) = Some ex_small_start.
Proof.
  split; [|done]. exists (seq 0 6), []. split; [apply ex_small_wired; by right|]. split; [done|]. split; [by repeat constructor|].
  split; [by vm_compute|]. split; [done|]. by exists [1%Z], (MBytes [1%Z]).
Qed.
(** Twenty-five bytes fit the sender's MTU; with the headers, eleven bytes, they do not fit the receiver's. *)
Definition ex_long : list byte := replicate 25 5%Z.
Example C92_example : let x := Mail None (MBytes ex_long) in
  0 < ntxcap ex_uneven /\ encodes KBytes (ml_msg x) ex_long /\ ex_long <> [] /\
  (Z.of_nat (length ex_long) <= e_mtu (na ex_uneven) - e_overhead (na ex_uneven))%Z /\
  (e_mtu (nb ex_uneven) < Z.of_nat (heads ex_low + length ex_long))%Z.
Proof. split_and!; try done; vm_compute; lia. Qed.
(** The receiver reads 32 of the 36 bytes: its listener gets the first 21 bytes of the message. *)
Example C93_example : exists s, nrun ex_uneven any_read (new_net ex_start ex_small_start)
    [NPut 0 (Mail None (MBytes ex_long)); NTake 0; NPass 0; NRead 32; NDeliver; NListen 7] s /\
  heard 7 s = [MBytes (take 21 ex_long)] /\ n_wire s = take 4 ex_long.
Proof.
  eexists. split.
  { eapply nrun_cons; [done|apply nk_put; simpl; lia|].
    eapply nrun_cons; [done|by apply nk_take|].
    eapply nrun_cons; [done|eapply nk_pass; [done|eapply (finishes_exec _ _ _ _ _ _ _ _ 20); [vm_compute; reflexivity|vm_compute; reflexivity]]|].
    eapply nrun_cons; [done|eapply nk_read; [lia|vm_compute; lia|done|eapply (finishes_exec _ _ _ _ _ _ _ _ 20); [vm_compute; reflexivity|vm_compute; reflexivity]]|].
    eapply nrun_cons; [done|apply nk_deliver; simpl; lia|].
    apply nrun_one; [done|by apply nk_listen]. }
  by vm_compute.
Qed.
(** A message that fits both sides is under way between them. *)
Example C92_example_fitting : exists s, caches_idle (nb ex_uneven) ex_small_start /\ 0 < nrxcap ex_uneven /\
  nrun ex_uneven (whole_read (framed ex_low)) (new_net ex_start ex_small_start) [NPut 0 (Mail None (MBytes [1; 2]%Z)); NTake 0] s /\
  all_sendable ex_uneven KBytes ex_low [NPut 0 (Mail None (MBytes [1; 2]%Z)); NTake 0].
Proof.
  eexists. split; [apply init_idle; by vm_compute|]. split; [simpl; lia|]. split.
  { eapply nrun_cons; [done|apply nk_put; simpl; lia|]. apply nrun_one; [done|by apply nk_take]. }
  assert (7%Z ∈ e_sessions (nb ex_uneven)) by (right; left).
  intros e x Hx. apply elem_of_cons in Hx as [[= -> ->]|Hx]; [|by apply elem_of_list_singleton in Hx].
  exists [1; 2]%Z. (split; [done|]); (split; [done|]); (split; [done|]);
      (split; [vm_compute; done|]); (split; [vm_compute; done|]); (split; [simpl; lia|]); (split; [by left|]); done.
Qed.
