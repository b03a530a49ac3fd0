(** * C89: honest traffic and the division of bytes into Reads

    Only statements: every proof is one lemma.  [nrun N any_read s ls s']: the
    goroutines of both stacks and the connection run in any order, every Read
    returns as many bytes as the connection likes. *)
From Verif Require Import GoBase UBufModel UBufSpec FrameModel FrameSpec StackModel StackSpec StackFacts StackEnd NetModel NetSpec NetProofs SafeSpec HonSpec HonProofs Props_Net.

(** ** C89 *)

(** Refuted: with a frame decoder of the default capacity at the bottom, every
    message that is written as bytes with four zero bytes in a row can end the
    receiving program. *)
Theorem C89_message_crash_refuted N k pre qs cap e x l a b : matching N k (qs ++ [Proc (KFrame cap) true]) ->
  receiver N (pre ++ Proc k true :: qs ++ [Proc (KFrame cap) true]) -> Forall sturdy (pre ++ Proc k true :: qs) ->
  default_caches (nb N) -> init_st (nb N) = Some b -> 0 < ntxcap N ->
  sendable_as N k (qs ++ [Proc (KFrame cap) true]) e x l -> Forall byte_ok l ->
  zero_field (wire_of (dest_of (nsess N e) (ml_dest x)) (qs ++ [Proc (KFrame cap) true]) l) ->
  exists n s, nrun N any_read (new_net a b) ([NPut e x; NTake e; NPass e] ++ replicate n (NRead 1)) s /\ fatal N s 4.
Proof. exact (message_fatal N k pre qs cap e x l a b). Qed.
Print Assumptions C89_message_crash_refuted.

(** Which messages these are: those with four zero bytes in their encoding,
    those for session 0 if there is a SessionResolver, and those for the sessions
    below 256 if there is a Heartbeat or a StatCounter below the SessionResolver. *)
Theorem C89_zeros_written_refuted z ps l :
  zero_field l \/ z = 0%Z /\ existsb resolves ps = true \/
  (0 <= z < 256)%Z /\ (exists p1 q p2, ps = p1 ++ Proc KSession true :: q :: p2 /\ (p_kind q = KHeartbeat \/ p_kind q = KStat)) ->
  zero_field (wire_of z ps l).
Proof. intros [H|[H|(H & p1 & q & p2 & -> & Hq)]]; [by apply wire_zeros; left|by apply wire_zeros; right|by apply wire_zeros_tag]. Qed.
Print Assumptions C89_zeros_written_refuted.

(** The same from every state that can be reached, as soon as four zero bytes
    are on their way. *)
Theorem C89_crash_refuted N qs cap a b ls s x y : receiver N (qs ++ [Proc (KFrame cap) true]) -> init_st (nb N) = Some b ->
  Forall sturdy qs -> default_caches (nb N) -> (4 <= e_mtu (nb N))%Z ->
  nrun N any_read (new_net a b) ls s -> Forall byte_ok (stream s) -> n_up s = [] -> n_wire s = x ++ [0; 0; 0; 0]%Z ++ y ->
  exists s', nrun N any_read s (replicate (length x) (NRead 1)) s' /\ stream s' = stream s /\ fatal N s' 4.
Proof. exact (fun H1 H2 => crash_on_zeros N qs cap a b H1 H2 ls s x y). Qed.
Print Assumptions C89_crash_refuted.

(** Refuted also when the capacity of the lowest decoder was set to [k], at most
    the MTU: a message in which somewhere a number larger than [k] can be read,
    with [k] bytes from there on, can silence the receiver for good. *)
Theorem C89_message_silences_refuted N kd pre qs k e x l u d a b :
  matching N kd (qs ++ [Proc (KFrame (Some (OInt (Z.of_nat k)))) true]) ->
  receiver N (pre ++ Proc kd true :: qs ++ [Proc (KFrame (Some (OInt (Z.of_nat k)))) true]) ->
  init_st (nb N) = Some b -> 0 < ntxcap N ->
  sendable_as N kd (qs ++ [Proc (KFrame (Some (OInt (Z.of_nat k)))) true]) e x l -> Forall byte_ok l ->
  l = u ++ d -> 4 <= k -> k <= length d -> (Z.of_nat k < announced d)%Z ->
  exists n s, nrun N any_read (new_net a b) ([NPut e x; NTake e; NPass e] ++ replicate n (NRead 1) ++ [NRead k]) s /\ silent N s.
Proof. exact (message_silences N kd pre qs k e x l u d a b). Qed.
Print Assumptions C89_message_silences_refuted.

(** But with the default capacity, as long as the sender never wrote four zero
    bytes in a row: whatever the connection returns, the reception ends normally. *)
Theorem C89_no_crash_partial N ps a b ls s n : receiver N ps -> Forall sturdy ps -> default_caches (nb N) ->
  init_st (nb N) = Some b -> nrun N any_read (new_net a b) ls s -> Forall byte_ok (stream s) -> ~ zero_field (stream s) ->
  may_read N s n -> (exists s', nstep N s (NRead n) s') /\ ~ fatal N s n.
Proof. intros ((ids & Wd) & Hm & Hc) Hst. exact (never_fatal N ps ids Wd Hst Hm Hc a b ls s n). Qed.
Print Assumptions C89_no_crash_partial.

(** And whatever was sent and however it was divided, if the program survived,
    then on a new connection, with Reads that end where Writes ended, the same
    receiving stack loses nothing and keeps the order. *)
Theorem C89_recovers_partial N k ps a b ls s a' ms s' : matching N k ps -> legal_mtu (nb N) -> default_caches (nb N) ->
  (forall i cap en, e_procs (nb N) !! i = Some (Proc (KFrame cap) en) -> en = true) ->
  (exists qs, receiver N qs /\ Forall sturdy qs) -> init_st (nb N) = Some b ->
  nrun N any_read (new_net a b) ls s -> Forall byte_ok (stream s) ->
  nrun N (whole_read (framed ps)) (new_net a' (n_b s)) ms s' -> all_sendable N k ps ms ->
  exists o, (forall e, mails_of e o ++ unsent e s' = given e ms) /\
    forall z, exists rest, heard z s' ++ rest = mails_for N z o /\ (settled s' -> rest = []).
Proof. exact (recovers_net N k ps a b ls s a' ms s'). Qed.
Print Assumptions C89_recovers_partial.

(** ** Examples *)

(** The two stacks of C71: endpoint 1 has session 0, its message is "hi". *)
Example ex_receiver : receiver ex_net ex_procs /\ Forall sturdy ex_procs /\ default_caches (nb ex_net) /\
  init_st (nb ex_net) = Some ex_start.
Proof.
  split_and!.
  - split; [|by vm_compute]. exists (seq 0 6). split_and!; [done|apply NoDup_seq|done|].
    apply Forall2_same_length_lookup_2; [done|]. intros i x y Hx Hy. apply lookup_seq in Hx as [-> _]. done.
  - by repeat constructor.
  - intros i cap en H. do 6 (destruct i as [|i]; [by inversion H|]). done.
  - done.
Qed.
Definition ex_hi : mail := Mail None (MBytes [104; 105]%Z).
Example C89_example_crash : dest_of (nsess ex_net 1) (ml_dest ex_hi) = 0%Z /\ existsb resolves ex_qs = true /\
  sendable_as ex_net KBytes ex_low 1 ex_hi [104; 105]%Z /\
  exists n s, nrun ex_net any_read (new_net ex_start ex_start) ([NPut 1 ex_hi; NTake 1; NPass 1] ++ replicate n (NRead 1)) s /\ fatal ex_net s 4.
Proof.
  assert (sendable_as ex_net KBytes ex_low 1 ex_hi [104; 105]%Z) as Hs.
  { assert (0%Z ∈ e_sessions (nb ex_net)) by left.
    (split; [done|]); (split; [done|]); (split; [done|]); (split; [vm_compute; done|]); (split; [vm_compute; done|]); (split; [simpl; lia|]); (split; [by left|]); done. }
  split_and!; try done. destruct ex_receiver as (H1 & H2 & H3 & H4).
  eapply (C89_message_crash_refuted ex_net KBytes [] ex_qs None 1 ex_hi [104; 105]%Z); try done.
  - apply ex_matching.
  - by repeat constructor.
  - simpl. lia.
  - by repeat constructor.
  - apply C89_zeros_written_refuted. right. by left.
Qed.
(** A stack of bytes and frames only, over connection 3; its single endpoint has session 0. *)
Definition ex_bare (cap : option oval) : list proc := [Proc KBytes true; Proc (KFrame cap) true].
Definition ex_bside (cap : option oval) : env :=
  Env (build_links [0; 1] no_links) (ex_bare cap) 64 (build_overhead (p_kind <$> ex_bare cap) 0) [110; 97]%Z [0]%Z
    (fun _ => false) (fun _ _ l => (length l, false)) (fun _ _ _ => false).
Definition ex_bstart (cap : option oval) : st := match init_st (ex_bside cap) with Some s => s | None => St [] [] [] end.
Definition ex_bnet (cap : option oval) : net := Net (ex_bside cap) (ex_bside cap) 3 5 (fun _ => 0%Z) 2 2.
Example ex_bmatching cap : matching (ex_bnet cap) KBytes [Proc (KFrame cap) true] /\ receiver (ex_bnet cap) (ex_bare cap) /\ Forall sturdy (ex_bare cap).
Proof.
  assert (wired (ex_bside cap) [0; 1] ([] ++ ex_bare cap)) as W.
  { split_and!; [done|by apply (NoDup_seq 0 2)|done|]. by repeat constructor. }
  split_and!; [|split; [by exists [0; 1]|by vm_compute]|by repeat constructor].
  exists [0; 1], [0; 1], [], []. split_and!; try done; by repeat constructor.
Qed.
Example ex_bfits cap l : l <> [] -> length l <= 60 -> sendable_as (ex_bnet cap) KBytes [Proc (KFrame cap) true] 0 (Mail None (MBytes l)) l.
Proof.
  intros H1 H2. assert (0%Z ∈ e_sessions (nb (ex_bnet cap))) by left.
  (split; [done|]); (split; [done|]); (split; [done|]); (split; [simpl; vm_compute (build_overhead _ _); lia|]);
  (split; [simpl; vm_compute (room _); lia|]); (split; [simpl; lia|]); (split; [by right|]); done.
Qed.
(** Six bytes without zeros: B reads one byte, then it may read seven. *)
Definition ex_calm : list nlab := [NPut 0 (Mail None (MBytes [1; 2; 3; 4; 5; 6]%Z)); NTake 0; NPass 0; NRead 1]%Z.
Example C89_example_calm : exists s, nrun (ex_bnet None) any_read (new_net (ex_bstart None) (ex_bstart None)) ex_calm s /\
  stream s = [0; 0; 0; 6; 1; 2; 3; 4; 5; 6]%Z /\ Forall byte_ok (stream s) /\ ~ zero_field (stream s) /\ may_read (ex_bnet None) s 7.
Proof.
  eexists. split.
  - unfold ex_calm. eapply nrun_cons; [done|apply nk_put; simpl; lia|].
    eapply nrun_cons; [done|by apply nk_take|].
    eapply nrun_cons; [done|eapply nk_pass; [done|eapply (finishes_exec _ _ _ _ _ _ _ _ 20); [vm_compute; reflexivity|vm_compute; reflexivity]]|].
    apply nrun_one; [done|]. eapply nk_read; [lia|vm_compute; lia|done|eapply (finishes_exec _ _ _ _ _ _ _ _ 20); [vm_compute; reflexivity|vm_compute; reflexivity]].
  - match goal with |- stream ?x = ?l /\ _ => assert (stream x = l) as -> by (vm_compute; reflexivity) end.
    split; [done|]. split; [by repeat constructor|]. split; [|vm_compute; split_and!; try done; lia].
    intros (u & v & E). do 7 (destruct u as [|? u]; simpl in E; [discriminate E|injection E as _ E]).
    apply (f_equal (@length _)) in E. rewrite app_length in E. simpl in E. lia.
Qed.
(** Sixteen letters, the capacity being eight: the connection is silent from then on. *)
Example C89_example_silenced : let cap := Some (OInt 8) in let l := replicate 16 97%Z in
  exists n s, nrun (ex_bnet cap) any_read (new_net (ex_bstart cap) (ex_bstart cap))
    ([NPut 0 (Mail None (MBytes l)); NTake 0; NPass 0] ++ replicate n (NRead 1) ++ [NRead 8]) s /\ silent (ex_bnet cap) s.
Proof.
  intros cap l. destruct (ex_bmatching cap) as (H1 & H2 & H3).
  apply (C89_message_silences_refuted (ex_bnet cap) KBytes [] [] 8 0 (Mail None (MBytes l)) l [] l); try done.
  - simpl. lia.
  - apply ex_bfits; [done|simpl; lia].
  - by repeat constructor.
  - lia.
  - simpl. lia.
Qed.
(** B read one byte of the six and then seven; on a new connection the message 9 arrives. *)
Example C89_example_recovers : exists s s', let ms := [NPut 0 (Mail None (MBytes [9]%Z)); NTake 0; NPass 0; NRead 5; NDeliver; NListen 0%Z] in
  nrun (ex_bnet None) any_read (new_net (ex_bstart None) (ex_bstart None)) (ex_calm ++ [NRead 7]) s /\ Forall byte_ok (stream s) /\
  default_caches (nb (ex_bnet None)) /\ (forall i cap en, e_procs (nb (ex_bnet None)) !! i = Some (Proc (KFrame cap) en) -> en = true) /\
  init_st (nb (ex_bnet None)) = Some (ex_bstart None) /\
  nrun (ex_bnet None) (whole_read (framed [Proc (KFrame None) true])) (new_net (ex_bstart None) (n_b s)) ms s' /\
  all_sendable (ex_bnet None) KBytes [Proc (KFrame None) true] ms /\ heard 0%Z s' = [MBytes [9]%Z].
Proof.
  eexists _, _. split.
  { unfold ex_calm. eapply nrun_cons; [done|apply nk_put; simpl; lia|].
    eapply nrun_cons; [done|by apply nk_take|].
    eapply nrun_cons; [done|eapply nk_pass; [done|eapply (finishes_exec _ _ _ _ _ _ _ _ 20); [vm_compute; reflexivity|vm_compute; reflexivity]]|].
    eapply nrun_cons; [done|eapply nk_read; [lia|vm_compute; lia|done|eapply (finishes_exec _ _ _ _ _ _ _ _ 20); [vm_compute; reflexivity|vm_compute; reflexivity]]|].
    apply nrun_one; [done|]. eapply nk_read; [lia|vm_compute; lia|done|eapply (finishes_exec _ _ _ _ _ _ _ _ 20); [vm_compute; reflexivity|vm_compute; reflexivity]]. }
  split; [vm_compute; by repeat constructor|].
  split; [intros [|[|i]] cap en H; by inversion H|]. split; [intros [|[|i]] cap en H; by inversion H|]. split; [done|]. split.
  { eapply nrun_cons; [done|apply nk_put; simpl; lia|].
    eapply nrun_cons; [done|by apply nk_take|].
    eapply nrun_cons; [done|eapply nk_pass; [done|eapply (finishes_exec _ _ _ _ _ _ _ _ 20); [vm_compute; reflexivity|vm_compute; reflexivity]]|].
    eapply nrun_cons; [exists 0, 1; vm_compute; split; [done|split; [done|discriminate]]
      |eapply nk_read; [lia|vm_compute; lia|done|eapply (finishes_exec _ _ _ _ _ _ _ _ 20); [vm_compute; reflexivity|vm_compute; reflexivity]]|].
    eapply nrun_cons; [done|apply nk_deliver; simpl; lia|].
    apply nrun_one; [done|by apply nk_listen]. }
  split; [|by vm_compute].
  intros e x Hx. apply elem_of_cons in Hx as [[= -> ->]|Hx]; [eexists; apply ex_bfits; [done|simpl; lia]|].
  repeat (apply elem_of_cons in Hx as [Hx|Hx]; [discriminate Hx|]). by apply elem_of_nil in Hx.
Qed.
