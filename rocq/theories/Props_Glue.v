(** * Theorems about stacks without a frame decoder (property C96)

    Only statements: every proof is one lemma.  [whole_read true]: every Read
    ends where a Write ended, but may return the bytes of several of them. *)
From Verif Require Import GoBase UBufModel UBufSpec FrameModel FrameSpec StackModel StackSpec StackFacts StackEnd NetModel NetSpec NetProofs GlueSpec GlueProofs.

(** ** C96 *)

(** Without frames, two messages that come in one Read are never heard as two: the listener of the first one's session is called once, with what the codec makes of the first encoding followed by all that was written for the second, headers too. *)
Theorem C96_glued_refuted N k ps e1 x1 l1 e2 x2 l2 m a b : matching N k ps -> Forall (fun p => framing p = false) ps ->
  caches_idle (nb N) b -> 0 < ntxcap N -> 0 < nrxcap N -> sendable_as N k ps e1 x1 l1 -> sendable_as N k ps e2 x2 l2 ->
  let z1 := dest_of (nsess N e1) (ml_dest x1) in let z2 := dest_of (nsess N e2) (ml_dest x2) in
  let w1 := wire_of z1 ps l1 in let w2 := wire_of z2 ps l2 in
  (Z.of_nat (length w1 + length w2) <= e_mtu (nb N))%Z -> decodes k (l1 ++ w2) m ->
  exists ls s, nrun N (whole_read true) (new_net a b)
      ([NPut e1 x1; NTake e1; NPass e1; NPut e2 x2; NTake e2; NPass e2; NRead (length w1 + length w2)] ++ ls) s /\
    Forall inner ls /\ settled s /\ all_sent s /\ n_seen s = [(z1, m)].
Proof. exact (two_glued N k ps e1 x1 l1 e2 x2 l2 (Some m) a b). Qed.
Print Assumptions C96_glued_refuted.

(** And if the codec makes nothing of those bytes, both messages are lost and nobody is told. *)
Theorem C96_dropped_refuted N k ps e1 x1 l1 e2 x2 l2 a b : matching N k ps -> Forall (fun p => framing p = false) ps ->
  caches_idle (nb N) b -> 0 < ntxcap N -> 0 < nrxcap N -> sendable_as N k ps e1 x1 l1 -> sendable_as N k ps e2 x2 l2 ->
  let z1 := dest_of (nsess N e1) (ml_dest x1) in let z2 := dest_of (nsess N e2) (ml_dest x2) in
  let w1 := wire_of z1 ps l1 in let w2 := wire_of z2 ps l2 in
  (Z.of_nat (length w1 + length w2) <= e_mtu (nb N))%Z -> unread k (l1 ++ w2) ->
  exists ls s, nrun N (whole_read true) (new_net a b)
      ([NPut e1 x1; NTake e1; NPass e1; NPut e2 x2; NTake e2; NPass e2; NRead (length w1 + length w2)] ++ ls) s /\
    Forall inner ls /\ settled s /\ all_sent s /\ n_seen s = [].
Proof. exact (two_glued N k ps e1 x1 l1 e2 x2 l2 None a b). Qed.
Print Assumptions C96_dropped_refuted.

(** In general, for every run and any number of messages: what was written falls into one group for each Read, and what is heard is exactly what the codec makes of each group, at the session of the group's first message. *)
Theorem C96_groups_partial N k ps a b ls s : matching N k ps -> Forall (fun p => framing p = false) ps -> decided k ->
  caches_idle (nb N) b -> nrun N (whole_read true) (new_net a b) ls s -> all_sendable N k ps ls ->
  exists gs os rest,
    (forall e, mails_of e (fst <$> concat gs ++ rest) ++ unsent e s = given e ls) /\
    Forall (fun t => encodes k (ml_msg (snd (fst t))) (snd t)) (concat gs ++ rest) /\
    reads_of ls = (fun g => length (concat (slip_wire N ps <$> g))) <$> gs /\ Forall (fun g => g <> []) gs /\
    Forall2 (makes k) (glued N ps <$> gs) os /\
    (n_wire s = [] -> rest = []) /\
    forall z, exists late, heard z s ++ late = came N z gs os /\ (settled s -> late = []).
Proof. exact (fun M U D => glue_groups N k ps M U D a b ls s). Qed.
Print Assumptions C96_groups_partial.

(** So messages stay apart, whole and in order, if every Read returns exactly one Write. *)
Theorem C96_apart_partial N k ps a b ls s : matching N k ps -> Forall (fun p => framing p = false) ps -> caches_idle (nb N) b ->
  nrun N (whole_read false) (new_net a b) ls s -> all_sendable N k ps ls ->
  exists o, (forall e, mails_of e o ++ unsent e s = given e ls) /\
    forall z, exists rest, heard z s ++ rest = mails_for N z o /\ (settled s -> rest = []).
Proof. exact (glue_apart N k ps a b ls s). Qed.
Print Assumptions C96_apart_partial.

(** With Bytes or String codecs and nothing below them that adds a header, as in examples/unix and dynamic_transport, the bytes arrive as a stream, however they are divided into Reads: nothing is lost, changed or put in another order, only the borders of the messages. *)
Theorem C96_stream_partial N k ps a b ls s : matching N k ps -> bare ps -> k = KBytes \/ k = KString ->
  caches_idle (nb N) b -> nrun N any_read (new_net a b) ls s -> all_sendable N k ps ls ->
  exists o, (forall e, mails_of e o ++ unsent e s = given e ls) /\
    exists rest, concat (bytes_in <$> heard 0%Z s) ++ rest = concat (bytes_in <$> ((ml_msg ∘ snd) <$> o)) /\ (settled s -> rest = []).
Proof. exact (fun M B K => stream N k ps M B K a b ls s). Qed.
Print Assumptions C96_stream_partial.

(** Codec [k] over sessions, on connections 3 and 5. *)
Definition gx_low : list proc := [Proc KSession true].
Definition gx_procs (k : kind) : list proc := Proc k true :: gx_low.
Definition gx_side (k : kind) : env :=
  Env (build_links (seq 0 2) no_links) (gx_procs k) 64 (build_overhead (p_kind <$> gx_procs k) 0) [110; 97]%Z [0; 7]%Z
    (fun _ => false) (fun _ _ l => (length l, false)) (fun _ _ _ => false).
Definition gx_start (k : kind) : st := match init_st (gx_side k) with Some s => s | None => St [] [] [] end.
Definition gx_net (k : kind) : net := Net (gx_side k) (gx_side k) 3 5 (fun e => if e =? 0 then 7%Z else 0%Z) 2 2.
(** A decoder that takes what it needs and ignores the rest, as gob does, and one that refuses the rest, as JSON does: a message is one byte. *)
Definition one_byte (m : msg) : option (list byte) := match m with MBytes [x] => Some [x] | _ => None end.
Definition ex_lax : kind := KJson one_byte (fun l => match l with x :: _ => Some (MBytes [x]) | [] => None end).
Definition ex_strict : kind := KJson one_byte (fun l => match l with [x] => Some (MBytes [x]) | _ => None end).
Example gx_matching k : k ∈ [KBytes; ex_lax; ex_strict] -> matching (gx_net k) k gx_low /\
  Forall (fun p => framing p = false) gx_low /\ decided k /\ caches_idle (nb (gx_net k)) (gx_start k).
Proof.
  intros Hk. split; [|split; [by repeat constructor|split]].
  - assert (wired (gx_side k) (seq 0 2) ([] ++ Proc k true :: gx_low)) as W.
    { split_and!; [done|apply NoDup_seq|done|]. apply Forall2_same_length_lookup_2; [done|].
      intros i x y Hx Hy. apply lookup_seq in Hx as [-> _]. done. }
    exists (seq 0 2), (seq 0 2), [], []. split_and!; try done; by repeat constructor.
  - apply elem_of_list_In in Hk. cbn in Hk. destruct Hk as [<-|[<-|[<-|[]]]]; intros [|x [|y l]] Hl; try done.
    all: first [by eexists (Some (MBytes _))|by exists None].
  - apply elem_of_list_In in Hk. cbn in Hk. destruct Hk as [<-|[<-|[<-|[]]]]; apply init_idle; by vm_compute.
Qed.
(** Endpoint 0 sends 131 to session 7 and endpoint 1 sends 9 to session 0; the second comes with its four bytes of session number. *)
Example C96_example k : k ∈ [KBytes; ex_lax; ex_strict] ->
  let x1 := Mail None (MBytes [131]%Z) in let x2 := Mail None (MBytes [9]%Z) in
  0 < ntxcap (gx_net k) /\ 0 < nrxcap (gx_net k) /\ sendable_as (gx_net k) k gx_low 0 x1 [131]%Z /\ sendable_as (gx_net k) k gx_low 1 x2 [9]%Z /\
  wire_of 0 gx_low [9]%Z = [0; 0; 0; 0; 9]%Z.
Proof.
  intros Hk. apply elem_of_list_In in Hk. cbn in Hk.
  destruct Hk as [<-|[<-|[<-|[]]]]; (split; [simpl; lia|]); (split; [simpl; lia|]); (split; [|split; [|done]]);
    (split; [done|]); (split; [done|]); (split; [done|]); (split; [vm_compute; done|]); (split; [vm_compute; done|]);
    (split; [simpl; lia|]); (split; [by left|]); [right; left|left|right; left|left|right; left|left].
Qed.
Example C96_example_made : decodes KBytes ([131] ++ [0; 0; 0; 0; 9])%Z (MBytes [131; 0; 0; 0; 0; 9]%Z) /\
  decodes ex_lax ([131] ++ [0; 0; 0; 0; 9])%Z (MBytes [131]%Z) /\ unread ex_strict ([131] ++ [0; 0; 0; 0; 9])%Z.
Proof. done. Qed.
(** The run of [C96_glued_refuted] is one of those of [C96_groups_partial]; with two Reads it is one of those of [C96_apart_partial]. *)
Definition gx_labels : list nlab :=
  [NPut 0 (Mail None (MBytes [131])); NTake 0; NPass 0; NPut 1 (Mail None (MBytes [9])); NTake 1; NPass 1]%Z.
Example C96_example_runs : exists s t, nrun (gx_net ex_lax) (whole_read true) (new_net (gx_start ex_lax) (gx_start ex_lax)) (gx_labels ++ [NRead 10]) s /\
  n_up s = [(7, MBytes [131])]%Z /\ n_wire s = [] /\
  nrun (gx_net ex_lax) (whole_read false) (new_net (gx_start ex_lax) (gx_start ex_lax)) (gx_labels ++ [NRead 5; NDeliver; NRead 5]) t /\
  n_rx t 7%Z = [MBytes [131]%Z] /\ n_up t = [(0, MBytes [9])]%Z /\ all_sendable (gx_net ex_lax) ex_lax gx_low gx_labels.
Proof.
  assert (exists s, (forall r, nrun (gx_net ex_lax) (whole_read r) (new_net (gx_start ex_lax) (gx_start ex_lax)) gx_labels s) /\
    s = Nst (n_tx s) (n_hand s) (n_a s) [0; 0; 0; 7; 131; 0; 0; 0; 0; 9]%Z (gx_start ex_lax) [] (fun _ => []) [] [[0; 0; 0; 7; 131]; [0; 0; 0; 0; 9]]%Z 0) as (s & R & Es).
  { eexists. split.
    { intros r. unfold gx_labels.
      eapply nrun_cons; [done|apply nk_put; simpl; lia|].
      eapply nrun_cons; [done|by apply nk_take|].
      eapply nrun_cons; [done|eapply nk_pass; [done|eapply (finishes_exec _ _ _ _ _ _ _ _ 20); [vm_compute; reflexivity|vm_compute; reflexivity]]|].
      eapply nrun_cons; [done|apply nk_put; simpl; lia|].
      eapply nrun_cons; [done|by apply nk_take|].
      apply nrun_one; [done|]. eapply nk_pass; [done|eapply (finishes_exec _ _ _ _ _ _ _ _ 20); [vm_compute; reflexivity|vm_compute; reflexivity]]. }
    done. }
  rewrite Es in R. eexists _, _. split; [|split; [|split; [|split; [|split; [|split]]]]].
  - eapply nrun_app; [apply R|]. apply nrun_one; [exists 0, 2; by vm_compute|].
    eapply nk_read; [lia|vm_compute; lia|done|eapply (finishes_exec _ _ _ _ _ _ _ _ 20); [vm_compute; reflexivity|vm_compute; reflexivity]].
  - done.
  - done.
  - eapply nrun_app; [apply R|].
    eapply nrun_cons; [exists 0, 1; by vm_compute|eapply nk_read; [lia|vm_compute; lia|done|eapply (finishes_exec _ _ _ _ _ _ _ _ 20); [vm_compute; reflexivity|vm_compute; reflexivity]]|].
    eapply nrun_cons; [done|apply nk_deliver; simpl; lia|].
    apply nrun_one; [exists 1, 1; by vm_compute|].
    eapply nk_read; [lia|vm_compute; lia|done|eapply (finishes_exec _ _ _ _ _ _ _ _ 20); [vm_compute; reflexivity|vm_compute; reflexivity]].
  - done.
  - done.
  - intros e x Hx. unfold gx_labels in Hx. apply elem_of_list_In in Hx. cbn in Hx.
    destruct (C96_example ex_lax) as (_ & _ & S1 & S2 & _); [right; left|].
    destruct Hx as [Hx|[Hx|[Hx|[Hx|[Hx|[Hx|[]]]]]]]; try discriminate Hx; injection Hx as <- <-; by eexists.
Qed.

(** A Bytes codec alone; 1, 2 and 3, 4 are sent and come as 1 and 2, 3, 4. *)
Definition sx_side : env :=
  Env (build_links (seq 0 1) no_links) [Proc KBytes true] 64 0 [110; 97]%Z [0]%Z
    (fun _ => false) (fun _ _ l => (length l, false)) (fun _ _ _ => false).
Definition sx_start : st := match init_st sx_side with Some s => s | None => St [] [] [] end.
Definition sx_net : net := Net sx_side sx_side 3 5 (fun _ => 0%Z) 2 2.
Definition sx_labels : list nlab :=
  [NPut 0 (Mail None (MBytes [1; 2])); NTake 0; NPut 0 (Mail None (MBytes [3; 4])); NPass 0; NTake 0; NPass 0;
   NRead 1; NDeliver; NRead 3; NListen 0; NDeliver; NListen 0]%Z.
Example C96_example_stream : matching sx_net KBytes [] /\ bare [] /\ bare [Proc KFlow true; Proc KDiscarder false] /\
  caches_idle (nb sx_net) sx_start /\
  exists s, nrun sx_net any_read (new_net sx_start sx_start) sx_labels s /\ all_sendable sx_net KBytes [] sx_labels /\
    heard 0 s = [MBytes [1]; MBytes [2; 3; 4]]%Z /\ n_wire s = [] /\ n_up s = [].
Proof.
  split.
  { assert (wired sx_side (seq 0 1) ([] ++ [Proc KBytes true])) as W.
    { split_and!; [done|apply NoDup_seq|done|]. apply Forall2_same_length_lookup_2; [done|].
      intros i x y Hx Hy. apply lookup_seq in Hx as [-> _]. done. }
    exists (seq 0 1), (seq 0 1), [], []. split_and!; try done; by repeat constructor. }
  split; [done|]. split; [done|]. split; [apply init_idle; by vm_compute|]. eexists. split; [|split].
  { unfold sx_labels.
    eapply nrun_cons; [done|apply nk_put; simpl; lia|].
    eapply nrun_cons; [done|by apply nk_take|].
    eapply nrun_cons; [done|apply nk_put; simpl; lia|].
    eapply nrun_cons; [done|eapply nk_pass; [done|eapply (finishes_exec _ _ _ _ _ _ _ _ 20); [vm_compute; reflexivity|vm_compute; reflexivity]]|].
    eapply nrun_cons; [done|by apply nk_take|].
    eapply nrun_cons; [done|eapply nk_pass; [done|eapply (finishes_exec _ _ _ _ _ _ _ _ 20); [vm_compute; reflexivity|vm_compute; reflexivity]]|].
    eapply nrun_cons; [done|eapply nk_read; [lia|vm_compute; lia|done|eapply (finishes_exec _ _ _ _ _ _ _ _ 20); [vm_compute; reflexivity|vm_compute; reflexivity]]|].
    eapply nrun_cons; [done|apply nk_deliver; simpl; lia|].
    eapply nrun_cons; [done|eapply nk_read; [lia|vm_compute; lia|done|eapply (finishes_exec _ _ _ _ _ _ _ _ 20); [vm_compute; reflexivity|vm_compute; reflexivity]]|].
    eapply nrun_cons; [done|by apply nk_listen|].
    eapply nrun_cons; [done|apply nk_deliver; simpl; lia|].
    apply nrun_one; [done|by apply nk_listen]. }
  { assert (0%Z ∈ e_sessions (nb sx_net)) by left.
    intros e x Hx. unfold sx_labels in Hx. apply elem_of_list_In in Hx. cbn in Hx.
    repeat (destruct Hx as [Hx|Hx]; [try discriminate Hx|]); [| |done];
      injection Hx as <- <-; eexists; (split; [done|]); (split; [done|]); (split; [done|]);
      (split; [vm_compute; done|]); (split; [vm_compute; done|]); (split; [simpl; lia|]); (split; [by right|]); done. }
  by vm_compute.
Qed.
