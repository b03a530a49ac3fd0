(** * Theorems about a running stack (properties C22 - C36, C55)

    Only statements: every proof is one lemma.  [send], [receive], [receive_ref]
    and [self_message] are the calls from outside (an endpoint's message, a chunk
    read from a connection, an object from a reference connection, a processor's
    own message).  [finishes run s outs s'] says the call returns normally for
    all large enough fuel, showing [outs]; [crashes] says it panics. *)
From Verif Require Import GoBase UBufModel UBufSpec UBufProofs UBufFacts FrameModel FrameSpec FrameProofs
  StackModel StackSpec StackProofs StackPath StackFacts StackEffects StackSpecial StackCount StackEnd.

(** ** Concrete stacks for the examples *)
Definition ex_env (ps : list proc) (mtu : Z) (sessions : list Z) (isref : bool) : env :=
  Env (build_links (seq 0 (length ps)) no_links) ps mtu (build_overhead (p_kind <$> ps) 0) [110; 97]%Z sessions
    (fun _ => isref) (fun _ _ l => (length l, false)) (fun _ _ _ => false).
Example ex_wired ps mtu sessions isref : wired (ex_env ps mtu sessions isref) (seq 0 (length ps)) ps.
Proof.
  split_and!; [done|apply NoDup_seq|done|]. apply Forall2_same_length_lookup_2; [by rewrite seq_length|].
  intros i x y Hx Hy. apply lookup_seq in Hx as [-> _]. done.
Qed.
Example ex_accepts ps mtu sessions isref c : accepts (ex_env ps mtu sessions isref) c.
Proof. done. Qed.
Definition on (k : kind) : proc := Proc k true.
Definition off (k : kind) : proc := Proc k false.
(** The state right after Run. *)
Definition started (E : env) : st := match init_st E with Some s => s | None => St [] [] [] end.
Definition outs_of (r : option outcome) : option (list out) :=
  match r with Some (Done _ s) => Some (s_out s) | _ => None end.
Definition crashed (r : option outcome) : bool := match r with Some (Crash _) => true | _ => false end.
(** A usual stack. *)
Definition ex_ps : list proc := [on KSession; on KStat; on KHeartbeat; off KLoadBalancer; on (KFrame None)].
Definition exE : env := ex_env (on KBytes :: ex_ps) 64 [0; 7]%Z false.

(** ** C22 *)
(** Whatever the links were before Run. *)
Theorem C22_links_form_a_chain ids lk0 : NoDup ids ->
  walk (l_lower (build_links ids lk0)) (S (length ids)) PUpper = (Some ∘ PProc <$> ids) ++ [Some PLower] /\
  walk (l_upper (build_links ids lk0)) (S (length ids)) PLower = (Some ∘ PProc <$> rev ids) ++ [Some PUpper].
Proof. exact (built_walks ids lk0). Qed.
Print Assumptions C22_links_form_a_chain.

Theorem C22_sent_visits_in_order E ids pre k ps session dest c m l s :
  wired E ids (pre ++ Proc k true :: ps) ->
  Forall (fun p => passes_message p = true) pre -> Forall (fun p => sends_on p = true) ps ->
  encodes k m l -> l <> [] -> e_isref E c = false ->
  (Z.of_nat (length l) <= e_mtu E - e_overhead E)%Z -> (e_mtu E < 2^32)%Z ->
  exists s', finishes (fun f => send f E session dest (Some c) (Some m) s) s
      (offered E (s_out s) c (wire_of (dest_of session dest) ps l)) s' /\
    fst <$> s_visits s' = (fst <$> s_visits s) ++ ((fun i => (i, Down)) <$> ids).
Proof. exact (visits_down E ids pre k ps session dest c m l s). Qed.
Print Assumptions C22_sent_visits_in_order.

Theorem C22_received_visits_in_reverse E ids pre k ps sess c m l s :
  wired E ids (pre ++ Proc k true :: ps) ->
  Forall (fun p => passes_message p = true) pre -> Forall (fun p => carries p = true) ps ->
  decodes k l m -> l <> [] -> e_isref E c = false ->
  (Z.of_nat (length (wire_of sess ps l)) <= e_mtu E)%Z -> (e_mtu E < 2^32)%Z -> caches_idle E s ->
  exists s', finishes (fun f => receive f E c (wire_of sess ps l) s) s
      (shown E (rx_session ps sess) (Some c) m) s' /\
    fst <$> s_visits s' = (fst <$> s_visits s) ++ ((fun i => (i, Up)) <$> rev ids).
Proof. exact (visits_up E ids pre k ps sess c m l s). Qed.
Print Assumptions C22_received_visits_in_reverse.

Example C22_example :
  let s := started exE in
  match send 10 exE 7 None (Some 3) (Some (MBytes [1; 2]%Z)) s with
  | Some (Done _ s') => fst <$> s_visits s' = [(0, Down); (1, Down); (2, Down); (3, Down); (4, Down); (5, Down)] /\
      s_out s' = [OWire 3 [0; 0; 0; 9; 0; 0; 0; 0; 0; 0; 7; 1; 2]%Z]
  | _ => False
  end /\
  walk (l_lower (build_links [] no_links)) 1 PUpper = [Some PLower] /\
  walk (l_upper (build_links [4; 2] no_links)) 3 PLower = [Some (PProc 2); Some (PProc 4); Some PUpper].
Proof. vm_compute. done. Qed.

(** ** C23 *)
(** A buffer a codec wrote [l] into: whatever is below sends exactly the headers of all processors and [l]. *)
Theorem C23_headers_fit_below_codec E ids pa pb a b x s c b0 ub n l :
  wired E ids (pa ++ pb) -> ids = a ++ b -> length a = length pa -> Forall (fun p => sends_on p = true) pb ->
  cx_conn x = Some c -> e_isref E c = false -> (e_mtu E < 2^32)%Z -> l <> [] ->
  v_alloc (e_mtu E) (e_overhead E) = Some b0 -> v_write l b0 = Ok (n, None) ub ->
  exists s', finishes (fun f => exec f E Down (l_lower (e_links E) (List.last (PProc <$> a) PUpper)) (set_buf x (Some ub)) s) s
    (offered E (s_out s) c (wire_of (option_int (cx_session x) 0) pb l)) s'.
Proof. exact (head_room E ids pa pb a b x s c b0 ub n l). Qed.
Print Assumptions C23_headers_fit_below_codec.

Theorem C23_headers_fit_below_self_message E a i b pa p pb tag c s :
  wired E (a ++ i :: b) (pa ++ p :: pb) -> length a = length pa -> Forall (fun p => sends_on p = true) pb ->
  e_isref E c = false -> (e_overhead E < e_mtu E < 2^32)%Z ->
  exists s', finishes (fun f => self_message f E i tag c s) s (offered E (s_out s) c (wire_of 0 pb [tag])) s' /\
    (forall j, cache_of s' j = cache_of s j).
Proof. exact (self_sends E a i b pa p pb tag c s). Qed.
Print Assumptions C23_headers_fit_below_self_message.

Theorem C23_overhead_is_sum E ids ps : wired E ids ps -> e_overhead E = room ps.
Proof. exact (overhead_sum E ids ps). Qed.
Print Assumptions C23_overhead_is_sum.

Example C23_example : let ps := on KBytes :: ex_ps in
  room ps = 11%Z /\ e_overhead exE = 11%Z /\
  (* exactly full: MTU 13, overhead 11, two bytes of payload *)
  let E := ex_env ps 13 [7]%Z false in
  outs_of (send 10 E 7 None (Some 3) (Some (MBytes [1; 2]%Z)) (started E)) =
    Some [OWire 3 [0; 0; 0; 9; 0; 0; 0; 0; 0; 0; 7; 1; 2]%Z] /\
  outs_of (self_message 10 E 3 131%Z 3 (started E)) = Some [OWire 3 [0; 0; 0; 2; 0; 131]%Z].
Proof. vm_compute. done. Qed.

(** ** C24 *)
(** Letters sent one after the other by stack A, each received as one chunk by stack B. *)
Theorem C24_end_to_end A B idsA idsB preA preB k ps cA cB (ls : list letter) sA sB :
  wired A idsA (preA ++ Proc k true :: ps) -> wired B idsB (preB ++ Proc k true :: ps) ->
  Forall (fun p => passes_message p = true) preA -> Forall (fun p => passes_message p = true) preB ->
  Forall (fun p => carries p = true) ps ->
  e_isref A cA = false -> accepts A cA -> (e_mtu A < 2^32)%Z ->
  e_isref B cB = false -> (e_mtu B < 2^32)%Z -> caches_idle B sB ->
  Forall (fun x => encodes k (le_msg x) (le_bytes x) /\ decodes k (le_bytes x) (le_msg x) /\ le_bytes x <> [] /\
    (Z.of_nat (length (le_bytes x)) <= e_mtu A - e_overhead A)%Z /\
    (Z.of_nat (length (le_bytes x)) + room ps <= e_mtu B)%Z /\
    (0 <= le_sess x < 2^32)%Z /\ (existsb resolves ps = true \/ le_sess x = 0%Z) /\
    le_sess x ∈ e_sessions B) ls ->
  let w x := wire_of (le_sess x) ps (le_bytes x) in
  exists sA' sB',
    finish_all ((fun x f s => send f A (le_sess x) None (Some cA) (Some (le_msg x)) s) <$> ls) sA
      ((fun x => OWire cA (w x)) <$> ls) sA' /\
    finish_all ((fun x f s => receive f B cB (w x) s) <$> ls) sB
      ((fun x => ODeliver (le_sess x) (Some cB) (le_msg x)) <$> ls) sB'.
Proof. exact (end_to_end A B idsA idsB preA preB k ps cA cB ls sA sB). Qed.
Print Assumptions C24_end_to_end.

(** All of them arriving as one chunk. *)
Theorem C24_end_to_end_coalesced A B idsA idsB preA preB k ps cap cA cB (ls : list letter) sA sB :
  let all := ps ++ [Proc (KFrame cap) true] in
  wired A idsA (preA ++ Proc k true :: all) -> wired B idsB (preB ++ Proc k true :: all) ->
  Forall (fun p => passes_message p = true) preA -> Forall (fun p => passes_message p = true) preB ->
  Forall (fun p => carries p = true) ps ->
  e_isref A cA = false -> accepts A cA -> (e_mtu A < 2^32)%Z ->
  e_isref B cB = false -> (e_mtu B < 2^32)%Z -> caches_idle B sB ->
  Forall (fun x => encodes k (le_msg x) (le_bytes x) /\ decodes k (le_bytes x) (le_msg x) /\ le_bytes x <> [] /\
    (Z.of_nat (length (le_bytes x)) <= e_mtu A - e_overhead A)%Z /\
    (0 <= le_sess x < 2^32)%Z /\ (existsb resolves ps = true \/ le_sess x = 0%Z) /\
    le_sess x ∈ e_sessions B) ls ->
  let w x := wire_of (le_sess x) all (le_bytes x) in
  (Z.of_nat (length (concat (w <$> ls))) <= e_mtu B)%Z ->
  exists sA' sB',
    finish_all ((fun x f s => send f A (le_sess x) None (Some cA) (Some (le_msg x)) s) <$> ls) sA
      ((fun x => OWire cA (w x)) <$> ls) sA' /\
    finishes (fun f => receive f B cB (concat (w <$> ls)) sB) sB
      ((fun x => ODeliver (le_sess x) (Some cB) (le_msg x)) <$> ls) sB'.
Proof. exact (end_to_end_coalesced A B idsA idsB preA preB k ps cap cA cB ls sA sB). Qed.
Print Assumptions C24_end_to_end_coalesced.

Theorem C24_caches_idle_after_run E s : init_st E = Some s -> caches_idle E s.
Proof. exact (init_idle E s). Qed.
Print Assumptions C24_caches_idle_after_run.

Example C24_example :
  let ls := [Letter 7 (MBytes [131; 2]) [131; 2]; Letter 0 (MBytes [16]) [16]]%Z in
  Forall (fun x => encodes KBytes (le_msg x) (le_bytes x) /\ decodes KBytes (le_bytes x) (le_msg x) /\ le_bytes x <> [] /\
    (Z.of_nat (length (le_bytes x)) <= e_mtu exE - e_overhead exE)%Z /\
    (Z.of_nat (length (le_bytes x)) + room ex_ps <= e_mtu exE)%Z /\
    (0 <= le_sess x < 2^32)%Z /\ (existsb resolves ex_ps = true \/ le_sess x = 0%Z) /\
    le_sess x ∈ e_sessions exE) ls /\
  Forall (fun p => carries p = true) ex_ps /\ caches_idle exE (started exE) /\
  outs_of (receive 20 exE 5 (concat ((fun x => wire_of (le_sess x) ex_ps (le_bytes x)) <$> ls)) (started exE)) =
    Some [ODeliver 7 (Some 5) (MBytes [131; 2]%Z); ODeliver 0 (Some 5) (MBytes [16]%Z)].
Proof.
  assert (In7 : 7%Z ∈ e_sessions exE) by (right; left).
  assert (In0 : 0%Z ∈ e_sessions exE) by left.
  cbv zeta. split; [|split; [|split]].
  - constructor; [|constructor; [|constructor]]; (split; [done|]); (split; [done|]); (split; [done|]);
      (split; [vm_compute; done|]); (split; [vm_compute; done|]); (split; [simpl; lia|]); (split; [by left|]); done.
  - by repeat constructor.
  - apply init_idle. by vm_compute.
  - by vm_compute.
Qed.

(** ** C25 *)
(** What fits is offered to the connection in one Write, complete. *)
Theorem C25_fitting_message_sent_whole E ids pre k ps session dest c m l s :
  wired E ids (pre ++ Proc k true :: ps) ->
  Forall (fun p => passes_message p = true) pre -> Forall (fun p => sends_on p = true) ps ->
  encodes k m l -> l <> [] -> e_isref E c = false ->
  (Z.of_nat (length l) <= e_mtu E - e_overhead E)%Z -> (e_mtu E < 2^32)%Z ->
  exists s', finishes (fun f => send f E session dest (Some c) (Some m) s) s
      (offered E (s_out s) c (wire_of (dest_of session dest) ps l)) s' /\
    fst <$> s_visits s' = (fst <$> s_visits s) ++ ((fun i => (i, Down)) <$> ids).
Proof. exact (visits_down E ids pre k ps session dest c m l s). Qed.
Print Assumptions C25_fitting_message_sent_whole.

Theorem C25_oversize_sends_nothing E ids pre k ps session dest c m l s :
  wired E ids (pre ++ Proc k true :: ps) -> Forall (fun p => passes_message p = true) pre ->
  plain_codec k = true -> encodes k m l -> (0 < e_mtu E)%Z -> (e_overhead E <= e_mtu E)%Z ->
  l = [] \/ (e_mtu E - e_overhead E < Z.of_nat (length l))%Z ->
  exists s', finishes (fun f => send f E session dest c (Some m) s) s [] s' /\ s_ps s' = s_ps s.
Proof. exact (send_nothing E ids pre k ps session dest c m l s). Qed.
Print Assumptions C25_oversize_sends_nothing.

(** With an MTU below the overhead every send panics in the allocation; still nothing is sent. *)
Theorem C25_no_room_crashes_sending_nothing E ids pre k ps session dest c m l s :
  wired E ids (pre ++ Proc k true :: ps) -> Forall (fun p => passes_message p = true) pre ->
  plain_codec k = true -> encodes k m l -> (e_mtu E <= 0 \/ e_mtu E < e_overhead E)%Z ->
  crashes (fun f => send f E session dest c (Some m) s) s [].
Proof. exact (send_no_room E ids pre k ps session dest c m l s). Qed.
Print Assumptions C25_no_room_crashes_sending_nothing.

Example C25_example : let E := ex_env (on KBytes :: ex_ps) 14 [7]%Z false in
  let s := started E in
  e_overhead E = 11%Z /\
  outs_of (send 10 E 7 None (Some 3) (Some (MBytes [1; 2; 3]%Z)) s) = Some [OWire 3 [0; 0; 0; 10; 0; 0; 0; 0; 0; 0; 7; 1; 2; 3]%Z] /\
  outs_of (send 10 E 7 None (Some 3) (Some (MBytes [1; 2; 3; 4]%Z)) s) = Some [] /\
  (let E := ex_env (on KBytes :: ex_ps) 10 [7]%Z false in crashed (send 10 E 7 None (Some 3) (Some (MBytes [1]%Z)) (started E)) = true).
Proof. vm_compute. done. Qed.

(** ** C26 *)
(** Proved for sessions that fit into 32 unsigned bits, with a SessionResolver. *)
Theorem C26_session_in_range_partial E ids pre k ps z c m l s :
  wired E ids (pre ++ Proc k true :: ps) ->
  Forall (fun p => passes_message p = true) pre -> Forall (fun p => carries p = true) ps ->
  decodes k l m -> l <> [] -> e_isref E c = false ->
  (Z.of_nat (length (wire_of z ps l)) <= e_mtu E)%Z -> (e_mtu E < 2^32)%Z -> caches_idle E s ->
  existsb resolves ps = true -> (0 <= z < 2^32)%Z -> z ∈ e_sessions E ->
  exists s', finishes (fun f => receive f E c (wire_of z ps l) s) s [ODeliver z (Some c) m] s'.
Proof. exact (session_kept E ids pre k ps z c m l s). Qed.
Print Assumptions C26_session_in_range_partial.

(** Any other session - or any but 0 without a SessionResolver - is never delivered, even if an endpoint for it exists. *)
Theorem C26_session_lost_refuted E ids pre k ps z c m l s :
  wired E ids (pre ++ Proc k true :: ps) ->
  Forall (fun p => passes_message p = true) pre -> Forall (fun p => carries p = true) ps ->
  decodes k l m -> l <> [] -> e_isref E c = false ->
  (Z.of_nat (length (wire_of z ps l)) <= e_mtu E)%Z -> (e_mtu E < 2^32)%Z -> caches_idle E s ->
  ~ (0 <= z < 2^32)%Z \/ (existsb resolves ps = false /\ z <> 0%Z) ->
  exists outs s', finishes (fun f => receive f E c (wire_of z ps l) s) s outs s' /\
    forall c' m', ODeliver z c' m' ∉ outs.
Proof. exact (session_lost E ids pre k ps z c m l s). Qed.
Print Assumptions C26_session_lost_refuted.

Example C26_example : let E := ex_env (on KBytes :: ex_ps) 64 [-1; 4294967295; 4294967303; 7]%Z false in
  let w z := wire_of z ex_ps [1]%Z in
  outs_of (receive 20 E 5 (w (-1)%Z) (started E)) = Some [ODeliver 4294967295 (Some 5) (MBytes [1]%Z)] /\
  outs_of (receive 20 E 5 (w 4294967303%Z) (started E)) = Some [ODeliver 7 (Some 5) (MBytes [1]%Z)] /\
  outs_of (receive 20 E 5 (w 4294967295%Z) (started E)) = Some [ODeliver 4294967295 (Some 5) (MBytes [1]%Z)].
Proof. vm_compute. done. Qed.

(** ** C27 *)
(** Both directions, any message: the call goes on to the neighbour with the same context. *)
Theorem C27_disabled_transparent_partial E f i k d x s : e_procs E !! i = Some (Proc k false) ->
  switchable k = true \/
    (exists cap c b, k = KFrame cap /\ cx_conn x = Some c /\ e_isref E c = false /\ cx_buf x = Some b) ->
  exec (S f) E d (Some (PProc i)) x s = exec f E d (next_of E d i) x (visit s i d x).
Proof. exact (disabled_transparent E f i k d x s). Qed.
Print Assumptions C27_disabled_transparent_partial.

(** Heartbeat, LoadBalancer and StatCounter put a byte in front even when disabled, *)
Theorem C27_disabled_tag_refuted E f i k x s c b :
  e_procs E !! i = Some (Proc k false) -> k = KHeartbeat \/ k = KLoadBalancer \/ k = KStat ->
  cx_conn x = Some c -> e_isref E c = false -> cx_buf x = Some b -> reachable b -> 1 <= v_hlen b ->
  exists b', readable b' = 0%Z :: readable b /\
    exec (S f) E Down (Some (PProc i)) x s =
    exec f E Down (l_lower (e_links E) (PProc i)) (set_buf x (Some b')) (visit s i Down x).
Proof. exact (tagged_not_transparent E f i k x s c b). Qed.
Print Assumptions C27_disabled_tag_refuted.

(** and take one away (a disabled Heartbeat still swallows heartbeats); *)
Theorem C27_disabled_tag_receive_refuted E f i k x s c b t l :
  e_procs E !! i = Some (Proc k false) -> k = KHeartbeat \/ k = KLoadBalancer \/ k = KStat ->
  cx_conn x = Some c -> e_isref E c = false -> cx_buf x = Some b -> reachable b -> readable b = t :: l ->
  k = KHeartbeat /\ t = 131%Z \/
  exists b', readable b' = l /\
    exec (S f) E Up (Some (PProc i)) x s =
    exec f E Up (l_upper (e_links E) (PProc i)) (set_buf x (Some b')) (visit s i Up x).
Proof. exact (tagged_takes_byte E f i k x s c b t l). Qed.
Print Assumptions C27_disabled_tag_receive_refuted.

(** Loopback ignores the switch. *)
Theorem C27_disabled_loopback_refuted E f i x s : e_procs E !! i = Some (Proc KLoopback false) ->
  exec (S f) E Down (Some (PProc i)) x s = exec f E Up (l_upper (e_links E) (PProc i)) x (visit s i Down x) /\
  exec (S f) E Up (Some (PProc i)) x s = Some (Done x (visit s i Up x)).
Proof. exact (loopback_not_transparent E f i x s). Qed.
Print Assumptions C27_disabled_loopback_refuted.

Example C27_example :
  let E := ex_env [on KBytes; off KEcho; off (KFrame None); off KDiscarder; off KSession] 64 [0]%Z false in
  outs_of (send 10 E 0 None (Some 3) (Some (MBytes [1]%Z)) (started E)) = Some [OWire 3 [1]%Z] /\
  outs_of (receive 10 E 3 [1]%Z (started E)) = Some [ODeliver 0 (Some 3) (MBytes [1]%Z)] /\
  let E := ex_env [on KBytes; off KStat; off KHeartbeat] 64 [0]%Z false in
  outs_of (send 10 E 0 None (Some 3) (Some (MBytes [1]%Z)) (started E)) = Some [OWire 3 [0; 0; 1]%Z] /\
  let E := ex_env [on KBytes; off KLoopback] 64 [0]%Z false in
  outs_of (send 10 E 0 None (Some 3) (Some (MBytes [1]%Z)) (started E)) = Some [ODeliver 0 (Some 3) (MBytes [1]%Z)].
Proof. vm_compute. done. Qed.

(** ** C28 *)
Theorem C28_discarder_forwards_and_keeps E f i x s : e_procs E !! i = Some (Proc KDiscarder true) ->
  exec (S f) E Down (Some (PProc i)) x s = exec f E Down (l_lower (e_links E) (PProc i)) x (visit s i Down x) /\
  exec (S f) E Up (Some (PProc i)) x s = Some (Done x (visit s i Up x)).
Proof. exact (discarder_on E f i x s). Qed.
Print Assumptions C28_discarder_forwards_and_keeps.

Theorem C28_discarder_hands_up_nothing E a i b pa pb sess c l s :
  wired E (a ++ i :: b) (pa ++ Proc KDiscarder true :: pb) -> length a = length pa ->
  Forall (fun p => carries p = true) pb -> e_isref E c = false -> l <> [] ->
  (Z.of_nat (length (wire_of sess pb l)) <= e_mtu E)%Z -> (e_mtu E < 2^32)%Z -> caches_idle E s ->
  exists s', finishes (fun f => receive f E c (wire_of sess pb l) s) s [] s' /\ caches_idle E s' /\
    fst <$> s_visits s' = (fst <$> s_visits s) ++ ((fun i => (i, Up)) <$> (rev b ++ [i])).
Proof. exact (discarder_hands_up_nothing E a i b pa pb sess c l s). Qed.
Print Assumptions C28_discarder_hands_up_nothing.

Theorem C28_flow_controller_transparent E f i en d x s : e_procs E !! i = Some (Proc KFlow en) ->
  exec (S f) E d (Some (PProc i)) x s = exec f E d (next_of E d i) x (visit s i d x).
Proof. exact (flow_transparent E f i en d x s). Qed.
Print Assumptions C28_flow_controller_transparent.

(** Any session, any connection (even none). *)
Theorem C28_loopback_returns E ids pre k rest en session dest c m m' l s :
  wired E ids (pre ++ Proc k true :: Proc KLoopback en :: rest) ->
  Forall (fun p => passes_message p = true) pre ->
  encodes k m l -> decodes k l m' -> l <> [] ->
  (Z.of_nat (length l) <= e_mtu E - e_overhead E)%Z ->
  exists s', finishes (fun f => send f E session dest c (Some m) s) s (shown E (dest_of session dest) c m') s'.
Proof. exact (loopback_direct E ids pre k rest en session dest c m m' l s). Qed.
Print Assumptions C28_loopback_returns.

(** With header processors between codec and Loopback. *)
Theorem C28_loopback_below_headers E ids pre k ps rest en session dest c m m' l s :
  wired E ids (pre ++ Proc k true :: ps ++ Proc KLoopback en :: rest) ->
  Forall (fun p => passes_message p = true) pre -> Forall (fun p => carries p = true) ps ->
  encodes k m l -> decodes k l m' -> l <> [] -> e_isref E c = false ->
  (Z.of_nat (length l) <= e_mtu E - e_overhead E)%Z -> (e_mtu E < 2^32)%Z -> caches_idle E s ->
  (0 <= dest_of session dest < 2^32)%Z ->
  exists s', finishes (fun f => send f E session dest (Some c) (Some m) s) s
      (shown E (dest_of session dest) (Some c) m') s' /\ caches_idle E s'.
Proof. exact (loopback_below E ids pre k ps rest en session dest c m m' l s). Qed.
Print Assumptions C28_loopback_below_headers.

Example C28_example :
  let E := ex_env [on KString; on KSession; on (KFrame None); on KLoopback; on KDiscarder] 64 [0; 7]%Z false in
  outs_of (send 20 E 0 (Some 7%Z) (Some 3) (Some (MStr [65; 66]%Z)) (started E)) = Some [ODeliver 7 (Some 3) (MStr [65; 66]%Z)] /\
  let E := ex_env [on KBytes; on KFlow; on KDiscarder; on KStat] 64 [0]%Z false in
  outs_of (send 10 E 0 None (Some 3) (Some (MBytes [1]%Z)) (started E)) = Some [OWire 3 [0; 1]%Z] /\
  outs_of (receive 10 E 3 [0; 1]%Z (started E)) = Some [].
Proof. vm_compute. done. Qed.

(** ** C29 *)
(** Without an enabled FrameDecoder below: the very bytes received are offered back. *)
Theorem C29_echo_returns_partial E ids pa pb sess c l s :
  wired E ids (pa ++ Proc KEcho true :: pb) ->
  Forall (fun p => carries p = true) pb -> Forall (fun p => framing p = false) pb ->
  e_isref E c = false -> (Z.of_nat (length (wire_of sess pb l)) <= e_mtu E)%Z -> (e_mtu E < 2^32)%Z ->
  exists s', finishes (fun f => receive f E c (wire_of sess pb l) s) s
    (offered E (s_out s) c (wire_of sess pb l)) s'.
Proof. exact (echo_returns E ids pa pb sess c l s). Qed.
Print Assumptions C29_echo_returns_partial.

(** Over a FrameDecoder the payload goes back without its length header, so the peer cannot decode it. *)
Theorem C29_echo_over_frame_refuted E ids pa cap c l s :
  wired E ids (pa ++ [Proc KEcho true; Proc (KFrame cap) true]) ->
  e_isref E c = false -> l <> [] -> (Z.of_nat (length (frame l)) <= e_mtu E)%Z -> (e_mtu E < 2^32)%Z ->
  caches_idle E s ->
  exists s', finishes (fun f => receive f E c (frame l) s) s (offered E (s_out s) c l) s'.
Proof. exact (echo_frame_raw E ids pa cap c l s). Qed.
Print Assumptions C29_echo_over_frame_refuted.

Example C29_example :
  let E := ex_env [on KBytes; on KEcho; on KSession; on KHeartbeat; on KStat] 64 [0]%Z false in
  outs_of (receive 20 E 3 [0; 0; 0; 0; 0; 7; 1; 2]%Z (started E)) = Some [OWire 3 [0; 0; 0; 0; 0; 7; 1; 2]%Z] /\
  let E := ex_env [on KBytes; on KEcho; on (KFrame None)] 64 [0]%Z false in
  outs_of (receive 20 E 3 [0; 0; 0; 2; 8; 9]%Z (started E)) = Some [OWire 3 [8; 9]%Z].
Proof. vm_compute. done. Qed.

(** ** C30 *)
(** Both constructors leave a nil function in front, so an enabled Filter or Forwarder panics on every message. *)
Theorem C30_new_filter_crashes_refuted E f i k fns d x s : e_procs E !! i = Some (Proc k true) ->
  k = new_filter fns \/ k = new_forwarder fns ->
  exec (S f) E d (Some (PProc i)) x s = Some (Crash (visit s i d x)).
Proof. exact (fresh_filter_crashes E f i k fns d x s). Qed.
Print Assumptions C30_new_filter_crashes_refuted.

(** Without that nil function: *)
Theorem C30_filter_functions_partial E f i fns d x s : e_procs E !! i = Some (Proc (KFilter (Some <$> fns)) true) ->
  exec (S f) E d (Some (PProc i)) x s =
  if existsb (fun g => g x (is_up d)) fns then exec f E d (next_of E d i) x (visit s i d x)
  else Some (Done x (bump d (visit s i d x) i)).
Proof. exact (filter_on E f i fns d x s). Qed.
Print Assumptions C30_filter_functions_partial.

Theorem C30_forwarder_functions_partial E f i fns d x s : e_procs E !! i = Some (Proc (KForwarder (Some <$> fns)) true) ->
  exec (S f) E d (Some (PProc i)) x s =
  if existsb (fun g => g x (is_up d)) fns then Some (Done x (bump d (visit s i d x) i))
  else exec f E d (next_of E d i) x (visit s i d x).
Proof. exact (forwarder_on E f i fns d x s). Qed.
Print Assumptions C30_forwarder_functions_partial.

Definition ex_short (x : ctx) (_ : bool) : bool :=
  match cx_msg x with Some (MBytes [_]) => true | _ => false end.
Example C30_example :
  let E := ex_env [on (new_filter [ex_short]); on KBytes] 64 [0]%Z false in
  crashed (send 10 E 0 None (Some 3) (Some (MBytes [1]%Z)) (started E)) = true /\
  let E := ex_env [on (KFilter [Some ex_short]); on KBytes] 64 [0]%Z false in
  outs_of (send 10 E 0 None (Some 3) (Some (MBytes [1]%Z)) (started E)) = Some [OWire 3 [1]%Z] /\
  match send 10 E 0 None (Some 3) (Some (MBytes [1; 2]%Z)) (started E) with
  | Some (Done _ s) => s_out s = [] /\ ps_tx <$> s_ps s !! 0 = Some 1%Z
  | _ => False
  end.
Proof. vm_compute. done. Qed.

(** ** C31 *)
(** Every message sent through an enabled LoadBalancer is dropped by the peer's enabled LoadBalancer. *)
Theorem C31_balancers_lose_everything_refuted A B idsA idsB preA paB k pa pb session cA cB m l sA sB :
  let all := pa ++ Proc KLoadBalancer true :: pb in
  wired A idsA (preA ++ Proc k true :: all) -> wired B idsB (paB ++ Proc KLoadBalancer true :: pb) ->
  Forall (fun p => passes_message p = true) preA ->
  Forall (fun p => sends_on p = true) pa -> Forall (fun p => carries p = true) pb ->
  e_isref A cA = false -> accepts A cA -> (e_mtu A < 2^32)%Z ->
  e_isref B cB = false -> (e_mtu B < 2^32)%Z -> caches_idle B sB ->
  encodes k m l -> l <> [] -> (Z.of_nat (length l) <= e_mtu A - e_overhead A)%Z ->
  (Z.of_nat (length l) + room all <= e_mtu B)%Z ->
  exists w sA' sB', finishes (fun f => send f A session None (Some cA) (Some m) sA) sA [OWire cA w] sA' /\
    finishes (fun f => receive f B cB w sB) sB [] sB'.
Proof. exact (balancer_pair A B idsA idsB preA paB k pa pb session cA cB m l sA sB). Qed.
Print Assumptions C31_balancers_lose_everything_refuted.

Example C31_example : let E := ex_env [on KBytes; on KLoadBalancer; on (KFrame None)] 64 [0]%Z false in
  outs_of (send 10 E 0 None (Some 3) (Some (MBytes [1]%Z)) (started E)) = Some [OWire 3 [0; 0; 0; 2; 17; 1]%Z] /\
  outs_of (receive 10 E 3 [0; 0; 0; 2; 17; 1]%Z (started E)) = Some [].
Proof. vm_compute. done. Qed.

(** ** C32 *)
(** Without a FrameDecoder: the same object, at session 0. *)
Theorem C32_references_bypass_partial A B idsA idsB psA psB session dest cA cB m sA sB :
  wired A idsA psA -> wired B idsB psB ->
  Forall (fun p => passes_reference p = true) psA -> Forall (fun p => passes_reference p = true) psB ->
  e_isref A cA = true -> e_isref B cB = true -> e_setref A (s_out sA) cA m = false -> (0%Z ∈ e_sessions B) ->
  exists sA' sB', finishes (fun f => send f A session dest (Some cA) (Some m) sA) sA [ORef cA m] sA' /\
    finishes (fun f => receive_ref f B cB m sB) sB [ODeliver 0 (Some cB) m] sB'.
Proof. exact (refs_end_to_end A B idsA idsB psA psB session dest cA cB m sA sB). Qed.
Print Assumptions C32_references_bypass_partial.

(** A FrameDecoder below another processor: the send recurses forever. *)
Theorem C32_frame_decoder_never_returns_refuted E ids pa p cap en pb session dest c m s :
  wired E ids (pa ++ p :: Proc (KFrame cap) en :: pb) ->
  Forall (fun p => passes_reference p = true) (pa ++ [p]) -> e_isref E c = true ->
  never_returns (fun f => send f E session dest (Some c) (Some m) s).
Proof. exact (ref_frame_never E ids pa p cap en pb session dest c m s). Qed.
Print Assumptions C32_frame_decoder_never_returns_refuted.

(** A FrameDecoder on top: the message is dropped. *)
Theorem C32_frame_decoder_on_top_refuted E ids cap en pb session dest c m s :
  wired E ids (Proc (KFrame cap) en :: pb) -> e_isref E c = true ->
  exists s', finishes (fun f => send f E session dest (Some c) (Some m) s) s [] s' /\ s_ps s' = s_ps s.
Proof. exact (ref_frame_top E ids cap en pb session dest c m s). Qed.
Print Assumptions C32_frame_decoder_on_top_refuted.

Example C32_example : let E := ex_env [on KStat; on KHeartbeat; on KLoadBalancer] 64 [0]%Z true in
  outs_of (send 10 E 0 None (Some 3) (Some (MObj 5)) (started E)) = Some [ORef 3 (MObj 5)] /\
  outs_of (receive_ref 10 E 3 (MObj 5) (started E)) = Some [ODeliver 0 (Some 3) (MObj 5)] /\
  let E := ex_env [on KStat; on (KFrame None)] 64 [0]%Z true in
  send 100 E 0 None (Some 3) (Some (MObj 5)) (started E) = None.
Proof. vm_compute. done. Qed.

(** ** C33 *)
(** Every self message on a reference connection closes it. *)
Theorem C33_self_message_closes_reference_refuted E a i b pa p pb tag c s :
  wired E (a ++ i :: b) (pa ++ p :: pb) -> length a = length pa ->
  Forall (fun p => passes_reference p = true) pb -> e_isref E c = true ->
  (0 < e_mtu E)%Z -> (e_overhead E <= e_mtu E)%Z ->
  exists s', finishes (fun f => self_message f E i tag c s) s [OClose c; OClosedEvent c] s'.
Proof. exact (self_on_reference E a i b pa p pb tag c s). Qed.
Print Assumptions C33_self_message_closes_reference_refuted.

(** On a byte connection it is sent as a message (and a working connection stays open). *)
Theorem C33_self_message_on_bytes_partial E a i b pa p pb tag c s :
  wired E (a ++ i :: b) (pa ++ p :: pb) -> length a = length pa -> Forall (fun p => sends_on p = true) pb ->
  e_isref E c = false -> (e_overhead E < e_mtu E < 2^32)%Z ->
  exists s', finishes (fun f => self_message f E i tag c s) s (offered E (s_out s) c (wire_of 0 pb [tag])) s' /\
    (forall j, cache_of s' j = cache_of s j).
Proof. exact (self_sends E a i b pa p pb tag c s). Qed.
Print Assumptions C33_self_message_on_bytes_partial.

Example C33_example : let E := ex_env [on KStat; on KHeartbeat] 64 [0]%Z true in
  outs_of (self_message 10 E 1 131%Z 3 (started E)) = Some [OClose 3; OClosedEvent 3].
Proof. vm_compute. done. Qed.

(** ** C34 *)
(** Stacks of processors that do not ask the connection. *)
Theorem C34_no_connection_quiet_partial E ids ps session dest m s :
  wired E ids ps -> Forall (fun p => connectionless p = true) ps -> (0 < e_mtu E)%Z -> (e_overhead E <= e_mtu E)%Z ->
  exists s', finishes (fun f => send f E session dest None m s) s [] s' /\ s_ps s' = s_ps s.
Proof. exact (no_conn_quiet E ids ps session dest m s). Qed.
Print Assumptions C34_no_connection_quiet_partial.

(** Any stack with a header processor that asks the connection crashes. *)
Theorem C34_no_connection_crashes_refuted E ids pre k ps p rest session dest m l s :
  wired E ids (pre ++ Proc k true :: ps ++ p :: rest) -> Forall (fun p => passes_message p = true) pre ->
  Forall (fun p => passes_message p = true) ps ->
  encodes k m l -> l <> [] -> (Z.of_nat (length l) <= e_mtu E - e_overhead E)%Z ->
  asks_connection (p_kind p) = true -> crashes (fun f => send f E session dest None (Some m) s) s [].
Proof. exact (no_conn_codec_crashes E ids pre k ps p rest session dest m l s). Qed.
Print Assumptions C34_no_connection_crashes_refuted.

Theorem C34_no_connection_crashes_above_codec_refuted E ids pa p pb session dest m s :
  wired E ids (pa ++ p :: pb) -> Forall (fun p => passes_message p = true) pa ->
  asks_connection (p_kind p) = true -> crashes (fun f => send f E session dest None m s) s [].
Proof. exact (no_conn_crashes E ids pa p pb session dest m s). Qed.
Print Assumptions C34_no_connection_crashes_above_codec_refuted.

Example C34_example : let E := ex_env [on KBytes; on KSession; on KStat] 64 [0]%Z false in
  crashed (send 10 E 0 None None (Some (MBytes [1]%Z)) (started E)) = true /\
  let E := ex_env [on KBytes; on KSession] 64 [0]%Z false in
  outs_of (send 10 E 0 None None (Some (MBytes [1]%Z)) (started E)) = Some [].
Proof. vm_compute. done. Qed.

(** ** C35 *)
(** Calls one after the other (concurrent ones: Props_Race). *)
Theorem C35_counters_count_partial E s i : reached E s -> e_procs E !! i = Some (Proc KStat true) ->
  exists p, s_ps s !! i = Some p /\
    ps_tx p = (Z.of_nat (count (passed_down E i) (s_visits s)) mod 2^64)%Z /\
    ps_rx p = (Z.of_nat (count (passed_up E i) (s_visits s)) mod 2^64)%Z.
Proof. exact (stat_counts E s i). Qed.
Print Assumptions C35_counters_count_partial.

Theorem C35_response_carries_counters_partial E a i b pa pb sess c s :
  wired E (a ++ i :: b) (pa ++ Proc KStat true :: pb) -> length a = length pa ->
  Forall (fun p => carries p = true) pb -> e_isref E c = false ->
  (Z.of_nat (length (wire_of sess pb [16%Z])) <= e_mtu E)%Z -> (e_mtu E < 2^32)%Z -> caches_idle E s ->
  (16 + Z.of_nat (length (e_name E)) <= e_mtu E - e_overhead E)%Z -> reached E s ->
  exists s', finishes (fun f => receive f E c (wire_of sess pb [16%Z]) s) s
    (offered E (s_out s) c (wire_of sess pb (stat_bytes
       (Z.of_nat (count (passed_down E i) (s_visits s)) mod 2^64)
       (Z.of_nat (count (passed_up E i) (s_visits s)) mod 2^64) (e_name E)))) s'.
Proof. exact (stat_response_counts E a i b pa pb sess c s). Qed.
Print Assumptions C35_response_carries_counters_partial.

Example C35_example : let E := ex_env [on KBytes; on KStat; on KHeartbeat] 64 [0]%Z false in
  match send 10 E 0 None (Some 3) (Some (MBytes [9]%Z)) (started E) with
  | Some (Done _ s1) =>
      match receive 10 E 3 [0; 0; 7]%Z s1 with
      | Some (Done _ s2) =>
          count (passed_down E 1) (s_visits s2) = 1 /\ count (passed_up E 1) (s_visits s2) = 1 /\
          match receive 10 E 3 [0; 16]%Z s2 with
          | Some (Done _ s3) => drop 2 (s_out s3) =
              [OWire 3 [0; 35; 0;0;0;0;0;0;0;1; 0;0;0;0;0;0;0;1; 110; 97]%Z]
          | _ => False
          end
      | _ => False
      end
  | _ => False
  end.
Proof. vm_compute. done. Qed.

(** ** C36 *)
Theorem C36_unsendable_ignored E ids pre k ps session dest c m s :
  wired E ids (pre ++ Proc k true :: ps) -> Forall (fun p => passes_message p = true) pre ->
  (0 < e_mtu E)%Z -> (e_overhead E <= e_mtu E)%Z -> unsendable k m ->
  exists s', finishes (fun f => send f E session dest c m s) s [] s' /\ s_ps s' = s_ps s.
Proof. exact (send_ignored E ids pre k ps session dest c m s). Qed.
Print Assumptions C36_unsendable_ignored.

(** A received message whose headers are all there is. *)
Theorem C36_codec_ignores_empty_buffer E ids pre k ps sess c s :
  wired E ids (pre ++ Proc k true :: ps) -> refuses_nothing k ->
  Forall (fun p => carries p = true) ps -> Forall (fun p => framing p = false) ps -> e_isref E c = false ->
  (Z.of_nat (length (wire_of sess ps [])) <= e_mtu E)%Z ->
  exists s', finishes (fun f => receive f E c (wire_of sess ps []) s) s [] s' /\ (forall j, cache_of s' j = cache_of s j).
Proof. exact (receive_ignored E ids pre k ps sess c s). Qed.
Print Assumptions C36_codec_ignores_empty_buffer.

Example C36_example :
  unsendable KBytes None /\ unsendable KBytes (Some (MStr [1]%Z)) /\ unsendable KString (Some (MStr [])) /\
  (let E := ex_env [on KBytes; on KSession] 64 [7]%Z false in
   outs_of (send 10 E 7 None (Some 3) (Some (MStr [1]%Z)) (started E)) = Some [] /\
   outs_of (send 10 E 7 None (Some 3) None (started E)) = Some [] /\
   outs_of (send 10 E 7 None (Some 3) (Some (MBytes [])) (started E)) = Some [] /\
   wire_of 7 [on KSession] [] = [0; 0; 0; 7]%Z /\
   outs_of (receive 10 E 3 [0; 0; 0; 7]%Z (started E)) = Some []).
Proof. split; [done|]. split; [done|]. split; [by intros l [= <-]|]. vm_compute. done. Qed.

(** ** C55 *)
(** The heartbeat of A refreshes the monitor of B and goes no further up than B's Heartbeat. *)
Theorem C55_heartbeat_only_refreshes A B aA iA bA paA enA aB iB bB paB enB pb cA cB sA sB :
  wired A (aA ++ iA :: bA) (paA ++ Proc KHeartbeat enA :: pb) -> length aA = length paA ->
  wired B (aB ++ iB :: bB) (paB ++ Proc KHeartbeat enB :: pb) -> length aB = length paB ->
  Forall (fun p => carries p = true) pb ->
  e_isref A cA = false -> accepts A cA -> (e_overhead A < e_mtu A < 2^32)%Z ->
  e_isref B cB = false -> (1 + room pb <= e_mtu B < 2^32)%Z -> caches_idle B sB ->
  exists w sA' sB', finishes (fun f => self_message f A iA 131%Z cA sA) sA [OWire cA w] sA' /\
    finishes (fun f => receive f B cB w sB) sB [ORefresh iB cB] sB' /\
    fst <$> s_visits sB' = (fst <$> s_visits sB) ++ ((fun i => (i, Up)) <$> (rev bB ++ [iB])).
Proof. exact (heartbeat_end_to_end A B aA iA bA paA enA aB iB bB paB enB pb cA cB sA sB). Qed.
Print Assumptions C55_heartbeat_only_refreshes.

(** User payloads, whatever their first byte: an instance of the end-to-end theorem, whose processors include Heartbeat. *)
Theorem C55_user_messages_pass A B idsA idsB preA preB k ps cA cB (ls : list letter) sA sB :
  wired A idsA (preA ++ Proc k true :: ps) -> wired B idsB (preB ++ Proc k true :: ps) ->
  Forall (fun p => passes_message p = true) preA -> Forall (fun p => passes_message p = true) preB ->
  Forall (fun p => carries p = true) ps ->
  e_isref A cA = false -> accepts A cA -> (e_mtu A < 2^32)%Z ->
  e_isref B cB = false -> (e_mtu B < 2^32)%Z -> caches_idle B sB ->
  Forall (fun x => encodes k (le_msg x) (le_bytes x) /\ decodes k (le_bytes x) (le_msg x) /\ le_bytes x <> [] /\
    (Z.of_nat (length (le_bytes x)) <= e_mtu A - e_overhead A)%Z /\
    (Z.of_nat (length (le_bytes x)) + room ps <= e_mtu B)%Z /\
    (0 <= le_sess x < 2^32)%Z /\ (existsb resolves ps = true \/ le_sess x = 0%Z) /\
    le_sess x ∈ e_sessions B) ls ->
  let w x := wire_of (le_sess x) ps (le_bytes x) in
  exists sA' sB',
    finish_all ((fun x f s => send f A (le_sess x) None (Some cA) (Some (le_msg x)) s) <$> ls) sA
      ((fun x => OWire cA (w x)) <$> ls) sA' /\
    finish_all ((fun x f s => receive f B cB (w x) s) <$> ls) sB
      ((fun x => ODeliver (le_sess x) (Some cB) (le_msg x)) <$> ls) sB'.
Proof. exact (end_to_end A B idsA idsB preA preB k ps cA cB ls sA sB). Qed.
Print Assumptions C55_user_messages_pass.

Example C55_example : Forall (fun p => carries p = true) [on KHeartbeat; on (KFrame None)] /\
  let E := ex_env [on KBytes; on KHeartbeat; on (KFrame None)] 64 [0]%Z false in
  outs_of (self_message 10 E 1 131%Z 3 (started E)) = Some [OWire 3 [0; 0; 0; 1; 131]%Z] /\
  outs_of (receive 10 E 3 [0; 0; 0; 1; 131]%Z (started E)) = Some [ORefresh 1 3] /\
  outs_of (receive 10 E 3 [0; 0; 0; 3; 0; 131; 1]%Z (started E)) = Some [ODeliver 0 (Some 3) (MBytes [131; 1]%Z)].
Proof. split; [by repeat constructor|]. vm_compute. done. Qed.
