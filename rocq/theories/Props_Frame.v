(** * Theorems about FrameDecoder (properties C16 - C21)

    Only statements: every proof is one lemma of FrameProofs.  [fd_feed fuel mtu
    cache chunks] is the decoder receiving [chunks] one after the other; it
    gives, per chunk, the payloads handed up, then the cache and whether the
    decoder panicked on the last chunk. *)
From Verif Require Import GoBase UBufModel UBufSpec FrameModel FrameSpec FrameProofs.

(** Example data: a 16-byte cache right after Run, and some payloads. *)
Definition ex_cache (k : nat) : vbuf := VB 0 0 0 (make_store k).
Example ex_cache_run k : 0 < k -> v_alloc (Z.of_nat k) 0 = Some (ex_cache k).
Proof.
  intros H. unfold v_alloc, ex_cache. rewrite Nat2Z.id. destruct (Z.of_nat k <=? 0)%Z eqn:E; [lia|].
  destruct (0 >? Z.of_nat k)%Z eqn:E1; [lia|]. done.
Qed.
Example ex_cache_idle k : idle k (ex_cache k).
Proof. unfold idle, ex_cache, v_cap, scap. simpl. by rewrite replicate_length. Qed.

(** ** C16 *)
Theorem C16_coalesced_frames_split fuel k mtu c pss :
  idle k c -> 0 < k -> Forall (Forall payload_ok) pss ->
  Forall (fun ps => length (frames ps) <= mtu /\ (Z.of_nat (length (frames ps)) < 2^32)%Z /\
                    length (frames ps) < fuel) pss ->
  exists c', fd_feed fuel mtu c (frames <$> pss) = Some (pss, c', false) /\ idle k c'.
Proof. exact (feed_frames fuel k mtu c pss). Qed.
Print Assumptions C16_coalesced_frames_split.

(** Frames are what the sending FrameDecoder makes of a buffer. *)
Theorem C16_sender_makes_frames u :
  reachable u -> (Z.of_nat (v_rlen u) < 2^32)%Z -> 4 <= v_hlen u ->
  exists u', fd_send u = Ok tt u' /\ readable u' = frame (readable u).
Proof. exact (sender_frames u). Qed.
Print Assumptions C16_sender_makes_frames.

Example C16_example :
  let pss := [[[1; 2]; [3; 0; 0; 0; 0]]; [[4]]]%Z in
  Forall (Forall payload_ok) pss /\
  (let c := ex_cache 1 in exists c', fd_feed 30 20 c (frames <$> pss) = Some (pss, c', false)) /\
  (frames <$> pss) = [[0;0;0;2;1;2;0;0;0;5;3;0;0;0;0]; [0;0;0;1;4]]%Z.
Proof.
  split; [repeat constructor; done|]. split; [|done]. vm_compute. by eexists.
Qed.

(** ** C17 *)
(** Refuted for every frame and every chunking that really cuts it, with any
    cache larger than the chunks (the default is twice the MTU). *)
Theorem C17_split_frames_lost_refuted fuel k mtu c chs p :
  idle k c -> Forall (chunk_fits k mtu) chs -> Forall (fun ch => length ch < fuel) chs ->
  concat chs = frame p -> Forall (fun ch => length ch < length (frame p)) chs ->
  exists outs c' crash, fd_feed fuel mtu c chs = Some (outs, c', crash) /\ p ∉ concat outs.
Proof. exact (split_never_delivered fuel k mtu c chs p). Qed.
Print Assumptions C17_split_frames_lost_refuted.

Theorem C17_whole_frames_partial fuel k mtu c pss :
  idle k c -> 0 < k -> Forall (Forall payload_ok) pss ->
  Forall (fun ps => length (frames ps) <= mtu /\ (Z.of_nat (length (frames ps)) < 2^32)%Z /\
                    length (frames ps) < fuel) pss ->
  exists c', fd_feed fuel mtu c (frames <$> pss) = Some (pss, c', false) /\ idle k c'.
Proof. exact (feed_frames fuel k mtu c pss). Qed.
Print Assumptions C17_whole_frames_partial.

Example C17_example :
  let chs := [[0;0;0]; [4;9;8;7]; [6]]%Z in let p := [9;8;7;6]%Z in
  concat chs = frame p /\ Forall (chunk_fits 16 8) chs /\
  Forall (fun ch => length ch < length (frame p)) chs /\
  (exists c', fd_feed 20 8 (ex_cache 16) chs = Some ([[];[];[]], c', false)) /\
  (exists c', fd_feed 20 8 (ex_cache 16) [frame p] = Some ([[p]], c', false)).
Proof.
  split; [done|]. split; [|split; [|split]].
  - repeat constructor; unfold byte_ok; simpl; lia.
  - repeat constructor; vm_compute; lia.
  - vm_compute. by eexists.
  - vm_compute. by eexists.
Qed.

(** ** C18 *)
(** Refuted: a zero length field after any number of frames crashes. *)
Theorem C18_zero_length_crashes_refuted fuel k mtu c ps x :
  idle k c -> 4 + length x < k -> Forall payload_ok ps ->
  let ch := frames ps ++ [0; 0; 0; 0]%Z ++ x in
  length ch <= mtu -> (Z.of_nat (length ch) < 2^32)%Z -> length ch < fuel ->
  exists bs c', fd_recv fuel c (rx_chunk mtu ch) = Some (bs, c', true) /\ readable <$> bs = ps.
Proof. exact (zero_crash fuel k mtu c ps x). Qed.
Print Assumptions C18_zero_length_crashes_refuted.

(** For every cache content and every chunk: the call ends, a crash needs four
    consecutive zero bytes, and what is handed up or kept was received. *)
Theorem C18_no_other_crash_partial fuel k mtu c ch :
  cache_state k c -> Forall byte_ok (readable c) ->
  Forall byte_ok ch -> length ch <= mtu -> (Z.of_nat (length ch) < 2^32)%Z ->
  length (readable c) + length ch < fuel ->
  exists bs c' crash, fd_recv fuel c (rx_chunk mtu ch) = Some (bs, c', crash) /\ cache_state k c' /\
    Forall (fun b => block_of (readable b) (readable c ++ ch)) bs /\
    block_of (readable c') (readable c ++ ch) /\
    (crash = true -> block_of [0; 0; 0; 0]%Z (readable c ++ ch)).
Proof. exact (recv_any_state fuel k mtu c ch). Qed.
Print Assumptions C18_no_other_crash_partial.

Example C18_example :
  (exists bs c', fd_recv 20 (ex_cache 16) (rx_chunk 16 [0;0;0;1;7;0;0;0;0]%Z) = Some (bs, c', true) /\
     readable <$> bs = [[7%Z]]) /\
  cache_state 8 (VB 0 1 8 (Store [9;0;0;0;3;1;2;3]%Z 8)) /\
  (exists bs c', fd_recv 20 (VB 0 1 8 (Store [9;0;0;0;3;1;2;3]%Z 8)) (rx_chunk 16 [5;5]%Z) = Some (bs, c', false) /\
     readable <$> bs = [[1;2;3]%Z]).
Proof.
  split; [|split].
  - vm_compute. by eexists _, _.
  - unfold cache_state, v_cap, scap; simpl. lia.
  - vm_compute. by eexists _, _.
Qed.

(** ** C19 *)
(** Refuted: a frame whose last four bytes have not arrived is handed up
    without them. *)
Theorem C19_truncated_handed_up_refuted fuel k mtu c ps x :
  idle k c -> 4 + length x < k -> Forall payload_ok ps ->
  (4 + Z.of_nat (length x) < 2^32)%Z ->
  let ch := frames ps ++ digits BE W32 (4 + Z.of_nat (length x)) ++ x in
  length ch <= mtu -> (Z.of_nat (length ch) < 2^32)%Z -> length ch < fuel ->
  exists bs c', fd_recv fuel c (rx_chunk mtu ch) = Some (bs, c', false) /\ readable <$> bs = ps ++ [x].
Proof. exact (truncated_delivered fuel k mtu c ps x). Qed.
Print Assumptions C19_truncated_handed_up_refuted.

(** Exactly what is handed up for any chunk shorter than the cache: the complete
    frames at its front, then possibly one frame truncated by four bytes. *)
Theorem C19_exact_output_partial fuel k mtu c ch :
  idle k c -> chunk_fits k mtu ch -> length ch < fuel ->
  exists bs c' crash, fd_recv fuel c (rx_chunk mtu ch) = Some (bs, c', crash) /\ idle k c' /\
    chunk_out ch (readable <$> bs) crash.
Proof. exact (recv_stateless fuel k mtu c ch). Qed.
Print Assumptions C19_exact_output_partial.

(** The split into complete frames and rest exists and is unique. *)
Theorem C19_cuts_total d : Forall byte_ok d -> exists ps r, cuts d ps r.
Proof. exact (cuts_total d). Qed.
Print Assumptions C19_cuts_total.
Theorem C19_cuts_unique d ps r ps' r' : cuts d ps r -> cuts d ps' r' -> ps = ps' /\ r = r'.
Proof. exact (cuts_unique d ps r ps' r'). Qed.
Print Assumptions C19_cuts_unique.

Example C19_example :
  exists bs c', fd_recv 20 (ex_cache 16) (rx_chunk 16 [0;0;0;1;7;0;0;0;6;1;2]%Z) = Some (bs, c', false) /\
     readable <$> bs = [[7%Z]; [1;2]%Z].
Proof.
  vm_compute. by eexists _, _.
Qed.
Example C19_exact_example : chunk_fits 16 16 [0;0;0;1;7;0;0;0;9;1;2]%Z /\
  chunk_out [0;0;0;1;7;0;0;0;9;1;2]%Z [[7%Z]] false.
Proof.
  split.
  - repeat constructor; unfold byte_ok; simpl; lia.
  - exists [[7%Z]], [0;0;0;9;1;2]%Z. split; [|done].
    apply (frames_cuts [[7%Z]] [0;0;0;9;1;2]%Z); [by repeat constructor|]. right; right. vm_compute. done.
Qed.

(** ** C20 *)
(** Refuted: with a cache no larger than a chunk, one connection's incomplete
    frame silences every other connection. *)
Theorem C20_one_connection_silences_others_refuted fuel k mtu c ch chs :
  idle k c -> 4 <= k -> k <= length ch -> length ch <= mtu ->
  (Z.of_nat (length ch) < announced ch < 2^32)%Z -> 0 < fuel ->
  exists c', fd_feed fuel mtu c (ch :: chs) = Some ([] :: ((fun _ => []) <$> chs), c', false).
Proof. exact (wedge_forever fuel k mtu c ch chs). Qed.
Print Assumptions C20_one_connection_silences_others_refuted.

(** With a cache larger than the chunks: each connection gets what it would get
    alone, for every interleaving of tagged chunks. *)
Theorem C20_isolated_partial (A : Type) (dec : EqDecision A) fuel k mtu c (tagged : list (A * list byte)) outs c' a :
  idle k c -> Forall (chunk_fits k mtu) (snd <$> tagged) ->
  Forall (fun ch => length ch < fuel) (snd <$> tagged) ->
  fd_feed fuel mtu c (snd <$> tagged) = Some (outs, c', false) ->
  exists c2, fd_feed fuel mtu c (snd <$> filter (fun x => fst x = a) tagged) =
    Some (snd <$> filter (fun x => fst x = a) (zip (fst <$> tagged) outs), c2, false).
Proof. exact (interleaving_harmless fuel k mtu c tagged outs c' a). Qed.
Print Assumptions C20_isolated_partial.

Example C20_example :
  (exists c', fd_feed 20 8 (ex_cache 8) [[0;0;0;9;1;2;3;4]; [0;0;0;1;7]; [0;0;0;1;8]]%Z = Some ([[]; []; []], c', false)) /\
  let tagged := [(1, [0;0;0;9;1;2;3;4]%Z); (2, [0;0;0;1;7]%Z); (1, [0;0;0;1;8]%Z)] in
  (exists c', fd_feed 20 8 (ex_cache 16) (snd <$> tagged) = Some ([[]; [[7%Z]]; [[8%Z]]], c', false)) /\
  Forall (chunk_fits 16 8) (snd <$> tagged).
Proof.
  split; [|split].
  - vm_compute. by eexists.
  - vm_compute. by eexists.
  - repeat constructor; unfold byte_ok; simpl; lia.
Qed.

(** ** C21 *)
Theorem C21_terminates_partial k c ch :
  cache_state k c -> Forall byte_ok (readable c) -> Forall byte_ok ch -> (Z.of_nat (length ch) < 2^32)%Z ->
  forall mtu, length ch <= mtu ->
  exists x, forall fuel, length (readable c) + length ch < fuel -> fd_recv fuel c (rx_chunk mtu ch) = Some x.
Proof. exact (recv_terminates k c ch). Qed.
Print Assumptions C21_terminates_partial.

(** Refuted: a wedged decoder ignores everything, and one chunk wedges it. *)
Theorem C21_wedged_ignores_all_refuted fuel mtu c chs : wedged c -> 0 < fuel ->
  fd_feed fuel mtu c chs = Some ((fun _ => []) <$> chs, c, false).
Proof. exact (wedged_feed fuel mtu c chs). Qed.
Print Assumptions C21_wedged_ignores_all_refuted.
Theorem C21_one_chunk_wedges_refuted fuel k mtu c ch :
  idle k c -> 4 <= k -> k <= length ch -> length ch <= mtu ->
  (Z.of_nat (length ch) < announced ch < 2^32)%Z -> 0 < fuel ->
  exists c', fd_recv fuel c (rx_chunk mtu ch) = Some ([], c', false) /\ wedged c'.
Proof. exact (becomes_wedged fuel k mtu c ch). Qed.
Print Assumptions C21_one_chunk_wedges_refuted.

(** With a cache larger than the chunks, whole frames are handed up after any
    chunks that did not crash the decoder. *)
Theorem C21_recovers_partial fuel k mtu c chs ps :
  idle k c -> Forall (chunk_fits k mtu) chs -> Forall (fun ch => length ch < fuel) chs ->
  chunk_fits k mtu (frames ps) -> length (frames ps) < fuel -> Forall payload_ok ps ->
  forall outs c', fd_feed fuel mtu c chs = Some (outs, c', false) ->
  exists c2, fd_feed fuel mtu c (chs ++ [frames ps]) = Some (outs ++ [ps], c2, false).
Proof. exact (recovers fuel k mtu c chs ps). Qed.
Print Assumptions C21_recovers_partial.

Example C21_example :
  wedged (VB 0 0 8 (Store [0;0;0;9;1;2;3;4]%Z 8)) /\
  (exists c2, fd_feed 20 8 (ex_cache 16) ([[0;0;0;9;1;2;3;4]; [255;255]]%Z ++ [frames [[7%Z]]]) =
     Some ([[]; []] ++ [[[7%Z]]], c2, false)).
Proof.
  split.
  - repeat split; vm_compute; lia || done.
  - vm_compute. by eexists.
Qed.
