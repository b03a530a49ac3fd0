(** * Theorems about a frame decoder shared by several connections (property C70)

    Only statements: every proof is one lemma.  [jrun mtu s ls s']: any number
    of connections' goroutines decode chunks with the one decoder, their
    accesses to its cache interleaved in any way. *)
From Verif Require Import GoBase UBufModel UBufSpec FrameModel FrameSpec MixModel MixSpec MixProofs MixAlone MixEnds.

(** ** C70 *)

(** If chunks can be as long as the cache, a message can be handed up on a connection it did not come from: for every payload [p] that fills the cache, connection 1 gets the [p] that arrived on connection 2. *)
Theorem C70_mixed_refuted mtu k x y p : 0 < length p -> 4 + length p = k -> k <= mtu -> (Z.of_nat k < 2^32)%Z ->
  length x = k -> (Z.of_nat k < announced x)%Z -> 0 < length y < 4 ->
  exists ls s, jrun mtu (new_decoder k) ls s /\ arrived 0 ls = [y] /\ arrived 1 ls = [x] /\ arrived 2 ls = [frame p] /\
    j_up s = [(1, p)] /\ j_crashed s = false.
Proof. exact (mixed mtu k x y p). Qed.
Print Assumptions C70_mixed_refuted.
(** Or the program crashes, because two goroutines take the same frame out of the cache, though none of the chunks crashes the decoder by itself. *)
Theorem C70_crash_refuted mtu k x y p : 0 < length p -> 4 + length p = k -> k <= mtu -> (Z.of_nat k < 2^32)%Z ->
  length x = k -> (Z.of_nat k < announced x)%Z -> 0 < length y < 4 ->
  (exists ls s, jrun mtu (new_decoder k) ls s /\ arrived 0 ls = [y] /\ arrived 1 ls = [x] /\ arrived 2 ls = [frame p] /\
    j_up s = [(2, p)] /\ j_crashed s = true) /\
  chunk_out y [] false /\ chunk_out x [] false /\ chunk_out (frame p) [p] false.
Proof. exact (fun H1 H2 H3 H4 H5 H6 H7 => conj (mixed_crash mtu k x y p H1 H2 H3 H4 H5 H6 H7) (mixed_harmless k x y p H1 H2 H4 H5 H6 H7)). Qed.
Print Assumptions C70_crash_refuted.
Example C70_example_mixed : let x := [0; 0; 0; 9; 1; 1]%Z in let y := [7]%Z in let p := [5; 6]%Z in
  0 < length p /\ 4 + length p = 6 /\ length x = 6 /\ (6 < announced x)%Z /\ 0 < length y < 4.
Proof. vm_compute. repeat split; lia. Qed.

(** If all chunks are shorter than the cache (as with the default capacity, twice the MTU), what is handed up on a connection is what its own chunks give, each decoded alone, in order. *)
Theorem C70_isolated_partial k mtu ls s g : 0 < k -> jrun mtu (new_decoder k) ls s -> all_fit k mtu ls ->
  exists o rest, each_alone (arrived g ls) o /\ ups g s ++ rest = o /\ (j_at s g = JIdle -> rest = []).
Proof. exact (mix_isolated k mtu ls s g). Qed.
Print Assumptions C70_isolated_partial.

(** In particular the payloads of a connection whose chunks are whole frames, whatever arrives on the others. *)
Theorem C70_whole_frames_partial k mtu ls s g pss : 0 < k -> jrun mtu (new_decoder k) ls s -> all_fit k mtu ls ->
  arrived g ls = frames <$> pss -> Forall (Forall payload_ok) pss ->
  exists rest, ups g s ++ rest = concat pss /\ (j_at s g = JIdle -> rest = []).
Proof. exact (mix_whole_frames k mtu ls s g pss). Qed.
Print Assumptions C70_whole_frames_partial.

(** The program crashes only if one of the chunks crashes the decoder by itself (C21). *)
Theorem C70_crash_partial k mtu ls s : 0 < k -> jrun mtu (new_decoder k) ls s -> all_fit k mtu ls -> j_crashed s = true ->
  exists g ch o, ch ∈ arrived g ls /\ chunk_out ch o true.
Proof. exact (mix_crash k mtu ls s). Qed.
Print Assumptions C70_crash_partial.

(** Every goroutine can finish with its chunk by itself, whatever the others are doing. *)
Theorem C70_finishes_partial k mtu ls s g : 0 < k -> jrun mtu (new_decoder k) ls s -> all_fit k mtu ls ->
  j_crashed s = false ->
  exists ms s', jrun mtu s ms s' /\ Forall (fun l => l = JMove g) ms /\ (j_at s' g = JIdle \/ j_crashed s' = true).
Proof. exact (fun H1 H2 H3 H4 => mix_finishes k mtu g H1 _ ls s H2 H3 H4 (le_n _)). Qed.
Print Assumptions C70_finishes_partial.

(** However the goroutines are scheduled, each makes at most so many steps for its chunks. *)
Theorem C70_steps_partial k mtu ls s g : 0 < k -> jrun mtu (new_decoder k) ls s -> all_fit k mtu ls ->
  moves g ls <= sum_list_with (fun ch => 12 + length ch) (arrived g ls).
Proof. exact (mix_moves_bound k mtu ls s g). Qed.
Print Assumptions C70_steps_partial.

(** When one cannot go on, it has handed up all that its chunks give. *)
Theorem C70_ends_partial k mtu ls s g : 0 < k -> jrun mtu (new_decoder k) ls s -> all_fit k mtu ls ->
  j_crashed s = false -> (forall s', ~ jstep mtu s (JMove g) s') -> each_alone (arrived g ls) (ups g s).
Proof. exact (mix_ends k mtu ls s g). Qed.
Print Assumptions C70_ends_partial.
Definition ex_ends : list jlab := JArrive 0 (frames [[4]]%Z) :: replicate 13 (JMove 0).
Example C70_example_ends : exists s, jrun 32 (new_decoder 64) ex_ends s /\ all_fit 64 32 ex_ends /\ moves 0 ex_ends = 13 /\
  j_crashed s = false /\ (forall s', ~ jstep 32 s (JMove 0) s') /\ ups 0 s = [[4]]%Z.
Proof.
  eexists. split.
  { unfold ex_ends, new_decoder. cbn -[rx_chunk frames].
    eapply jrun_cons; [apply jk_arrive; [done|done|vm_compute; lia]|].
    do 12 (eapply jrun_cons; [eapply jk_move; [by vm_compute|vm_compute; reflexivity]|]).
    apply jrun_one. eapply jk_move; [by vm_compute|vm_compute; reflexivity]. }
  split.
  { intros g ch Hch. assert (ch = frames [[4]]%Z) as ->.
    { unfold arrived, ex_ends in Hch. apply elem_of_list_omap in Hch as (l & Hl & E). simpl in Hl.
      repeat (apply elem_of_cons in Hl as [->|Hl]; [simpl in E; try case_match; simplify_eq; auto|]). by apply elem_of_nil in Hl. }
    split_and!; vm_compute; repeat constructor; try done; lia. }
  split; [done|]. split; [done|]. split; [|by vm_compute].
  intros s' H. inversion H; subst; match goal with E : _ |- _ => vm_compute in E; (discriminate E || (exfalso; apply E; reflexivity)) end.
Qed.

(** With a single connection the decoder does, for every capacity and every chunks, what the sequential model (C16 - C21) says, ... *)
Theorem C70_alone_partial fuel mtu k g ls s outs c crash : jrun mtu (new_decoder k) ls s -> Forall (by_alone g) ls ->
  fd_feed fuel mtu (fresh_cache k) (arrived g ls) = Some (outs, c, crash) -> j_at s g = JIdle \/ j_crashed s = true ->
  ups g s = concat outs /\ j_crashed s = crash.
Proof. exact (mix_alone fuel mtu k g ls s outs c crash). Qed.
Print Assumptions C70_alone_partial.

(** ... and can finish whenever that does. *)
Theorem C70_alone_finishes_partial fuel mtu k g ls s outs c crash : jrun mtu (new_decoder k) ls s -> Forall (by_alone g) ls ->
  fd_feed fuel mtu (fresh_cache k) (arrived g ls) = Some (outs, c, crash) ->
  exists ms s', jrun mtu s ms s' /\ Forall (fun l => l = JMove g) ms /\ (j_at s' g = JIdle \/ j_crashed s' = true).
Proof. exact (mix_alone_finishes fuel mtu k g ls s outs c crash). Qed.
Print Assumptions C70_alone_finishes_partial.
(** A cache of 8 bytes: a chunk that fills it is kept, and the frames in it come out with the next chunk. *)
Definition ex_alone : list jlab := JArrive 0 [0; 0; 0; 9; 1; 2; 3; 4]%Z :: replicate 13 (JMove 0).
Example C70_example_alone : exists s, jrun 16 (new_decoder 8) ex_alone s /\ Forall (by_alone 0) ex_alone /\
  j_at s 0 = JIdle /\ exists c, fd_feed 9 16 (fresh_cache 8) (arrived 0 ex_alone) = Some ([[]], c, false) /\ v_rlen c = 8.
Proof.
  eexists. split; [|split; [|split]].
  { unfold ex_alone, new_decoder. eapply jrun_cons; [apply jk_arrive; [done|done|vm_compute; lia]|].
    do 12 (eapply jrun_cons; [eapply jk_move; [by vm_compute|vm_compute; reflexivity]|]).
    apply jrun_one. eapply jk_move; [by vm_compute|vm_compute; reflexivity]. }
  { repeat constructor. }
  { by vm_compute. }
  { eexists. split; [vm_compute; reflexivity|]. by vm_compute. }
Qed.

(** Two goroutines with a cache of 64 bytes: one has handed up its first message, the other is about to. *)
Definition ex_labels : list jlab :=
  [JArrive 0 (frames [[1; 2]; [3]]%Z); JArrive 1 (frames [[4]]%Z); JMove 0; JMove 1; JMove 1; JMove 0; JMove 0].
Example C70_example : exists s, jrun 32 (new_decoder 64) ex_labels s /\ all_fit 64 32 ex_labels /\
  arrived 0 ex_labels = frames <$> [[[1; 2]; [3]]]%Z /\ Forall (Forall payload_ok) [[[1; 2]; [3]]]%Z /\
  ups 0 s = [[1; 2]]%Z /\ ups 1 s = [] /\ j_crashed s = false.
Proof.
  eexists. split.
  { unfold ex_labels, new_decoder. cbn -[rx_chunk frames].
    eapply jrun_cons; [apply jk_arrive; [done|done|vm_compute; lia]|].
    eapply jrun_cons; [apply jk_arrive; [done|done|vm_compute; lia]|].
    do 4 (eapply jrun_cons; [eapply jk_move; [by vm_compute|vm_compute; reflexivity]|]).
    apply jrun_one. eapply jk_move; [by vm_compute|vm_compute; reflexivity]. }
  split.
  { intros g ch Hch. assert (ch = frames [[1; 2]; [3]]%Z \/ ch = frames [[4]]%Z) as [-> | ->].
    { unfold arrived, ex_labels in Hch. apply elem_of_list_omap in Hch as (l & Hl & E).
      repeat (apply elem_of_cons in Hl as [->|Hl]; [simpl in E; try case_match; simplify_eq; auto|]). by apply elem_of_nil in Hl. }
    all: split_and!; vm_compute; repeat constructor; try done; lia. }
  split; [done|]. split; [repeat constructor; vm_compute; done|]. by vm_compute.
Qed.
(** A chunk whose length field is zero crashes it. *)
Example C70_example_crash : exists s, jrun 32 (new_decoder 64) [JArrive 0 [0; 0; 0; 0; 1]%Z; JMove 0; JMove 0; JMove 0] s /\
  all_fit 64 32 [JArrive 0 [0; 0; 0; 0; 1]%Z; JMove 0; JMove 0; JMove 0] /\ j_crashed s = true.
Proof.
  eexists. split.
  { unfold new_decoder. eapply jrun_cons; [apply jk_arrive; [done|done|vm_compute; lia]|].
    do 2 (eapply jrun_cons; [eapply jk_move; [by vm_compute|vm_compute; reflexivity]|]).
    apply jrun_one. apply jk_panic. by vm_compute. }
  split; [|done]. intros g ch Hch. assert (ch = [0; 0; 0; 0; 1]%Z) as ->.
  { unfold arrived in Hch. apply elem_of_list_omap in Hch as (l & Hl & E).
    repeat (apply elem_of_cons in Hl as [->|Hl]; [simpl in E; try case_match; simplify_eq; auto|]). by apply elem_of_nil in Hl. }
  split_and!; vm_compute; repeat constructor; try done; lia.
Qed.
