(** * Theorems about UBuf (properties C01 - C15)

    Only statements: every proof is one lemma of UBufFacts, UBufHeapFacts or UBufMixed.
    After each theorem an example shows a non-trivial case meeting its
    hypotheses, and the assumptions are printed. *)
From Verif Require Import GoBase UBufModel UBufSpec UBufFacts UBufHeapFacts UBufMixed.

(** Checks the side conditions of a concrete history. *)
Ltac check_history :=
  vm_compute;
  repeat match goal with
  | |- _ /\ _ => split
  | |- True => exact I
  | |- exists _, _ => eexists; split; [reflexivity|intros; first [reflexivity|discriminate]]
  | |- _ -> False => discriminate
  | |- _ <= _ => lia
  | |- _ = _ => reflexivity
  end.

(** A buffer with capacity 8 and 3 reserved bytes holding [1;2], used in the
    examples. *)
Definition ex_buf : vbuf := VB 3 3 5 (Store [0;0;0;1;2;0;0;0]%Z 8).
Example ex_buf_reachable : reachable ex_buf.
Proof. exists 8%Z, 3%Z, (VB 3 3 3 (make_store 8)), [OpWrite [1;2]%Z]. split; [lia|]. split; [done|]. split; [|done]. by repeat constructor. Qed.
(** An io.Reader giving at most two bytes, an io.Writer taking at most one. *)
Definition ex_reader : reader := fun n => (take n [8;9]%Z, false).
Definition ex_writer : writer := fun l => (Nat.min 1 (length l), false).
Lemma ex_reader_ok n : length (fst (ex_reader n)) <= n.
Proof. unfold ex_reader. simpl. rewrite take_length. lia. Qed.
Lemma ex_writer_ok l : fst (ex_writer l) <= length l.
Proof. unfold ex_writer, fst. apply Nat.le_min_r. Qed.
Definition ex_ops : list op :=
  [OpWrite [1;2;3]%Z; OpHeadU BE W16 515; OpRead 3; OpReadFrom ex_reader; OpWriteTo ex_writer; OpPeek 2; OpReset; OpWriteU LE W32 7].
Lemma ex_ops_ok : Forall op_ok ex_ops.
Proof. unfold ex_ops. repeat constructor; simpl; [apply ex_reader_ok|apply ex_writer_ok]. Qed.

(** ** C01 *)
Theorem C01_space_accounting c r ops :
  (0 < c /\ 0 <= r <= c)%Z -> Forall op_ok ops ->
  exists b0, v_alloc c r = Some b0 /\
    let '(outs, b) := v_run ops b0 in
    length outs = length ops /\ Forall is_Some outs /\
    v_hlen b + v_rlen b + v_tlen b = v_cap b /\ v_rd b <= v_wr b <= v_cap b /\ v_cap b = Z.to_nat c.
Proof. exact (space_accounting c r ops). Qed.
Print Assumptions C01_space_accounting.
Example C01_example : Forall op_ok ex_ops /\ length (fst (v_run ex_ops (VB 3 3 3 (make_store 8)))) = 8
  /\ snd (v_run ex_ops (VB 3 3 3 (make_store 8))) = VB 3 3 7 (Store [0;2;3;7;0;0;0;9]%Z 8).
Proof. split; [exact ex_ops_ok|]. by vm_compute. Qed.

(** ** C02 *)
Theorem C02_byte_deque c r ops :
  (0 < c /\ 0 <= r <= c)%Z -> Forall op_ok ops ->
  exists b0 b, v_alloc c r = Some b0 /\
    let '(outs, q) := q_run ops (q_new (Z.to_nat c) (Z.to_nat r)) in
    v_run ops b0 = (Some <$> outs, b) /\
    v_hlen b = q_head q /\ readable b = q_data q /\ v_tlen b = q_tail q.
Proof. exact (deque_refinement c r ops). Qed.
Print Assumptions C02_byte_deque.
Theorem C02_failure_keeps_contents o b x b' :
  reachable b -> op_ok o -> v_step o b = Ok x b' -> all_or_nothing_failure o x ->
  v_hlen b' = v_hlen b /\ readable b' = readable b /\ v_tlen b' = v_tlen b.
Proof. exact (failure_keeps o b x b'). Qed.
Print Assumptions C02_failure_keeps_contents.
Example C02_example : fst (q_run ex_ops (q_new 8 3)) =
  [RCount 3 None; RErr None; RBytes [2;3;1]%Z None; RCount 2 None; ROffer (Some [2;3;8;9]%Z) 1 None;
   RBytes [3;8]%Z None; RUnit; RErr None].
Proof. by vm_compute. Qed.
Example C02_failure_example : exists b', v_step (OpHeadU BE W32 1) ex_buf = Ok (RErr (Some EHead)) b'
  /\ all_or_nothing_failure (OpHeadU BE W32 1) (RErr (Some EHead)).
Proof. by eexists. Qed.

(** ** C03 *)
Theorem C03_tail_round_trip b o w v ops :
  reachable b -> (0 <= v < wmax w)%Z -> wbytes w <= v_tlen b ->
  Forall tail_write ops -> Forall op_ok ops ->
  exists xs b',
    v_run (OpWriteU o w v :: ops ++ [OpRead (v_rlen b); OpPeekU o w; OpReadU o w]) b
    = (Some (RErr None) :: xs ++ [Some (RBytes (readable b) None); Some (RVal v None); Some (RVal v None)], b')
    /\ length xs = length ops.
Proof. exact (roundtrip_tail b o w v ops). Qed.
Print Assumptions C03_tail_round_trip.
Theorem C03_head_round_trip b o w v ops :
  reachable b -> (0 <= v < wmax w)%Z -> wbytes w <= v_hlen b ->
  Forall tail_write ops -> Forall op_ok ops ->
  exists xs b',
    v_run (OpHeadU o w v :: ops ++ [OpPeekU o w; OpReadU o w]) b
    = (Some (RErr None) :: xs ++ [Some (RVal v None); Some (RVal v None)], b')
    /\ length xs = length ops.
Proof. exact (roundtrip_head b o w v ops). Qed.
Print Assumptions C03_head_round_trip.
Theorem C03_byte_order b o w v :
  reachable b ->
  (wbytes w <= v_tlen b -> exists b', v_step (OpWriteU o w v) b = Ok (RErr None) b' /\
      readable b' = readable b ++ digits o w v) /\
  (wbytes w <= v_hlen b -> exists b', v_step (OpHeadU o w v) b = Ok (RErr None) b' /\
      readable b' = digits o w v ++ readable b).
Proof. exact (byte_order b o w v). Qed.
Print Assumptions C03_byte_order.
Example C03_example : fst (v_run [OpWriteU LE W16 513; OpWriteByte 7%Z; OpRead 2; OpPeekU LE W16; OpReadU LE W16] ex_buf)
  = [Some (RErr None); Some (RErr None); Some (RBytes [1;2]%Z None); Some (RVal 513 None); Some (RVal 513 None)]
  /\ digits BE W32 67305985 = [4;3;2;1]%Z /\ digits LE W32 67305985 = [1;2;3;4]%Z.
Proof. by vm_compute. Qed.

(** ** C04 *)
Theorem C04_fixed_width_fails_cleanly b o w v :
  reachable b ->
  (v_tlen b < wbytes w -> v_step (OpWriteU o w v) b = Ok (RErr (Some ENoFree)) b) /\
  (v_hlen b < wbytes w -> v_step (OpHeadU o w v) b = Ok (RErr (Some EHead)) b) /\
  (v_rlen b < wbytes w -> v_step (OpReadU o w) b = Ok (RVal 0 (Some ENoData)) b) /\
  (v_rlen b < wbytes w -> v_step (OpPeekU o w) b = Ok (RVal 0 (Some EPeek)) b).
Proof. exact (fixed_width_fail b o w v). Qed.
Print Assumptions C04_fixed_width_fails_cleanly.
Theorem C04_fixed_width_succeeds b o w v :
  reachable b ->
  (wbytes w <= v_tlen b -> exists b', v_step (OpWriteU o w v) b = Ok (RErr None) b' /\
      readable b' = readable b ++ digits o w v /\ v_hlen b' = v_hlen b /\ v_tlen b' = v_tlen b - wbytes w) /\
  (wbytes w <= v_hlen b -> exists b', v_step (OpHeadU o w v) b = Ok (RErr None) b' /\
      readable b' = digits o w v ++ readable b /\ v_hlen b' = v_hlen b - wbytes w /\ v_tlen b' = v_tlen b) /\
  (wbytes w <= v_rlen b -> exists x b', v_step (OpReadU o w) b = Ok (RVal x None) b' /\
      (Forall byte_ok (readable b) -> readable b = digits o w x ++ readable b') /\
      readable b' = drop (wbytes w) (readable b) /\
      v_hlen b' = v_hlen b + wbytes w /\ v_tlen b' = v_tlen b) /\
  (wbytes w <= v_rlen b -> exists x, v_step (OpPeekU o w) b = Ok (RVal x None) b /\
      (Forall byte_ok (readable b) -> digits o w x = take (wbytes w) (readable b))).
Proof. exact (fixed_width_ok b o w v). Qed.
Print Assumptions C04_fixed_width_succeeds.
Example C04_example : v_tlen ex_buf < wbytes W32 /\ v_hlen ex_buf < wbytes W32 /\ v_rlen ex_buf < wbytes W32 /\
  wbytes W16 <= v_tlen ex_buf /\ wbytes W16 <= v_hlen ex_buf /\ wbytes W16 <= v_rlen ex_buf /\
  Forall byte_ok (readable ex_buf).
Proof. vm_compute. repeat split; try lia. repeat constructor; done. Qed.

(** ** C05 *)
Theorem C05_head_bytes_prepend b p :
  reachable b ->
  (length p <= v_hlen b -> (p <> [] \/ 0 < v_rlen b + v_tlen b) ->
     exists b', v_step (OpHeadBytes p) b = Ok (RErr None) b' /\ readable b' = p ++ readable b /\
                v_hlen b' = v_hlen b - length p /\ v_tlen b' = v_tlen b) /\
  (length p <= v_hlen b -> p = [] -> v_rlen b + v_tlen b = 0 ->
     v_step (OpHeadBytes p) b = Ok (RErr (Some EFull)) b) /\
  (v_hlen b < length p -> v_step (OpHeadBytes p) b = Ok (RErr (Some EHead)) b).
Proof. exact (head_write b p). Qed.
Print Assumptions C05_head_bytes_prepend.
Theorem C05_head_byte_prepend b c :
  reachable b ->
  (1 <= v_hlen b -> exists b', v_step (OpHeadByte c) b = Ok (RErr None) b' /\ readable b' = c :: readable b /\
                v_hlen b' = v_hlen b - 1 /\ v_tlen b' = v_tlen b) /\
  (v_hlen b = 0 -> v_step (OpHeadByte c) b = Ok (RErr (Some EHead)) b).
Proof. exact (head_write_byte b c). Qed.
Print Assumptions C05_head_byte_prepend.
Example C05_example : exists b', v_step (OpHeadBytes [8;9]%Z) ex_buf = Ok (RErr None) b' /\ readable b' = [8;9;1;2]%Z.
Proof. by eexists. Qed.

(** ** C06 *)
Theorem C06_write_counts b p :
  reachable b ->
  exists n e b', v_step (OpWrite p) b = Ok (RCount n e) b' /\
    n = Nat.min (length p) (v_tlen b) /\ readable b' = readable b ++ take n p /\
    v_hlen b' = v_hlen b /\ v_tlen b' = v_tlen b - n /\
    (v_tlen b <> 0 -> (e = None <-> n = length p)) /\ (v_tlen b = 0 -> e <> None).
Proof. exact (write_counts b p). Qed.
Print Assumptions C06_write_counts.
Theorem C06_read_counts b n :
  reachable b ->
  exists e b', v_step (OpRead n) b = Ok (RBytes (take n (readable b)) e) b' /\
    readable b' = drop n (readable b) /\
    v_hlen b' = v_hlen b + length (take n (readable b)) /\ v_tlen b' = v_tlen b /\
    (readable b <> [] -> (e = None <-> n <= length (readable b))) /\ (readable b = [] -> e = None).
Proof. exact (read_counts b n). Qed.
Print Assumptions C06_read_counts.
Theorem C06_peek_counts b n :
  reachable b ->
  exists e, v_step (OpPeek n) b = Ok (RBytes (take n (readable b)) e) b /\
    (readable b <> [] -> (e = None <-> n <= length (readable b))) /\ (readable b = [] -> e <> None).
Proof. exact (peek_counts b n). Qed.
Print Assumptions C06_peek_counts.
Example C06_example : fst (v_run [OpWrite [3;4;5;6]%Z; OpPeek 3; OpRead 9] ex_buf) =
  [Some (RCount 3 (Some EPartial)); Some (RBytes [1;2;3]%Z None); Some (RBytes [1;2;3;4;5]%Z (Some ENoMoreRead))].
Proof. by vm_compute. Qed.

(** ** C07 *)
Theorem C07_writeto_accounts b (wr : writer) :
  reachable b -> (forall l, fst (wr l) <= length l) ->
  (readable b = [] -> v_step (OpWriteTo wr) b = Ok (ROffer None 0 None) b) /\
  (readable b <> [] ->
     let n := fst (wr (readable b)) in
     if snd (wr (readable b))
     then v_step (OpWriteTo wr) b = Ok (ROffer (Some (readable b)) n (Some EIO)) b
     else exists b', v_step (OpWriteTo wr) b = Ok (ROffer (Some (readable b)) n None) b' /\
          readable b' = drop n (readable b) /\ v_hlen b' = v_hlen b + n /\ v_tlen b' = v_tlen b).
Proof. exact (writeto_accounts b wr). Qed.
Print Assumptions C07_writeto_accounts.
Theorem C07_readfrom_accounts b (r : reader) :
  reachable b -> (forall n, length (fst (r n)) <= n) ->
  (v_tlen b = 0 -> v_step (OpReadFrom r) b = Ok (RCount 0 None) b) /\
  (v_tlen b <> 0 ->
     let l := fst (r (v_tlen b)) in
     exists b', (if snd (r (v_tlen b))
       then v_step (OpReadFrom r) b = Ok (RCount 0 (Some EIO)) b' /\ readable b' = readable b /\ v_tlen b' = v_tlen b
       else v_step (OpReadFrom r) b = Ok (RCount (length l) None) b' /\ readable b' = readable b ++ l
            /\ v_tlen b' = v_tlen b - length l) /\ v_hlen b' = v_hlen b /\ length l <= v_tlen b).
Proof. exact (readfrom_accounts b r). Qed.
Print Assumptions C07_readfrom_accounts.
Example C07_example : reachable ex_buf /\ (forall n, length (fst (ex_reader n)) <= n) /\
  (forall l, fst (ex_writer l) <= length l) /\ v_tlen ex_buf <> 0 /\ readable ex_buf <> [] /\
  fst (v_run [OpReadFrom ex_reader; OpWriteTo ex_writer; OpPeek 9] ex_buf) =
  [Some (RCount 2 None); Some (ROffer (Some [1;2;8;9]%Z) 1 None); Some (RBytes [2;8;9]%Z (Some EPeekMore))].
Proof. split; [exact ex_buf_reachable|]. split; [exact ex_reader_ok|]. split; [exact ex_writer_ok|]. by vm_compute. Qed.

(** ** C08 *)
Theorem C08_direct_copies_independent hist h n w w1 ops :
  w = snd (w_run hist w0) ->
  w_step (WSnap (Some h) 2) w = Ok (WHandle (Some n)) w1 ->
  seen w1 n = seen w h /\ seen w1 h = seen w h /\
  (Forall (fun o => ~ uses o n) ops -> seen (snd (w_run ops w1)) n = seen w1 n) /\
  (forall k calls, k <> n -> k < length (bufs w1) ->
     seen (snd (w_run (WOp n <$> calls) w1)) k = seen w1 k).
Proof. exact (direct_copy_independent hist h n w w1 ops). Qed.
Print Assumptions C08_direct_copies_independent.
Definition C08_hist : list wop := [WAlloc 4 1; WOp 0 (OpWrite [5;6]%Z); WSnap (Some 0) 0; WSnap (Some 1) 1].
Definition C08_rest : list wop := [WOp 0 OpReset; WOp 1 (OpWrite [7;7;7]%Z); WSnap (Some 2) 1; WOp 2 (OpRead 1)].
Example C08_example : exists w1,
  w_step (WSnap (Some 2) 2) (snd (w_run C08_hist w0)) = Ok (WHandle (Some 3)) w1 /\
  seen w1 3 = Some (1, [5;6]%Z, 1) /\ Forall (fun o => ~ uses o 3) C08_rest /\
  length (fst (w_run C08_rest w1)) = 4.
Proof. eexists. split; [vm_compute; done|]. split; [vm_compute; done|]. split; [repeat constructor; simpl; lia|vm_compute; done]. Qed.

(** ** C09 *)
Theorem C09_cow_families_independent hist :
  (Z.of_nat (length hist) < 2^31)%Z -> history_ok hist fw0 ->
  exists outs s w, f_run hist fw0 = Some (outs, s) /\ w_run hist w0 = (Some <$> outs, w) /\
    forall h, seen w h = (fun f => (q_head (f_q f), q_data (f_q f), q_tail (f_q f))) <$> (f_bufs s !! h).
Proof. exact (cow_family hist). Qed.
Print Assumptions C09_cow_families_independent.
Theorem C09_writes_not_observed hist ops h :
  (Z.of_nat (length hist + length ops) < 2^31)%Z -> history_ok (hist ++ ops) fw0 ->
  Forall (fun o => ~ (exists c, o = WOp h c)) ops -> h < length (bufs (snd (w_run hist w0))) ->
  seen (snd (w_run (hist ++ ops) w0)) h = seen (snd (w_run hist w0)) h.
Proof. exact (cow_isolation hist ops h). Qed.
Print Assumptions C09_writes_not_observed.
Definition C09_hist : list wop :=
  [WAlloc 6 2; WOp 0 (OpWrite [5;6]%Z); WSnap (Some 0) 1; WSnap (Some 1) 1; WOp 1 (OpWriteByte 7%Z);
   WOp 1 (OpHeadByte 9%Z); WSnap (Some 1) 2; WOp 0 (OpRead 1); WOp 2 OpReset; WOp 2 (OpWrite [1]%Z)].
Example C09_example : history_ok C09_hist fw0 /\
  (fun h => seen (snd (w_run C09_hist w0)) h) <$> [0;1;2;3] =
  [Some (3, [6]%Z, 2); Some (1, [9;5;6;7]%Z, 1); Some (2, [1]%Z, 3); Some (1, [9;5;6;7]%Z, 1)].
Proof.
  split; [|by vm_compute].
  check_history.
Qed.

(** ** C10: refuted, whatever the history *)
Theorem C10_head_write_on_shared_refuted hist h o outs s :
  (Z.of_nat (length hist) < 2^31)%Z -> history_ok hist fw0 -> f_run hist fw0 = Some (outs, s) ->
  shared s h = true -> is_headwrite o = true -> (forall p, o = OpHeadBytes p -> p <> []) ->
  (forall f, f_bufs s !! h = Some f -> writes o (f_q f) = true) ->
  exists w', w_step (WOp h o) (snd (w_run hist w0)) = Panic w'.
Proof. exact (head_write_shared hist h o outs s). Qed.
Print Assumptions C10_head_write_on_shared_refuted.
Definition C10_hist : list wop := [WAlloc 6 2; WOp 0 (OpWrite [5;6]%Z); WSnap (Some 0) 1].
Example C10_refuted_witness : history_ok C10_hist fw0 /\
  (exists outs s, f_run C10_hist fw0 = Some (outs, s) /\ shared s 0 = true) /\
  (exists w', w_step (WOp 0 (OpHeadByte 9%Z)) (snd (w_run C10_hist w0)) = Panic w') /\
  (* an empty head write does not panic but wipes the readable data *)
  (exists w', w_step (WOp 0 (OpHeadBytes [])) (snd (w_run C10_hist w0)) = Ok (WOut (RErr None)) w' /\
     seen w' 0 = Some (2, [0;0]%Z, 2)).
Proof.
  split; [check_history|].
  split; [eexists _, _; split; [reflexivity|vm_compute; reflexivity]|].
  split; [eexists; vm_compute; reflexivity|].
  eexists. split; [vm_compute; reflexivity|vm_compute; reflexivity].
Qed.

(** ** C11 *)
Theorem C11_reference_snapshots_partial hist h n w w1 ops :
  w = snd (w_run hist w0) -> w_step (WSnap (Some h) 0) w = Ok (WHandle (Some n)) w1 ->
  seen w1 n = seen w h /\ seen w1 h = seen w h /\
  (unmarked w h -> Forall (fun o => ~ cow_of o h /\ ~ cow_of o n) ops ->
   let w2 := snd (w_run ops w1) in
   storage w2 h = storage w2 n /\
   (Forall (fun o => ~ uses o h) ops -> cursors w2 h = cursors w1 h) /\
   (Forall (fun o => ~ uses o n) ops -> cursors w2 n = cursors w1 n)).
Proof. exact (reference_snapshot hist h n w w1 ops). Qed.
Print Assumptions C11_reference_snapshots_partial.
Definition C11_hist : list wop := [WAlloc 4 1; WOp 0 (OpWrite [5;6]%Z)].
Definition C11_rest : list wop := [WOp 0 OpReset; WOp 0 (OpWrite [7]%Z)].
Example C11_example : exists w1,
  w_step (WSnap (Some 0) 0) (snd (w_run C11_hist w0)) = Ok (WHandle (Some 1)) w1 /\
  unmarked (snd (w_run C11_hist w0)) 0 /\ Forall (fun o => ~ cow_of o 0 /\ ~ cow_of o 1) C11_rest /\
  (* the byte stored through 0 is what 1 reads; 1's cursors did not move *)
  seen (snd (w_run C11_rest w1)) 1 = Some (1, [7;6]%Z, 1).
Proof.
  eexists. split; [vm_compute; done|]. split; [intros b Hb; vm_compute in Hb; by injection Hb as <-|].
  split; [repeat constructor; by intros [=]|vm_compute; done].
Qed.
(** Refuted as soon as the buffer also has a copy-on-write snapshot: in every
    state reached by any calls, for every buffer with room, the write moves the
    writer to a copy and the reference snapshot keeps the old bytes. *)
Theorem C11_reference_beside_cow_refuted hist w h res rd wr st x :
  (Z.of_nat (length hist) + 2 < 2^31)%Z -> w = snd (w_run hist w0) ->
  cursors w h = Some (res, rd, wr) -> storage w h = Some st -> res < scap st ->
  let m := length (bufs w) in let n := S m in
  exists w1 w2 w3,
    w_step (WSnap (Some h) 1) w = Ok (WHandle (Some m)) w1 /\
    w_step (WSnap (Some h) 0) w1 = Ok (WHandle (Some n)) w2 /\
    w_run [WOp h OpReset; WOp h (OpWriteByte x)] w2 = ([Some (WOut RUnit); Some (WOut (RErr None))], w3) /\
    seen w3 h = Some (res, [x], scap st - (res + 1)) /\ storage w3 n = Some st /\ seen w3 n = seen w h.
Proof. exact (reference_beside_cow hist w h res rd wr st x). Qed.
Print Assumptions C11_reference_beside_cow_refuted.
Example C11_refuted_example : let w := snd (w_run C11_hist w0) in
  cursors w 0 = Some (1, 1, 3) /\ storage w 0 = Some (Store [0;5;6;0]%Z 4).
Proof. by vm_compute. Qed.

(** ** C12: refuted *)
(** Whatever happened before: a buffer gets a reference snapshot and a
    copy-on-write snapshot; a byte written through the former replaces a byte of
    the latter. *)
Theorem C12_cow_beside_reference_refuted w h res rd wr st hl data tl x :
  cursors w h = Some (res, rd, wr) -> storage w h = Some st -> seen w h = Some (hl, data, tl) ->
  rd <= res -> res < wr -> res < blen st -> blen st <= scap st ->
  let n := length (bufs w) in let m := S n in
  exists w1 w2 w3,
    w_step (WSnap (Some h) 0) w = Ok (WHandle (Some n)) w1 /\
    w_step (WSnap (Some h) 1) w1 = Ok (WHandle (Some m)) w2 /\
    seen w2 m = Some (hl, data, tl) /\
    w_run [WOp n OpReset; WOp n (OpWriteByte x)] w2 = ([Some (WOut RUnit); Some (WOut (RErr None))], w3) /\
    seen w3 m = Some (hl, <[res - rd := x]> data, tl).
Proof. exact (cow_beside_reference w h res rd wr st hl data tl x). Qed.
Print Assumptions C12_cow_beside_reference_refuted.
Example C12_refuted_example : let w := snd (w_run C11_hist w0) in
  cursors w 0 = Some (1, 1, 3) /\ storage w 0 = Some (Store [0;5;6;0]%Z 4) /\ seen w 0 = Some (1, [5;6]%Z, 1).
Proof. by vm_compute. Qed.

(** Refuted even if nothing is ever written through a handle that shares the
    bytes without a mark: after a copy-on-write snapshot of a Reference snapshot
    the count is one too low.  Handles: [h], its Reference snapshot [r], the
    copy-on-write snapshots [c] of [h] and [d] of [r].  Once [r] and [d] have
    moved to their copies, a byte written through [c] is seen through [h]. *)
Theorem C12_cow_of_reference_refuted w cap res q0 q y x :
  (0 <= res)%Z -> (res + Z.of_nat (S (length q)) <= cap)%Z ->
  let h := length (bufs w) in let r := h + 1 in let c := h + 2 in let d := h + 3 in
  let tl := Z.to_nat cap - (Z.to_nat res + S (length q)) in
  exists w1 w2,
    w_run [WAlloc cap res; WOp h (OpWrite (q0 :: q)); WSnap (Some h) 0; WSnap (Some h) 1; WSnap (Some r) 1;
           WOp r OpReset; WOp r (OpWriteByte y); WOp d OpReset; WOp d (OpWriteByte y)] w =
      ([Some (WHandle (Some h)); Some (WOut (RCount (S (length q)) None)); Some (WHandle (Some r));
        Some (WHandle (Some c)); Some (WHandle (Some d)); Some (WOut RUnit); Some (WOut (RErr None));
        Some (WOut RUnit); Some (WOut (RErr None))], w1) /\
    seen w1 h = Some (Z.to_nat res, q0 :: q, tl) /\
    w_run [WOp c OpReset; WOp c (OpWriteByte x)] w1 = ([Some (WOut RUnit); Some (WOut (RErr None))], w2) /\
    seen w2 h = Some (Z.to_nat res, x :: q, tl).
Proof. exact (cow_of_reference w cap res q0 q y x). Qed.
Print Assumptions C12_cow_of_reference_refuted.
(** Holds for all histories with all kinds of snapshots in which no
    copy-on-write snapshot is made of a Reference snapshot: calls on other
    handles leave what any handle other than the Reference snapshots sees as it
    is, unless a Reference snapshot is written to. *)
Theorem C12_mixed_partial hist ops h : let all := hist ++ ops in
  (Z.of_nat (length all) < 2^31 - 2)%Z ->
  (forall r, r ∈ refs all w0 -> WSnap (Some r) 1 ∉ all) -> h ∉ refs all w0 ->
  h < length (bufs (snd (w_run hist w0))) ->
  (forall k c, WOp k c ∈ ops -> k <> h /\ (writing c = true -> k ∉ refs all w0)) ->
  seen (snd (w_run all w0)) h = seen (snd (w_run hist w0)) h.
Proof. exact (mixed_isolation hist ops h). Qed.
Print Assumptions C12_mixed_partial.
(** 0 is a buffer, 1 a Reference snapshot of it, through which a byte is
    written, 2 and 3 copy-on-write snapshots.  Then 0 and 3 are written to, and
    1, a Reference snapshot of which is 4, is read. *)
Definition C12_hist : list wop :=
  [WAlloc 4 1; WOp 0 (OpWrite [5;6]%Z); WSnap (Some 0) 0; WOp 1 OpReset; WOp 1 (OpWriteByte 8%Z); WSnap (Some 0) 1; WSnap (Some 2) 1].
Definition C12_ops : list wop :=
  [WOp 0 OpReset; WOp 0 (OpWriteByte 1%Z); WSnap (Some 1) 0; WOp 3 (OpWriteByte 2%Z); WOp 4 OpReadByte; WOp 1 OpReadByte].
Example C12_mixed_example : let all := C12_hist ++ C12_ops in
  refs all w0 = [1; 4] /\ (forall r, r ∈ refs all w0 -> WSnap (Some r) 1 ∉ all) /\ 2 ∉ refs all w0 /\
  2 < length (bufs (snd (w_run C12_hist w0))) /\
  (forall k c, WOp k c ∈ C12_ops -> k <> 2 /\ (writing c = true -> k ∉ refs all w0)) /\
  (fun h => seen (snd (w_run all w0)) h) <$> [0;2;3] = [Some (1, [1]%Z, 2); Some (1, [8;6]%Z, 1); Some (1, [8;6;2]%Z, 0)].
Proof.
  cbv zeta. assert (E : refs (C12_hist ++ C12_ops) w0 = [1; 4]) by (by vm_compute). rewrite E. clear E.
  split; [done|]. split; [|split; [|split; [|split]]].
  - intros r Hr. rewrite !elem_of_cons, elem_of_nil in Hr. unfold C12_hist, C12_ops. cbn [app].
    rewrite !elem_of_cons, elem_of_nil. destruct Hr as [->|[->|[]]]; intuition discriminate.
  - rewrite !elem_of_cons, elem_of_nil. lia.
  - vm_compute. lia.
  - intros k c Hin. unfold C12_ops in Hin. rewrite !elem_of_cons, elem_of_nil in Hin.
    destruct Hin as [[= -> ->]|[[= -> ->]|[?|[[= -> ->]|[[= -> ->]|[[= -> ->]|[]]]]]]]; try done; (split; [lia|]); try done; intros _; rewrite !elem_of_cons, elem_of_nil; lia.
  - by vm_compute.
Qed.

(** ** C13 *)
Theorem C13_nil_exactly data r :
  v_from data r = None <-> data = None \/ exists s, data = Some s /\
     (scap s = 0 \/ (r < 0)%Z \/ (Z.of_nat (scap s) < r)%Z).
Proof. exact (from_nil data r). Qed.
Print Assumptions C13_nil_exactly.
Theorem C13_uses_callers_storage s r b : v_from (Some s) r = Some b ->
  v_st b = s /\ v_cap b = scap s /\ v_hlen b = Z.to_nat r /\ readable b = [] /\ v_tlen b = scap s - Z.to_nat r.
Proof. exact (from_storage s r b). Qed.
Print Assumptions C13_uses_callers_storage.
Theorem C13_full_slice_partial s r b ops : v_from (Some s) r = Some b -> blen s = scap s -> Forall op_ok ops ->
  exists b', let '(outs, q) := q_run ops (q_new (scap s) (Z.to_nat r)) in
    v_run ops b = (Some <$> outs, b') /\ v_hlen b' = q_head q /\ readable b' = q_data q /\ v_tlen b' = q_tail q.
Proof. exact (from_full_refines s r b ops). Qed.
Print Assumptions C13_full_slice_partial.
(** Refuted for every slice with spare capacity. *)
Theorem C13_spare_capacity_panics_refuted s r b c :
  v_from (Some s) r = Some b -> blen s <= v_hlen b -> v_hlen b < scap s ->
  exists b', v_step (OpWriteByte c) b = Panic b'.
Proof. exact (from_short_panics s r b c). Qed.
Print Assumptions C13_spare_capacity_panics_refuted.
Theorem C13_spare_capacity_short_write_refuted s r b p :
  v_from (Some s) r = Some b -> v_hlen b <= blen s -> blen s < scap s -> length p = v_tlen b ->
  exists b', v_step (OpWrite p) b = Ok (RCount (blen s - v_hlen b) (Some EPartial)) b'.
Proof. exact (from_short_write s r b p). Qed.
Print Assumptions C13_spare_capacity_short_write_refuted.
Example C13_example :
  v_from (Some (Store [1;2;3;4]%Z 4)) 1 = Some (VB 1 1 1 (Store [1;2;3;4]%Z 4)) /\
  v_from (Some (Store [1;2;3;4]%Z 2)) 2 = Some (VB 2 2 2 (Store [1;2;3;4]%Z 2)) /\
  (exists b', v_step (OpWriteByte 9%Z) (VB 2 2 2 (Store [1;2;3;4]%Z 2)) = Panic b').
Proof. split; [done|]. split; [done|]. by eexists. Qed.
Example C13_example_short : exists b', v_from (Some (Store [1;2;3;4]%Z 2)) 1 = Some (VB 1 1 1 (Store [1;2;3;4]%Z 2)) /\ v_tlen (VB 1 1 1 (Store [1;2;3;4]%Z 2)) = 3 /\
  v_step (OpWrite [7;8;9]%Z) (VB 1 1 1 (Store [1;2;3;4]%Z 2)) = Ok (RCount 1 (Some EPartial)) b'.
Proof. eexists. split_and!; vm_compute; reflexivity. Qed.

(** ** C14 *)
Theorem C14_readfull_partial b n :
  reachable b -> 0 < v_rlen b ->
  exists b', v_readfull 1 n [] b = Some (Ok (take n (readable b), negb (n <=? v_rlen b)) b') /\
             readable b' = drop n (readable b).
Proof. exact (readfull_terminates b n). Qed.
Print Assumptions C14_readfull_partial.
Theorem C14_readfull_empty_refuted b n fuel :
  reachable b -> v_rlen b = 0 -> 0 < n -> v_readfull fuel n [] b = None.
Proof. exact (readfull_spins b n fuel). Qed.
Print Assumptions C14_readfull_empty_refuted.
Example C14_example : reachable ex_buf /\ 0 < v_rlen ex_buf /\
  v_readfull 1 3 [] ex_buf = Some (Ok ([1;2]%Z, true) (VB 3 5 5 (v_st ex_buf))) /\
  reachable (VB 3 3 3 (make_store 8)).
Proof.
  split; [exact ex_buf_reachable|]. split; [vm_compute; lia|]. split; [by vm_compute|].
  exists 8%Z, 3%Z, (VB 3 3 3 (make_store 8)), []. split; [lia|]. split; [done|]. by split.
Qed.

(** ** C15 *)
Theorem C15_copies_only_when_shared hist :
  (Z.of_nat (length hist) + 1 < 2^31)%Z ->
  let w := snd (w_run hist w0) in
  copies w <= cow_snaps hist /\ length (cells w) <= made hist + cow_snaps hist /\
  (forall o, copies (state_of (w_step o w)) <> copies w -> exists h c, o = WOp h c /\ sharing w h) /\
  (forall h c, length (cells (state_of (w_step (WOp h c) w))) <> length (cells w) -> sharing w h).
Proof. exact (copies_bounded hist). Qed.
Print Assumptions C15_copies_only_when_shared.
Example C15_example : let w := snd (w_run C09_hist w0) in
  copies w = 2 /\ cow_snaps C09_hist = 2 /\ made C09_hist = 2 /\ length (cells w) = 4.
Proof. by vm_compute. Qed.
