(** * Model of copy-on-write buffers used by several goroutines (ubuf.go)

    Every buffer is used by one goroutine; copy-on-write snapshots of one buffer
    may be handed to different goroutines and then share storage and its
    reference count.  A buffer and its goroutine have the same number.
    Accesses to shared memory are sequentially consistent. *)
From Verif Require Export GoBase.

(** uBufData (ubuf.go:51-54): the int32 reference count and the bytes. *)
Record ccell := Ccell { c_ref : Z; c_bytes : list byte }.

(** A write: of bytes at the tail (Write, WriteByte, WriteU.., ReadFrom,
    ubuf.go:312-347, 365-431, 467-482) or at the head (WriteHead.., 566-642). *)
Inductive side := Tail | Head.

(** Where the goroutine of a buffer is. *)
Inductive cpc :=
| PIdle                                        (* between calls *)
| PLoad (w : side) (l : list byte)             (* flag cleared (168), about to load the count (172) *)
| PDec (w : side) (l : list byte)              (* the count was not 1, about to decrement it (179) *)
| PCopy (l : list byte) (new : list byte) (k : nat)  (* copying (188), [k] bytes done *)
| PWrite (w : side) (l : list byte).           (* about to store the bytes *)

(** UBuf (ubuf.go:57-63); [b_loc] is the number of the storage [data] points to. *)
Record cbuf := Cbuf {
  b_res : nat; b_rd : nat; b_wr : nat; b_loc : nat; b_cow : bool; b_pc : cpc }.
Record cst := Cst {
  cc_cells : list ccell;
  cc_bufs : list cbuf;
  cc_panic : bool }.                           (* a goroutine has panicked: the program is gone *)
Definition cow_new : cst := Cst [] [] false.

Definition at_pc (b : cbuf) (p : cpc) : cbuf := Cbuf (b_res b) (b_rd b) (b_wr b) (b_loc b) (b_cow b) p.

Inductive clab :=
| CAlloc (capacity res : nat)                  (* UBufAllocWithHeadReserved, 68-83 *)
| CSnap (h : nat)                              (* UBufMakeSnapshot, copy-on-write, 121-143 *)
| CLook (h i : nat) (x : byte)                 (* a reading call (221-310, 349-363, 434-465, 485-563) looks at the [i]th readable byte *)
| CSkip (h n : nat)                            (* a reading call moves on by [n] bytes *)
| CReset (h : nat)                             (* Reset, 195-198 *)
| CBegin (h : nat) (w : side) (l : list byte)  (* a writing call that finds room for [l] begins *)
| CLoad (h : nat)                              (* 172 *)
| CDec (h : nat)                               (* 179 *)
| CCopy (h : nat)                              (* one byte of 188 *)
| CSwap (h : nat)                              (* 191 *)
| CPut (h : nat) (x : byte)                    (* one byte stored at the tail *)
| CHead (h : nat) (l : list byte).             (* the bytes stored at the head, in one step *)

Inductive cstep : cst -> clab -> cst -> Prop :=
| ck_alloc cs bs n r : 0 < n -> r <= n ->
    cstep (Cst cs bs false) (CAlloc n r)
          (Cst (cs ++ [Ccell 1 (replicate n 0%Z)]) (bs ++ [Cbuf r r r (length cs) false PIdle]) false)
(* the fields are copied (126-132), the count is incremented (140) and both flags are set (141-142);
   only the count is shared with other goroutines *)
| ck_snap cs bs h b c : bs !! h = Some b -> b_pc b = PIdle -> cs !! b_loc b = Some c ->
    cstep (Cst cs bs false) (CSnap h)
          (Cst (<[b_loc b := Ccell (wrap32 (c_ref c + 1)) (c_bytes c)]> cs)
               (<[h := Cbuf (b_res b) (b_rd b) (b_wr b) (b_loc b) true PIdle]> bs
                ++ [Cbuf (b_res b) (b_rd b) (b_wr b) (b_loc b) true PIdle]) false)
| ck_look cs bs h b c i x : bs !! h = Some b -> b_pc b = PIdle -> cs !! b_loc b = Some c ->
    b_rd b + i < b_wr b -> c_bytes c !! (b_rd b + i) = Some x ->
    cstep (Cst cs bs false) (CLook h i x) (Cst cs bs false)
| ck_skip cs bs h b n : bs !! h = Some b -> b_pc b = PIdle -> b_rd b + n <= b_wr b ->
    cstep (Cst cs bs false) (CSkip h n)
          (Cst cs (<[h := Cbuf (b_res b) (b_rd b + n) (b_wr b) (b_loc b) (b_cow b) PIdle]> bs) false)
| ck_reset cs bs h b : bs !! h = Some b -> b_pc b = PIdle ->
    cstep (Cst cs bs false) (CReset h)
          (Cst cs (<[h := Cbuf (b_res b) (b_res b) (b_res b) (b_loc b) (b_cow b) PIdle]> bs) false)
(* room was found (313, 327, 468, 567); resolveCopyOnWriteIfNeed (called in 317, 332, 472) tests and
   clears the flag (163-168) *)
| ck_begin cs bs h b c w l : bs !! h = Some b -> b_pc b = PIdle -> cs !! b_loc b = Some c -> l <> [] ->
    match w with Tail => b_wr b + length l <= length (c_bytes c) | Head => length l <= b_rd b end ->
    cstep (Cst cs bs false) (CBegin h w l)
          (Cst cs (<[h := Cbuf (b_res b) (b_rd b) (b_wr b) (b_loc b) false
                               (if b_cow b then PLoad w l else PWrite w l)]> bs) false)
| ck_load cs bs h b c w l : bs !! h = Some b -> b_pc b = PLoad w l -> cs !! b_loc b = Some c ->
    cstep (Cst cs bs false) (CLoad h)
          (Cst cs (<[h := at_pc b (if decide (c_ref c = 1%Z) then PWrite w l else PDec w l)]> bs) false)
(* a head write has moved the writer index before the reader index (576): the slice expression of the
   copy (188) then panics *)
| ck_dec cs bs h b c w l : bs !! h = Some b -> b_pc b = PDec w l -> cs !! b_loc b = Some c ->
    cstep (Cst cs bs false) (CDec h)
          (Cst (<[b_loc b := Ccell (wrap32 (c_ref c - 1)) (c_bytes c)]> cs)
               (<[h := at_pc b (PCopy l (replicate (length (c_bytes c)) 0%Z) 0)]> bs)
               (match w with Tail => false | Head => true end))
| ck_copy cs bs h b c l new k x : bs !! h = Some b -> b_pc b = PCopy l new k -> cs !! b_loc b = Some c ->
    b_rd b + k < b_wr b -> c_bytes c !! (b_rd b + k) = Some x ->
    cstep (Cst cs bs false) (CCopy h)
          (Cst cs (<[h := at_pc b (PCopy l (<[b_rd b + k := x]> new) (S k))]> bs) false)
| ck_swap cs bs h b l new k : bs !! h = Some b -> b_pc b = PCopy l new k -> b_rd b + k = b_wr b ->
    cstep (Cst cs bs false) (CSwap h)
          (Cst (cs ++ [Ccell 1 new])
               (<[h := Cbuf (b_res b) (b_rd b) (b_wr b) (length cs) (b_cow b) (PWrite Tail l)]> bs) false)
| ck_put cs bs h b c x l : bs !! h = Some b -> b_pc b = PWrite Tail (x :: l) -> cs !! b_loc b = Some c ->
    cstep (Cst cs bs false) (CPut h x)
          (Cst (<[b_loc b := Ccell (c_ref c) (<[b_wr b := x]> (c_bytes c))]> cs)
               (<[h := Cbuf (b_res b) (b_rd b) (S (b_wr b)) (b_loc b) (b_cow b)
                            (match l with [] => PIdle | _ => PWrite Tail l end)]> bs) false)
| ck_head cs bs h b c l : bs !! h = Some b -> b_pc b = PWrite Head l -> cs !! b_loc b = Some c ->
    cstep (Cst cs bs false) (CHead h l)
          (Cst (<[b_loc b := Ccell (c_ref c) (splice (c_bytes c) (b_rd b - length l) l)]> cs)
               (<[h := Cbuf (b_res b) (b_rd b - length l) (b_wr b) (b_loc b) (b_cow b) PIdle]> bs) false).
