(** * Model of a frame decoder that receives from several connections at once (proc_frame_decoder.go)

    Every connection has a goroutine of its own that calls OnLowerData for one
    chunk after the other (proc_lowerdeck.go:61-86); they all work on the cache
    of the one decoder, without a lock.  Every access to the cache's
    readerIndex and writerIndex is a step of its own; a copy into or out of the
    cache's bytes is one step.  The goroutine's own buffers are not shared, so
    what it does with them is part of the step that follows or precedes
    ([cur_look]).  Memory accesses are sequentially consistent.  The cache's
    reserved space, its copyOnWrite flag and its storage pointer never change
    (UBufAlloc, no snapshots), so [resolveCopyOnWriteIfNeed] does nothing.  A
    call to the upper processor is one step; a panic ends the program. *)
From Verif Require Export GoBase UBufModel FrameModel.
From stdpp Require Export functions.

(** proc_frame_decoder.go:66-117, one iteration of the loop of
    handleCurrentData, up to the first access to the cache. *)
Inductive look :=
| LookStore                       (* frm.cache.ReadFrom(ub), 69 or 84 *)
| LookReset                       (* frm.cache.Reset(), 76 or 109 *)
| LookLast (b : vbuf)             (* hand up [b] and return, 93-95 *)
| LookNew (nb ub' : vbuf)         (* hand up [nb] and go on with [ub'], 113-116 *)
| LookPanic.
Definition cur_look (ub : vbuf) : look :=
  if v_rlen ub <? 4 then LookStore
  else
    match v_peekU BE W32 ub with
    | Panic _ => LookPanic
    | Ok (_, Some _) _ => LookReset
    | Ok (expected, None) _ =>
        let actual := (Z.of_nat (v_rlen ub) mod 2^32)%Z in
        if (expected >? actual)%Z then LookStore
        else if (expected =? actual)%Z then
          match v_readU BE W32 ub with
          | Ok _ ub' => LookLast ub'
          | Panic _ => LookPanic
          end
        else
          match fd_cut expected ub with
          | None => LookPanic
          | Some (None, _) => LookReset
          | Some (Some nb, ub') => LookNew nb ub'
          end
    end.

(** What a Read from the cache is for. *)
Inductive want :=
| WHead (e : Z)                   (* frm.cache.ReadU32BE(), 152: 4 bytes, ignored *)
| WBody (e : Z).                  (* io.CopyN(newUbuf, frm.cache, e), 155: [e] bytes *)
Definition want_len (w : want) : nat := match w with WHead _ => 4 | WBody e => Z.to_nat e end.

(** Where a goroutine is; before ... *)
Inductive jpc :=
| JIdle                           (* waiting for the connection *)
| JTest (ub : vbuf)               (* reading writerIndex, 59 *)
| JTest2 (ub : vbuf) (w : nat)    (* reading readerIndex, 59 *)
| JLoop (ub : vbuf)               (* an iteration of the loop, 66 *)
(* cache.ReadFrom(ub): ubuf.go:467-482 *)
| JRoom (ub : vbuf)               (* TailWritableLength, 468 *)
| JSlice (ub : vbuf)              (* reading writerIndex for the slice, 474 *)
| JCopy (ub : vbuf) (w : nat)     (* copying, ubuf.go:456 *)
| JAdd (n : nat)                  (* reading writerIndex, 479 *)
| JAdd2 (w : nat)                 (* writing writerIndex, 479 *)
(* cache.Reset: ubuf.go:195-198 *)
| JReset (fin : bool)             (* writing readerIndex; [fin]: in handleCachedData *)
| JReset2 (fin : bool)            (* writing writerIndex *)
(* handleCachedData *)
| JCached                         (* reading writerIndex, 124 *)
| JCached2 (w : nat)              (* reading readerIndex, 124 *)
| JPeek (n : Z)                   (* reading writerIndex, ubuf.go:273 *)
| JPeek2 (n : Z) (w : nat)        (* reading readerIndex, ubuf.go:273 *)
| JPeek3 (n : Z)                  (* reading readerIndex and the bytes, ubuf.go:276 *)
| JHead (e : Z)                   (* reading writerIndex, ubuf.go:512 *)
| JHead2 (e : Z) (w : nat)        (* reading readerIndex, ubuf.go:512 *)
(* cache.Read: ubuf.go:446-464 *)
| JRead (x : want)                (* reading writerIndex, 447 *)
| JRead2 (x : want) (w : nat)     (* reading readerIndex, 447 *)
| JTake (x : want) (n : nat)      (* reading readerIndex and copying, 456 *)
| JTaken (x : want) (l : list byte)  (* reading readerIndex, 457 *)
| JTaken2 (x : want) (l : list byte) (r : nat).  (* writing readerIndex, 457 *)

(** The cache (its capacity is [length c_bytes]), the goroutines, what has been
    handed up on which connection, and whether there was a panic. *)
Record jcache := Jcache { c_rd : nat; c_wr : nat; c_bytes : list byte }.
Record jst := Jst {
  j_cache : jcache;
  j_at : nat -> jpc;
  j_up : list (nat * list byte);
  j_crashed : bool }.
(** proc_frame_decoder.go:193-205 *)
Definition new_decoder (k : nat) : jst := Jst (Jcache 0 0 (replicate k 0%Z)) (fun _ => JIdle) [] false.

(** One step of a goroutine: the cache, where it is next, what it hands up;
    [None] is a panic. *)
Definition jres : Type := option (jcache * jpc * option (list byte)).
Definition overwrite (w : nat) (l b : list byte) : list byte := take w b ++ l ++ drop (w + length l) b.
Definition jmove (c : jcache) (p : jpc) : jres :=
  let k := length (c_bytes c) in
  match p with
  | JIdle => Some (c, JIdle, None)
  | JTest ub => Some (c, JTest2 ub (c_wr c), None)
  | JTest2 ub w => Some (c, if c_rd c <? w then JRoom ub else JLoop ub, None)
  | JLoop ub =>
      match cur_look ub with
      | LookStore => Some (c, JRoom ub, None)
      | LookReset => Some (c, JReset false, None)
      | LookLast b => Some (c, JCached, Some (readable b))
      | LookNew nb ub' => Some (c, JLoop ub', Some (readable nb))
      | LookPanic => None
      end
  | JRoom ub => Some (c, if k <=? c_wr c then JCached else JSlice ub, None)
  | JSlice ub => if k <? c_wr c then None else Some (c, JCopy ub (c_wr c), None)
  | JCopy ub w =>
      match v_read (k - w) ub with
      | Panic _ => None
      | Ok (l, e) _ =>
          Some (Jcache (c_rd c) (c_wr c) (overwrite w l (c_bytes c)),
                match e with Some _ => JCached | None => JAdd (length l) end, None)
      end
  | JAdd n => Some (c, JAdd2 (c_wr c + n), None)
  | JAdd2 w => Some (Jcache (c_rd c) w (c_bytes c), JCached, None)
  | JReset fin => Some (Jcache 0 (c_wr c) (c_bytes c), JReset2 fin, None)
  | JReset2 fin => Some (Jcache (c_rd c) 0 (c_bytes c), if fin then JIdle else JCached, None)
  | JCached => Some (c, JCached2 (c_wr c), None)
  | JCached2 w =>
      let n := (Z.of_nat w - Z.of_nat (c_rd c))%Z in
      Some (c, if (n =? 0)%Z then JReset true else if (n <? 4)%Z then JIdle else JPeek n, None)
  | JPeek n => Some (c, JPeek2 n (c_wr c), None)
  | JPeek2 n w => Some (c, if (Z.of_nat w - Z.of_nat (c_rd c) <? 4)%Z then JReset true else JPeek3 n, None)
  | JPeek3 n =>
      if k <? c_rd c + 4 then None
      else
        let e := dec BE (take 4 (drop (c_rd c) (c_bytes c))) in
        if (n <? e)%Z then Some (c, JIdle, None)
        else if (e <=? 0)%Z then None                   (* UBufAlloc, 149 *)
        else Some (c, JHead e, None)
  | JHead e => Some (c, JHead2 e (c_wr c), None)
  | JHead2 e w =>
      Some (c, if (Z.of_nat w - Z.of_nat (c_rd c) <? 4)%Z then JRead (WBody e) else JRead (WHead e), None)
  | JRead x => Some (c, JRead2 x (c_wr c), None)
  | JRead2 x w =>
      let n := (Z.of_nat w - Z.of_nat (c_rd c))%Z in
      if (n <=? 0)%Z then
        Some (c, match x with
                 | WHead _ => JRead x                   (* io.ReadFull reads again *)
                 | WBody _ => JReset true               (* io.CopyN: io.EOF, 156 *)
                 end, None)
      else Some (c, JTake x (Nat.min (Z.to_nat n) (want_len x)), None)
  | JTake x n =>
      if k <? c_rd c then None
      else Some (c, JTaken x (take n (drop (c_rd c) (c_bytes c))), None)
  | JTaken x l => Some (c, JTaken2 x l (c_rd c + length l), None)
  | JTaken2 x l r =>
      let c' := Jcache r (c_wr c) (c_bytes c) in
      match x with
      | WHead e => Some (c', JRead (WBody e), None)
      | WBody e =>
          if length l <? want_len x then Some (c', JReset true, None)
          else Some (c', JCached, Some l)
      end
  end.

Inductive jlab := JArrive (g : nat) (ch : list byte) | JMove (g : nat).
Definition handed_up (g : nat) (o : option (list byte)) : list (nat * list byte) :=
  match o with Some l => [(g, l)] | None => [] end.
Inductive jstep (mtu : nat) : jst -> jlab -> jst -> Prop :=
(** proc_lowerdeck.go:73-84, proc_frame_decoder.go:170-186 *)
| jk_arrive c at_ up g ch : at_ g = JIdle -> ch <> [] -> length ch <= mtu ->
    jstep mtu (Jst c at_ up false) (JArrive g ch) (Jst c (<[g := JTest (rx_chunk mtu ch)]> at_) up false)
| jk_move c at_ up g c' p o : at_ g <> JIdle -> jmove c (at_ g) = Some (c', p, o) ->
    jstep mtu (Jst c at_ up false) (JMove g) (Jst c' (<[g := p]> at_) (up ++ handed_up g o) false)
| jk_panic c at_ up g : jmove c (at_ g) = None ->
    jstep mtu (Jst c at_ up false) (JMove g) (Jst c at_ up true).
