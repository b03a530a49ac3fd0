(** * Model of ubuf.go

    Two layers, both transcribed from ubuf.go:
    - [vbuf]: one buffer that owns its storage (a UBuf whose [copyOnWrite] flag
      is false and whose storage nobody else uses);
    - [world]: a heap of storage cells (uBufData) with reference counts and any
      number of UBuf handles, as created by UBufMakeSnapshot.
    The bodies that touch bytes are written once, on [vbuf], and used by both.

    Simplifications: Go [int] indices are [nat] (every subtraction in ubuf.go
    that could go negative is either guarded or only compared with a positive
    bound, noted where it matters); capacities stay far below 2^63 so index
    arithmetic does not overflow; error values are an enumeration instead of
    strings; the debug print in resolveCopyOnWriteIfNeed (ubuf.go:187) is not
    modelled. *)
From Verif Require Import GoBase.

(** The error values created in ubuf.go. *)
Inductive uerr :=
| EPeek        (* ubuf.go:224,243,... "UBuf is not enough value to peek" *)
| EPeekMore    (* ubuf.go:234 "UBuf has not more data to peek" *)
| EFull        (* ubuf.go:314,329 "UBuf is full" *)
| EPartial     (* ubuf.go:342 "UBuf is wrote partial data" *)
| ENoFree      (* ubuf.go:382.. "UBuf: no more free data space" *)
| EEmpty       (* ubuf.go:436 "UBuf is empty" *)
| ENoMoreRead  (* ubuf.go:460 "UBuf has not more data to read" *)
| ENoData      (* ubuf.go:502.. "UBuf: no more data" *)
| EHead        (* ubuf.go:568 "UBuf Head room is not enouth" *)
| EIO.         (* an error returned by the caller's io.Reader / io.Writer *)

(** ** A buffer that owns its storage *)

(** ubuf.go:57-63 (type UBuf), without [copyOnWrite] and with the storage
    (ubuf.go:51-54) inlined. *)
Record vbuf := VB { v_res : nat; v_rd : nat; v_wr : nat; v_st : store }.

Definition set_rd (b : vbuf) (i : nat) : vbuf := VB (v_res b) i (v_wr b) (v_st b).
Definition set_wr (b : vbuf) (i : nat) : vbuf := VB (v_res b) (v_rd b) i (v_st b).
Definition set_st (b : vbuf) (s : store) : vbuf := VB (v_res b) (v_rd b) (v_wr b) s.

(** ubuf.go:201-203 Capacity *)
Definition v_cap (b : vbuf) : nat := scap (v_st b).
(** ubuf.go:206-208 ReadableLength ([nat]: a negative value is shown as 0; the
    code only compares it with [<= 0], [< 1], [< 2], [< 4], [< 8]). *)
Definition v_rlen (b : vbuf) : nat := v_wr b - v_rd b.
(** ubuf.go:211-213 HeadWritableLength *)
Definition v_hlen (b : vbuf) : nat := v_rd b.
(** ubuf.go:216-218 TailWritableLength (same remark as ReadableLength) *)
Definition v_tlen (b : vbuf) : nat := v_cap b - v_wr b.

(** ubuf.go:68-83 UBufAllocWithHeadReserved; [None] is log.Panicf. *)
Definition v_alloc (capacity reserved : Z) : option vbuf :=
  if ((capacity <=? 0) || (reserved <? 0) || (reserved >? capacity))%Z then None
  else let r := Z.to_nat reserved in Some (VB r r r (make_store (Z.to_nat capacity))).

(** ubuf.go:92-112 UBufFromWithHeadReserved; the outer [None] argument is a nil
    slice, the result [None] is a nil *UBuf. *)
Definition v_from (data : option store) (reserved : Z) : option vbuf :=
  match data with
  | None => None
  | Some s =>
      if ((Z.of_nat (scap s) <=? 0) || (reserved <? 0) || (reserved >? Z.of_nat (scap s)))%Z
      then None
      else let r := Z.to_nat reserved in Some (VB r r r s)
  end.

(** ubuf.go:195-198 Reset *)
Definition v_reset (b : vbuf) : vbuf := VB (v_res b) (v_res b) (v_res b) (v_st b).

(** ubuf.go:221-238 Peek(p), [n] = len(p).  Returns the bytes copied into the
    front of p (their number is the returned count) and the error. *)
Definition v_peek (b : vbuf) (n : nat) : res vbuf (list byte * option uerr) :=
  if v_rlen b =? 0 then Ok ([], Some EPeek) b
  else
    let toPeek := Nat.min (v_rlen b) n in
    match s_from (v_st b) (v_rd b) with
    | None => Panic b
    | Some src =>
        let l := take toPeek src in
        Ok (l, if length l <? n then Some EPeekMore else None) b
    end.

(** ubuf.go:241-246 PeekByte *)
Definition v_peekbyte (b : vbuf) : res vbuf (Z * option uerr) :=
  if v_rlen b <? 1 then Ok (0%Z, Some EPeek) b
  else match s_get (v_st b) (v_rd b) with
       | None => Panic b
       | Some x => Ok (x, None) b
       end.

(** ubuf.go:249-309 PeekU16 .. PeekU64LE (the plain names call the BE ones) *)
Definition v_peekU (o : order) (w : width) (b : vbuf) : res vbuf (Z * option uerr) :=
  if v_rlen b <? wbytes w then Ok (0%Z, Some EPeek) b
  else match s_range (v_st b) (v_rd b) (v_rd b + wbytes w) with
       | None => Panic b
       | Some l => Ok (dec o l, None) b
       end.

(** ubuf.go:319-322, WriteByte after the room check and the copy-on-write hook *)
Definition v_writebyte_body (c : byte) (b : vbuf) : res vbuf (option uerr) :=
  match s_set (v_st b) (v_wr b) c with
  | None => Panic b
  | Some s => Ok None (set_wr (set_st b s) (v_wr b + 1))
  end.

(** ubuf.go:312-323 WriteByte *)
Definition v_writebyte (c : byte) (b : vbuf) : res vbuf (option uerr) :=
  if v_tlen b =? 0 then Ok (Some EFull) b else v_writebyte_body c b.

(** ubuf.go:334-345, Write after the room check and the copy-on-write hook *)
Definition v_write_body (p : list byte) (b : vbuf) : res vbuf (nat * option uerr) :=
  let toWrite := Nat.min (v_tlen b) (length p) in
  match s_from (v_st b) (v_wr b) with
  | None => Panic b
  | Some dst =>
      let n := Nat.min (length dst) toWrite in
      let s := Store (splice (arr (v_st b)) (v_wr b) (take n p)) (blen (v_st b)) in
      Ok (n, if n <? length p then Some EPartial else None)
         (set_wr (set_st b s) (v_wr b + n))
  end.

(** ubuf.go:326-346 Write *)
Definition v_write (p : list byte) (b : vbuf) : res vbuf (nat * option uerr) :=
  if v_tlen b =? 0 then Ok (0, Some EFull) b else v_write_body p b.

(** ubuf.go:365-431 WriteU16 .. WriteU64LE: room check, then
    [binary.Write(ub, order, value)], which calls [ub.Write] once with the
    encoded bytes and returns its error. *)
Definition v_writeU (o : order) (w : width) (v : Z) (b : vbuf) : res vbuf (option uerr) :=
  if v_tlen b <? wbytes w then Ok (Some ENoFree) b
  else match v_write (enc o w v) b with
       | Ok (_, e) b' => Ok e b'
       | Panic b' => Panic b'
       end.

(** ubuf.go:349-362 WriteTo.  The io.Writer is a function from the offered
    bytes to (accepted count, failed?).  Returns the bytes offered, the
    returned count and the error. *)
Definition writer := list byte -> nat * bool.
Definition v_writeto (wr : writer) (b : vbuf) : res vbuf (option (list byte) * nat * option uerr) :=
  if v_rlen b =? 0 then Ok (None, 0, None) b
  else match s_range (v_st b) (v_rd b) (v_wr b) with
       | None => Panic b
       | Some l =>
           let '(n, failed) := wr l in
           if failed then Ok (Some l, n, Some EIO) b
           else Ok (Some l, n, None) (set_rd b (v_rd b + n))
       end.

(** ubuf.go:434-443 ReadByte *)
Definition v_readbyte (b : vbuf) : res vbuf (Z * option uerr) :=
  if v_rlen b =? 0 then Ok (0%Z, Some EEmpty) b
  else match s_get (v_st b) (v_rd b) with
       | None => Panic b
       | Some x => Ok (x, None) (set_rd b (v_rd b + 1))
       end.

(** ubuf.go:446-464 Read(p), [n] = len(p); result as for Peek *)
Definition v_read (n : nat) (b : vbuf) : res vbuf (list byte * option uerr) :=
  if v_rlen b =? 0 then Ok ([], None) b
  else
    let toRead := Nat.min (v_rlen b) n in
    match s_from (v_st b) (v_rd b) with
    | None => Panic b
    | Some src =>
        let l := take toRead src in
        Ok (l, if length l <? n then Some ENoMoreRead else None) (set_rd b (v_rd b + length l))
    end.

(** io.Reader: from len(p) to (bytes put at the front of p = returned count,
    failed?). *)
Definition reader := nat -> list byte * bool.

(** ubuf.go:474-481, ReadFrom after the room check and the copy-on-write hook.
    Bytes stored by a failing reader stay in the storage but the write index
    does not move. *)
Definition v_readfrom_body (r : reader) (b : vbuf) : res vbuf (nat * option uerr) :=
  match s_from (v_st b) (v_wr b) with
  | None => Panic b
  | Some dst =>
      let '(l, failed) := r (length dst) in
      let b1 := set_st b (Store (splice (arr (v_st b)) (v_wr b) l) (blen (v_st b))) in
      if failed then Ok (0, Some EIO) b1
      else Ok (length l, None) (set_wr b1 (v_wr b + length l))
  end.

(** ubuf.go:467-482 ReadFrom *)
Definition v_readfrom (r : reader) (b : vbuf) : res vbuf (nat * option uerr) :=
  if v_tlen b =? 0 then Ok (0, None) b else v_readfrom_body r b.

(** io.ReadFull(r, buf) with len(buf) = n over a UBuf (Go io.ReadAtLeast: call
    Read on the rest of buf until n bytes arrived or an error is returned).
    [None] = fuel exhausted; the result is the collected bytes and whether an
    error was returned. *)
Fixpoint v_readfull (fuel : nat) (n : nat) (acc : list byte) (b : vbuf)
  : option (res vbuf (list byte * bool)) :=
  if n =? 0 then Some (Ok (acc, false) b)
  else match fuel with
  | 0 => None
  | S fuel' =>
      match v_read n b with
      | Panic b' => Some (Panic b')
      | Ok (l, e) b' =>
          if length l =? n then Some (Ok (acc ++ l, false) b')
          else match e with
               | Some _ => Some (Ok (acc ++ l, true) b')
               | None => v_readfull fuel' (n - length l) (acc ++ l) b'
               end
      end
  end.

(** ubuf.go:484-563 ReadU16 .. ReadU64LE: data check, then
    [binary.Read(ub, order, &value)] = io.ReadFull of the width, then decode
    (the value stays 0 if ReadFull fails).  One Read call is enough fuel because
    the data check guarantees the bytes; lack of fuel is reported as a panic
    here and proved impossible. *)
Definition v_readU (o : order) (w : width) (b : vbuf) : res vbuf (Z * option uerr) :=
  if v_rlen b <? wbytes w then Ok (0%Z, Some ENoData) b
  else match v_readfull 1 (wbytes w) [] b with
       | Some (Ok (l, false) b') => Ok (dec o l, None) b'
       | Some (Ok (_, true) b') => Ok (0%Z, Some ENoMoreRead) b'
       | Some (Panic b') => Panic b'
       | None => Panic b
       end.

(** ubuf.go:566-587 writeHead(dataSize, fn) *)
Definition v_writehead (d : nat) (fn : vbuf -> res vbuf (option uerr)) (b : vbuf)
  : res vbuf (option uerr) :=
  if v_rd b <? d then Ok (Some EHead) b
  else
    let oldWriterIndex := v_wr b in
    match fn (set_wr b (v_rd b - d)) with
    | Panic b' => Panic b'
    | Ok e b' =>
        let b1 := match e with None => set_rd b' (v_rd b' - d) | Some _ => b' end in
        Ok e (set_wr b1 oldWriterIndex)
    end.

(** ubuf.go:590-592 WriteHeadByte *)
Definition v_headbyte (c : byte) (b : vbuf) : res vbuf (option uerr) :=
  v_writehead 1 (v_writebyte c) b.

(** the closure of ubuf.go:596: [_, err := ub.Write(bytes); return err] *)
Definition v_write_err (p : list byte) (b : vbuf) : res vbuf (option uerr) :=
  match v_write p b with Ok (_, e) b' => Ok e b' | Panic b' => Panic b' end.

(** ubuf.go:595-597 WriteHeadBytes *)
Definition v_headbytes (p : list byte) (b : vbuf) : res vbuf (option uerr) :=
  v_writehead (length p) (v_write_err p) b.

(** ubuf.go:600-642 WriteHeadU16 .. WriteHeadU64LE *)
Definition v_headU (o : order) (w : width) (v : Z) (b : vbuf) : res vbuf (option uerr) :=
  v_writehead (wbytes w) (v_writeU o w v) b.

(** The bytes a caller can still read. *)
Definition readable (b : vbuf) : list byte := take (v_rlen b) (drop (v_rd b) (arr (v_st b))).

(** ** One type for all calls on one buffer *)
Inductive op :=
| OpWriteByte (c : byte)
| OpWrite (p : list byte)
| OpWriteU (o : order) (w : width) (v : Z)
| OpWriteTo (w : writer)
| OpReadByte
| OpRead (n : nat)
| OpReadU (o : order) (w : width)
| OpReadFrom (r : reader)
| OpPeek (n : nat)
| OpPeekByte
| OpPeekU (o : order) (w : width)
| OpHeadByte (c : byte)
| OpHeadBytes (p : list byte)
| OpHeadU (o : order) (w : width) (v : Z)
| OpReset
| OpLens.

(** Everything a call returns (or hands to the caller's io.Writer). *)
Inductive out :=
| RErr (e : option uerr)                                  (* only an error *)
| RCount (n : nat) (e : option uerr)                      (* (n, err) *)
| RBytes (l : list byte) (e : option uerr)                (* filled prefix, err *)
| RVal (v : Z) (e : option uerr)                          (* value, err *)
| ROffer (l : option (list byte)) (n : nat) (e : option uerr) (* WriteTo *)
| RUnit
| RLens (capacity head readable tail : nat).

Definition rmap {S A B} (f : A -> B) (r : res S A) : res S B :=
  match r with Ok a s => Ok (f a) s | Panic s => Panic s end.

Definition v_step (o : op) (b : vbuf) : res vbuf out :=
  match o with
  | OpWriteByte c => rmap RErr (v_writebyte c b)
  | OpWrite p => rmap (fun x => RCount (fst x) (snd x)) (v_write p b)
  | OpWriteU o w v => rmap RErr (v_writeU o w v b)
  | OpWriteTo w => rmap (fun x => ROffer (fst (fst x)) (snd (fst x)) (snd x)) (v_writeto w b)
  | OpReadByte => rmap (fun x => RVal (fst x) (snd x)) (v_readbyte b)
  | OpRead n => rmap (fun x => RBytes (fst x) (snd x)) (v_read n b)
  | OpReadU o w => rmap (fun x => RVal (fst x) (snd x)) (v_readU o w b)
  | OpReadFrom r => rmap (fun x => RCount (fst x) (snd x)) (v_readfrom r b)
  | OpPeek n => rmap (fun x => RBytes (fst x) (snd x)) (v_peek b n)
  | OpPeekByte => rmap (fun x => RVal (fst x) (snd x)) (v_peekbyte b)
  | OpPeekU o w => rmap (fun x => RVal (fst x) (snd x)) (v_peekU o w b)
  | OpHeadByte c => rmap RErr (v_headbyte c b)
  | OpHeadBytes p => rmap RErr (v_headbytes p b)
  | OpHeadU o w v => rmap RErr (v_headU o w v b)
  | OpReset => Ok RUnit (v_reset b)
  | OpLens => Ok (RLens (v_cap b) (v_hlen b) (v_rlen b) (v_tlen b)) b
  end.

(** Run a sequence of calls; [None] in the outputs marks a panic, after which
    nothing more runs. *)
Fixpoint v_run (ops : list op) (b : vbuf) : list (option out) * vbuf :=
  match ops with
  | [] => ([], b)
  | o :: ops' =>
      match v_step o b with
      | Panic b' => ([None], b')
      | Ok x b' => let '(xs, b'') := v_run ops' b' in (Some x :: xs, b'')
      end
  end.

(** ** Heap of shared storage and handles *)

(** ubuf.go:51-54 uBufData *)
Record cell := Cell { refc : Z; c_st : store }.
(** ubuf.go:57-63 UBuf, [h_loc] is the pointer [data] *)
Record hbuf := HB { h_res : nat; h_rd : nat; h_wr : nat; h_loc : nat; h_cow : bool }.
(** [copies] is a ghost counter of the copies made by
    resolveCopyOnWriteIfNeed. *)
Record world := World { cells : list cell; bufs : list hbuf; copies : nat }.

Definition w0 : world := World [] [] 0.

(** What handle [h] sees. *)
Definition view (w : world) (h : nat) : option vbuf :=
  match bufs w !! h with
  | None => None
  | Some b => match cells w !! h_loc b with
              | None => None
              | Some c => Some (VB (h_res b) (h_rd b) (h_wr b) (c_st c))
              end
  end.

(** Store the cursors and bytes of handle [h] back. *)
Definition put (w : world) (h : nat) (v : vbuf) : world :=
  match bufs w !! h with
  | None => w
  | Some b =>
      match cells w !! h_loc b with
      | None => w
      | Some c =>
          World (<[h_loc b := Cell (refc c) (v_st v)]> (cells w))
                (<[h := HB (v_res v) (v_rd v) (v_wr v) (h_loc b) (h_cow b)]> (bufs w))
                (copies w)
      end
  end.

(** Run code that touches only the handle's cursors and storage. *)
Definition liftv {A} (f : vbuf -> res vbuf A) (w : world) (h : nat) : res world A :=
  match view w h with
  | None => Panic w                       (* nil *UBuf: nil pointer dereference *)
  | Some v => match f v with
              | Ok a v' => Ok a (put w h v')
              | Panic v' => Panic (put w h v')
              end
  end.

(** ubuf.go:162-192 resolveCopyOnWriteIfNeed *)
Definition h_resolve (w : world) (h : nat) : res world unit :=
  match bufs w !! h with
  | None => Panic w
  | Some b =>
      if negb (h_cow b) then Ok tt w
      else
        let bufs1 := <[h := HB (h_res b) (h_rd b) (h_wr b) (h_loc b) false]> (bufs w) in
        match cells w !! h_loc b with
        | None => Panic w
        | Some c =>
            if (refc c =? 1)%Z then Ok tt (World (cells w) bufs1 (copies w))
            else
              let cells2 := <[h_loc b := Cell (wrap32 (refc c - 1)) (c_st c)]> (cells w) in
              match s_range (c_st c) (h_rd b) (h_wr b) with
              | None => Panic (World cells2 bufs1 (copies w))
              | Some src =>
                  let cp := scap (c_st c) in
                  let st := Store (splice (replicate cp 0%Z) (h_rd b) src) cp in
                  Ok tt (World (cells2 ++ [Cell 1 st])
                               (<[h := HB (h_res b) (h_rd b) (h_wr b) (length (cells w)) false]> (bufs w))
                               (S (copies w)))
              end
        end
  end.

Definition rbind {S A B} (r : res S A) (f : A -> S -> res S B) : res S B :=
  match r with Ok a s => f a s | Panic s => Panic s end.

(** ubuf.go:312-323 WriteByte *)
Definition h_writebyte (c : byte) (w : world) (h : nat) : res world (option uerr) :=
  match view w h with
  | None => Panic w
  | Some v => if v_tlen v =? 0 then Ok (Some EFull) w
              else rbind (h_resolve w h) (fun _ w1 => liftv (v_writebyte_body c) w1 h)
  end.

(** ubuf.go:326-346 Write *)
Definition h_write (p : list byte) (w : world) (h : nat) : res world (nat * option uerr) :=
  match view w h with
  | None => Panic w
  | Some v => if v_tlen v =? 0 then Ok (0, Some EFull) w
              else rbind (h_resolve w h) (fun _ w1 => liftv (v_write_body p) w1 h)
  end.

Definition h_write_err (p : list byte) (w : world) (h : nat) : res world (option uerr) :=
  rmap snd (h_write p w h).

(** ubuf.go:365-431 WriteU16 .. WriteU64LE *)
Definition h_writeU (o : order) (wd : width) (x : Z) (w : world) (h : nat) : res world (option uerr) :=
  match view w h with
  | None => Panic w
  | Some v => if v_tlen v <? wbytes wd then Ok (Some ENoFree) w
              else h_write_err (enc o wd x) w h
  end.

(** ubuf.go:467-482 ReadFrom *)
Definition h_readfrom (r : reader) (w : world) (h : nat) : res world (nat * option uerr) :=
  match view w h with
  | None => Panic w
  | Some v => if v_tlen v =? 0 then Ok (0, None) w
              else rbind (h_resolve w h) (fun _ w1 => liftv (v_readfrom_body r) w1 h)
  end.

(** ubuf.go:566-587 writeHead, cursors moved in the heap around [fn] *)
Definition h_writehead (d : nat) (fn : world -> nat -> res world (option uerr))
  (w : world) (h : nat) : res world (option uerr) :=
  match view w h with
  | None => Panic w
  | Some v =>
      if v_rd v <? d then Ok (Some EHead) w
      else
        rbind (fn (put w h (set_wr v (v_rd v - d))) h) (fun e w1 =>
          match view w1 h with
          | None => Panic w1
          | Some v1 =>
              let v2 := match e with None => set_rd v1 (v_rd v1 - d) | Some _ => v1 end in
              Ok e (put w1 h (set_wr v2 (v_wr v)))
          end)
  end.

(** A call on handle [h]. Calls that never write to the storage do not run the
    copy-on-write hook. *)
Definition h_step (o : op) (w : world) (h : nat) : res world out :=
  match o with
  | OpWriteByte c => rmap RErr (h_writebyte c w h)
  | OpWrite p => rmap (fun x => RCount (fst x) (snd x)) (h_write p w h)
  | OpWriteU o wd v => rmap RErr (h_writeU o wd v w h)
  | OpReadFrom r => rmap (fun x => RCount (fst x) (snd x)) (h_readfrom r w h)
  | OpHeadByte c => rmap RErr (h_writehead 1 (h_writebyte c) w h)
  | OpHeadBytes p => rmap RErr (h_writehead (length p) (h_write_err p) w h)
  | OpHeadU o wd v => rmap RErr (h_writehead (wbytes wd) (h_writeU o wd v) w h)
  | OpWriteTo _ | OpReadByte | OpRead _ | OpReadU _ _ | OpPeek _ | OpPeekByte
  | OpPeekU _ _ | OpReset | OpLens => liftv (v_step o) w h
  end.

(** Put a new buffer with its own storage on the heap. *)
Definition new_buf (w : world) (v : vbuf) : world :=
  World (cells w ++ [Cell 1 (v_st v)])
        (bufs w ++ [HB (v_res v) (v_rd v) (v_wr v) (length (cells w)) false])
        (copies w).

(** ubuf.go:121-159 UBufMakeSnapshot.  The source is [None] for a nil *UBuf; the
    result is the handle of the snapshot, or [None] for nil. *)
Definition h_snapshot (src : option nat) (whichType : Z) (w : world) : res world (option nat) :=
  match src with
  | None => Ok None w
  | Some h =>
      match bufs w !! h with
      | None => Panic w
      | Some b =>
          let n := length (bufs w) in
          let newub := HB (h_res b) (h_rd b) (h_wr b) (h_loc b) false in
          if (whichType =? 0)%Z then
            Ok (Some n) (World (cells w) (bufs w ++ [newub]) (copies w))
          else match cells w !! h_loc b with
          | None => Panic w
          | Some c =>
              if (whichType =? 1)%Z then
                let cells1 := <[h_loc b := Cell (wrap32 (refc c + 1)) (c_st c)]> (cells w) in
                let bufs1 := <[h := HB (h_res b) (h_rd b) (h_wr b) (h_loc b) true]> (bufs w) in
                Ok (Some n)
                   (World cells1 (bufs1 ++ [HB (h_res b) (h_rd b) (h_wr b) (h_loc b) true]) (copies w))
              else if (whichType =? 2)%Z then
                match s_range (c_st c) (h_rd b) (h_wr b) with
                | None => Panic w
                | Some src =>
                    let cp := scap (c_st c) in
                    let st := Store (splice (replicate cp 0%Z) (h_rd b) src) cp in
                    Ok (Some n)
                       (new_buf w (VB (h_res b) (h_rd b) (h_wr b) st))
                end
              else Ok None w
          end
      end
  end.

(** Calls on the whole heap. *)
Inductive wop :=
| WAlloc (capacity reserved : Z)
| WFrom (data : option store) (reserved : Z)
| WSnap (src : option nat) (whichType : Z)
| WOp (h : nat) (o : op).

(** [WHandle] is the *UBuf returned by a constructor ([None] = nil). *)
Inductive wout := WHandle (h : option nat) | WOut (x : out).

Definition w_step (o : wop) (w : world) : res world wout :=
  match o with
  | WAlloc c r => match v_alloc c r with
                  | None => Panic w
                  | Some v => Ok (WHandle (Some (length (bufs w)))) (new_buf w v)
                  end
  | WFrom d r => match v_from d r with
                 | None => Ok (WHandle None) w
                 | Some v => Ok (WHandle (Some (length (bufs w)))) (new_buf w v)
                 end
  | WSnap s t => rmap WHandle (h_snapshot s t w)
  | WOp h o => rmap WOut (h_step o w h)
  end.

Fixpoint w_run (ops : list wop) (w : world) : list (option wout) * world :=
  match ops with
  | [] => ([], w)
  | o :: ops' =>
      match w_step o w with
      | Panic w' => ([None], w')
      | Ok x w' => let '(xs, w'') := w_run ops' w' in (Some x :: xs, w'')
      end
  end.
