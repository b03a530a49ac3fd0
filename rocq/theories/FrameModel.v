(** * Model of the receive side of proc_frame_decoder.go

    The loops are split into single iterations ([fd_cur_step], [fd_cached_step])
    so that the stack model can interleave them with the calls to the upper
    processor; the upper processor never sees the cache or the chunk being cut,
    except the chunk itself in its last use ([FdLast]).

    Simplifications: Go [int] is 64 bits wide, so [int(expectedLength)] is never
    negative; one OnLowerData call runs to completion before the next one on the
    same decoder (several connections calling concurrently: MixModel). *)
From Verif Require Import GoBase UBufModel.

(** [dst.ReadFrom(src)] with a UBuf as the reader (ubuf.go:467-482 calling
    ubuf.go:446-464): the two buffers afterwards, the count and the error. *)
Definition ub_readfrom (limit : option nat) (dst src : vbuf) : res (vbuf * vbuf) (nat * option uerr) :=
  if v_tlen dst =? 0 then Ok (0, None) (dst, src)
  else
    let want := match limit with None => v_tlen dst | Some l => Nat.min l (v_tlen dst) end in
    match v_read want src with
    | Panic src' => Panic (dst, src')
    | Ok (l, e) src' =>
        match v_readfrom_body (fun _ => (l, match e with Some _ => true | None => false end)) dst with
        | Panic dst' => Panic (dst', src')
        | Ok x dst' => Ok x (dst', src')
        end
    end.

(** [io.CopyN(dst, src, n)] with UBufs on both sides: io.Copy finds dst's
    ReadFrom, which makes one Read call through a LimitedReader; success iff
    exactly [n] bytes were moved. *)
Definition ub_copyn (n : nat) (dst src : vbuf) : res (vbuf * vbuf) bool :=
  match ub_readfrom (Some n) dst src with
  | Panic s => Panic s
  | Ok (k, e) s => Ok (match e with None => k =? n | Some _ => false end) s
  end.

(** What one loop iteration asks for next. *)
Inductive fd_act :=
| FdStop                 (* return *)
| FdLast                 (* hand up the chunk itself and return *)
| FdNew (b : vbuf)       (* hand up [b] and loop *)
| FdPanic.

(** Result: action, cache, chunk. *)
Definition fd_res : Type := fd_act * vbuf * vbuf.

(** Lines shared by both loops (proc_frame_decoder.go:98-113 and 148-162):
    allocate, drop the length field, copy.  [src] is the chunk or the cache;
    [None] is a panic, [Some (None, src')] the "bad buffer" case. *)
Definition fd_cut (expected : Z) (src : vbuf) : option (option vbuf * vbuf) :=
  match v_alloc expected 0 with
  | None => None                                        (* log.Panicf *)
  | Some nb =>
      match v_readU BE W32 src with
      | Panic _ => None
      | Ok _ src1 =>
          match ub_copyn (Z.to_nat expected) nb src1 with
          | Panic _ => None
          | Ok true (nb', src2) => Some (Some nb', src2)
          | Ok false (_, src2) => Some (None, src2)
          end
      end
  end.

(** proc_frame_decoder.go:66-117, one iteration of the loop of
    handleCurrentData. *)
Definition fd_cur_step (cache ub : vbuf) : fd_res :=
  if v_rlen ub <? 4 then
    match ub_readfrom None cache ub with
    | Ok _ (cache', ub') => (FdStop, cache', ub')
    | Panic (cache', ub') => (FdPanic, cache', ub')
    end
  else
    match v_peekU BE W32 ub with
    | Panic ub' => (FdPanic, cache, ub')
    | Ok (_, Some _) ub' => (FdStop, v_reset cache, ub')
    | Ok (expected, None) _ =>
        let actual := (Z.of_nat (v_rlen ub) mod 2^32)%Z in
        if (expected >? actual)%Z then
          match ub_readfrom None cache ub with
          | Ok _ (cache', ub') => (FdStop, cache', ub')
          | Panic (cache', ub') => (FdPanic, cache', ub')
          end
        else if (expected =? actual)%Z then
          match v_readU BE W32 ub with
          | Ok _ ub' => (FdLast, cache, ub')
          | Panic ub' => (FdPanic, cache, ub')
          end
        else
          match fd_cut expected ub with
          | None => (FdPanic, cache, ub)
          | Some (None, ub') => (FdStop, v_reset cache, ub')
          | Some (Some nb, ub') => (FdNew nb, cache, ub')
          end
    end.

(** proc_frame_decoder.go:123-166, one iteration of the loop of
    handleCachedData (only the cache matters; the chunk is unused). *)
Definition fd_cached_step (cache : vbuf) : fd_act * vbuf :=
  if v_rlen cache =? 0 then (FdStop, v_reset cache)
  else if v_rlen cache <? 4 then (FdStop, cache)
  else
    match v_peekU BE W32 cache with
    | Panic c => (FdPanic, c)
    | Ok (_, Some _) c => (FdStop, v_reset c)
    | Ok (expected, None) _ =>
        if (Z.of_nat (v_rlen cache) <? expected)%Z then (FdStop, cache)
        else
          match fd_cut expected cache with
          | None => (FdPanic, cache)
          | Some (None, cache') => (FdStop, v_reset cache')
          | Some (Some nb, cache') => (FdNew nb, cache')
          end
    end.

(** ** The decoder alone: what it hands up for each chunk *)

(** Buffers handed up in order, the cache, and whether it panicked; [None] =
    not finished within [fuel] iterations. *)
Definition fd_out : Type := list vbuf * vbuf * bool.

Fixpoint fd_cur (fuel : nat) (cache ub : vbuf) : option fd_out :=
  match fuel with
  | 0 => None
  | S fuel' =>
      match fd_cur_step cache ub with
      | (FdStop, cache', _) => Some ([], cache', false)
      | (FdLast, cache', ub') => Some ([ub'], cache', false)
      | (FdPanic, cache', _) => Some ([], cache', true)
      | (FdNew nb, cache', ub') =>
          match fd_cur fuel' cache' ub' with
          | None => None
          | Some (l, c, p) => Some (nb :: l, c, p)
          end
      end
  end.

(** proc_frame_decoder.go:57-62 (start of handleCurrentData) *)
Definition fd_current (fuel : nat) (cache ub : vbuf) : option fd_out :=
  if 0 <? v_rlen cache then
    match ub_readfrom None cache ub with
    | Ok _ (cache', _) => Some ([], cache', false)
    | Panic (cache', _) => Some ([], cache', true)
    end
  else fd_cur fuel cache ub.

Fixpoint fd_cached (fuel : nat) (cache : vbuf) : option fd_out :=
  match fuel with
  | 0 => None
  | S fuel' =>
      match fd_cached_step cache with
      | (FdPanic, c) => Some ([], c, true)
      | (FdNew nb, c) =>
          match fd_cached fuel' c with
          | None => None
          | Some (l, c', p) => Some (nb :: l, c', p)
          end
      | (_, c) => Some ([], c, false)
      end
  end.

(** proc_frame_decoder.go:170-190, the enabled branch of OnLowerData on a byte
    connection: [cache] exists after Run. *)
Definition fd_recv (fuel : nat) (cache ub : vbuf) : option fd_out :=
  match fd_current fuel cache ub with
  | None => None
  | Some (l, c, true) => Some (l, c, true)
  | Some (l, c, false) =>
      match fd_cached fuel c with
      | None => None
      | Some (l2, c2, p) => Some (l ++ l2, c2, p)
      end
  end.

(** proc_lowerdeck.go:73-84: a chunk is what one ReadFrom on the connection put
    into a fresh buffer of MTU bytes. *)
Definition rx_chunk (mtu : nat) (l : list byte) : vbuf :=
  VB 0 0 (length l) (Store (l ++ replicate (mtu - length l) 0%Z) mtu).

(** Feed chunks one after the other to one decoder: per chunk, the payloads
    handed up; stops at a panic. *)
Fixpoint fd_feed (fuel mtu : nat) (cache : vbuf) (chunks : list (list byte))
  : option (list (list (list byte)) * vbuf * bool) :=
  match chunks with
  | [] => Some ([], cache, false)
  | ch :: rest =>
      match fd_recv fuel cache (rx_chunk mtu ch) with
      | None => None
      | Some (l, c, true) => Some ([readable <$> l], c, true)
      | Some (l, c, false) =>
          match fd_feed fuel mtu c rest with
          | None => None
          | Some (ls, c', p) => Some ((readable <$> l) :: ls, c', p)
          end
      end
  end.

(** ** The sending side *)

(** proc_frame_decoder.go:43-53, the enabled branch of OnUpperData on a buffer:
    the length of the readable bytes is put in front of them; the error of
    WriteHeadU32BE is ignored. *)
Definition fd_send (ub : vbuf) : res vbuf unit :=
  match v_headU BE W32 (Z.of_nat (v_rlen ub) mod 2^32)%Z ub with
  | Ok _ ub' => Ok tt ub'
  | Panic ub' => Panic ub'
  end.
