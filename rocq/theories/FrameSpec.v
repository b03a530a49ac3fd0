(** * What framing should do, independently of the decoder

    A frame is a 4-byte big-endian length followed by that many bytes.  The
    relation [cuts] splits a byte string into leading complete frames and the
    rest, as any correct decoder would. *)
From Verif Require Import GoBase UBufModel UBufSpec.

Definition frame (p : list byte) : list byte := digits BE W32 (Z.of_nat (length p)) ++ p.

(** Value of the length field at the front of [l]. *)
Definition announced (l : list byte) : Z :=
  match l with
  | a :: b :: c :: d :: _ => (a * 16777216 + b * 65536 + c * 256 + d)%Z
  | _ => 0%Z
  end.

(** [l] is exactly the frames of the payloads [ps] (non-empty, in order)
    followed by [r], and [r] does not start with another complete frame. *)
Inductive cuts : list byte -> list (list byte) -> list byte -> Prop :=
| cuts_done r :
    length r < 4 \/ announced r = 0%Z \/ (Z.of_nat (length r) < 4 + announced r)%Z ->
    cuts r [] r
| cuts_frame p l ps r :
    p <> [] -> (Z.of_nat (length p) < 2^32)%Z -> cuts l ps r -> cuts (frame p ++ l) (p :: ps) r.

(** [x] occurs in [l] as a block of consecutive bytes. *)
Definition block_of (x l : list byte) : Prop := exists a b, l = a ++ x ++ b.

(** A chunk made of whole frames. *)
Definition frames (ps : list (list byte)) : list byte := concat (frame <$> ps).

(** What the unchanged decoder does with the rest [r] of a chunk: it crashes on
    a zero length field, and hands up the bytes after the length field if that
    field counts exactly the bytes present including itself. *)
Definition tail_crash (r : list byte) : bool := (4 <=? length r) && (announced r =? 0)%Z.
Definition tail_out (r : list byte) : list (list byte) :=
  if (4 <=? length r) && (announced r =? Z.of_nat (length r))%Z then [drop 4 r] else [].

(** Buffers that hold nothing, with their whole capacity [k] free: a cache right
    after Run, or after Reset. *)
Definition idle (k : nat) (c : vbuf) : Prop :=
  v_res c = 0 /\ v_rd c = 0 /\ v_wr c = 0 /\ v_cap c = k /\ blen (v_st c) = k.

(** Any state a cache of capacity [k] can be in. *)
Definition cache_state (k : nat) (c : vbuf) : Prop :=
  v_rd c <= v_wr c /\ v_wr c <= v_cap c /\ v_res c = 0 /\ v_cap c = k /\ blen (v_st c) = k.

(** A payload a frame can carry. *)
Definition payload_ok (p : list byte) : Prop := p <> [] /\ (Z.of_nat (length p) < 2^32)%Z.

(** What the unchanged decoder hands up for the chunk [ch] taken alone, and
    whether it crashes. *)
Definition chunk_out (ch : list byte) (o : list (list byte)) (crash : bool) : Prop :=
  exists ps r, cuts ch ps r /\ o = ps ++ tail_out r /\ crash = tail_crash r.

(** Chunks shorter than the cache capacity [k] (the default capacity is twice
    the MTU, and a chunk is at most one MTU). *)
Definition chunk_fits (k mtu : nat) (ch : list byte) : Prop :=
  Forall byte_ok ch /\ length ch < k /\ length ch <= mtu /\ (Z.of_nat (length ch) < 2^32)%Z.

(** A full cache that waits for a frame longer than itself. *)
Definition wedged (c : vbuf) : Prop :=
  v_rd c <= v_wr c /\ v_wr c <= v_cap c /\ v_res c <= v_cap c /\ blen (v_st c) = v_cap c /\
  v_tlen c = 0 /\ 4 <= length (readable c) /\
  (Z.of_nat (length (readable c)) < announced (readable c))%Z.
