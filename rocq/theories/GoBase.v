(** * Go primitives used by the model

    Bytes, Go slices with distinct length and capacity, panics as explicit
    outcomes, fixed-width integers and byte order.  Nothing here is specific
    to ustack; it models the Go language and [encoding/binary]. *)
From Coq Require Export ZArith Lia List.
From stdpp Require Export base list numbers list_numbers.
Export ListNotations.
Open Scope nat_scope.

(** A Go [byte] is modelled as an integer; the range 0..255 is the predicate
    [byte_ok], kept by every operation that produces bytes. *)
Definition byte := Z.
Definition byte_ok (b : byte) : Prop := (0 <= b < 256)%Z.

(** Result of running code that may panic.  A panic carries the state at the
    point of the panic (a deferred [recover] of the caller would see it). *)
Inductive res (S A : Type) : Type :=
| Ok (a : A) (s : S)
| Panic (s : S).
Global Arguments Ok {S A} a s.
Global Arguments Panic {S A} s.

Definition is_ok {S A} (r : res S A) : Prop :=
  match r with Ok _ _ => True | Panic _ => False end.
Definition state_of {S A} (r : res S A) : S :=
  match r with Ok _ s => s | Panic s => s end.

(** A Go byte slice: [arr] is the backing storage visible through the slice up
    to its capacity, [blen] its length ([len(s) <= cap(s)]). *)
Record store := Store { arr : list byte; blen : nat }.
Definition scap (s : store) : nat := length (arr s).
Definition store_ok (s : store) : Prop := blen s <= scap s.

(** [make([]byte, n)] : zeroed, length = capacity = n. *)
Definition make_store (n : nat) : store := Store (replicate n 0%Z) n.

(** [s[i]] (read): [None] is the index-out-of-range panic. *)
Definition s_get (s : store) (i : nat) : option byte :=
  if i <? blen s then arr s !! i else None.

(** Overwrite [l] at offset [i]. *)
Definition splice (a : list byte) (i : nat) (l : list byte) : list byte :=
  take i a ++ l ++ drop (i + length l) a.

(** [s[i] = b]: [None] is the index-out-of-range panic. *)
Definition s_set (s : store) (i : nat) (b : byte) : option store :=
  if i <? blen s then Some (Store (splice (arr s) i [b]) (blen s)) else None.

(** [s[i:]] (the high bound defaults to [len(s)]): [None] is the
    slice-bounds panic. *)
Definition s_from (s : store) (i : nat) : option (list byte) :=
  if i <=? blen s then Some (take (blen s - i) (drop i (arr s))) else None.

(** [s[i:j]]: legal iff [i <= j <= cap(s)]; [None] is the slice-bounds panic. *)
Definition s_range (s : store) (i j : nat) : option (list byte) :=
  if (i <=? j) && (j <=? scap s) then Some (take (j - i) (drop i (arr s))) else None.

(** [atomic.AddInt32]: 32-bit two's complement wrap-around. *)
Definition wrap32 (z : Z) : Z := ((z + 2^31) mod 2^32 - 2^31)%Z.

(** ** Byte order (encoding/binary) *)
Inductive width := W16 | W32 | W64.
Definition wbytes (w : width) : nat := match w with W16 => 2 | W32 => 4 | W64 => 8 end.
Definition wmax (w : width) : Z := match w with W16 => 2^16 | W32 => 2^32 | W64 => 2^64 end%Z.

(** [binary.LittleEndian.PutUintXX]: least significant byte first. *)
Fixpoint le_bytes (n : nat) (v : Z) : list byte :=
  match n with 0 => [] | S n' => (v mod 256)%Z :: le_bytes n' (v / 256)%Z end.
(** [binary.BigEndian.PutUintXX]: most significant byte first. *)
Definition be_bytes (n : nat) (v : Z) : list byte := rev (le_bytes n v).
(** [binary.LittleEndian.UintXX] *)
Fixpoint le_val (l : list byte) : Z :=
  match l with [] => 0%Z | b :: l' => (b + 256 * le_val l')%Z end.
(** [binary.BigEndian.UintXX] *)
Definition be_val (l : list byte) : Z := le_val (rev l).

(** The suffix of the API name: [WriteU16] (none), [WriteU16BE], [WriteU16LE]. *)
Inductive order := Plain | BE | LE.
Definition enc (o : order) (w : width) (v : Z) : list byte :=
  match o with LE => le_bytes (wbytes w) v | _ => be_bytes (wbytes w) v end.
Definition dec (o : order) (l : list byte) : Z :=
  match o with LE => le_val l | _ => be_val l end.
