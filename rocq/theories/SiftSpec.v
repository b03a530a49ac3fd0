(** * What is heard, and what the peer wrote (C92, C93)

    Runs of NetModel in which the connection divides the bytes into Reads as it
    likes. *)
From Verif Require Import GoBase UBufModel UBufSpec FrameModel FrameSpec StackModel StackSpec NetModel NetSpec SafeSpec HonSpec.

(** Codec [k] can make the message [m] of the bytes [l].  The decoders of the
    user see a buffer: one with these bytes. *)
Definition read_as (k : kind) (l : list byte) (m : msg) : Prop :=
  match k with
  | KBytes => m = MBytes l
  | KString => m = MStr l
  | KJson _ unmarshal => unmarshal l = Some m
  | KGob _ d => exists b b', sound b /\ readable b = l /\ d b = Ok (Some m) b'
  | KGeneric _ (Some d) => exists b b', sound b /\ readable b = l /\ d b = Ok (Some m, false) b'
  | _ => False
  end.
(** How many bytes the processors [ps] put before a message. *)
Definition heads (ps : list proc) : nat := length (wire_of 0 ps []).

(** The receiving stack: the codec [k], processors that pass messages above it,
    the processors [ps] below, frame decoders with caches of any size among them. *)
Definition hears_by (N : net) (k : kind) (ps : list proc) : Prop :=
  exists ids pre, wired (nb N) ids (pre ++ Proc k true :: ps) /\
    Forall (fun p => passes_message p = true) pre /\ Forall (fun p => carries p = true) ps /\
    (e_mtu (nb N) < 2^32)%Z /\ e_isref (nb N) (ncb N) = false /\
    (exists l m, decodes k l m).
(** [m] is read from consecutive bytes of [str] that fit one Read. *)
Definition stands_in (N : net) (k : kind) (ps : list proc) (str : list byte) (m : msg) : Prop :=
  exists h l, block_of (h ++ l) str /\ length h = heads ps /\ (Z.of_nat (length (h ++ l)) <= e_mtu (nb N))%Z /\ read_as k l m.
(** The messages [ms] are read from pieces of [str] that lie one behind the
    other and end at [e] or before it.  There are [n] bytes or more before each,
    and [n] bytes and the piece fit [mtu]. *)
Inductive laid (k : kind) (n : nat) (mtu : Z) (str : list byte) : list msg -> nat -> Prop :=
| laid_nil e : laid k n mtu str [] e
| laid_snoc ms e0 a l b m e : laid k n mtu str ms e0 -> e0 <= length a -> str = a ++ l ++ b ->
    n <= length a -> (Z.of_nat (n + length l) <= mtu)%Z -> read_as k l m -> length a + length l <= e ->
    laid k n mtu str (ms ++ [m]) e.
