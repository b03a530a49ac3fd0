(** * What a stack survives: inputs, processors and cache states named by C75 *)
From Verif Require Import GoBase UBufModel UBufSpec FrameModel FrameSpec StackModel StackSpec.

(** A buffer in order: indices ordered, storage as long as announced. *)
Definition sound (b : vbuf) : Prop :=
  v_rd b <= v_wr b /\ v_wr b <= v_cap b /\ v_res b <= v_cap b /\ blen (v_st b) = v_cap b.

(** User code called by the processor does not panic, leaves buffers in order,
    and a decoder only takes bytes away.  Processors without user code have no
    duty. *)
Definition sturdy (p : proc) : Prop :=
  p_enable p = true ->
  match p_kind p with
  | KGob encode decode =>
      (forall m b, sound b -> exists r b', encode m b = Ok r b' /\ sound b') /\
      (forall b, sound b -> exists r b', decode b = Ok r b' /\ sound b' /\ block_of (readable b') (readable b))
  | KGeneric encoder decoder =>
      (forall encode m b, encoder = Some encode -> sound b -> exists r b', encode m b = Ok r b' /\ sound b') /\
      (forall decode b, decoder = Some decode -> sound b ->
         exists r b', decode b = Ok r b' /\ sound b' /\ block_of (readable b') (readable b))
  | KFilter fns | KForwarder fns => Forall (fun f => f <> None) fns
  | _ => True
  end.
Definition turns_round (p : proc) : bool := match p_kind p with KLoopback => true | _ => false end.

(** ** Inputs of a running stack *)
Inductive input :=
| InBytes (c : conn) (l : list byte)                                          (* a chunk arrives *)
| InSend (session : Z) (dest : option Z) (c : conn) (m : option msg)          (* an endpoint sends *)
| InSelf (i : nat) (tag : byte) (c : conn).                                   (* heartbeat, request for statistics *)
Definition feed (E : env) (j : input) (f : nat) (s : st) : option outcome :=
  match j with
  | InBytes c l => receive f E c l s
  | InSend session dest c m => send f E session dest (Some c) m s
  | InSelf i tag c => self_message f E i tag c s
  end.

(** Four zero bytes in a row. *)
Definition zero_field (l : list byte) : Prop := block_of [0; 0; 0; 0]%Z l.

(** A chunk the lower deck can read. *)
Definition chunk (E : env) (l : list byte) : Prop :=
  Forall byte_ok l /\ (Z.of_nat (length l) <= e_mtu E)%Z.
Definition input_ok (E : env) (ids : list nat) (j : input) : Prop :=
  match j with
  | InBytes c l => e_isref E c = false /\ chunk E l
  | InSend _ _ c _ => e_isref E c = false
  | InSelf i _ c => e_isref E c = false /\ i ∈ ids
  end.
(** No chunk with four zero bytes in a row arrives. *)
Definition harmless (j : input) : Prop :=
  match j with InBytes _ l => ~ zero_field l | _ => True end.

(** ** States *)
(** Each enabled frame decoder has a cache satisfying [C]. *)
Definition ready (E : env) (C : vbuf -> Prop) (s : st) : Prop :=
  length (s_ps s) = length (e_procs E) /\
  forall i cap, e_procs E !! i = Some (Proc (KFrame cap) true) -> exists c, cache_of s i = Some c /\ C c.
(** Any state a cache can be in. *)
Definition any_cache (c : vbuf) : Prop :=
  exists k, cache_state k c /\ (Z.of_nat k < 2^32)%Z /\ Forall byte_ok (readable c).
(** Empty, and larger than any chunk of at most [mtu] bytes. *)
Definition spare_cache (mtu : Z) (c : vbuf) : Prop :=
  exists k, idle k c /\ (mtu < Z.of_nat k)%Z.

(** A legal MTU: the headers of the processors fit into it. *)
Definition legal_mtu (E : env) : Prop :=
  (0 < e_mtu E < 2^32)%Z /\ (0 <= e_overhead E <= e_mtu E)%Z.
(** No capacity option: twice the MTU (proc_frame_decoder.go:193-205). *)
Definition default_caches (E : env) : Prop :=
  forall i cap en, e_procs E !! i = Some (Proc (KFrame cap) en) -> cap = None.
