(** * What a stack should do, independently of how the processors do it *)
From Verif Require Import GoBase UBufModel UBufSpec FrameModel FrameSpec StackModel.

(** ** Wiring *)

(** Follow [next] from [p] for [n] steps. *)
Fixpoint walk (next : pid -> option pid) (n : nat) (p : pid) : list (option pid) :=
  match n with
  | 0 => []
  | S n' => let q := next p in q :: match q with Some q' => walk next n' q' | None => [] end
  end.

(** The instances [ids] are distinct, wired by one Run, and are the processors
    [ps] (top first), whose overheads were added up. *)
Definition wired (E : env) (ids : list nat) (ps : list proc) : Prop :=
  e_links E = build_links ids no_links /\ NoDup ids /\
  e_overhead E = build_overhead (p_kind <$> ps) 0 /\
  Forall2 (fun i p => e_procs E !! i = Some p) ids ps.

(** ** The wire format *)

(** Bytes one processor puts around a message for [session] that comes from
    above as [l]. *)
Definition put (session : Z) (p : proc) (l : list byte) : list byte :=
  match p_kind p with
  | KFrame _ => if p_enable p then frame l else l
  | KSession => if p_enable p then digits BE W32 (session mod 2^32)%Z ++ l else l
  | KHeartbeat | KStat => 0%Z :: l
  | KLoadBalancer => (if p_enable p then 17%Z else 0%Z) :: l
  | _ => l
  end.
(** The whole stack, processors top first. *)
Definition wire_of (session : Z) (ps : list proc) (l : list byte) : list byte :=
  foldl (fun l p => put session p l) l ps.

(** Header bytes a processor of each kind can put before a message: 4 bytes of
    length or session, 1 byte of type. *)
Definition header_len (k : kind) : Z :=
  match k with
  | KFrame _ => 4
  | KSession => 4
  | KHeartbeat => 1
  | KLoadBalancer => 1
  | KStat => 1
  | KBase | KLoopback | KDiscarder | KEcho | KFlow | KFilter _ | KForwarder _
  | KBytes | KString | KJson _ _ | KGob _ _ | KGeneric _ _ => 0
  end%Z.
(** The head room the processors of a stack need together. *)
Definition room (ps : list proc) : Z := foldr (fun p n => header_len (p_kind p) + n)%Z 0%Z ps.

(** Processors that send a byte message on (possibly with a header). *)
Definition sends_on (p : proc) : bool :=
  match p_kind p with
  | KDiscarder | KEcho | KFlow | KFrame _ | KHeartbeat | KLoadBalancer | KSession | KStat => true
  | KBytes | KString | KJson _ _ | KGob _ _ | KGeneric _ _ | KFilter _ | KForwarder _ => negb (p_enable p)
  | KBase | KLoopback => false
  end.
(** Processors that also let a message through that their peer sent. *)
Definition carries (p : proc) : bool :=
  sends_on p &&
  match p_kind p with
  | KDiscarder | KEcho | KLoadBalancer => negb (p_enable p)
  | _ => true
  end.
(** Processors that let a message without bytes through: they can be above the
    codec. *)
Definition passes_message (p : proc) : bool :=
  match p_kind p with
  | KFlow => true
  | KFrame _ | KHeartbeat | KLoadBalancer | KStat | KBase | KLoopback => false
  | _ => negb (p_enable p)
  end.
Definition resolves (p : proc) : bool :=
  match p_kind p with KSession => p_enable p | _ => false end.

(** ** Codecs *)

(** Codec [k] represents message [m] by the bytes [l]. *)
Definition encodes (k : kind) (m : msg) (l : list byte) : Prop :=
  match k with
  | KBytes => m = MBytes l
  | KString => m = MStr l
  | KJson marshal _ => marshal m = Some l
  | KGob e _ | KGeneric (Some e) _ =>
      forall b, v_rd b <= v_wr b -> v_wr b <= v_cap b -> v_res b <= v_cap b -> blen (v_st b) = v_cap b ->
        readable b = [] -> length l <= v_tlen b ->
        exists b', e m b = Ok false b' /\
          v_rd b' <= v_wr b' /\ v_wr b' <= v_cap b' /\ v_res b' <= v_cap b' /\ blen (v_st b') = v_cap b' /\
          readable b' = l /\ v_hlen b' = v_hlen b
  | _ => False
  end.
(** Codec [k] turns the bytes [l] into message [m]. *)
Definition decodes (k : kind) (l : list byte) (m : msg) : Prop :=
  match k with
  | KBytes => m = MBytes l
  | KString => m = MStr l
  | KJson _ unmarshal => unmarshal l = Some m
  | KGob _ d =>
      forall b, v_rd b <= v_wr b -> v_wr b <= v_cap b -> v_res b <= v_cap b -> blen (v_st b) = v_cap b ->
        readable b = l -> exists b', d b = Ok (Some m) b'
  | KGeneric _ (Some d) =>
      forall b, v_rd b <= v_wr b -> v_wr b <= v_cap b -> v_res b <= v_cap b -> blen (v_st b) = v_cap b ->
        readable b = l -> exists b', d b = Ok (Some m, false) b'
  | _ => False
  end.

(** ** Outside world *)

(** The connection accepts everything offered to it. *)
Definition accepts (E : env) (c : conn) : Prop :=
  forall h l, e_write E h c l = (length l, false).

(** What offering the bytes [l] to the byte connection [c] shows outside. *)
Definition offered (E : env) (h : list out) (c : conn) (l : list byte) : list out :=
  match l with
  | [] => []
  | _ => let '(n, failed) := e_write E h c l in
         OWire c (take n l) :: (if failed then [OClose c; OClosedEvent c] else [])
  end.
Definition writer_ok (E : env) : Prop :=
  forall h c l, fst (e_write E h c l) <= length l.

(** ** Sessions *)
(** The session a message is sent to. *)
Definition dest_of (session : Z) (dest : option Z) : Z := match dest with Some d => d | None => session end.

(** The session a received message belongs to. *)
Definition rx_session (ps : list proc) (sess : Z) : Z :=
  if existsb resolves ps then (sess mod 2^32)%Z else 0%Z.

(** What the endpoint side shows for a message [m] of session [z]. *)
Definition shown (E : env) (z : Z) (c : option conn) (m : msg) : list out :=
  if decide (z ∈ e_sessions E) then [ODeliver z c m] else [].

(** A message for a session and its encoding. *)
Record letter := Letter { le_sess : Z; le_msg : msg; le_bytes : list byte }.

(** All frame decoders of the stack have an empty cache, as after Run. *)
Definition caches_idle (E : env) (s : st) : Prop :=
  forall i cap en, e_procs E !! i = Some (Proc (KFrame cap) en) ->
    exists k c, 0 < k /\ cache_of s i = Some c /\ idle k c.

(** The call finishes for all large enough fuel, normally, and shows [outs]. *)
Definition finishes (run : nat -> option outcome) (s : st) (outs : list out) (s' : st) : Prop :=
  (exists f0 x', forall f, f0 <= f -> run f = Some (Done x' s')) /\ s_out s' = s_out s ++ outs.

(** The call crashes the program (an unrecovered panic) after showing [outs]. *)
Definition crashes (run : nat -> option outcome) (s : st) (outs : list out) : Prop :=
  exists f0 s', (forall f, f0 <= f -> run f = Some (Crash s')) /\ s_out s' = s_out s ++ outs.

(** The call never returns: an infinite recursion. *)
Definition never_returns (run : nat -> option outcome) : Prop := forall f, run f = None.

(** Several calls from outside, one after the other. *)
Inductive finish_all : list (nat -> st -> option outcome) -> st -> list out -> st -> Prop :=
| finish_nil s : finish_all [] s [] s
| finish_cons run runs s o1 s1 o2 s2 :
    finishes (fun f => run f s) s o1 s1 -> finish_all runs s1 o2 s2 -> finish_all (run :: runs) s (o1 ++ o2) s2.

(** ** Kinds of processors named by the properties *)

(** The codecs that turn a message into bytes by themselves. *)
Definition plain_codec (k : kind) : bool :=
  match k with KBytes | KString | KJson _ _ => true | _ => false end.
(** Disabled, these do nothing at all. *)
Definition switchable (k : kind) : bool :=
  match k with
  | KBytes | KString | KJson _ _ | KGob _ _ | KGeneric _ _ | KDiscarder | KEcho
  | KFilter _ | KForwarder _ | KFlow | KSession => true
  | _ => false
  end.
(** Header processors that ask the connection whether it uses references. *)
Definition asks_connection (k : kind) : bool :=
  match k with KFrame _ | KHeartbeat | KLoadBalancer | KStat => true | _ => false end.
(** Processors that let a message by reference through. *)
Definition passes_reference (p : proc) : bool :=
  passes_message p || match p_kind p with KHeartbeat | KLoadBalancer | KStat => true | _ => false end.
(** Processors that do not look at the connection and call no user code. *)
Definition connectionless (p : proc) : bool :=
  match p_kind p with
  | KBase | KBytes | KString | KJson _ _ | KDiscarder | KEcho | KFlow | KSession => true
  | KGob _ _ | KGeneric _ _ | KFilter _ | KForwarder _ => negb (p_enable p)
  | _ => false
  end.
Definition framing (p : proc) : bool := match p_kind p with KFrame _ => p_enable p | _ => false end.

(** Bytes of a statistics response. *)
Definition stat_bytes (tx rx : Z) (name : list byte) : list byte :=
  35%Z :: digits BE W64 tx ++ digits BE W64 rx ++ name.

(** Messages counted by a StatCounter: byte messages sent down, and byte
    messages received that are neither a request nor a response. *)
Definition counts_tx (E : env) (x : ctx) : bool :=
  match cx_conn x, cx_buf x with Some c, Some _ => negb (e_isref E c) | _, _ => false end.
Definition counts_rx (E : env) (x : ctx) : bool :=
  match cx_conn x, cx_buf x with
  | Some c, Some b =>
      negb (e_isref E c) &&
      match readable b with t :: _ => negb (t =? 16)%Z && negb (t =? 35)%Z | [] => false end
  | _, _ => false
  end.
Definition passed_down (E : env) (i : nat) (v : nat * dir * ctx) : bool :=
  match v with (j, Down, x) => (j =? i) && counts_tx E x | _ => false end.
Definition passed_up (E : env) (i : nat) (v : nat * dir * ctx) : bool :=
  match v with (j, Up, x) => (j =? i) && counts_rx E x | _ => false end.
Definition count {A} (f : A -> bool) (l : list A) : nat := length (List.filter f l).

(** Everything that can happen to a running stack from outside, one call at a
    time, each call returning normally. *)
Inductive reached (E : env) : st -> Prop :=
| reached_run s : init_st E = Some s -> reached E s
| reached_send s f session dest c m x' s' :
    reached E s -> send f E session dest c m s = Some (Done x' s') -> reached E s'
| reached_receive s f c l x' s' :
    reached E s -> receive f E c l s = Some (Done x' s') -> reached E s'
| reached_receive_ref s f c m x' s' :
    reached E s -> receive_ref f E c m s = Some (Done x' s') -> reached E s'
| reached_self s f i tag c x' s' :
    reached E s -> self_message f E i tag c s = Some (Done x' s') -> reached E s'.

(** ** Single calls *)
(** The neighbour a call in direction [d] goes on to. *)
Definition next_of (E : env) (d : dir) (i : nat) : option pid :=
  match d with Down => l_lower (e_links E) (PProc i) | Up => l_upper (e_links E) (PProc i) end.
Definition is_up (d : dir) : bool := match d with Down => false | Up => true end.
(** Processor [i] counts a message of direction [d]. *)
Definition bump (d : dir) (s : st) (i : nat) : st :=
  St (alter (fun p => match d with
                      | Down => Pst (ps_cache p) ((ps_tx p + 1) mod 2^64)%Z (ps_rx p)
                      | Up => Pst (ps_cache p) (ps_tx p) ((ps_rx p + 1) mod 2^64)%Z
                      end) i (s_ps s)) (s_out s) (s_visits s).

(** Codec [k] cannot send [m]: no message, one of another type, one the codec's
    encoder refuses, or an empty encoding. *)
Definition unsendable (k : kind) (m : option msg) : Prop :=
  match k with
  | KBytes => forall l, m = Some (MBytes l) -> l = []
  | KString => forall l, m = Some (MStr l) -> l = []
  | KJson marshal _ => forall m', m = Some m' -> marshal m' = None \/ marshal m' = Some []
  | KGob e _ | KGeneric (Some e) _ => forall m', m = Some m' -> forall b, exists b', e m' b = Ok true b'
  | KGeneric None _ => True
  | _ => False
  end.
(** Codec [k] does not decode an empty buffer. *)
Definition refuses_nothing (k : kind) : Prop :=
  match k with
  | KBytes | KString | KJson _ _ | KGeneric _ None => True
  | KGob _ d => forall b, readable b = [] -> exists b', d b = Ok None b'
  | KGeneric _ (Some d) => forall b, readable b = [] -> exists m b', d b = Ok (m, true) b'
  | _ => False
  end.
