(** * Model of a running stack: decks, processors and the calls between them

    [OnUpperData] travels down, [OnLowerData] travels up.  One call from
    outside (an endpoint's message, a received chunk, a timer's self message)
    is run to completion by [exec]; its fuel is the depth of the Go call stack,
    so a run without result for every fuel is an infinite recursion.

    Simplifications: one outside call runs at a time (the racing updates of the
    statistics counters are in RaceModel.v); printing is left out, except what a
    StatCounter shows of a peer; encoders, decoders, filter and forward functions and event listeners are arbitrary
    functions that return and do not call back into the stack; the only context
    option is "session", the only one the library reads. *)
From Verif Require Import GoBase UBufModel FrameModel.

Definition conn := nat.

(** A non-nil [interface{}] message: a [[]byte], a [string] or some other
    object. *)
Inductive msg :=
| MBytes (l : list byte)
| MStr (l : list byte)
| MObj (o : nat).

(** A non-nil [interface{}] option value: an [int] or something else. *)
Inductive oval := OInt (z : Z) | OOther.

(** ustack_default.go:14-76 DefaultUStackContext; [None] is nil / not set. *)
Record ctx := Ctx {
  cx_conn : option conn;
  cx_buf : option vbuf;
  cx_msg : option msg;
  cx_session : option oval }.
Definition set_buf (x : ctx) (b : option vbuf) : ctx := Ctx (cx_conn x) b (cx_msg x) (cx_session x).
Definition set_msg (x : ctx) (m : option msg) : ctx := Ctx (cx_conn x) (cx_buf x) m (cx_session x).
Definition set_session (x : ctx) (v : option oval) : ctx := Ctx (cx_conn x) (cx_buf x) (cx_msg x) v.

(** utils.go:17-25 OptionParseInt (value only) *)
Definition option_int (o : option oval) (default : Z) : Z :=
  match o with Some (OInt z) => z | _ => default end.

(** Functions given to Filter and Forwarder; [None] is a nil function, calling
    it panics.  The bool is [toUpper]. *)
Definition ctxfn := option (ctx -> bool -> bool).

(** The processor types. *)
Inductive kind :=
| KBase                                        (* proc_base.go *)
| KBytes                                       (* proc_codec_bytes.go *)
| KString                                      (* proc_codec_string.go *)
| KJson (marshal : msg -> option (list byte))  (* proc_codec_json.go; None = error *)
        (unmarshal : list byte -> option msg)
| KGob (encode : msg -> vbuf -> res vbuf bool) (* proc_codec_gob.go; true = error *)
       (decode : vbuf -> res vbuf (option msg))
| KGeneric (encoder : option (msg -> vbuf -> res vbuf bool))
           (decoder : option (vbuf -> res vbuf (option msg * bool)))
| KDiscarder | KEcho
| KFilter (fns : list ctxfn)
| KForwarder (fns : list ctxfn)
| KFlow
| KFrame (capacity : option oval)              (* option CacheCapacity *)
| KHeartbeat | KLoadBalancer | KLoopback | KSession | KStat.

(** proc_filter.go:18-29, proc_forwarder.go:18-29: [make([]FilterFn, 1)] leaves
    one nil function in front of the given ones. *)
Definition new_filter (fns : list (ctx -> bool -> bool)) : kind := KFilter (None :: (Some <$> fns)).
Definition new_forwarder (fns : list (ctx -> bool -> bool)) : kind := KForwarder (None :: (Some <$> fns)).

Record proc := Proc { p_kind : kind; p_enable : bool }.

(** GetOverhead of each processor (proc_base.go:59-61, proc_frame_decoder.go:32-34,
    proc_heartbeat.go:90-92, proc_load_balancer.go:33-36,
    proc_session_resolver.go:23-26, proc_stat_counter.go:38-40). *)
Definition overhead_of (k : kind) : Z :=
  match k with
  | KFrame _ | KSession => 4
  | KHeartbeat | KLoadBalancer | KStat => 1
  | _ => 0
  end%Z.

(** ** Wiring *)
Inductive pid := PUpper | PLower | PProc (i : nat).
Global Instance pid_eq_dec : EqDecision pid.
Proof. solve_decision. Defined.

(** The [upper] and [lower] fields of all processors; [None] is nil. *)
Record links := Links { l_upper : pid -> option pid; l_lower : pid -> option pid }.
Definition no_links : links := Links (fun _ => None) (fun _ => None).
Definition set_upper (lk : links) (p q : pid) : links :=
  Links (fun x => if decide (x = p) then Some q else l_upper lk x) (l_lower lk).
Definition set_lower (lk : links) (p q : pid) : links :=
  Links (l_upper lk) (fun x => if decide (x = p) then Some q else l_lower lk x).

(** ustack_default.go:133-136, the loop over neighbouring processors. *)
Fixpoint link_pairs (ids : list nat) (lk : links) : links :=
  match ids with
  | i :: ((j :: _) as rest) =>
      link_pairs rest (set_upper (set_lower lk (PProc i) (PProc j)) (PProc j) (PProc i))
  | _ => lk
  end.

(** ustack_default.go:123-139 build: fresh decks, then the links, in the order
    of the code.  [ids] are the appended processor instances. *)
Definition build_links (ids : list nat) (lk0 : links) : links :=
  match ids with
  | [] => set_upper (set_lower lk0 PUpper PLower) PLower PUpper
  | i :: _ =>
      let n := List.last ids i in
      let lk := link_pairs ids (set_upper (set_lower lk0 PUpper (PProc i)) (PProc i) PUpper) in
      set_upper (set_lower lk (PProc n) PLower) PLower (PProc n)
  end.

(** ustack_default.go:141-145: [u.overhead] is added to, never reset. *)
Definition build_overhead (kinds : list kind) (overhead : Z) : Z :=
  foldl (fun o k => o + overhead_of k)%Z overhead kinds.

(** ** State *)

(** The mutable fields of one processor instance. *)
Record pst := Pst { ps_cache : option vbuf; ps_tx : Z; ps_rx : Z }.

(** What the outside sees. *)
Inductive out :=
| OWire (c : conn) (l : list byte)       (* bytes a byte connection accepted *)
| ORef (c : conn) (m : msg)              (* object handed to a reference connection *)
| ODeliver (session : Z) (c : option conn) (m : msg)  (* put into the endpoint's rx channel *)
| ORefresh (i : nat) (c : conn)          (* Heartbeat i set its monitor of c to now *)
| OShow (i : nat) (name : list byte) (tx rx : Z)  (* StatCounter i printed what a peer counted *)
| OClose (c : conn)                      (* connection.Close() by the lower deck *)
| OClosedEvent (c : conn).               (* ConnectionClosed published *)

Inductive dir := Down | Up.

(** [s_visits] is a ghost log of the processor calls, with their contexts. *)
Record st := St { s_ps : list pst; s_out : list out; s_visits : list (nat * dir * ctx) }.
Definition emit (s : st) (l : list out) : st := St (s_ps s) (s_out s ++ l) (s_visits s).
Definition visit (s : st) (i : nat) (d : dir) (x : ctx) : st :=
  St (s_ps s) (s_out s) (s_visits s ++ [(i, d, x)]).
Definition set_ps (s : st) (i : nat) (p : pst) : st := St (<[i := p]> (s_ps s)) (s_out s) (s_visits s).
Definition cache_of (s : st) (i : nat) : option vbuf := p ← s_ps s !! i; ps_cache p.
Definition set_cache (s : st) (i : nat) (c : vbuf) : st :=
  match s_ps s !! i with
  | Some p => set_ps s i (Pst (Some c) (ps_tx p) (ps_rx p))
  | None => s
  end.
(** [counter++] on a uint64 *)
Definition inc64 (z : Z) : Z := ((z + 1) mod 2^64)%Z.
Definition inc_tx (s : st) (i : nat) : st :=
  match s_ps s !! i with
  | Some p => set_ps s i (Pst (ps_cache p) (inc64 (ps_tx p)) (ps_rx p))
  | None => s
  end.
Definition inc_rx (s : st) (i : nat) : st :=
  match s_ps s !! i with
  | Some p => set_ps s i (Pst (ps_cache p) (ps_tx p) (inc64 (ps_rx p)))
  | None => s
  end.

(** The stack and its surroundings.  The results of connection.Write and
    SetReference may depend on everything that happened before. *)
Record env := Env {
  e_links : links;
  e_procs : list proc;                          (* instance i *)
  e_mtu : Z;
  e_overhead : Z;
  e_name : list byte;                           (* the stack's name *)
  e_sessions : list Z;                          (* sessions of the upper deck's endpoints *)
  e_isref : conn -> bool;                       (* connection.UseReference() *)
  e_write : list out -> conn -> writer;         (* connection.Write *)
  e_setref : list out -> conn -> msg -> bool }. (* connection.SetReference, true = error *)

Inductive outcome := Done (x : ctx) (s : st) | Crash (s : st).

(** ** The decks *)

(** proc_upperdeck.go:105-120 OnLowerData (the endpoint's channel has room) *)
Definition upper_recv (E : env) (x : ctx) (s : st) : outcome :=
  match cx_msg x with
  | None => Done x s
  | Some m =>
      let session := option_int (cx_session x) 0 in
      if decide (session ∈ e_sessions E) then Done x (emit s [ODeliver session (cx_conn x) m])
      else Done x s
  end.

(** proc_lowerdeck.go:22-32 closeConnection *)
Definition close_conn (c : conn) (s : st) : st := emit s [OClose c; OClosedEvent c].

(** proc_lowerdeck.go:98-120 OnUpperData; tran_reference.go:126-128 refuses
    nil. *)
Definition lower_send (E : env) (x : ctx) (s : st) : outcome :=
  match cx_conn x with
  | None => Done x s
  | Some c =>
      if e_isref E c then
        match cx_msg x with
        | None => Done x (close_conn c s)
        | Some m =>
            if e_setref E (s_out s) c m then Done x (close_conn c s)
            else Done x (emit s [ORef c m])
        end
      else
        match cx_buf x with
        | None => Done x s
        | Some ub =>
            match v_writeto (e_write E (s_out s) c) ub with
            | Panic _ => Crash s
            | Ok (offered, n, err) ub' =>
                let s1 := match offered with
                          | Some l => emit s [OWire c (take n l)]
                          | None => s
                          end in
                match err with
                | Some _ => Done (set_buf x (Some ub')) (close_conn c s1)
                | None => Done (set_buf x (Some ub')) s1
                end
            end
        end
  end.

(** ** The processors *)

(** A call to a neighbour: [None] = out of fuel. *)
Definition callfn := ctx -> st -> option outcome.

(** [UBufAllocWithHeadReserved(ustack.GetMTU(), ustack.GetOverhead())] *)
Definition new_ubuf (E : env) : option vbuf := v_alloc (e_mtu E) (e_overhead E).

(** [ub.Write(data); if n == 0 || err != nil return; SetBuffer; lower] shared by
    the Bytes, String and JSON codecs (proc_codec_bytes.go:34-46,
    proc_codec_string.go:34-46, proc_codec_json.go:42-54). *)
Definition codec_write (E : env) (data : list byte) (down : callfn) (x : ctx) (s : st) : option outcome :=
  match new_ubuf E with
  | None => Some (Crash s)
  | Some ub =>
      match v_write data ub with
      | Panic _ => Some (Crash s)
      | Ok (n, err) ub' =>
          match n, err with
          | 0, _ | _, Some _ => Some (Done x s)
          | _, None => down (set_buf x (Some ub')) s
          end
      end
  end.

(** Reading everything from the buffer (proc_codec_bytes.go:50-62 and the same
    lines of the String and JSON codecs); the continuation gets the bytes. *)
Definition codec_read (x : ctx) (s : st) (k : list byte -> vbuf -> option outcome) : option outcome :=
  match cx_buf x with
  | None => Some (Done x s)
  | Some ub =>
      match v_read (v_rlen ub) ub with
      | Panic _ => Some (Crash s)
      | Ok (data, err) ub' =>
          match data, err with
          | [], _ | _, Some _ => Some (Done (set_buf x (Some ub')) s)
          | _, None => k data ub'
          end
      end
  end.

(** [context.GetConnection().UseReference()]; a nil connection panics. *)
Definition by_reference (E : env) (x : ctx) (s : st)
  (ref : option outcome) (bytes : option outcome) : option outcome :=
  match cx_conn x with
  | None => Some (Crash s)
  | Some c => if e_isref E c then ref else bytes
  end.

(** [ub := context.GetBuffer(); if ub == nil { return }] *)
Definition with_buf (x : ctx) (s : st) (k : vbuf -> option outcome) : option outcome :=
  match cx_buf x with None => Some (Done x s) | Some ub => k ub end.

(** A header written with its error ignored. *)
Definition head_ignore (r : res vbuf (option uerr)) (x : ctx) (s : st) (down : callfn) : option outcome :=
  match r with
  | Panic _ => Some (Crash s)
  | Ok _ ub' => down (set_buf x (Some ub')) s
  end.

(** proc_filter.go:32-39 doFilter / proc_forwarder.go:32-39 doForward; [None]
    is the panic of calling a nil function. *)
Fixpoint any_fn (fns : list ctxfn) (x : ctx) (toUpper : bool) : option bool :=
  match fns with
  | [] => Some false
  | None :: _ => None
  | Some f :: fns' => if f x toUpper then Some true else any_fn fns' x toUpper
  end.

(** Loops of the frame decoder (proc_frame_decoder.go:66-117 and 123-166) with
    the calls to the upper processor.  A nil cache (before Run) panics. *)
Fixpoint frame_cur (n : nat) (i : nat) (up : callfn) (x : ctx) (s : st) (ub : vbuf) : option outcome :=
  match n with
  | 0 => None
  | S n' =>
      match cache_of s i with
      | None => Some (Crash s)
      | Some cache =>
          match fd_cur_step cache ub with
          | (FdStop, c', _) => Some (Done x (set_cache s i c'))
          | (FdLast, c', ub') => up (set_buf x (Some ub')) (set_cache s i c')
          | (FdPanic, c', _) => Some (Crash (set_cache s i c'))
          | (FdNew nb, c', ub') =>
              match up (set_buf x (Some nb)) (set_cache s i c') with
              | Some (Done x' s') => frame_cur n' i up x' s' ub'
              | r => r
              end
          end
      end
  end.

Fixpoint frame_cached (n : nat) (i : nat) (up : callfn) (x : ctx) (s : st) : option outcome :=
  match n with
  | 0 => None
  | S n' =>
      match cache_of s i with
      | None => Some (Crash s)
      | Some cache =>
          match fd_cached_step cache with
          | (FdPanic, c') => Some (Crash (set_cache s i c'))
          | (FdNew nb, c') =>
              match up (set_buf x (Some nb)) (set_cache s i c') with
              | Some (Done x' s') => frame_cached n' i up x' s'
              | r => r
              end
          | (_, c') => Some (Done x (set_cache s i c'))
          end
      end
  end.

(** proc_frame_decoder.go:57-62, 181-186.  The loop bounds are the lengths of
    chunk and cache plus one: every iteration that loops consumes at least five
    bytes. *)
Definition frame_recv (i : nat) (up : callfn) (x : ctx) (s : st) (ub : vbuf) : option outcome :=
  match cache_of s i with
  | None => Some (Crash s)
  | Some cache =>
      let first :=
        if 0 <? v_rlen cache then
          match ub_readfrom None cache ub with
          | Ok _ (c', _) => Some (Done x (set_cache s i c'))
          | Panic (c', _) => Some (Crash (set_cache s i c'))
          end
        else frame_cur (S (v_rlen ub)) i up x s ub in
      match first with
      | Some (Done x' s') =>
          frame_cached (S (match cache_of s' i with Some c => v_rlen c | None => 0 end)) i up x' s'
      | r => r
      end
  end.

(** proc_stat_counter.go:79-93 response, up to the call of the lower processor:
    the errors of the writes are ignored. *)
Definition stat_response (E : env) (tx rx : Z) : res vbuf unit :=
  match new_ubuf E with
  | None => Panic (VB 0 0 0 (make_store 0))
  | Some ub =>
      match v_headbyte 35%Z ub with Panic b => Panic b | Ok _ b1 =>
      match v_writeU BE W64 tx b1 with Panic b => Panic b | Ok _ b2 =>
      match v_writeU BE W64 rx b2 with Panic b => Panic b | Ok _ b3 =>
      match v_write (e_name E) b3 with Panic b => Panic b | Ok _ b4 => Ok tt b4
      end end end end
  end.

(** proc_stat_counter.go:96-106 show: two integers and 128 bytes are read from
    the buffer, errors ignored, and printed: the name (with zero bytes where
    there was nothing to read), txCounter and rxCounter. *)
Definition stat_show (ub : vbuf) : res vbuf (list byte * Z * Z) :=
  match v_readU BE W64 ub with Panic b => Panic b | Ok (tx, _) b1 =>
  match v_readU BE W64 b1 with Panic b => Panic b | Ok (rx, _) b2 =>
  match v_read 128 b2 with Panic b => Panic b | Ok (l, _) b3 =>
    Ok (l ++ replicate (128 - length l) 0%Z, tx, rx) b3
  end end end.

Section procs.
  Context (E : env) (i : nat) (enable : bool).
  (** The four calls a processor can make: [lower.OnUpperData],
      [upper.OnLowerData], and, by mistake, [upper.OnUpperData]. *)
  Context (down up updown : callfn).

  (** OnUpperData of each processor type. *)
  Definition on_upper (k : kind) (x : ctx) (s : st) : option outcome :=
    match k with
    | KBase => Some (Done x s)                          (* proc_base.go:111-112 *)
    | KBytes =>                                         (* proc_codec_bytes.go:21-47 *)
        if enable then
          match cx_msg x with
          | Some (MBytes l) => codec_write E l down x s
          | _ => Some (Done x s)
          end
        else down x s
    | KString =>                                        (* proc_codec_string.go:21-47 *)
        if enable then
          match cx_msg x with
          | Some (MStr l) => codec_write E l down x s
          | _ => Some (Done x s)
          end
        else down x s
    | KJson marshal _ =>                                (* proc_codec_json.go:29-55 *)
        if enable then
          match cx_msg x with
          | None => Some (Done x s)
          | Some m =>
              match marshal m with
              | None => Some (Done x s)
              | Some l => codec_write E l down x s
              end
          end
        else down x s
    | KGob encode _ =>                                  (* proc_codec_gob.go:29-50 *)
        if enable then
          match cx_msg x with
          | None => Some (Done x s)
          | Some m =>
              match new_ubuf E with
              | None => Some (Crash s)
              | Some ub =>
                  match encode m ub with
                  | Panic _ => Some (Crash s)
                  | Ok true _ => Some (Done x s)
                  | Ok false ub' => down (set_buf x (Some ub')) s
                  end
              end
          end
        else down x s
    | KGeneric encoder _ =>                             (* proc_codec_generic.go:44-71 *)
        if enable then
          match encoder with
          | None => Some (Done x s)
          | Some encode =>
              match cx_msg x with
              | None => Some (Done x s)
              | Some m =>
                  match new_ubuf E with
                  | None => Some (Crash s)
                  | Some ub =>
                      match encode m ub with
                      | Panic _ => Some (Crash s)
                      | Ok true _ => Some (Done x s)
                      | Ok false ub' => down (set_buf x (Some ub')) s
                      end
                  end
              end
          end
        else down x s
    | KDiscarder | KEcho | KFlow => down x s   (* proc_discarder.go:23-25, proc_echo.go:23-25, proc_flow_controller.go:23-29 *)
    | KFilter fns =>                                    (* proc_filter.go:42-51 *)
        if enable then
          match any_fn fns x false with
          | None => Some (Crash s)
          | Some false => Some (Done x (inc_tx s i))
          | Some true => down x s
          end
        else down x s
    | KForwarder fns =>                                 (* proc_forwarder.go:42-51 *)
        if enable then
          match any_fn fns x false with
          | None => Some (Crash s)
          | Some true => Some (Done x (inc_tx s i))
          | Some false => down x s
          end
        else down x s
    | KFrame _ =>                                       (* proc_frame_decoder.go:37-54 *)
        by_reference E x s (updown x s)
          (if enable then with_buf x s (fun ub =>
             head_ignore (v_headU BE W32 (Z.of_nat (v_rlen ub) mod 2^32)%Z ub) x s down)
           else down x s)
    | KHeartbeat =>                                     (* proc_heartbeat.go:95-109 *)
        by_reference E x s (down x s)
          (with_buf x s (fun ub => head_ignore (v_headbyte 0%Z ub) x s down))
    | KLoadBalancer =>                                  (* proc_load_balancer.go:39-58 *)
        by_reference E x s (down x s)
          (with_buf x s (fun ub =>
             head_ignore (v_headbyte (if enable then 17 else 0)%Z ub) x s down))
    | KLoopback => up x s                               (* proc_loopback.go:23-26 *)
    | KSession =>                                       (* proc_session_resolver.go:29-45 *)
        if enable then
          with_buf x s (fun ub =>
            match v_headU BE W32 (option_int (cx_session x) 0 mod 2^32)%Z ub with
            | Panic _ => Some (Crash s)
            | Ok (Some _) ub' => Some (Done (set_buf x (Some ub')) s)
            | Ok None ub' => down (set_buf x (Some ub')) s
            end)
        else down x s
    | KStat =>                                          (* proc_stat_counter.go:43-62 *)
        by_reference E x s (down x s)
          (with_buf x s (fun ub =>
             let s1 := if enable then inc_tx s i else s in
             head_ignore (v_headbyte 0%Z ub) x s1 down))
    end.

  (** OnLowerData of each processor type. *)
  Definition on_lower (k : kind) (x : ctx) (s : st) : option outcome :=
    match k with
    | KBase | KLoopback => Some (Done x s)              (* proc_base.go:115-116 *)
    | KBytes =>                                         (* proc_codec_bytes.go:50-68 *)
        if enable then
          codec_read x s (fun data ub' => up (set_msg (set_buf x (Some ub')) (Some (MBytes data))) s)
        else up x s
    | KString =>                                        (* proc_codec_string.go:50-68 *)
        if enable then
          codec_read x s (fun data ub' => up (set_msg (set_buf x (Some ub')) (Some (MStr data))) s)
        else up x s
    | KJson _ unmarshal =>                              (* proc_codec_json.go:58-83 *)
        if enable then
          codec_read x s (fun data ub' =>
            match unmarshal data with
            | None => Some (Done (set_buf x (Some ub')) s)
            | Some m => up (set_msg (set_buf x (Some ub')) (Some m)) s
            end)
        else up x s
    | KGob _ decode =>                                  (* proc_codec_gob.go:53-71 *)
        if enable then
          with_buf x s (fun ub =>
            match decode ub with
            | Panic _ => Some (Crash s)
            | Ok None ub' => Some (Done (set_buf x (Some ub')) s)
            | Ok (Some m) ub' => up (set_msg (set_buf x (Some ub')) (Some m)) s
            end)
        else up x s
    | KGeneric _ decoder =>                             (* proc_codec_generic.go:74-96 *)
        if enable then
          match decoder with
          | None => Some (Done x s)
          | Some decode =>
              with_buf x s (fun ub =>
                match decode ub with
                | Panic _ => Some (Crash s)
                | Ok (_, true) ub' => Some (Done (set_buf x (Some ub')) s)
                | Ok (m, false) ub' => up (set_msg (set_buf x (Some ub')) m) s
                end)
          end
        else up x s
    | KDiscarder => if enable then Some (Done x s) else up x s   (* proc_discarder.go:28-34 *)
    | KEcho => if enable then down x s else up x s               (* proc_echo.go:28-35 *)
    | KFlow => up x s                                            (* proc_flow_controller.go:32-38 *)
    | KFilter fns =>                                    (* proc_filter.go:54-63 *)
        if enable then
          match any_fn fns x true with
          | None => Some (Crash s)
          | Some false => Some (Done x (inc_rx s i))
          | Some true => up x s
          end
        else up x s
    | KForwarder fns =>                                 (* proc_forwarder.go:54-63 *)
        if enable then
          match any_fn fns x true with
          | None => Some (Crash s)
          | Some true => Some (Done x (inc_rx s i))
          | Some false => up x s
          end
        else up x s
    | KFrame _ =>                                       (* proc_frame_decoder.go:170-190 *)
        by_reference E x s (up x s)
          (with_buf x s (fun ub => if enable then frame_recv i up x s ub else up x s))
    | KHeartbeat =>                                     (* proc_heartbeat.go:112-136 *)
        by_reference E x s (up x s)
          (with_buf x s (fun ub =>
             match v_readbyte ub with
             | Panic _ => Some (Crash s)
             | Ok (_, Some _) ub' => Some (Done (set_buf x (Some ub')) s)
             | Ok (tag, None) ub' =>
                 let x' := set_buf x (Some ub') in
                 if (tag =? 131)%Z then
                   Some (Done x' (match cx_conn x with Some c => emit s [ORefresh i c] | None => s end))
                 else up x' s
             end))
    | KLoadBalancer =>                                  (* proc_load_balancer.go:61-85 *)
        by_reference E x s (up x s)
          (with_buf x s (fun ub =>
             match v_readbyte ub with
             | Panic _ => Some (Crash s)
             | Ok (_, Some _) ub' => Some (Done (set_buf x (Some ub')) s)
             | Ok (tag, None) ub' =>
                 let x' := set_buf x (Some ub') in
                 if enable && negb (tag =? 0)%Z then Some (Done x' s) else up x' s
             end))
    | KSession =>                                       (* proc_session_resolver.go:48-64 *)
        if enable then
          with_buf x s (fun ub =>
            match v_readU BE W32 ub with
            | Panic _ => Some (Crash s)
            | Ok (_, Some _) ub' => Some (Done (set_buf x (Some ub')) s)
            | Ok (v, None) ub' => up (set_session (set_buf x (Some ub')) (Some (OInt v))) s
            end)
        else up x s
    | KStat =>                                          (* proc_stat_counter.go:109-143 *)
        by_reference E x s (up x s)
          (with_buf x s (fun ub =>
             match v_readbyte ub with
             | Panic _ => Some (Crash s)
             | Ok (_, Some _) ub' => Some (Done (set_buf x (Some ub')) s)
             | Ok (tag, None) ub' =>
                 let x' := set_buf x (Some ub') in
                 if enable then
                   if (tag =? 16)%Z then
                     match s_ps s !! i with
                     | None => Some (Crash s)
                     | Some p =>
                         match stat_response E (ps_tx p) (ps_rx p) with
                         | Panic _ => Some (Crash s)
                         | Ok _ rb => down (set_buf x' (Some rb)) s
                         end
                     end
                   else if (tag =? 35)%Z then
                     match stat_show ub' with
                     | Panic _ => Some (Crash s)
                     | Ok (name, tx, rx) ub2 => Some (Done (set_buf x' (Some ub2)) (emit s [OShow i name tx rx]))
                     end
                   else up x' (inc_rx s i)
                 else up x' s
             end))
    end.
End procs.

(** ** Running a call *)
Fixpoint exec (fuel : nat) (E : env) (d : dir) (p : option pid) (x : ctx) (s : st) : option outcome :=
  match fuel with
  | 0 => None
  | S f =>
      match p with
      | None => Some (Crash s)                       (* call on a nil interface *)
      | Some PUpper => Some (match d with Down => Done x s | Up => upper_recv E x s end)
      | Some PLower => Some (match d with Down => lower_send E x s | Up => Done x s end)
      | Some (PProc i) =>
          match e_procs E !! i with
          | None => Some (Crash s)
          | Some pr =>
              let down := exec f E Down (l_lower (e_links E) (PProc i)) in
              let up := exec f E Up (l_upper (e_links E) (PProc i)) in
              let updown := exec f E Down (l_upper (e_links E) (PProc i)) in
              let s' := visit s i d x in
              match d with
              | Down => on_upper E i (p_enable pr) down up updown (p_kind pr) x s'
              | Up => on_lower E i (p_enable pr) down up (p_kind pr) x s'
              end
          end
      end
  end.

(** ** Calls from outside *)

(** proc_upperdeck.go:54-64: a message taken from an endpoint's tx channel;
    [dest] is its destination session if set, else the endpoint's session. *)
Definition send (fuel : nat) (E : env) (session : Z) (dest : option Z) (c : option conn) (m : option msg)
  (s : st) : option outcome :=
  exec fuel E Down (l_lower (e_links E) PUpper)
    (Ctx c None m (Some (OInt (match dest with Some d => d | None => session end)))) s.

(** proc_lowerdeck.go:73-84: a chunk of bytes read from a byte connection. *)
Definition receive (fuel : nat) (E : env) (c : conn) (l : list byte) (s : st) : option outcome :=
  exec fuel E Up (l_upper (e_links E) PLower)
    (Ctx (Some c) (Some (rx_chunk (Z.to_nat (e_mtu E)) l)) None None) s.

(** proc_lowerdeck.go:61-71: an object got from a reference connection. *)
Definition receive_ref (fuel : nat) (E : env) (c : conn) (m : msg) (s : st) : option outcome :=
  exec fuel E Up (l_upper (e_links E) PLower) (Ctx (Some c) None (Some m) None) s.

(** A processor's own message: proc_heartbeat.go:154-163 with tag 0x83,
    proc_stat_counter.go:65-76 with tag 0x10. *)
Definition self_message (fuel : nat) (E : env) (i : nat) (tag : byte) (c : conn) (s : st) : option outcome :=
  match new_ubuf E with
  | None => Some (Crash s)
  | Some ub =>
      match v_writebyte tag ub with
      | Panic _ => Some (Crash s)
      | Ok _ ub' =>
          exec fuel E Down (l_lower (e_links E) (PProc i)) (Ctx (Some c) (Some ub') None None) s
      end
  end.

(** The processors' Run (proc_frame_decoder.go:193-205): the frame decoder's
    cache is allocated; [None] is log.Panicf. *)
Definition init_pst (mtu : Z) (p : proc) : option pst :=
  match p_kind p with
  | KFrame cap =>
      match v_alloc (option_int cap (2 * mtu)) 0 with
      | None => None
      | Some c => Some (Pst (Some c) 0 0)
      end
  | _ => Some (Pst None 0 0)
  end.
Definition init_st (E : env) : option st :=
  match mapM (init_pst (e_mtu E)) (e_procs E) with
  | None => None
  | Some l => Some (St l [] [])
  end.
