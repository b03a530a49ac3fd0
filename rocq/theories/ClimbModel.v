(** * Model of the goroutines of a stack inside the processors

    Each connection has a goroutine that reads and calls the processors
    (proc_lowerdeck.go:35-96), each of which may call the one above it, or, as an
    echo or a response, the one below it; each endpoint has one that sends
    (proc_upperdeck.go:50-65), and Heartbeats and StatCounters have some that send
    messages of their own.  Here every call of a processor is a step of its own.
    So the calls of several goroutines may be inside the processors at the same
    time, each before another processor, which they share.

    Simplifications: what one processor does to one chunk is one step (its
    counters: TallyModel; its maps: RaceModel), and so is a deck; a processor that
    calls others several times in one call, the frame decoder, does not step here
    (MixModel has it); switches are not used meanwhile (GrainModel has them); the
    channels of the endpoints have room (NetModel has them). *)
From Verif Require Export GoBase UBufModel FrameModel StackModel.
From stdpp Require Export functions.

(** A call of instance [i], which may call its neighbours by [dn], [up] and
    [ud]: the case of [exec] for processors. *)
Definition one_call (E : env) (d : dir) (i : nat) (pr : proc) (dn up ud : callfn) (x : ctx) (s : st) : option outcome :=
  match d with
  | Down => on_upper E i (p_enable pr) dn up ud (p_kind pr) x (visit s i d x)
  | Up => on_lower E i (p_enable pr) dn up (p_kind pr) x (visit s i d x)
  end.

(** The call of [p] ends with a call of [p'], which is nil or a neighbour. *)
Inductive calls (E : env) : dir -> option pid -> ctx -> st -> dir -> option pid -> ctx -> st -> Prop :=
| calls_down d i pr x s x' s' : e_procs E !! i = Some pr ->
    (forall dn up ud, one_call E d i pr dn up ud x s = dn x' s') ->
    calls E d (Some (PProc i)) x s Down (l_lower (e_links E) (PProc i)) x' s'
| calls_up d i pr x s x' s' : e_procs E !! i = Some pr ->
    (forall dn up ud, one_call E d i pr dn up ud x s = up x' s') ->
    calls E d (Some (PProc i)) x s Up (l_upper (e_links E) (PProc i)) x' s'.
(** It ends without calling another one: by returning or by a panic. *)
Inductive ends (E : env) : dir -> option pid -> ctx -> st -> outcome -> Prop :=
| ends_nil d x s : ends E d None x s (Crash s)
| ends_none d i x s : e_procs E !! i = None -> ends E d (Some (PProc i)) x s (Crash s)
| ends_proc d i pr x s r : e_procs E !! i = Some pr ->
    (forall dn up ud, one_call E d i pr dn up ud x s = Some r) -> ends E d (Some (PProc i)) x s r
(** proc_upperdeck.go:105-120 *)
| ends_upper x s : ends E Up (Some PUpper) x s (upper_recv E x s)
| ends_upper_down x s : ends E Down (Some PUpper) x s (Done x s)
(** proc_lowerdeck.go:98-120 *)
| ends_lower x s : ends E Down (Some PLower) x s (lower_send E x s)
| ends_lower_up x s : ends E Up (Some PLower) x s (Done x s).

(** What a goroutine starts: see [receive], [receive_ref], [send] and
    [self_message] of StackModel. *)
Inductive job :=
| JRead (c : conn) (l : list byte)                                       (* proc_lowerdeck.go:73-84 *)
| JRef (c : conn) (m : msg)                                              (* proc_lowerdeck.go:61-71 *)
| JSend (session : Z) (dest : option Z) (c : option conn) (m : option msg)  (* proc_upperdeck.go:54-64 *)
| JSelf (i : nat) (tag : byte) (c : conn).                               (* proc_heartbeat.go:154-163, proc_stat_counter.go:65-76 *)
(** Its first call of a processor; [None]: it panics before. *)
Definition first_call (E : env) (j : job) : option (dir * option pid * ctx) :=
  match j with
  | JRead c l => Some (Up, l_upper (e_links E) PLower, Ctx (Some c) (Some (rx_chunk (Z.to_nat (e_mtu E)) l)) None None)
  | JRef c m => Some (Up, l_upper (e_links E) PLower, Ctx (Some c) None (Some m) None)
  | JSend session dest c m => Some (Down, l_lower (e_links E) PUpper,
      Ctx c None m (Some (OInt (match dest with Some d => d | None => session end))))
  | JSelf i tag c =>
      match new_ubuf E with
      | None => None
      | Some ub =>
          match v_writebyte tag ub with
          | Panic _ => None
          | Ok _ ub' => Some (Down, l_lower (e_links E) (PProc i), Ctx (Some c) (Some ub') None None)
          end
      end
  end.

Record ust := Ust {
  u_st : st;
  u_at : nat -> option (dir * option pid * ctx);    (* what the goroutine calls next *)
  u_dead : bool;                                    (* the program crashed *)
  u_log : list (nat * out) }.                      (* ghost: what was shown, by whose goroutine *)

Inductive ulab :=
| UStart (c : nat) (j : job)
| UFail (c : nat) (j : job)
| UCall (c : nat)
| UEnd (c : nat)
| UCrash (c : nat).

Inductive ustep (E : env) : ust -> ulab -> ust -> Prop :=
| uk_start s at_ lg c j y : at_ c = None -> first_call E j = Some y ->
    ustep E (Ust s at_ false lg) (UStart c j) (Ust s (<[c := Some y]> at_) false lg)
| uk_fail s at_ lg c j : at_ c = None -> first_call E j = None ->
    ustep E (Ust s at_ false lg) (UFail c j) (Ust s at_ true lg)
| uk_call s at_ lg c d p x d' p' x' s' : at_ c = Some (d, p, x) -> calls E d p x s d' p' x' s' ->
    ustep E (Ust s at_ false lg) (UCall c) (Ust s' (<[c := Some (d', p', x')]> at_) false lg)
| uk_end s at_ lg c d p x x' s' outs : at_ c = Some (d, p, x) -> ends E d p x s (Done x' s') -> s_out s' = s_out s ++ outs ->
    ustep E (Ust s at_ false lg) (UEnd c) (Ust s' (<[c := None]> at_) false (lg ++ (pair c <$> outs)))
(** No panic is recovered: all goroutines stop. *)
| uk_crash s at_ lg c d p x s' : at_ c = Some (d, p, x) -> ends E d p x s (Crash s') ->
    ustep E (Ust s at_ false lg) (UCrash c) (Ust s' at_ true lg).

Definition new_climb (s : st) : ust := Ust s (fun _ => None) false [].
