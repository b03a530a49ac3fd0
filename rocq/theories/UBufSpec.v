(** * Specification of a UBuf as a byte deque

    Independent of the model's indices, storage and sharing: a deque is a list
    of bytes with some room before it and some room after it.  Only the result
    type [out] and the call names [op] are shared with the model. *)
From Verif Require Import GoBase UBufModel.

(** [q_res]: room before the data restored by Reset; [q_head], [q_tail]: room
    before and after the data. *)
Record deque := DQ { q_res : nat; q_head : nat; q_data : list byte; q_tail : nat }.

Definition q_cap (q : deque) : nat := q_head q + length (q_data q) + q_tail q.

(** A fresh buffer of the given capacity with [res] bytes of head room. *)
Definition q_new (capacity res : nat) : deque := DQ res res [] (capacity - res).

(** Append [l], which must fit. *)
Definition q_append (q : deque) (l : list byte) : deque :=
  DQ (q_res q) (q_head q) (q_data q ++ l) (q_tail q - length l).
(** Prepend [l], which must fit. *)
Definition q_prepend (q : deque) (l : list byte) : deque :=
  DQ (q_res q) (q_head q - length l) (l ++ q_data q) (q_tail q).
(** Remove [n] bytes at the front; the room before the data grows. *)
Definition q_pop (q : deque) (n : nat) : deque :=
  DQ (q_res q) (q_head q + n) (drop n (q_data q)) (q_tail q).

Definition q_empty (q : deque) : bool := match q_data q with [] => true | _ => false end.

(** Effect and result of one call. *)
Definition q_step (o : op) (q : deque) : out * deque :=
  match o with
  | OpWriteByte c =>
      if q_tail q =? 0 then (RErr (Some EFull), q) else (RErr None, q_append q [c])
  | OpWrite p =>
      if q_tail q =? 0 then (RCount 0 (Some EFull), q)
      else if length p <=? q_tail q then (RCount (length p) None, q_append q p)
      else (RCount (q_tail q) (Some EPartial), q_append q (take (q_tail q) p))
  | OpWriteU o w v =>
      if q_tail q <? wbytes w then (RErr (Some ENoFree), q)
      else (RErr None, q_append q (enc o w v))
  | OpWriteTo wr =>
      if q_empty q then (ROffer None 0 None, q)
      else let '(n, failed) := wr (q_data q) in
           if failed then (ROffer (Some (q_data q)) n (Some EIO), q)
           else (ROffer (Some (q_data q)) n None, q_pop q n)
  | OpReadByte =>
      match q_data q with
      | [] => (RVal 0 (Some EEmpty), q)
      | b :: _ => (RVal b None, q_pop q 1)
      end
  | OpRead n =>
      if q_empty q then (RBytes [] None, q)
      else if n <=? length (q_data q) then (RBytes (take n (q_data q)) None, q_pop q n)
      else (RBytes (q_data q) (Some ENoMoreRead), q_pop q (length (q_data q)))
  | OpReadU o w =>
      if length (q_data q) <? wbytes w then (RVal 0 (Some ENoData), q)
      else (RVal (dec o (take (wbytes w) (q_data q))) None, q_pop q (wbytes w))
  | OpReadFrom r =>
      if q_tail q =? 0 then (RCount 0 None, q)
      else let '(l, failed) := r (q_tail q) in
           if failed then (RCount 0 (Some EIO), q)
           else (RCount (length l) None, q_append q l)
  | OpPeek n =>
      if q_empty q then (RBytes [] (Some EPeek), q)
      else if n <=? length (q_data q) then (RBytes (take n (q_data q)) None, q)
      else (RBytes (q_data q) (Some EPeekMore), q)
  | OpPeekByte =>
      match q_data q with
      | [] => (RVal 0 (Some EPeek), q)
      | b :: _ => (RVal b None, q)
      end
  | OpPeekU o w =>
      if length (q_data q) <? wbytes w then (RVal 0 (Some EPeek), q)
      else (RVal (dec o (take (wbytes w) (q_data q))) None, q)
  | OpHeadByte c =>
      if q_head q <? 1 then (RErr (Some EHead), q) else (RErr None, q_prepend q [c])
  | OpHeadBytes p =>
      if q_head q <? length p then (RErr (Some EHead), q)
      else if (length p =? 0) && q_empty q && (q_tail q =? 0)
           (* an empty head write reports "full" when the data would start at
              the very end of the storage *)
           then (RErr (Some EFull), q)
      else (RErr None, q_prepend q p)
  | OpHeadU o w v =>
      if q_head q <? wbytes w then (RErr (Some EHead), q)
      else (RErr None, q_prepend q (enc o w v))
  | OpReset => (RUnit, DQ (q_res q) (q_res q) [] (q_cap q - q_res q))
  | OpLens => (RLens (q_cap q) (q_head q) (length (q_data q)) (q_tail q), q)
  end.

Fixpoint q_run (ops : list op) (q : deque) : list out * deque :=
  match ops with
  | [] => ([], q)
  | o :: ops' => let '(x, q') := q_step o q in
                 let '(xs, q'') := q_run ops' q' in (x :: xs, q'')
  end.

(** The io.Reader / io.Writer contracts: never more than offered. *)
Definition op_ok (o : op) : Prop :=
  match o with
  | OpReadFrom r => forall n, length (fst (r n)) <= n
  | OpWriteTo w => forall l, fst (w l) <= length l
  | _ => True
  end.

(** ** Families of buffers related by copy-on-write snapshots

    Every handle is an independent deque.  The only thing remembered about
    sharing is a family number: a copy-on-write snapshot joins the family of its
    source, everything else starts a new family, and a successful write takes
    the writer out of its family. *)
Record fam := Fam { f_id : nat; f_q : deque }.
Record fworld := FW { f_next : nat; f_bufs : list fam }.
Definition fw0 : fworld := FW 0 [].

(** Calls that write to the storage when there is room. *)
Definition writes (o : op) (q : deque) : bool :=
  match o with
  | OpWriteByte _ | OpWrite _ | OpReadFrom _ => negb (q_tail q =? 0)
  | OpWriteU _ w _ => wbytes w <=? q_tail q
  | OpHeadByte _ => 1 <=? q_head q
  | OpHeadBytes p => (length p <=? q_head q)
                     && negb ((length p =? 0) && q_empty q && (q_tail q =? 0))
  | OpHeadU _ w _ => wbytes w <=? q_head q
  | _ => false
  end.

Definition is_headwrite (o : op) : bool :=
  match o with OpHeadByte _ | OpHeadBytes _ | OpHeadU _ _ _ => true | _ => false end.

(** Does some other handle belong to the family of handle [h]? *)
Definition shared (s : fworld) (h : nat) : bool :=
  match f_bufs s !! h with
  | None => false
  | Some f => 2 <=? length (filter (fun g => f_id g = f_id f) (f_bufs s))
  end.

Definition f_step (o : wop) (s : fworld) : option (wout * fworld) :=
  match o with
  | WAlloc c r =>
      if ((0 <? c) && (0 <=? r) && (r <=? c))%Z
      then Some (WHandle (Some (length (f_bufs s))),
                 FW (S (f_next s)) (f_bufs s ++ [Fam (f_next s) (q_new (Z.to_nat c) (Z.to_nat r))]))
      else None
  | WFrom _ _ => None
  | WSnap None _ => Some (WHandle None, s)
  | WSnap (Some h) t =>
      match f_bufs s !! h with
      | None => None
      | Some f =>
          if (t =? 1)%Z then
            Some (WHandle (Some (length (f_bufs s))), FW (f_next s) (f_bufs s ++ [f]))
          else if (t =? 2)%Z then
            Some (WHandle (Some (length (f_bufs s))),
                  FW (S (f_next s)) (f_bufs s ++ [Fam (f_next s) (f_q f)]))
          else if (t =? 0)%Z then None
          else Some (WHandle None, s)
      end
  | WOp h o =>
      match f_bufs s !! h with
      | None => None
      | Some f =>
          let '(x, q') := q_step o (f_q f) in
          if writes o (f_q f)
          then Some (WOut x, FW (S (f_next s)) (<[h := Fam (f_next s) q']> (f_bufs s)))
          else Some (WOut x, FW (f_next s) (<[h := Fam (f_id f) q']> (f_bufs s)))
      end
  end.

(** The histories for which independence is claimed: allocation arguments are
    legal, handles exist, no Reference snapshots, no wrapped caller slices, the
    callers' readers and writers keep their contract, and no effective head
    write hits a buffer that is still sharing its storage. *)
Definition wop_ok (o : wop) (s : fworld) : Prop :=
  match o with
  | WAlloc c r => (0 < c /\ 0 <= r <= c)%Z
  | WFrom _ _ => False
  | WSnap None _ => True
  | WSnap (Some h) t => h < length (f_bufs s) /\ t <> 0%Z
  | WOp h o =>
      op_ok o /\
      exists f, f_bufs s !! h = Some f /\
                (is_headwrite o = true -> writes o (f_q f) = true -> shared s h = false)
  end.

Fixpoint f_run (ops : list wop) (s : fworld) : option (list wout * fworld) :=
  match ops with
  | [] => Some ([], s)
  | o :: ops' =>
      match f_step o s with
      | None => None
      | Some (x, s') => match f_run ops' s' with
                        | None => None
                        | Some (xs, s'') => Some (x :: xs, s'')
                        end
      end
  end.

Fixpoint history_ok (ops : list wop) (s : fworld) : Prop :=
  match ops with
  | [] => True
  | o :: ops' => wop_ok o s /\
                 match f_step o s with
                 | None => False
                 | Some (_, s') => history_ok ops' s'
                 end
  end.

(** ** Vocabulary of the property statements *)

(** A buffer some client obtained from a legal UBufAllocWithHeadReserved call
    (UBufAlloc is reserve 0) followed by any calls. *)
Definition reachable (b : vbuf) : Prop :=
  exists capacity reserved b0 ops,
    (0 < capacity /\ 0 <= reserved <= capacity)%Z /\
    v_alloc capacity reserved = Some b0 /\ Forall op_ok ops /\ snd (v_run ops b0) = b.

(** The base-256 digits of [v], most significant first. *)
Definition digits_be (n : nat) (v : Z) : list byte :=
  (fun i => ((v / 256 ^ Z.of_nat (n - 1 - i)) mod 256)%Z) <$> seq 0 n.
Definition digits (o : order) (w : width) (v : Z) : list byte :=
  match o with
  | LE => reverse (digits_be (wbytes w) v)
  | BE | Plain => digits_be (wbytes w) v
  end.

(** Calls that may append at the tail and do nothing else. *)
Definition tail_write (o : op) : Prop :=
  match o with
  | OpWriteByte _ | OpWrite _ | OpWriteU _ _ _ | OpReadFrom _ => True
  | _ => False
  end.

(** All-or-nothing calls that returned an error. *)
Definition all_or_nothing_failure (o : op) (x : out) : Prop :=
  match o, x with
  | (OpWriteByte _ | OpWriteU _ _ _ | OpHeadByte _ | OpHeadBytes _ | OpHeadU _ _ _), RErr (Some _) => True
  | (OpReadByte | OpReadU _ _ | OpPeekByte | OpPeekU _ _), RVal _ (Some _) => True
  | OpWriteTo _, ROffer _ _ (Some _) => True
  | OpReadFrom _, RCount _ (Some _) => True
  | _, _ => False
  end.

(** Handle(s) a call uses. *)
Definition uses (o : wop) (h : nat) : Prop :=
  match o with
  | WSnap (Some k) _ | WOp k _ => k = h
  | _ => False
  end.

(** What a client can see through handle [h]. *)
Definition seen (w : world) (h : nat) : option (nat * list byte * nat) :=
  (fun v => (v_hlen v, readable v, v_tlen v)) <$> view w h.

(** Number of CopyOnWrite snapshot calls in a history. *)
Fixpoint cow_snaps (ops : list wop) : nat :=
  match ops with
  | [] => 0
  | WSnap (Some _) t :: ops' => (if (t =? 1)%Z then 1 else 0) + cow_snaps ops'
  | _ :: ops' => cow_snaps ops'
  end.

(** Does another handle use the same storage? *)
Definition sharing (w : world) (h : nat) : Prop :=
  exists b h2 b2, bufs w !! h = Some b /\ h2 <> h /\ bufs w !! h2 = Some b2 /\ h_loc b2 = h_loc b.

(** Number of calls that create a buffer with its own storage. *)
Fixpoint made (ops : list wop) : nat :=
  match ops with
  | [] => 0
  | (WAlloc _ _ | WFrom _ _) :: ops' => 1 + made ops'
  | WSnap (Some _) t :: ops' => (if (t =? 2)%Z then 1 else 0) + made ops'
  | _ :: ops' => made ops'
  end.

(** Position and mode of a handle: everything but the bytes. *)
Definition cursors (w : world) (h : nat) : option (nat * nat * nat) :=
  (fun b => (h_res b, h_rd b, h_wr b)) <$> (bufs w !! h).
Definition storage (w : world) (h : nat) : option store := v_st <$> view w h.

(** A copy-on-write snapshot of [h] itself. *)
Definition cow_of (o : wop) (h : nat) : Prop := o = WSnap (Some h) 1.

(** The handle does not currently carry the copy-on-write mark. *)
Definition unmarked (w : world) (h : nat) : Prop := forall b, bufs w !! h = Some b -> h_cow b = false.

(** Handles returned by Reference snapshots during a run. *)
Fixpoint refs (ops : list wop) (w : world) : list nat :=
  match ops with
  | [] => []
  | o :: ops' =>
      match w_step o w with
      | Panic _ => []
      | Ok x w' =>
          match o, x with
          | WSnap _ 0%Z, WHandle (Some n) => n :: refs ops' w'
          | _, _ => refs ops' w'
          end
      end
  end.

(** Calls that can change the storage of the buffer they are made on. *)
Definition writing (o : op) : bool :=
  match o with
  | OpWriteByte _ | OpWrite _ | OpWriteU _ _ _ | OpReadFrom _
  | OpHeadByte _ | OpHeadBytes _ | OpHeadU _ _ _ => true
  | _ => false
  end.
