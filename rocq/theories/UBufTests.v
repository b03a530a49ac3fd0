(** * The project's own tests, run in the model

    ubuf_test.go, test by test: the calls in their order, each with the checks
    the test makes of what it returns.  These are no claims about the code; they
    show that the model of ubuf.go (its layer with shared storage) passes the
    tests the code passes.  Checks of private fields and pointers are made of
    the corresponding fields of the model; where a test looks at some of the four
    lengths, all four are checked. *)
From Verif Require Import GoBase UBufModel.

(** A step of a test: a call and what is checked of its result, or a check of
    the state. *)
Inductive tstep :=
| TCall (o : wop) (ok : wout -> bool)
| TPanics (o : wop)
| TCheck (ok : world -> bool).
Fixpoint passes (ts : list tstep) (w : world) : bool :=
  match ts with
  | [] => true
  | TCall o ok :: ts => match w_step o w with Ok x w' => ok x && passes ts w' | Panic _ => false end
  | TPanics o :: ts => match w_step o w with Ok _ _ => false | Panic _ => passes ts w end
  | TCheck ok :: ts => ok w && passes ts w
  end.

(** [err == nil], [err != nil]; a value, a count, bytes without error. *)
Definition err_of (x : wout) : option bool :=
  match x with
  | WOut (RErr e) | WOut (RCount _ e) | WOut (RBytes _ e) | WOut (RVal _ e) | WOut (ROffer _ _ e) =>
      Some (match e with Some _ => true | None => false end)
  | _ => None
  end.
Definition fine (x : wout) : bool := match err_of x with Some false => true | _ => false end.
Definition fails (x : wout) : bool := match err_of x with Some true => true | _ => false end.
Definition is_val (v : Z) (x : wout) : bool := fine x && match x with WOut (RVal u _) => (u =? v)%Z | _ => false end.
Definition counts (n : nat) (x : wout) : bool :=
  match x with
  | WOut (RCount m _) | WOut (ROffer _ m _) => m =? n
  | WOut (RBytes l _) => length l =? n
  | _ => false
  end.
Definition gives (l : list byte) (x : wout) : bool :=
  fine x && match x with WOut (RBytes m _) | WOut (ROffer (Some m) _ _) => bool_decide (m = l) | _ => false end.
Definition lens (capacity head readable tail : nat) (x : wout) : bool :=
  match x with WOut (RLens c h r t) => (c =? capacity) && (h =? head) && (r =? readable) && (t =? tail) | _ => false end.
Definition nothing (x : wout) : bool := match x with WHandle None => true | _ => false end.
Definition handle (h : nat) (x : wout) : bool := match x with WHandle (Some n) => n =? h | _ => false end.
Definition whatever (x : wout) : bool := true.
(** Two handles have the same storage; the indices of a handle. *)
Definition shared (h1 h2 : nat) (w : world) : bool :=
  match bufs w !! h1, bufs w !! h2 with Some b1, Some b2 => h_loc b1 =? h_loc b2 | _, _ => false end.
Definition indices (h rd wr res : nat) (w : world) : bool :=
  match bufs w !! h with Some b => (h_rd b =? rd) && (h_wr b =? wr) && (h_res b =? res) | None => false end.

(** Call [o] on the buffer [ub], the first that was made. *)
Notation "'ub' o" := (TCall (WOp 0 o)) (at level 10, o at level 9, only parsing).
Notation "'snap' o" := (TCall (WOp 1 o)) (at level 10, o at level 9, only parsing).
(** UBufCapacity 64, UBufReserved 8 *)
Definition ub_new : tstep := TCall (WAlloc 64 8) (handle 0).
Definition ub_head : tstep := TCall (WAlloc 64 64) (handle 0).
Definition count_up (n : nat) : list byte := Z.of_nat <$> seq 0 n.
(** DummyReaderWriter; a bytes.Reader over [l]; a bytes.Buffer *)
Definition dummy_r : reader := fun _ => ([], true).
Definition dummy_w : writer := fun _ => (0, true).
Definition reader_of (l : list byte) : reader := fun n => (take n l, false).
Definition buffer_w : writer := fun l => (length l, false).

(** ubuf_test.go:14-31, 33-50 *)
Example TestUBufAlloc : passes [TCall (WAlloc 64 0) (handle 0); ub OpLens (lens 64 0 0 64)] w0 = true.
Proof. reflexivity. Qed.
Example TestUBufAllocWithHeadReserved : passes [ub_new; ub OpLens (lens 64 8 0 56)] w0 = true.
Proof. reflexivity. Qed.
(** ubuf_test.go:52-70 *)
Example TestBadUBufAllocInvalidCapacity : passes [TPanics (WAlloc (-1) 0)] w0 = true.
Proof. reflexivity. Qed.
Example TestBadUBufAllocInvalidReserved : passes [TPanics (WAlloc 4 5)] w0 = true.
Proof. reflexivity. Qed.
(** ubuf_test.go:72-110 *)
Definition four : store := Store [1; 2; 3; 4]%Z 4.
Example TestUBufFrom : passes
  [TCall (WFrom None 0) nothing; TCall (WFrom (Some four) (-1)) nothing; TCall (WFrom (Some four) 5) nothing;
   TCall (WFrom (Some four) 0) (handle 0); TCheck (indices 0 0 0 0); ub OpLens (lens 4 0 0 4);
   TCall (WFrom (Some four) 2) (handle 1); TCheck (indices 1 2 2 2); snap OpLens (lens 4 2 0 2)] w0 = true.
Proof. reflexivity. Qed.
(** ubuf_test.go:112-158 *)
Example TestReadWriteByte : passes
  (ub_new :: concat ((fun i => [ub (OpWriteByte 1%Z) fine; ub OpLens (lens 64 8 (i + 1) (56 - i - 1))]) <$> seq 0 56) ++
   [ub (OpWriteByte 1%Z) fails] ++
   concat ((fun i => [ub OpReadByte (is_val 1); ub OpLens (lens 64 (8 + i + 1) (56 - i - 1) 0)]) <$> seq 0 56) ++
   [ub OpReadByte fails]) w0 = true.
Proof. vm_compute. reflexivity. Qed.
(** ubuf_test.go:160-246 *)
Example TestReadWrite : let data := count_up 56 ++ [0%Z] in passes
  [ub_new; ub (OpRead 56) fine; ub (OpWrite data) (fun x => fails x && counts 56 x); ub OpLens (lens 64 8 56 0);
   ub (OpRead 56) (fun x => gives (count_up 56) x && counts 56 x); ub OpLens (lens 64 64 0 0);
   ub OpReset whatever; ub (OpWrite data) fails; ub (OpWrite data) fails; ub (OpRead 128) (fun x => fails x && counts 56 x);
   ub OpReset whatever; ub OpLens (lens 64 8 0 56)] w0 = true.
Proof. vm_compute. reflexivity. Qed.
(** ubuf_test.go:258-313 *)
Example TestReadFrom : passes
  [ub_new; ub (OpReadFrom dummy_r) fails; ub (OpReadFrom (reader_of (count_up 56))) (fun x => fine x && counts 56 x);
   ub OpLens (lens 64 8 56 0); ub (OpReadFrom (reader_of [])) fine; ub (OpRead 56) (fun x => gives (count_up 56) x && counts 56 x)] w0 = true.
Proof. vm_compute. reflexivity. Qed.
(** ubuf_test.go:315-361 *)
Example TestWriteTo : passes
  [ub_new; ub (OpWriteTo dummy_w) fine; ub (OpWrite (count_up 56)) (fun x => fine x && counts 56 x); ub (OpWriteTo dummy_w) fails;
   ub (OpWriteTo buffer_w) (fun x => gives (count_up 56) x && counts 56 x)] w0 = true.
Proof. vm_compute. reflexivity. Qed.
(** ubuf_test.go:363-497, 499-543, 545-589; the plain names are the BE ones *)
Definition v16 : Z := 0x2345. Definition v32 : Z := 0x6789abcd. Definition v64 : Z := 0x1357246875318642.
Definition each (f : order -> width -> tstep) : list tstep :=
  [f BE W16; f BE W32; f BE W64; f BE W16; f BE W32; f BE W64; f LE W16; f LE W32; f LE W64].
Example TestReadWriteUxx : passes
  ([ub_new; ub (OpWriteByte 1%Z) fine; ub (OpWriteU BE W16 v16) fine; ub (OpWriteU BE W32 v32) fine; ub (OpWriteU BE W64 v64) fine;
    ub OpReadByte (is_val 1); ub (OpReadU BE W16) (is_val v16); ub (OpReadU BE W32) (is_val v32); ub (OpReadU BE W64) (is_val v64);
    ub OpReset whatever] ++ each (fun o w => ub (OpReadU o w) fails) ++
   [TCall (WAlloc 64 64) (handle 1)] ++ each (fun o w => snap (OpWriteU o w 1%Z) fails)) w0 = true.
Proof. vm_compute. reflexivity. Qed.
Definition read_write (o : order) : list tstep :=
  [ub_new; ub (OpWriteU o W16 v16) fine; ub (OpWriteU o W32 v32) fine; ub (OpWriteU o W64 v64) fine;
   ub (OpReadU o W16) (is_val v16); ub (OpReadU o W32) (is_val v32); ub (OpReadU o W64) (is_val v64)].
Example TestReadWriteUxxBE : passes (read_write BE) w0 = true.
Proof. vm_compute. reflexivity. Qed.
Example TestReadWriteUxxLE : passes (read_write LE) w0 = true.
Proof. vm_compute. reflexivity. Qed.
(** ubuf_test.go:591-634 *)
Example TestReadWriteHeadUxxNoSpace : passes
  ([TCall (WAlloc 64 0) (handle 0); ub (OpHeadByte 1%Z) fails] ++ each (fun o w => ub (OpHeadU o w 1%Z) fails)) w0 = true.
Proof. vm_compute. reflexivity. Qed.
(** ubuf_test.go:636-659 (the test passes when one of the two bytes is right; here both must be) *)
Example TestReadWriteHeadBytes : passes
  [ub_head; ub (OpHeadBytes [1; 2]%Z) fine; ub (OpRead 2) (fun x => gives [1; 2]%Z x && counts 2 x)] w0 = true.
Proof. vm_compute. reflexivity. Qed.
(** ubuf_test.go:661-719, 721-765, 767-811 *)
Example TestReadWriteHeadUxx : passes
  [ub_head; ub (OpHeadByte 1%Z) fine; ub (OpHeadU BE W16 v16) fine; ub (OpHeadU BE W32 v32) fine; ub (OpHeadU BE W64 v64) fine;
   ub (OpReadU BE W64) (is_val v64); ub (OpReadU BE W32) (is_val v32); ub (OpReadU BE W16) (is_val v16); ub OpReadByte (is_val 1)] w0 = true.
Proof. vm_compute. reflexivity. Qed.
Definition read_write_head (o : order) : list tstep :=
  [ub_head; ub (OpHeadU o W16 v16) fine; ub (OpHeadU o W32 v32) fine; ub (OpHeadU o W64 v64) fine;
   ub (OpReadU o W64) (is_val v64); ub (OpReadU o W32) (is_val v32); ub (OpReadU o W16) (is_val v16)].
Example TestReadWriteHeadUxxBE : passes (read_write_head BE) w0 = true.
Proof. vm_compute. reflexivity. Qed.
Example TestReadWriteHeadUxxLE : passes (read_write_head LE) w0 = true.
Proof. vm_compute. reflexivity. Qed.
(** ubuf_test.go:813-858 *)
Example TestPeekBytes : passes
  [ub_new; ub OpPeekByte fails; ub (OpPeek 2) fails; ub (OpWrite [1; 2; 3]%Z) fine; ub (OpPeek 4) fails;
   ub OpPeekByte (is_val 1); ub (OpPeek 2) (fun x => gives [1; 2]%Z x && counts 2 x)] w0 = true.
Proof. vm_compute. reflexivity. Qed.
(** ubuf_test.go:860-923, 925-988, 990-1053 *)
Definition peek_all (o : order) : list tstep :=
  [ub_new; ub (OpPeekU o W16) fails; ub (OpWriteU o W16 v16) fine; ub (OpPeekU o W16) (is_val v16); ub OpReset whatever;
   ub (OpPeekU o W32) fails; ub (OpWriteU o W32 v32) fine; ub (OpPeekU o W32) (is_val v32); ub OpReset whatever;
   ub (OpPeekU o W64) fails; ub (OpWriteU o W64 v64) fine; ub (OpPeekU o W64) (is_val v64)].
Example TestPeekUxx : passes (peek_all BE) w0 = true.
Proof. vm_compute. reflexivity. Qed.
Example TestPeekUxxBE : passes (peek_all BE) w0 = true.
Proof. vm_compute. reflexivity. Qed.
Example TestPeekUxxLE : passes (peek_all LE) w0 = true.
Proof. vm_compute. reflexivity. Qed.
(** ubuf_test.go:1055-1084 *)
Example TestSnapshotReference : passes
  [TCall (WSnap None 999) nothing; ub_new; ub (OpWriteU BE W16 0x1234%Z) fine; TCall (WSnap (Some 0) 999) nothing;
   TCall (WSnap (Some 0) 0) (handle 1); snap (OpReadU BE W16) (is_val 0x1234); ub (OpWriteU BE W16 0x5678%Z) fine;
   snap (OpReadU BE W16) fails] w0 = true.
Proof. vm_compute. reflexivity. Qed.
(** ubuf_test.go:1086-1139, 1141-1194 *)
Definition snap_read : list tstep :=
  [snap (OpWriteU BE W16 0x5678%Z) fine; ub (OpWriteU BE W16 0x8765%Z) fine;
   snap (OpReadU BE W16) (is_val 0x1234); snap (OpReadU BE W16) (is_val 0x5678);
   ub (OpReadU BE W16) (is_val 0x1234); ub (OpReadU BE W16) (is_val 0x8765); TCheck (fun w => negb (shared 0 1 w))].
Example TestSnapshotCopyOnWrite : passes
  ([ub_new; ub (OpWriteU BE W16 0x1234%Z) fine; TCall (WSnap (Some 0) 1) (handle 1); TCheck (shared 0 1)] ++ snap_read) w0 = true.
Proof. vm_compute. reflexivity. Qed.
Example TestSnapshotCopyDriectly : passes
  ([ub_new; ub (OpWriteU BE W16 0x1234%Z) fine; TCall (WSnap (Some 0) 2) (handle 1); TCheck (fun w => negb (shared 0 1 w))] ++ snap_read) w0 = true.
Proof. vm_compute. reflexivity. Qed.
