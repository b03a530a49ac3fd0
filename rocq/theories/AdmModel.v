(** * Model of concurrent administration (ustack_default.go:195-233, 309-326)

    Any number of goroutines that call AddEndPoint and DeleteEndPoint of one
    running stack, and any number of goroutines that publish events (the lower
    deck publishes one for every connection).  Neither takes a lock.  The slice
    [u.endpoints] is modelled with its backing array as in MgmtModel; the range
    loops read their slice header once and the elements one by one, and an
    assignment [u.endpoints = append(...)] reads the header, writes the array and
    stores the header in three transitions.

    Simplifications: a header is read and stored as a whole, copying the elements
    of one append is one transition, the two reads of [u.endpoints] in line 226
    are one; handlers make no calls (MgmtModel has those); sessions are all
    different, so that the upper deck serves the endpoints it is told of (its
    mutex makes each event one transition; DeckModel has its goroutines);
    listeners, processors and the lower deck are left out.  Memory accesses are
    sequentially consistent. *)
From Verif Require Export GoBase MgmtModel.

(** Where a call is. *)
Inductive apc :=
| CAddScan (e : nat) (sl : slice) (i : nat)      (* 196-201, element [i] is next *)
| CAddPub (e p : nat)                            (* 203-207, publication [p] *)
| CAddRead (e : nat)                             (* 209, before reading the header *)
| CAddWrite (e : nat) (sl : slice)               (* header read *)
| CAddStore (e : nat) (sl : slice)               (* element written, header [sl] to be stored *)
| CDelScan (e : nat) (sl : slice) (i : nat)      (* 215-218 *)
| CDelPub (e i p : nat)                          (* 220-224 *)
| CDelRead (e i : nat)                           (* 227 *)
| CDelWrite (e i : nat) (sl : slice)
| CDelStore (e : nat) (sl : slice)
| CDone.

Record ast := Ast {
  a_heap : aheap;
  a_eps : slice;                     (* u.endpoints *)
  a_served : list nat;               (* the keys of the upper deck's map *)
  a_pubs : list (slice * nat);       (* publications: header read, next element *)
  a_calls : list apc;
  a_log : list (nat * nat);          (* ghost: publication, endpoint whose OnEvent is called *)
  a_panic : bool }.                  (* index out of range *)

Definition new_ast : ast := Ast [] (Slice None 0) [] [] [] [] false.

(** GetEndPoint *)
Definition listed (s : ast) : list nat := contents (a_heap s) (a_eps s).

Inductive alab :=
| AAdd (e : nat) | ADel (e : nat)    (* a call begins *)
| APublish                           (* an event from somewhere else *)
| ADeliver (p : nat)
| AScan (c : nat) | ADeck (c : nat) | ARead (c : nat)
| AWrite (c : nat) | AErase (c i : nat) | AStore (c : nat).

(** proc_upperdeck.go:30-38, 71-82 *)
Definition accept (e : nat) (l : list nat) : list nat := if decide (e ∈ l) then l else l ++ [e].
Definition dismiss (e : nat) (l : list nat) : list nat := filter (fun x => x <> e) l.

Section steps.
  Context (grow : nat -> nat).

  Inductive astep : ast -> alab -> ast -> Prop :=
  | as_add h eps sv ps cs lg e :
      astep (Ast h eps sv ps cs lg false) (AAdd e) (Ast h eps sv ps (cs ++ [CAddScan e eps 0]) lg false)
  | as_del h eps sv ps cs lg e :
      astep (Ast h eps sv ps cs lg false) (ADel e) (Ast h eps sv ps (cs ++ [CDelScan e eps 0]) lg false)
  (** 309-315: the range loop over the endpoints begins *)
  | as_publish h eps sv ps cs lg :
      astep (Ast h eps sv ps cs lg false) APublish (Ast h eps sv (ps ++ [(eps, 0)]) cs lg false)
  | as_deliver h eps sv ps cs lg p sl i e :
      ps !! p = Some (sl, i) -> i < sl_len sl -> array_of h sl !! i = Some e ->
      astep (Ast h eps sv ps cs lg false) (ADeliver p)
            (Ast h eps sv (<[p := (sl, S i)]> ps) cs (lg ++ [(p, e)]) false)
  (** 196-201 *)
  | as_scan_found h eps sv ps cs lg c e sl i :
      cs !! c = Some (CAddScan e sl i) -> i < sl_len sl -> array_of h sl !! i = Some e ->
      astep (Ast h eps sv ps cs lg false) (AScan c) (Ast h eps sv ps (<[c := CDone]> cs) lg false)
  | as_scan_next h eps sv ps cs lg c e sl i x :
      cs !! c = Some (CAddScan e sl i) -> i < sl_len sl -> array_of h sl !! i = Some x -> x <> e ->
      astep (Ast h eps sv ps cs lg false) (AScan c) (Ast h eps sv ps (<[c := CAddScan e sl (S i)]> cs) lg false)
  (** 203, and the loop in PublishEvent begins *)
  | as_scan_end h eps sv ps cs lg c e sl i :
      cs !! c = Some (CAddScan e sl i) -> sl_len sl <= i ->
      astep (Ast h eps sv ps cs lg false) (AScan c)
            (Ast h eps sv (ps ++ [(eps, 0)]) (<[c := CAddPub e (length ps)]> cs) lg false)
  (** 316-318: the loop has ended, the upper deck is told *)
  | as_add_deck h eps sv ps cs lg c e p sl i :
      cs !! c = Some (CAddPub e p) -> ps !! p = Some (sl, i) -> sl_len sl <= i ->
      astep (Ast h eps sv ps cs lg false) (ADeck c) (Ast h eps (accept e sv) ps (<[c := CAddRead e]> cs) lg false)
  (** 209 *)
  | as_add_read h eps sv ps cs lg c e :
      cs !! c = Some (CAddRead e) ->
      astep (Ast h eps sv ps cs lg false) (ARead c) (Ast h eps sv ps (<[c := CAddWrite e eps]> cs) lg false)
  | as_add_write h eps sv ps cs lg c e sl h' sl' :
      cs !! c = Some (CAddWrite e sl) -> append1 grow h sl e = (h', sl') ->
      astep (Ast h eps sv ps cs lg false) (AWrite c) (Ast h' eps sv ps (<[c := CAddStore e sl']> cs) lg false)
  | as_add_store h eps sv ps cs lg c e sl :
      cs !! c = Some (CAddStore e sl) ->
      astep (Ast h eps sv ps cs lg false) (AStore c) (Ast h sl sv ps (<[c := CDone]> cs) lg false)
  (** 215-218 *)
  | as_find_next h eps sv ps cs lg c e sl i x :
      cs !! c = Some (CDelScan e sl i) -> i < sl_len sl -> array_of h sl !! i = Some x -> x <> e ->
      astep (Ast h eps sv ps cs lg false) (AScan c) (Ast h eps sv ps (<[c := CDelScan e sl (S i)]> cs) lg false)
  | as_find_end h eps sv ps cs lg c e sl i :
      cs !! c = Some (CDelScan e sl i) -> sl_len sl <= i ->
      astep (Ast h eps sv ps cs lg false) (AScan c) (Ast h eps sv ps (<[c := CDone]> cs) lg false)
  (** 220 *)
  | as_find h eps sv ps cs lg c e sl i :
      cs !! c = Some (CDelScan e sl i) -> i < sl_len sl -> array_of h sl !! i = Some e ->
      astep (Ast h eps sv ps cs lg false) (AScan c)
            (Ast h eps sv (ps ++ [(eps, 0)]) (<[c := CDelPub e i (length ps)]> cs) lg false)
  | as_del_deck h eps sv ps cs lg c e i p sl k :
      cs !! c = Some (CDelPub e i p) -> ps !! p = Some (sl, k) -> sl_len sl <= k ->
      astep (Ast h eps sv ps cs lg false) (ADeck c) (Ast h eps (dismiss e sv) ps (<[c := CDelRead e i]> cs) lg false)
  (** 227 *)
  | as_del_read h eps sv ps cs lg c e i :
      cs !! c = Some (CDelRead e i) ->
      astep (Ast h eps sv ps cs lg false) (ARead c) (Ast h eps sv ps (<[c := CDelWrite e i eps]> cs) lg false)
  | as_del_write h eps sv ps cs lg c e i sl h' sl' :
      cs !! c = Some (CDelWrite e i sl) -> remove_at h sl i = Some (h', sl') ->
      astep (Ast h eps sv ps cs lg false) (AErase c i) (Ast h' eps sv ps (<[c := CDelStore e sl']> cs) lg false)
  | as_del_panic h eps sv ps cs lg c e i sl :
      cs !! c = Some (CDelWrite e i sl) -> remove_at h sl i = None ->
      astep (Ast h eps sv ps cs lg false) (AErase c i) (Ast h eps sv ps cs lg true)
  | as_del_store h eps sv ps cs lg c e sl :
      cs !! c = Some (CDelStore e sl) ->
      astep (Ast h eps sv ps cs lg false) (AStore c) (Ast h sl sv ps (<[c := CDone]> cs) lg false).
End steps.
