(** * Model of the stack's administration (ustack_default.go, utils.go)

    Endpoints, transports, listeners and processors are numbers (their
    identity).  The slices [u.endpoints] and [u.transports] are modelled with
    their backing arrays, because GetEndPoint hands the slice itself out, and
    DeleteEndPoint moves the elements inside the array.  Event handlers are
    arbitrary user code that may call the stack again: [react] gives the calls a
    handler makes, depending on everything delivered so far.  The decks' own
    reactions to events (goroutines per endpoint and per transport) are modelled
    in DeckModel; here only the delivery of the event to them is recorded. *)
From Verif Require Export GoBase.

(** ** Slices *)
(** [sl_arr = None] is a nil slice.  The capacity is the length of the array. *)
Record slice := Slice { sl_arr : option nat; sl_len : nat }.
Notation aheap := (list (list nat)).

Definition array_of (h : aheap) (s : slice) : list nat :=
  match sl_arr s with Some a => default [] (h !! a) | None => [] end.
(** What a slice shows now. *)
Definition contents (h : aheap) (s : slice) : list nat := take (sl_len s) (array_of h s).

(** [append(s, x)]: in place if there is capacity, else into a new array whose
    capacity is up to the runtime ([grow]). *)
Definition append1 (grow : nat -> nat) (h : aheap) (s : slice) (x : nat) : aheap * slice :=
  let arr := array_of h s in
  match sl_arr s with
  | Some a =>
      if sl_len s <? length arr then (<[a := <[sl_len s := x]> arr]> h, Slice (Some a) (S (sl_len s)))
      else (h ++ [take (sl_len s) arr ++ x :: replicate (grow (sl_len s)) 0], Slice (Some (length h)) (S (sl_len s)))
  | None => (h ++ [x :: replicate (grow 0) 0], Slice (Some (length h)) 1)
  end.

(** [append(s[:i], s[i+1:]...)]: the elements behind [i] move one down inside
    the same array; [None] is the panic of the slice expression. *)
Definition remove_at (h : aheap) (s : slice) (i : nat) : option (aheap * slice) :=
  if S i <=? sl_len s then
    match sl_arr s with
    | Some a =>
        let arr := array_of h s in
        Some (<[a := take i arr ++ drop (S i) (take (sl_len s) arr) ++ drop (sl_len s - 1) arr]> h,
              Slice (Some a) (sl_len s - 1))
    | None => None
    end
  else None.

(** First index of [x] (the search loops, ustack_default.go:196-201, 215-218). *)
Fixpoint index_of (x : nat) (l : list nat) : option nat :=
  match l with
  | [] => None
  | y :: l' => if decide (y = x) then Some 0 else S <$> index_of x l'
  end.

(** ** Events *)
Inductive event :=
| EvEndpointAdded (e : nat) | EvEndpointDeleted (e : nat)
| EvTransportAdded (t : nat) | EvTransportDeleted (t : nat)
| EvOther (k : nat).     (* connection and heartbeat events, user events *)
Inductive party :=
| ToListener (l : nat) | ToEndpoint (e : nat) | ToUpperDeck | ToProcessor (p : nat) | ToLowerDeck.

Global Instance event_eq_dec : EqDecision event.
Proof. solve_decision. Defined.
Global Instance party_eq_dec : EqDecision party.
Proof. solve_decision. Defined.

(** Calls of the stack's methods. *)
Inductive cmd :=
| AddEndPoint (e : nat) | DeleteEndPoint (e : nat)
| AddTransport (t : nat) | DeleteTransport (t : nat)
| SetEventListener (l : nat) | AppendDataProcessor (p : nat)
| PublishEvent (ev : event) | Run.

Record mst := Mst {
  m_heap : aheap;
  m_endpoints : slice;
  m_transports : slice;
  m_listeners : list nat;
  m_processors : list nat;
  m_decks : bool;                       (* upperDeck and lowerDeck are not nil *)
  m_overhead : Z;
  m_log : list (party * event) }.       (* ghost: all deliveries *)

Record menv := Menv {
  v_grow : nat -> nat;
  v_react : list (party * event) -> party -> event -> list cmd;
  v_overhead : nat -> Z }.              (* GetOverhead of processor p *)

Inductive mres := MDone (s : mst) | MCrash (s : mst).

(** ustack_default.go:94-108 NewUStack *)
Definition new_stack : mst := Mst [] (Slice None 0) (Slice None 0) [] [] false 0 [].

Definition with_endpoints (s : mst) (p : aheap * slice) : mst :=
  Mst (fst p) (snd p) (m_transports s) (m_listeners s) (m_processors s) (m_decks s) (m_overhead s) (m_log s).
Definition with_transports (s : mst) (p : aheap * slice) : mst :=
  Mst (fst p) (m_endpoints s) (snd p) (m_listeners s) (m_processors s) (m_decks s) (m_overhead s) (m_log s).
Definition with_log (s : mst) (l : list (party * event)) : mst :=
  Mst (m_heap s) (m_endpoints s) (m_transports s) (m_listeners s) (m_processors s) (m_decks s) (m_overhead s) l.

(** ustack_default.go:236-238, 298-300 *)
Definition get_endpoints (s : mst) : list nat := contents (m_heap s) (m_endpoints s).
Definition get_transports (s : mst) : list nat := contents (m_heap s) (m_transports s).

Section calls.
  Context (V : menv).
  (** The calls made by handlers. *)
  Context (call : list cmd -> mst -> option mres).

  (** Continue unless crashed. *)
  Definition andthen (r : option mres) (k : mst -> option mres) : option mres :=
    match r with Some (MDone s) => k s | _ => r end.

  Definition notify (p : party) (ev : event) (s : mst) : option mres :=
    call (v_react V (m_log s) p ev) (with_log s (m_log s ++ [(p, ev)])).

  Fixpoint notify_all (ps : list party) (ev : event) (s : mst) : option mres :=
    match ps with
    | [] => Some (MDone s)
    | p :: ps' => andthen (notify p ev s) (notify_all ps' ev)
    end.

  (** ustack_default.go:313-315: the range expression is evaluated once, the
      elements are read from the array when their turn comes. *)
  Fixpoint notify_endpoints (sl : slice) (i n : nat) (ev : event) (s : mst) : option mres :=
    match n with
    | 0 => Some (MDone s)
    | S n' =>
        match array_of (m_heap s) sl !! i with
        | None => Some (MCrash s)
        | Some e => andthen (notify (ToEndpoint e) ev s) (notify_endpoints sl (S i) n' ev)
        end
    end.

  (** ustack_default.go:309-326 PublishEvent; listeners and processors are only
      ever appended, so their range loops see the elements present at the
      start. *)
  Definition publish (ev : event) (s : mst) : option mres :=
    andthen (notify_all (ToListener <$> m_listeners s) ev s) (fun s1 =>
    andthen (notify_endpoints (m_endpoints s1) 0 (sl_len (m_endpoints s1)) ev s1) (fun s2 =>
    andthen (if m_decks s2 then notify ToUpperDeck ev s2 else Some (MDone s2)) (fun s3 =>
    andthen (notify_all (ToProcessor <$> m_processors s3) ev s3) (fun s4 =>
    if m_decks s4 then notify ToLowerDeck ev s4 else Some (MDone s4))))).

  Definition do_cmd (c : cmd) (s : mst) : option mres :=
    match c with
    | AddEndPoint e =>                          (* ustack_default.go:195-211 *)
        if decide (e ∈ get_endpoints s) then Some (MDone s)
        else andthen (publish (EvEndpointAdded e) s) (fun s1 =>
             Some (MDone (with_endpoints s1 (append1 (v_grow V) (m_heap s1) (m_endpoints s1) e))))
    | DeleteEndPoint e =>                       (* ustack_default.go:214-233 *)
        match index_of e (get_endpoints s) with
        | None => Some (MDone s)
        | Some i =>
            andthen (publish (EvEndpointDeleted e) s) (fun s1 =>
              match remove_at (m_heap s1) (m_endpoints s1) i with
              | None => Some (MCrash s1)
              | Some p => Some (MDone (with_endpoints s1 p))
              end)
        end
    | AddTransport t =>                         (* ustack_default.go:257-273 *)
        if decide (t ∈ get_transports s) then Some (MDone s)
        else andthen (publish (EvTransportAdded t) s) (fun s1 =>
             Some (MDone (with_transports s1 (append1 (v_grow V) (m_heap s1) (m_transports s1) t))))
    | DeleteTransport t =>                      (* ustack_default.go:276-295 *)
        match index_of t (get_transports s) with
        | None => Some (MDone s)
        | Some i =>
            match remove_at (m_heap s) (m_transports s) i with
            | None => Some (MCrash s)
            | Some p => publish (EvTransportDeleted t) (with_transports s p)
            end
        end
    | SetEventListener l =>                     (* ustack_default.go:303-306 *)
        Some (MDone (Mst (m_heap s) (m_endpoints s) (m_transports s) (m_listeners s ++ [l]) (m_processors s)
                         (m_decks s) (m_overhead s) (m_log s)))
    | AppendDataProcessor p =>                  (* ustack_default.go:241-244 *)
        Some (MDone (Mst (m_heap s) (m_endpoints s) (m_transports s) (m_listeners s) (m_processors s ++ [p])
                         (m_decks s) (m_overhead s) (m_log s)))
    | PublishEvent ev => publish ev s
    | Run =>                                    (* ustack_default.go:120-146: [u.overhead +=] *)
        Some (MDone (Mst (m_heap s) (m_endpoints s) (m_transports s) (m_listeners s) (m_processors s) true
                         (foldl (fun o p => o + v_overhead V p)%Z (m_overhead s) (m_processors s)) (m_log s)))
    end.
End calls.

(** A sequence of calls; [None]: the fuel (depth of nested calls plus length) is
    used up. *)
Fixpoint calls (fuel : nat) (V : menv) (cs : list cmd) (s : mst) : option mres :=
  match fuel with
  | 0 => None
  | S f =>
      match cs with
      | [] => Some (MDone s)
      | c :: cs' => andthen (do_cmd V (calls f V) c s) (calls f V cs')
      end
  end.

(** ** Options *)
(** A value of type interface{}, [None] is nil. *)
Inductive gval := GInt (z : Z) | GByte (b : byte) | GBool (b : bool) | GBytes (l : list byte) | GObj (n : nat).

(** The options map of a stack, processor, feature, transport or context
    (ustack_default.go:43-54 and 160-171, proc_base.go:66-78, feat_base.go:44-55,
    tran_tcp.go, tran_unix.go, tran_reference.go). *)
Definition options := list (nat * option gval).
Definition set_option (o : options) (name : nat) (v : option gval) : options :=
  (name, v) :: List.filter (fun p => negb (fst p =? name)) o.
Definition get_option (o : options) (name : nat) : option gval :=
  match List.find (fun p => fst p =? name) o with Some p => snd p | None => None end.

(** utils.go:7-45 *)
Definition parse_byte (v : option gval) (d : byte) : byte * bool :=
  match v with Some (GByte b) => (b, true) | _ => (d, false) end.
Definition parse_int (v : option gval) (d : Z) : Z * bool :=
  match v with Some (GInt z) => (z, true) | _ => (d, false) end.
Definition parse_bool (v : option gval) (d : bool) : bool * bool :=
  match v with Some (GBool b) => (b, true) | _ => (d, false) end.
Definition parse_bytes (v : option gval) : list byte * bool :=
  match v with Some (GBytes l) => (l, true) | _ => ([], false) end.
(** ustack_default.go:111-117 parseOptions, called by every Run *)
Definition mtu_after_run (o : options) (mtu_name : nat) : Z := fst (parse_int (get_option o mtu_name) 2048).

(** ** Setters that return the object for chaining (proc_base.go:22-108,
    feat_base.go:15-61).  Objects are numbered; [b_where] is where SetName,
    SetOption etc. of the object return to. *)
Record bobj := Bobj { b_name : nat; b_where : nat }.
(** [NewProcBaseInstance] allocates a base pointing to itself and returns a
    copy of its value. *)
Definition base_instance (os : list bobj) (name : nat) : list bobj * bobj :=
  let b := Bobj name (length os) in (os ++ [b], b).
(** [NewProcBase]/[NewFeatBase]: the copy becomes a second object. *)
Definition new_base (os : list bobj) (name : nat) : list bobj * nat :=
  let '(os1, b) := base_instance os name in (os1 ++ [b], length os1).
(** The constructors of all other processors: the copy is embedded in a new
    object, and SetWhere points it there (e.g. proc_echo.go:14-20).  FeatBase has
    no SetWhere, so a feature that embeds it behaves like [new_base]. *)
Definition new_embedding (os : list bobj) (name : nat) : list bobj * nat :=
  let '(os1, b) := base_instance os name in (os1 ++ [Bobj (b_name b) (length os1)], length os1).
(** [o.SetName(n)]: the changed objects and the object returned. *)
Definition set_name (os : list bobj) (o : nat) (n : nat) : option (list bobj * nat) :=
  match os !! o with
  | Some b => Some (<[o := Bobj n (b_where b)]> os, b_where b)
  | None => None
  end.
Definition name_of (os : list bobj) (o : nat) : option nat := b_name <$> os !! o.
