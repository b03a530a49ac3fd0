(** * What the administration of a stack should do *)
From Verif Require Import GoBase MgmtModel.

(** Handlers that make no calls. *)
Definition passive (V : menv) : Prop := forall log p ev, v_react V log p ev = [].

(** ** Ordered sets *)
Inductive setop := Ins (x : nat) | Rem (x : nat).
(** Endpoint and transport operations of a history. *)
Definition ep_op (c : cmd) : option setop :=
  match c with AddEndPoint e => Some (Ins e) | DeleteEndPoint e => Some (Rem e) | _ => None end.
Definition tp_op (c : cmd) : option setop :=
  match c with AddTransport t => Some (Ins t) | DeleteTransport t => Some (Rem t) | _ => None end.
(** When [x] was added last, counting operations from the start: the time of
    the addition since which it was not deleted. *)
Fixpoint since (ops : list setop) (now : nat) (x : nat) (cur : option nat) : option nat :=
  match ops with
  | [] => cur
  | Ins y :: ops' =>
      since ops' (S now) x (if decide (y = x) then (match cur with Some t => Some t | None => Some now end) else cur)
  | Rem y :: ops' => since ops' (S now) x (if decide (y = x) then None else cur)
  end.
Definition present_since (ops : list setop) (x : nat) : option nat := since ops 0 x None.
(** [l] lists exactly the objects present, each once, in order of addition. *)
Definition in_order_of_addition (ops : list setop) (l : list nat) : Prop :=
  (forall x, x ∈ l <-> present_since ops x <> None) /\
  (forall i j x y, i < j -> l !! i = Some x -> l !! j = Some y ->
     exists tx ty, present_since ops x = Some tx /\ present_since ops y = Some ty /\ tx < ty).

(** ** Events *)
(** Everybody an event goes to, in order. *)
Definition audience (s : mst) : list party :=
  (ToListener <$> m_listeners s) ++ (ToEndpoint <$> get_endpoints s) ++
  (if m_decks s then [ToUpperDeck] else []) ++ (ToProcessor <$> m_processors s) ++
  (if m_decks s then [ToLowerDeck] else []).
(** The same in terms of a history of calls: the listeners and processors it has
    given, the endpoints [es], and the decks if it contains a Run. *)
Definition listener_op (c : cmd) : option nat := match c with SetEventListener l => Some l | _ => None end.
Definition processor_op (c : cmd) : option nat := match c with AppendDataProcessor p => Some p | _ => None end.
Definition everybody (cs : list cmd) (es : list nat) : list party :=
  let run := existsb (fun c => match c with Run => true | _ => false end) cs in
  (ToListener <$> omap listener_op cs) ++ (ToEndpoint <$> es) ++ (if run then [ToUpperDeck] else []) ++
  (ToProcessor <$> omap processor_op cs) ++ (if run then [ToLowerDeck] else []).
(** The call returns normally with all enough fuel. *)
Definition returns (V : menv) (cs : list cmd) (s s' : mst) : Prop :=
  exists f0, forall f, f0 <= f -> calls f V cs s = Some (MDone s').
Definition panics (V : menv) (cs : list cmd) (s : mst) : Prop :=
  exists f0 s', forall f, f0 <= f -> calls f V cs s = Some (MCrash s').
Definition endless (V : menv) (cs : list cmd) (s : mst) : Prop := forall f, calls f V cs s = None.

(** Who got [ev]. *)
Definition got (ev : event) (log : list (party * event)) : list nat :=
  omap (fun pe => match fst pe with
                  | ToEndpoint e => if decide (snd pe = ev) then Some e else None
                  | _ => None end) log.

(** States that a stack can reach. *)
Definition reachable_mst (V : menv) (s : mst) : Prop :=
  exists cs, returns V cs new_stack s.

(** With whatever handlers. *)
Definition stack_state (s : mst) : Prop := exists V, reachable_mst V s.

(** Handlers that make the calls [cs] when party [p] gets [ev]: every time, or
    the first time only; otherwise they make none. *)
Definition reacts (V : menv) (p : party) (ev : event) (cs : list cmd) : Prop :=
  forall log p' ev', v_react V log p' ev' = if decide ((p', ev') = (p, ev)) then cs else [].
Definition reacts_once (V : menv) (p : party) (ev : event) (cs : list cmd) : Prop :=
  forall log p' ev', v_react V log p' ev' =
    if decide ((p', ev') = (p, ev) /\ (p, ev) ∉ log) then cs else [].

(** What a list obtained from GetEndPoint in state [s0] shows in state [s]. *)
Definition obtained (s0 s : mst) : list nat := contents (m_heap s) (m_endpoints s0).

Definition no_deletion (c : cmd) : Prop := match c with DeleteEndPoint _ => False | _ => True end.

(** The sum of the processors' overheads. *)
Definition total (V : menv) (ps : list nat) : Z := foldr (fun p z => v_overhead V p + z)%Z 0%Z ps.

(** ** Options *)
Fixpoint last_set (h : list (nat * option gval)) (name : nat) : option gval :=
  match h with
  | [] => None
  | (n, v) :: h' =>
      if existsb (fun p => fst p =? name) h' then last_set h' name else if n =? name then v else None
  end.
