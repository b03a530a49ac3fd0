(** * Model of a stack that is run several times (ustack_default.go, the decks)

    Every Run makes new decks (ustack_default.go:122-123) and starts them
    (337, 343).  Nothing ends the goroutines of the former ones: the events go to
    the newest decks only (317, 323).  Here the decks and the goroutines of all
    Runs are followed, interleaved arbitrarily.  [σ] gives each endpoint's
    session, [procs] says whether there are data processors.  Simplifications:
    AddEndPoint, DeleteEndPoint and Run are one step each and not called by event
    handlers (Mgmt); an endpoint is deleted only while the goroutine in the newest
    deck waits (C45 is about the other case); messages travel through the
    processors unchanged (Stack). *)
From Verif Require Export GoBase.

(** An upper deck: its endpoints with what their goroutines have in hand. *)
Notation deck := (list (nat * option nat)).
Record gst := Gst {
  g_list : list nat;               (* u.endpoints *)
  g_decks : list deck;             (* the upper deck of each Run *)
  g_conns : list nat;              (* connections: which Run's lower deck took it *)
  g_tx : nat -> list nat;          (* txChannel of each endpoint *)
  g_sent : list (nat * nat) }.     (* ghost: endpoint, message passed down *)
Definition new_again : gst := Gst [] [] [] (fun _ => []) [].

Section again.
Context (σ : nat -> Z) (procs : bool).

(** proc_upperdeck.go:18-39 *)
Definition admit_ep (d : deck) (e : nat) : deck :=
  if existsb (fun x => (fst x =? e) || (σ (fst x) =? σ e)%Z) d then d else d ++ [(e, None)].
(** proc_upperdeck.go:137-143 *)
Definition fresh_deck (es : list nat) : deck := fold_left admit_ep es [].
Definition put_tx (f : nat -> list nat) (e : nat) (q : list nat) : nat -> list nat :=
  fun x => if decide (x = e) then q else f x.
(** The upper deck that a message received on a connection of Run [i] reaches:
    [build] links every processor to its neighbours anew and the first one to
    the newest upper deck, but without processors each lower deck keeps the
    upper deck of its own Run (ustack_default.go:125-139). *)
Definition deck_above (s : gst) (i : nat) : nat := if procs then length (g_decks s) - 1 else i.

Inductive glab :=
| GAdd (e : nat) | GDel (e : nat) | GRun
| GPut (e m : nat)
| GTake (i e m : nat) | GPass (i e m : nat)   (* the goroutine of Run [i] for [e] *)
| GConn (i : nat)                             (* the lower deck of Run [i] gets a connection *)
| GRecv (c : nat) (k : Z) (e : nat)           (* a message of session [k] on connection [c] is given to [e] *)
| GLost (c : nat) (k : Z).                    (* ... to nobody *)

Inductive gstep : gst -> glab -> gst -> Prop :=
(** ustack_default.go:195-211, proc_upperdeck.go:123-132 *)
| gk_add_again s e : e ∈ g_list s -> gstep s (GAdd e) s
| gk_add_first es cs tx out e : e ∉ es ->
    gstep (Gst es [] cs tx out) (GAdd e) (Gst (es ++ [e]) [] cs tx out)
| gk_add es ds d cs tx out e : e ∉ es ->
    gstep (Gst es (ds ++ [d]) cs tx out) (GAdd e) (Gst (es ++ [e]) (ds ++ [admit_ep d e]) cs tx out)
(** ustack_default.go:214-233, proc_upperdeck.go:70-81 *)
| gk_del_none s e : e ∉ g_list s -> gstep s (GDel e) s
| gk_del_first es cs tx out e : e ∈ es ->
    gstep (Gst es [] cs tx out) (GDel e) (Gst (List.filter (fun x => negb (x =? e)) es) [] cs tx out)
| gk_del es ds d cs tx out e : e ∈ es -> (forall m, (e, Some m) ∉ d) ->
    gstep (Gst es (ds ++ [d]) cs tx out) (GDel e)
      (Gst (List.filter (fun x => negb (x =? e)) es) (ds ++ [List.filter (fun x => negb (fst x =? e)) d]) cs tx out)
(** ustack_default.go:120-146, 329-345 *)
| gk_run es ds cs tx out :
    gstep (Gst es ds cs tx out) GRun (Gst es (ds ++ [fresh_deck es]) cs tx out)
| gk_put es ds cs tx out e m :
    gstep (Gst es ds cs tx out) (GPut e m) (Gst es ds cs (put_tx tx e (tx e ++ [m])) out)
(** proc_upperdeck.go:54-66 *)
| gk_take es ds cs tx out i d1 e d2 m q :
    ds !! i = Some (d1 ++ (e, None) :: d2) -> tx e = m :: q ->
    gstep (Gst es ds cs tx out) (GTake i e m) (Gst es (<[i := d1 ++ (e, Some m) :: d2]> ds) cs (put_tx tx e q) out)
| gk_pass es ds cs tx out i d1 e d2 m :
    ds !! i = Some (d1 ++ (e, Some m) :: d2) ->
    gstep (Gst es ds cs tx out) (GPass i e m) (Gst es (<[i := d1 ++ (e, None) :: d2]> ds) cs tx (out ++ [(e, m)]))
(** proc_lowerdeck.go:35-60 *)
| gk_conn es ds cs tx out i : i < length ds ->
    gstep (Gst es ds cs tx out) (GConn i) (Gst es ds (cs ++ [i]) tx out)
(** proc_lowerdeck.go:68-84, proc_upperdeck.go:83-93, 105-120 *)
| gk_recv s c i d e : g_conns s !! c = Some i -> g_decks s !! deck_above s i = Some d -> e ∈ d.*1 ->
    gstep s (GRecv c (σ e) e) s
| gk_lost s c i d k : g_conns s !! c = Some i -> g_decks s !! deck_above s i = Some d -> (forall e, e ∈ d.*1 -> σ e <> k) ->
    gstep s (GLost c k) s.
End again.
