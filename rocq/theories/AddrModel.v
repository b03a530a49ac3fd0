(** * Model of message objects and sessions (endp_default.go, proc_upperdeck.go)

    A message is an object (EndPointData) that the user fills in by setters and
    puts, as a pointer, into an endpoint's txChannel; the upper deck's goroutine
    reads its fields later, one by one.  An endpoint's session is read when the
    endpoint is accepted (for sending), and again whenever a message is received.
    Everything here interleaves arbitrarily.  Simplifications: acceptEndpoint and
    findEndPoint are one step each (their interleavings are in DeckModel), and so
    is deleteEndpoint, which is only called while the endpoint's goroutine waits
    (C45 is about the other case); capacities do not matter here; connections and
    contents of messages are numbers; memory accesses are sequentially consistent. *)
From Verif Require Export GoBase.
From stdpp Require Export functions.

(** ** Messages *)
(** endp_default.go:8-13 DefaultEndPointData *)
Record epd := Epd { m_conn : option nat; m_data : option nat; m_has : bool; m_dest : Z }.
(** 16-23 NewEndPointData *)
Definition new_epd : epd := Epd None None false 0.
Inductive setter :=
| SetConnection (c : option nat)          (* 26-29 *)
| SetData (d : option nat)                (* 37-40 *)
| SetDestinationSession (k : Z)           (* 53-57 *)
| ClearDestinationSession.                (* 65-68 *)
Definition set1 (m : epd) (f : setter) : epd :=
  match f with
  | SetConnection c => Epd c (m_data m) (m_has m) (m_dest m)
  | SetData d => Epd (m_conn m) d (m_has m) (m_dest m)
  | SetDestinationSession k => Epd (m_conn m) (m_data m) true k
  | ClearDestinationSession => Epd (m_conn m) (m_data m) false (m_dest m)
  end.

(** ** Endpoints and the deck *)
(** The goroutine of an accepted endpoint, proc_upperdeck.go:47-66. *)
Inductive apc :=
| AIdle                                   (* in the select, 49 *)
| ATook (o : nat)                         (* has received message [o], before 55 *)
| AAsk (o : nat)                          (* HasDestinationSession was true, before 56 *)
| AKnow (o : nat) (k : Z)                 (* session decided, before GetConnection, 61 *)
| AConn (o : nat) (k : Z) (c : option nat).  (* before GetData, 62 *)
(** What is passed to the layer below. *)
Record passed := Passed { p_session : Z; p_conn : option nat; p_data : option nat }.
Record ast := Ast {
  a_sess : nat -> Z;                      (* GetSession() of each endpoint *)
  a_deck : nat -> option (Z * apc);       (* accepted: the session read then (40), its goroutine *)
  a_msgs : nat -> epd;
  a_tx : nat -> list nat;                 (* txChannel of each endpoint: pointers *)
  a_out : list (nat * passed) }.          (* ghost: calls of lower.OnUpperData *)
(** [σ] gives the sessions the endpoints were made with (NewEndPoint, 95-105). *)
Definition new_addr (σ : nat -> Z) : ast := Ast σ (fun _ => None) (fun _ => new_epd) (fun _ => []) [].

Inductive alab :=
| ASet (o : nat) (f : setter)
| ASession (e : nat) (k : Z)              (* SetSession *)
| AAccept (e : nat) | ARefuse (e : nat) | ADelete (e : nat)
| APut (e o : nat) | ATake (e : nat) | ARead (e : nat)
| AGive (e : nat) (k : Z) (x : nat)       (* a received message of session [k] goes to [e] *)
| ADrop (k : Z) (x : nat).                (* ... to nobody *)

Inductive astep : ast -> alab -> ast -> Prop :=
| ak_set ss dk ms tx out o f :
    astep (Ast ss dk ms tx out) (ASet o f) (Ast ss dk (<[o := set1 (ms o) f]> ms) tx out)
(** endp_default.go:136-139 *)
| ak_session ss dk ms tx out e k :
    astep (Ast ss dk ms tx out) (ASession e k) (Ast (<[e := k]> ss) dk ms tx out)
(** acceptEndpoint, proc_upperdeck.go:31-46, with existsEndpoint, 18-28 *)
| ak_accept ss dk ms tx out e :
    (forall x, dk x <> None -> x <> e /\ ss x <> ss e) ->
    astep (Ast ss dk ms tx out) (AAccept e) (Ast ss (<[e := Some (ss e, AIdle)]> dk) ms tx out)
| ak_refuse ss dk ms tx out e x :
    dk x <> None -> x = e \/ ss x = ss e ->
    astep (Ast ss dk ms tx out) (ARefuse e) (Ast ss dk ms tx out)
(** deleteEndpoint, 70-81, and the goroutine's return, 50-53 *)
| ak_delete ss dk ms tx out e k :
    dk e = Some (k, AIdle) ->
    astep (Ast ss dk ms tx out) (ADelete e) (Ast ss (<[e := None]> dk) ms tx out)
| ak_put ss dk ms tx out e o :
    astep (Ast ss dk ms tx out) (APut e o) (Ast ss dk ms (<[e := tx e ++ [o]]> tx) out)
(** 54 *)
| ak_take ss dk ms tx out e k o q :
    dk e = Some (k, AIdle) -> tx e = o :: q ->
    astep (Ast ss dk ms tx out) (ATake e) (Ast ss (<[e := Some (k, ATook o)]> dk) ms (<[e := q]> tx) out)
(** 55-56 *)
| ak_has_not ss dk ms tx out e k o :
    dk e = Some (k, ATook o) -> m_has (ms o) = false ->
    astep (Ast ss dk ms tx out) (ARead e) (Ast ss (<[e := Some (k, AKnow o k)]> dk) ms tx out)
| ak_has ss dk ms tx out e k o :
    dk e = Some (k, ATook o) -> m_has (ms o) = true ->
    astep (Ast ss dk ms tx out) (ARead e) (Ast ss (<[e := Some (k, AAsk o)]> dk) ms tx out)
(** 57 *)
| ak_dest ss dk ms tx out e k o :
    dk e = Some (k, AAsk o) ->
    astep (Ast ss dk ms tx out) (ARead e) (Ast ss (<[e := Some (k, AKnow o (m_dest (ms o)))]> dk) ms tx out)
(** 61 *)
| ak_conn ss dk ms tx out e k o d :
    dk e = Some (k, AKnow o d) ->
    astep (Ast ss dk ms tx out) (ARead e) (Ast ss (<[e := Some (k, AConn o d (m_conn (ms o)))]> dk) ms tx out)
(** 62-63, and the call, 60 *)
| ak_data ss dk ms tx out e k o d c :
    dk e = Some (k, AConn o d c) ->
    astep (Ast ss dk ms tx out) (ARead e)
      (Ast ss (<[e := Some (k, AIdle)]> dk) ms tx (out ++ [(e, Passed d c (m_data (ms o)))]))
(** findEndPoint, 83-93 (any endpoint of the session: map order), and 115-119 *)
| ak_give ss dk ms tx out e x :
    dk e <> None ->
    astep (Ast ss dk ms tx out) (AGive e (ss e) x) (Ast ss dk ms tx out)
| ak_drop ss dk ms tx out k x :
    (forall e, dk e <> None -> ss e <> k) ->
    astep (Ast ss dk ms tx out) (ADrop k x) (Ast ss dk ms tx out).
