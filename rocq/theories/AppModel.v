(** * Models of the example program examples/microservices/main.go

    The data listener of the service center (one goroutine calls it, with one
    request after the other: End) and the session type of the application.
    Strings are lists of bytes. *)
From Verif Require Export GoBase.
From stdpp Require Export functions.

(** ** The service center *)
Notation text := (list byte).
Definition colon : byte := 58%Z.
Definition reg_word : text := [114; 101; 103]%Z.                  (* "reg" *)

(** strings.Split(request, ":") *)
Fixpoint split_colon (l : text) : list text :=
  match l with
  | [] => [[]]
  | b :: r =>
      if decide (b = colon) then [] :: split_colon r
      else match split_colon r with w :: ws => (b :: w) :: ws | [] => [[b]] end
  end.
(** strings.HasSuffix(request, "reg") *)
Definition ends_reg (l : text) : bool := bool_decide (3 <= length l /\ drop (length l - 3) l = reg_word).

(** main.go:19-21: the map; 28-47: one call of the listener.  [None]: index out
    of range, the program ends. *)
Notation services := (text -> option text).
Definition center_hears (request : text) (m : services) : option (services * option text) :=
  if ends_reg request then
    match split_colon request with
    | n :: a :: _ => Some (<[n := Some a]> m, None)               (* 34-35 *)
    | _ => None
    end
  else Some (m, m request).                                       (* 38-46 *)
(** Requests one after the other, and what was answered to each. *)
Fixpoint center_runs (rs : list text) (m : services) : option (services * list (option text)) :=
  match rs with
  | [] => Some (m, [])
  | r :: rs' =>
      match center_hears r m with
      | None => None
      | Some (m1, a) => match center_runs rs' m1 with None => None | Some (m2, l) => Some (m2, a :: l) end
      end
  end.

(** ** AppSession *)

(** The goroutine that announces connections: waiting for one; in the event
    listener, which has stored the connection (110) and puts into [ready] (111). *)
Inductive apc := AWait | AReady (c : nat).
Record xst := Xst {
  x_c : option nat;                 (* s.c *)
  x_ready : nat;                    (* elements in s.ready, of capacity 1 *)
  x_waited : bool;                  (* WaitReady has returned *)
  x_pub : apc;
  x_open : list nat;                (* connections announced *)
  x_rx : list (nat * nat);          (* rxChannel: connection, data *)
  x_log : list (nat * nat) }.       (* what Write put into the transmit channel *)
Definition new_session : xst := Xst None 0 false AWait [] [] [].
Inductive xlab :=
| XConnect (c : nat)                (* a connection: the listener stores it *)
| XPut (c : nat)                    (* the listener returns *)
| XWait                             (* WaitReady, 128-130 *)
| XArrive (c d : nat)               (* data from a connection that is served *)
| XRead (c d : nat)                 (* Read, 132-136 *)
| XWrite (d : nat).                 (* Write, 138-142 *)
Inductive xstep : xst -> xlab -> xst -> Prop :=
| xk_connect sc r w op rx lg c : c ∉ op ->
    xstep (Xst sc r w AWait op rx lg) (XConnect c) (Xst (Some c) r w (AReady c) op rx lg)
| xk_put sc r w op rx lg c : r < 1 ->
    xstep (Xst sc r w (AReady c) op rx lg) (XPut c) (Xst sc (S r) w AWait (op ++ [c]) rx lg)
| xk_wait sc r p op rx lg :
    xstep (Xst sc (S r) false p op rx lg) XWait (Xst sc r true p op rx lg)
| xk_arrive sc r w p op rx lg c d : c ∈ op ->
    xstep (Xst sc r w p op rx lg) (XArrive c d) (Xst sc r w p op (rx ++ [(c, d)]) lg)
| xk_read sc r p op rx lg c d :
    xstep (Xst sc r true p op ((c, d) :: rx) lg) (XRead c d) (Xst (Some c) r true p op rx lg)
| xk_write c r p op rx lg d :
    xstep (Xst (Some c) r true p op rx lg) (XWrite d) (Xst (Some c) r true p op rx (lg ++ [(c, d)])).
