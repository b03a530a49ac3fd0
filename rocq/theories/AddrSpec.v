(** * What becomes of messages and sessions *)
From Verif Require Import GoBase AddrModel.

Inductive arun (s : ast) : list alab -> ast -> Prop :=
| ar_nil : arun s [] s
| ar_snoc ls s1 l s2 : arun s ls s1 -> astep s1 l s2 -> arun s (ls ++ [l]) s2.

(** ** Messages *)
(** What a chain of setter calls means: the last call of each kind counts. *)
Definition destination (h : list setter) : option Z :=
  last (omap (fun f => match f with
    | SetDestinationSession k => Some (Some k) | ClearDestinationSession => Some None | _ => None end) h) None.
Definition connection (h : list setter) : option nat :=
  last (omap (fun f => match f with SetConnection c => Some c | _ => None end) h) None.
Definition content (h : list setter) : option nat :=
  last (omap (fun f => match f with SetData d => Some d | _ => None end) h) None.
(** The setter calls on message [o]. *)
Definition calls_on (o : nat) (ls : list alab) : list setter :=
  omap (fun l => match l with ASet o' f => if decide (o' = o) then Some f else None | _ => None end) ls.
(** A message as its setters left it, sent by an endpoint with session [k]. *)
Definition as_set (k : Z) (h : list setter) : passed := Passed (default k (destination h)) (connection h) (content h).
(** The messages put into [e]'s channel, each as it was at that moment. *)
Fixpoint posted_after (k : Z) (e : nat) (past ls : list alab) : list passed :=
  match ls with
  | [] => []
  | l :: ls' =>
      match l with APut e' o => if decide (e' = e) then [as_set k (calls_on o past)] else [] | _ => [] end ++
      posted_after k e (past ++ [l]) ls'
  end.
Definition posted (k : Z) (e : nat) (ls : list alab) : list passed := posted_after k e [] ls.
(** What was passed down for [e]. *)
Definition passed_down (e : nat) (s : ast) : list passed :=
  omap (fun p => if decide (fst p = e) then Some (snd p) else None) (a_out s).
(** The messages on their way: in a channel, or being read by a goroutine. *)
Definition in_hand (p : apc) : list nat :=
  match p with AIdle => [] | ATook o | AAsk o | AKnow o _ | AConn o _ _ => [o] end.
Definition under_way (s : ast) (e : nat) : list nat :=
  match a_deck s e with Some (_, p) => in_hand p | None => [] end ++ a_tx s e.
(** Executions all of whose steps satisfy [P]. *)
Inductive arun_if (P : ast -> alab -> Prop) (s : ast) : list alab -> ast -> Prop :=
| ai_nil : arun_if P s [] s
| ai_snoc ls s1 l s2 : arun_if P s ls s1 -> astep s1 l s2 -> P s1 l -> arun_if P s (ls ++ [l]) s2.
(** Nobody changes a message on its way. *)
Definition untouched (s : ast) (l : alab) : Prop :=
  forall o f, l = ASet o f -> forall e, o ∉ under_way s e.

(** ** Sessions *)
Definition accepted (s : ast) (e : nat) : Prop := a_deck s e <> None.
Definition keeps_session (e : nat) (ls : list alab) : Prop := forall k, ASession e k ∉ ls.
(** Nobody changes the session of an accepted endpoint. *)
Definition settled (s : ast) (l : alab) : Prop := forall e k, l = ASession e k -> ~ accepted s e.
(** A message of session [k] can be given to [e]. *)
Definition receives (s : ast) (e : nat) (k : Z) : Prop := exists x s', astep s (AGive e k x) s'.
(** [e]'s goroutine passes [p] down in this step. *)
Definition passes (s : ast) (e : nat) (p : passed) (s' : ast) : Prop :=
  astep s (ARead e) s' /\ a_out s' = a_out s ++ [(e, p)].
(** [e] is accepted, was so with session [k], and has nothing to send. *)
Definition busyless (s : ast) (e : nat) (k : Z) : Prop := a_deck s e = Some (k, AIdle) /\ a_tx s e = [].
