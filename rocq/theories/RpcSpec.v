(** * What clients that ask a server should see *)
From Verif Require Import GoBase UBufModel FrameModel FrameSpec StackModel StackSpec NetModel NetSpec RpcModel.

(** Runs in which [ok] holds of every step. *)
Inductive rrun (R : rpc) (ok : rst -> rlab -> Prop) (s : rst) : list rlab -> rst -> Prop :=
| rr_nil : rrun R ok s [] s
| rr_snoc ls s1 l s2 : rrun R ok s ls s1 -> ok s1 l -> rstep R s1 l s2 -> rrun R ok s (ls ++ [l]) s2.

Definition any_chunks (s : rst) (l : rlab) : Prop := True.
(** A Read returns all the bytes that are there. *)
Definition all_there (s : rst) (l : rlab) : Prop :=
  match l with
  | RRead i n => n = length (c_out (r_cl s i))
  | RBack i n => n = length (c_in (r_cl s i))
  | _ => True
  end.

(** The requests client [i] wrote. *)
Definition asked (i : nat) (ls : list rlab) : list mail :=
  omap (fun l => match l with RWrite j m => if decide (j = i) then Some m else None | _ => None end) ls.
(** The requests from connection [c] among the calls of the listener, and what
    the listener answered to each. *)
Definition calls_of (c : conn) (log : list (epd msg)) : list msg :=
  omap (fun p => if decide (fst p = Some c) then Some (snd p) else None) log.
Fixpoint answered (R : rpc) (before : list (epd msg)) (log : list (epd msg)) : list (epd (option mail)) :=
  match log with
  | [] => []
  | p :: log => (fst p, rans R before p) :: answered R (before ++ [p]) log
  end.
Definition answers_to (R : rpc) (c : conn) (log : list (epd msg)) : list (option msg) :=
  omap (fun p : epd (option mail) => if decide (fst p = Some c) then Some (ml_msg <$> snd p) else None) (answered R [] log).

(** The two directions of the connection of client [i]. *)
Definition up (R : rpc) (i : nat) : net :=
  Net (rc R i) (rs R) (rcc R i) (rsc R i) (fun _ => rcs R i) (rtxcap R) (rrxcap R).
Definition down (R : rpc) (i : nat) : net :=
  Net (rs R) (rc R i) (rsc R i) (rcc R i) (fun _ => rss R) (rtxcap R) (rrxcap R).
(** All stacks have the codec [k] and below it the processors [ps]; the
    connections of the server differ. *)
Definition fitting (R : rpc) (k : kind) (ps : list proc) : Prop :=
  (forall i, i < rn R -> matching (up R i) k ps /\ matching (down R i) k ps) /\
  (forall i j, i < rn R -> j < rn R -> rsc R i = rsc R j -> i = j).
(** The frame decoders of all stacks hold nothing. *)
Definition all_idle (R : rpc) (a : nat -> st) (b : st) : Prop :=
  caches_idle (rs R) b /\ forall i, i < rn R -> caches_idle (rc R i) (a i).
(** A request fits and is for the server's endpoint; an answer fits and is for
    the client's. *)
Definition request (R : rpc) (k : kind) (ps : list proc) (i : nat) (m : mail) : Prop :=
  sendable (up R i) k ps 0 m /\ dest_of (rcs R i) (ml_dest m) = rss R.
Definition answer (R : rpc) (k : kind) (ps : list proc) (i : nat) (m : mail) : Prop :=
  sendable (down R i) k ps 0 m /\ dest_of (rss R) (ml_dest m) = rcs R i.
Definition requests_fit (R : rpc) (k : kind) (ps : list proc) (ls : list rlab) : Prop :=
  forall i m, RWrite i m ∈ ls -> request R k ps i m.
Definition answers_fit (R : rpc) (k : kind) (ps : list proc) : Prop :=
  forall log i m y, i < rn R -> rans R log (Some (rsc R i), m) = Some y -> answer R k ps i y.

(** A step that is not a new request. *)
Definition onward (l : rlab) : Prop := match l with RWrite _ _ => False | _ => True end.
Definition at_rest (R : rpc) (s : rst) : Prop := forall l s', onward l -> all_there s l -> ~ rstep R s l s'.
