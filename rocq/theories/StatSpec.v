(** * What collecting the statistics of a peer should show *)
From Verif Require Import GoBase UBufModel UBufSpec FrameModel FrameSpec StackModel StackSpec.
From stdpp Require Import list.

(** A name as it is printed: the first 128 bytes, filled up with zero bytes. *)
Definition line (name : list byte) : list byte := take 128 name ++ replicate (128 - length name) 0%Z.

(** Bytes a stack has for a message besides the headers. *)
Definition space (E : env) : nat := Z.to_nat (e_mtu E - e_overhead E).

(** One exchange: StatCounter [i] of stack [A] asks over its connection [cA],
    stack [B] gets the request from its connection [cB] and answers, [A] gets the
    answer.  [shownA]: what the answer makes [A] show; [vA], [vB]: the processors
    called. *)
Record exchange (A B : env) (i : nat) (cA cB : conn) (sA sB : st) (shownA : list out) (vA vB : list (nat * dir)) (sA' sB' : st) : Prop := Exchange {
  ex_wires : exists w w' s1,
    finishes (fun f => self_message f A i 16%Z cA sA) sA [OWire cA w] s1 /\
    finishes (fun f => receive f B cB w sB) sB [OWire cB w'] sB' /\
    finishes (fun f => receive f A cA w' s1) s1 shownA sA';
  ex_visitsA : fst <$> s_visits sA' = (fst <$> s_visits sA) ++ vA;
  ex_visitsB : fst <$> s_visits sB' = (fst <$> s_visits sB) ++ vB }.

(** Several exchanges, one after the other. *)
Inductive exchanges (A B : env) (i : nat) (cA cB : conn) (vA vB : list (nat * dir)) : st -> st -> list out -> st -> st -> Prop :=
| exchanges_nil sA sB : exchanges A B i cA cB vA vB sA sB [] sA sB
| exchanges_cons sA sB o sA1 sB1 os sA2 sB2 :
    exchange A B i cA cB sA sB [o] vA vB sA1 sB1 -> exchanges A B i cA cB vA vB sA1 sB1 os sA2 sB2 ->
    exchanges A B i cA cB vA vB sA sB (o :: os) sA2 sB2.

(** The processors below a StatCounter [i], top first: called downwards by its
    request, upwards by the answer; the answering side the other way round. *)
Definition asks (i : nat) (below : list nat) : list (nat * dir) :=
  ((fun j => (j, Down)) <$> below) ++ ((fun j => (j, Up)) <$> rev below) ++ [(i, Up)].
Definition answers (i : nat) (below : list nat) : list (nat * dir) :=
  ((fun j => (j, Up)) <$> rev below) ++ [(i, Up)] ++ ((fun j => (j, Down)) <$> below).
