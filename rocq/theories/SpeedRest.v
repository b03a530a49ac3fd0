(** * Speed tests whose messages do not fit *)
From Verif Require Import GoBase FlowProofs SpeedSpec SpeedProofs.
From Verif Require Import StackModel StackSpec StackProofs StackPath StackFacts StackEffects StackSpecial StackCount StackEnd.
From Coq Require Import Lia.

Section lost.
Context (okc oks : bool) (k1 k2 : nat).
Notation spruns := (spruns okc oks k1 k2).
Notation spstep := (spstep okc oks k1 k2).
Notation new_speed := (new_speed k1 k2).

Lemma silent tr s : okc = false -> spruns new_speed tr s -> times SpHear tr = 0 /\ times SpGot tr = 0.
Proof.
  intros E H. destruct (quiet_req _ _ _ _ _ _ E H) as (_ & _ & T). destruct (in_order _ _ _ _ _ _ H) as (_ & _ & O1 & O2 & _). lia.
Qed.
Lemma unanswered tr s : oks = false -> spruns new_speed tr s -> times SpGot tr = 0.
Proof. intros E H. by destruct (quiet_ans _ _ _ _ _ _ E H). Qed.

Lemma one_lost a ph ctx crx stx srx : okc = false ->
  spruns (Sp (nothing (caps_listener k1)) a false ph ctx crx stx srx) [SpPutReq; SpReq 0; SpLostReq; SpCount]
    (Sp (nothing (caps_listener k1)) a false ph (incr ctx) crx stx srx).
Proof.
  intros E. unfold nothing; simpl.
  eapply (sr_snoc _ _ _ _ _ [_; _; _]); [eapply (sr_snoc _ _ _ _ _ [_; _]); [eapply (sr_snoc _ _ _ _ _ [_]); [eapply (sr_snoc _ _ _ _ _ []); [apply sr_nil|]|]|]|].
  - apply pk_put. eexists _, _. split; [reflexivity|]. split; [reflexivity|]. split; [simpl; lia|reflexivity].
  - apply pk_req; [|by right]. eapply (lm_move _ _ 0); [reflexivity|reflexivity|reflexivity|simpl; lia].
  - eapply pk_lost_req; [done|reflexivity].
  - apply pk_count.
Qed.
Lemma many_lost n : okc = false -> exists tr s, spruns new_speed tr s /\ times SpCount tr = n.
Proof.
  intros E. enough (exists tr ctx, spruns new_speed tr (Sp (nothing (caps_listener k1)) (nothing (caps_listener k2)) false SpIdle ctx 0 0 0) /\ times SpCount tr = n)
    as (tr & ctx & H & T) by (by eexists _, _).
  induction n as [|n (tr & ctx & H & T)].
  - exists [], 0%Z. split; [apply sr_nil|done].
  - eexists (tr ++ _), _. split; [eapply spruns_app; [exact H|by apply one_lost]|]. rewrite times_app, T. simpl. unfold times. simpl. lia.
Qed.
Lemma one_unanswered ctx crx stx srx : okc = true -> oks = false -> 1 <= k1 ->
  spruns (Sp (nothing (caps_listener k1)) (nothing (caps_listener k2)) false SpIdle ctx crx stx srx)
    [SpPutReq; SpCount; SpReq 0; SpReq 1; SpReq 2; SpReq 3; SpReq 4; SpHear; SpReply; SpReturn; SpAns 0; SpLostAns]
    (Sp (nothing (caps_listener k1)) (nothing (caps_listener k2)) false SpIdle (incr ctx) crx (incr stx) (incr srx)).
Proof.
  intros E1 E2 K. unfold nothing; simpl.
  eapply (sr_snoc _ _ _ _ _ [_; _; _; _; _; _; _; _; _; _; _]); [eapply (sr_snoc _ _ _ _ _ [_; _; _; _; _; _; _; _; _; _]); [eapply (sr_snoc _ _ _ _ _ [_; _; _; _; _; _; _; _; _]); [
  eapply (sr_snoc _ _ _ _ _ [_; _; _; _; _; _; _; _]); [eapply (sr_snoc _ _ _ _ _ [_; _; _; _; _; _; _]); [eapply (sr_snoc _ _ _ _ _ [_; _; _; _; _; _]); [
  eapply (sr_snoc _ _ _ _ _ [_; _; _; _; _]); [eapply (sr_snoc _ _ _ _ _ [_; _; _; _]); [
  eapply (sr_snoc _ _ _ _ _ [_; _; _]); [eapply (sr_snoc _ _ _ _ _ [_; _]); [eapply (sr_snoc _ _ _ _ _ [_]); [eapply (sr_snoc _ _ _ _ _ []); [apply sr_nil|]|]|]|]|]|]|]|]|]|]|]|].
  - apply pk_put. eexists _, _. split; [reflexivity|]. split; [reflexivity|]. split; [simpl; lia|reflexivity].
  - apply pk_count.
  - apply pk_req; [|by left]. eapply (lm_move _ _ 0); [reflexivity|reflexivity|reflexivity|simpl; lia].
  - apply pk_req; [|by left]. eapply (lm_move _ _ 1); [reflexivity|reflexivity|reflexivity|simpl; lia].
  - apply pk_req; [|by left]. eapply (lm_move _ _ 2); [reflexivity|reflexivity|reflexivity|simpl; lia].
  - apply pk_req; [|by left]. eapply (lm_move _ _ 3); [reflexivity|reflexivity|reflexivity|simpl; lia].
  - apply pk_req; [|by left]. eapply (lm_move _ _ 4); [reflexivity|reflexivity|reflexivity|simpl; lia].
  - eapply pk_hear. reflexivity.
  - apply pk_reply. eexists _, _. split; [reflexivity|]. split; [reflexivity|]. split; [simpl; lia|reflexivity].
  - eapply pk_return. eexists. split; [reflexivity|reflexivity].
  - apply pk_ans; [|by right]. eapply (lm_move _ _ 0); [reflexivity|reflexivity|reflexivity|simpl; lia].
  - simpl. eapply (pk_lost_ans _ _ _ _ [[]; []; []; []; []; []] [[]; [Answer 0]; []; []; []; []]); [done|reflexivity].
Qed.
Lemma many_unanswered n : okc = true -> oks = false -> 1 <= k1 -> exists tr s, spruns new_speed tr s /\ times SpReturn tr = n /\ times SpCount tr = n.
Proof.
  intros E1 E2 K. enough (exists tr ctx stx srx, spruns new_speed tr (Sp (nothing (caps_listener k1)) (nothing (caps_listener k2)) false SpIdle ctx 0 stx srx) /\ times SpReturn tr = n /\ times SpCount tr = n)
    as (tr & ctx & stx & srx & H & T) by (by eexists _, _).
  induction n as [|n (tr & ctx & stx & srx & H & T & T')].
  - exists [], 0%Z, 0%Z, 0%Z. split; [apply sr_nil|done].
  - eexists (tr ++ _), _, _, _. split; [eapply spruns_app; [exact H|by apply one_unanswered]|]. rewrite !times_app, T, T'. unfold times. simpl. lia.
Qed.
End lost.

(** Which sizes fit. *)
Lemma sizes E ids cap c p s : wired E ids [Proc KBytes true; Proc (KFrame cap) true] -> e_isref E c = false -> (0 < e_mtu E < 2^32)%Z -> (e_overhead E <= e_mtu E)%Z ->
  ((1 <= Z.of_nat p <= e_mtu E - e_overhead E)%Z ->
     exists s', finishes (fun f => send f E 0 None (Some c) (Some (MBytes (replicate p 65%Z))) s) s (offered E (s_out s) c (wire_of 0 [Proc (KFrame cap) true] (replicate p 65%Z))) s') /\
  (p = 0 \/ (e_mtu E - e_overhead E < Z.of_nat p)%Z ->
     exists s', finishes (fun f => send f E 0 None (Some c) (Some (MBytes (replicate p 65%Z))) s) s [] s').
Proof.
  intros Hw Hr Hm Ho. split; intros Hp.
  - destruct (visits_down E ids [] KBytes [Proc (KFrame cap) true] 0 None c (MBytes (replicate p 65%Z)) (replicate p 65%Z) s) as (s' & F & _); try done.
    + by constructor.
    + destruct p; [simpl in Hp; lia|done].
    + rewrite replicate_length. lia.
    + lia.
    + by exists s'.
  - destruct (send_nothing E ids [] KBytes [Proc (KFrame cap) true] 0 None (Some c) (MBytes (replicate p 65%Z)) (replicate p 65%Z) s) as (s' & F & _); try done.
    + lia.
    + rewrite replicate_length. destruct Hp as [->|Hp]; [by left|right; lia].
    + by exists s'.
Qed.
