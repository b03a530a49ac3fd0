(** * More proofs about stacks joined by reference transports: every schedule ends *)
From Coq Require Import ZArith Lia.
From Verif Require Import GoBase UBufModel FrameModel StackModel StackSpec StackFacts NetModel NetProofs ObjModel ObjSpec ObjProofs CountFacts NetRest.
From stdpp Require Import sets list.

Section ends.
Context (N : objs) (J : joined N).
Definition oput (l : olab) : bool := match l with OPut _ _ => true | _ => false end.
Definition inhand (s : ost) (e : nat * nat) : list mail := match o_hand s e with Some x => [x] | None => [] end.
(** What is to be taken, to be passed down, to be sent, under way, to be given and to be heard, each with the steps it still needs. *)
Definition due (s : ost) (n : nat) : Prop := exists n1 n2 n3 n4 n5 n6,
  amount (o_tx s) n1 /\ amount (inhand s) n2 /\ amount (o_set s) n3 /\ amount (o_chan s) n4 /\ amount (o_up s) n5 /\ amount (o_rx s) n6 /\
  6 * n1 + 5 * n2 + 4 * n3 + 3 * n4 + 2 * n5 + n6 = n.
Ltac ne := intros ? Hne; unfold inhand; simpl; by rewrite fn_lookup_insert_ne by congruence.
Ltac fin := split_and!; try done; lia.
Lemma due_step s l s' n : due s n -> (forall e, o_set s e <> [] -> o_hand s e = None) -> ostep N s l s' -> exists n', due s' n' /\ n' + 1 <= n + (if oput l then 7 else 0).
Proof.
  intros (n1 & n2 & n3 & n4 & n5 & n6 & T1 & T2 & T3 & T4 & T5 & T6 & <-) Hb St. inversion St; subst; simpl in *.
  - pose proof (amount_more tx (<[e:=tx e ++ [x]]> tx) n1 e 1 T1 ltac:(ne) ltac:(rewrite fn_lookup_insert, app_length; done)) as T1'.
    eexists. split; [exists (n1 + 1), n2, n3, n4, n5, n6; fin|lia].
  - destruct (amount_less tx (<[e:=q]> tx) n1 e 1 T1 ltac:(ne)) as (m1 & T1' & ->); [rewrite fn_lookup_insert, H1; simpl; lia|].
    assert (amount (inhand (Ost (<[e:=q]> tx) (<[e:=Some x]> hd) se ss ch up rx sn)) (n2 + 1)) as T2'.
    { eapply (amount_more _ _ n2 e 1 T2); [ne|]. unfold inhand. simpl. rewrite fn_lookup_insert, H. done. }
    eexists. split; [exists m1, (n2 + 1), n3, n4, n5, n6; fin|lia].
  - destruct (amount_less _ (inhand (Ost tx (<[e:=None]> hd) (<[e:=handed (ob_conn N (fst e)) outs]> se) (<[fst e:=s'0]> ss) ch up rx sn)) n2 e 1 T2) as (m2 & T2' & ->); [ne|unfold inhand; simpl; rewrite fn_lookup_insert, H; done|].
    pose proof (send_shows N J e x _ _ _ H0) as E.
    assert (amount (<[e:=handed (ob_conn N (fst e)) outs]> se) (n3 + 1)) as T3'.
    { eapply (amount_more _ _ n3 e 1 T3); [ne|]. rewrite fn_lookup_insert, E. destruct (se e) eqn:Es; [done|].
      specialize (Hb e). rewrite Es, H in Hb. by discriminate Hb. }
    eexists. split; [exists n1, m2, (n3 + 1), n4, n5, n6; fin|lia].
  - destruct (amount_less se (<[e:=q]> se) n3 e 1 T3 ltac:(ne)) as (m3 & T3' & ->); [rewrite fn_lookup_insert, H; simpl; lia|].
    set (b := negb (ob_server N (fst e))) in *.
    pose proof (amount_more ch (<[b:=ch b ++ [m]]> ch) n4 b 1 T4 ltac:(ne) ltac:(rewrite fn_lookup_insert, app_length; done)) as T4'.
    eexists. split; [exists n1, n2, m3, (n4 + 1), n5, n6; fin|lia].
  - pose proof (receive_shows N J j m _ _ _ H1) as E.
    destruct (amount_less ch (<[ob_server N j:=q]> ch) n4 (ob_server N j) 1 T4 ltac:(ne)) as (m4 & T4' & ->); [rewrite fn_lookup_insert, H0; simpl; lia|].
    assert (amount (<[j:=delivered outs]> up) (n5 + 1)) as T5'.
    { eapply (amount_more _ _ n5 j 1 T5); [ne|]. rewrite fn_lookup_insert, E, H. done. }
    eexists. split; [exists n1, n2, n3, m4, (n5 + 1), n6; fin|lia].
  - pose proof (receive_shows N J j m _ _ _ H3) as E.
    destruct (amount_less se (<[e:=q]> se) n3 e 1 T3 ltac:(ne)) as (m3 & T3' & ->); [rewrite fn_lookup_insert, H; simpl; lia|].
    assert (amount (<[j:=delivered outs]> up) (n5 + 1)) as T5'.
    { eapply (amount_more _ _ n5 j 1 T5); [ne|]. rewrite fn_lookup_insert, E, H0. done. }
    eexists. split; [exists n1, n2, m3, n4, (n5 + 1), n6; fin|lia].
  - destruct (amount_less up (<[j:=q]> up) n5 j 1 T5 ltac:(ne)) as (m5 & T5' & ->); [rewrite fn_lookup_insert, H; simpl; lia|].
    pose proof (amount_more rx (<[(j, z):=rx (j, z) ++ [m]]> rx) n6 (j, z) 1 T6 ltac:(ne) ltac:(rewrite fn_lookup_insert, app_length; done)) as T6'.
    eexists. split; [exists n1, n2, n3, n4, m5, (n6 + 1); fin|lia].
  - destruct (amount_less rx (<[(j, z):=q]> rx) n6 (j, z) 1 T6 ltac:(ne)) as (m6 & T6' & ->); [rewrite fn_lookup_insert, H; simpl; lia|].
    eexists. split; [exists n1, n2, n3, n4, n5, m6; fin|lia].
Qed.
Lemma due_run ss ls s : orun N (new_objs ss) ls s -> exists n, due s n /\ n + length ls <= 7 * cntl oput ls.
Proof.
  induction 1 as [|ls s1 l s2 R (n & Hd & Hn) St].
  - exists 0. split; [|done]. exists 0, 0, 0, 0, 0, 0. split_and!; try apply amount_nil. done.
  - destruct (oinv_reach N J true _ _ _ R) as [o I].
    destruct (due_step _ _ _ _ Hd (v_busy _ _ _ _ _ I) St) as (n' & Hd' & Hn'). exists n'. split; [done|].
    rewrite cntl_snoc, app_length. simpl. destruct (oput l); lia.
Qed.
Lemma own_first s ms s' : orun N s ms s' -> Forall own ms -> ms = [] /\ s' = s \/ exists l s1, own l /\ ostep N s l s1.
Proof.
  induction 1 as [|ms s1 l s2 R IH St]; intros F; [by left|right]. apply Forall_app in F as [F1 F2]. inversion F2; subst.
  destruct (IH F1) as [[-> ->]|?]; [by eexists _, _|done].
Qed.
Lemma objs_end (rd : bool -> nat) ss ls s : 0 < ob_rxcap N -> (forall b, ob_server N (rd b) = b) -> orun N (new_objs ss) ls s ->
  length ls <= 7 * objects_put ls /\ ((forall l s', own l -> ~ ostep N s l s') -> at_rest s /\ all_gone s).
Proof.
  intros Hc Hrd R. split; [destruct (due_run _ _ _ R) as (n & _ & Hn); change (objects_put ls) with (cntl oput ls); lia|].
  intros Hn. destruct (objs_finish N J rd Hrd ss ls s Hc R) as (ms & s' & R' & F & Hs & Ha).
  destruct (own_first _ _ _ R' F) as [[_ ->]|(l & s1 & Ho & St)]; [done|]. by destruct (Hn l s1 Ho).
Qed.
End ends.
