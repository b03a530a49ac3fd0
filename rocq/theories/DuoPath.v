(** Calls up a stack whose results depend on the state: several messages in one
    chunk, some of them messages of the processors themselves. *)
From stdpp Require Import list numbers sets.
From Coq Require Import ZArith Lia.
From Verif Require Import GoBase UBufModel UBufSpec UBufProofs UBufFacts FrameModel FrameSpec FrameProofs
  StackModel StackSpec StackProofs StackPath StackFacts StackEffects StackSpecial StackCount StackEnd StatSpec StatProofs.

(** ** No call adds or removes a processor *)
Definition sized (g : callfn) : Prop := forall x s x' s', g x s = Some (Done x' s') -> length (s_ps s') = length (s_ps s).
Lemma sized_set_cache s i c : length (s_ps (set_cache s i c)) = length (s_ps s).
Proof. unfold set_cache. destruct (s_ps s !! i); [|done]. simpl. by rewrite insert_length. Qed.
Lemma sized_inc_tx s i : length (s_ps (inc_tx s i)) = length (s_ps s).
Proof. unfold inc_tx. destruct (s_ps s !! i); [|done]. simpl. by rewrite insert_length. Qed.
Lemma sized_inc_rx s i : length (s_ps (inc_rx s i)) = length (s_ps s).
Proof. unfold inc_rx. destruct (s_ps s !! i); [|done]. simpl. by rewrite insert_length. Qed.
Lemma sized_cur n i up : sized up -> forall x s u x' s', frame_cur n i up x s u = Some (Done x' s') -> length (s_ps s') = length (s_ps s).
Proof.
  intros Hu. induction n as [|n IH]; intros x s u x' s' H; [done|]. cbn [frame_cur] in H.
  destruct (cache_of s i) as [cc|]; [|done]. destruct (fd_cur_step cc u) as [[r c'] u'].
  destruct r as [| |nb|]; try done.
  - injection H as _ <-. apply sized_set_cache.
  - apply Hu in H. by rewrite sized_set_cache in H.
  - destruct (up (set_buf x (Some nb)) (set_cache s i c')) as [[x1 s1|]|] eqn:E; try done. apply Hu in E.
    apply IH in H. by rewrite H, E, sized_set_cache.
Qed.
Lemma sized_cached n i up : sized up -> forall x s x' s', frame_cached n i up x s = Some (Done x' s') -> length (s_ps s') = length (s_ps s).
Proof.
  intros Hu. induction n as [|n IH]; intros x s x' s' H; [done|]. cbn [frame_cached] in H.
  destruct (cache_of s i) as [cc|]; [|done]. destruct (fd_cached_step cc) as [r c'].
  destruct r as [| |nb|]; try done.
  - injection H as _ <-. apply sized_set_cache.
  - injection H as _ <-. apply sized_set_cache.
  - destruct (up (set_buf x (Some nb)) (set_cache s i c')) as [[x1 s1|]|] eqn:E; try done. apply Hu in E.
    apply IH in H. by rewrite H, E, sized_set_cache.
Qed.
Lemma sized_recv i up : sized up -> forall x s u x' s', frame_recv i up x s u = Some (Done x' s') -> length (s_ps s') = length (s_ps s).
Proof.
  intros Hu x s u x' s' H. unfold frame_recv in H. destruct (cache_of s i) as [cc|]; [|done].
  destruct (if 0 <? v_rlen cc then _ else _) as [[x1 s1|]|] eqn:E; try done.
  apply (sized_cached _ _ _ Hu) in H. rewrite H. destruct (0 <? v_rlen cc).
  - destruct (ub_readfrom None cc u) as [? [? ?]|[? ?]]; [|done]. injection E as _ <-. apply sized_set_cache.
  - by apply (sized_cur _ _ _ Hu) in E.
Qed.
Lemma sized_exec f E d p : sized (exec f E d p).
Proof.
  revert d p. induction f as [|f IH]; intros d p x s x' s' H; [done|]. cbn [exec] in H.
  destruct p as [[| |i]|]; [| | |done].
  - destruct d; [by injection H as _ <-|]. unfold upper_recv in H.
    repeat (case_decide || case_match); try done; by injection H as _ <-.
  - destruct d; [|by injection H as _ <-]. unfold lower_send in H.
    repeat case_match; try done; by injection H as _ <-.
  - destruct (e_procs E !! i) as [[k en]|]; [|done]. cbn [p_enable p_kind] in H.
    set (dn := exec f E Down (l_lower (e_links E) (PProc i))) in *.
    set (up := exec f E Up (l_upper (e_links E) (PProc i))) in *.
    set (ud := exec f E Down (l_upper (e_links E) (PProc i))) in *.
    assert (sized dn) as Hd by apply IH. assert (sized up) as Hu by apply IH. assert (sized ud) as Hw by apply IH.
    change (length (s_ps s)) with (length (s_ps (visit s i d x))). set (s0 := visit s i d x) in *. clearbody dn up ud s0.
    assert (forall y t, dn y t = Some (Done x' s') -> length (s_ps t) = length (s_ps s0) -> length (s_ps s') = length (s_ps s0)) as Gd.
    { intros y t Hy Ht. apply Hd in Hy. congruence. }
    assert (forall y t, up y t = Some (Done x' s') -> length (s_ps t) = length (s_ps s0) -> length (s_ps s') = length (s_ps s0)) as Gu.
    { intros y t Hy Ht. apply Hu in Hy. congruence. }
    assert (forall y t, ud y t = Some (Done x' s') -> length (s_ps t) = length (s_ps s0) -> length (s_ps s') = length (s_ps s0)) as Gw.
    { intros y t Hy Ht. apply Hw in Hy. congruence. }
    destruct d, k; cbn [on_upper on_lower] in H;
      unfold codec_write, codec_read, by_reference, with_buf, head_ignore in H;
      repeat case_match; try done;
      first [ by injection H as _ <-
            | injection H as _ <-; by first [apply sized_inc_tx|apply sized_inc_rx]
            | by eapply Gd; [exact H|]; first [done|apply sized_inc_tx]
            | by eapply Gu; [exact H|]; first [done|apply sized_inc_rx]
            | by eapply Gw; [exact H|]
            | by eapply (sized_recv _ _ Hu) ].
Qed.

(** ** What a call does with a message *)
(** As [handles], but what is shown may depend on the state: [Q] of the session
    left in the context and of what is shown. *)
Definition takes (E : env) (call : callfn) (c : conn) (l : list byte) (so : option oval)
  (Q : option oval -> list out -> Prop) (fr : list nat) : Prop :=
  forall x s b, cx_conn x = Some c -> cx_buf x = Some b -> wf b -> readable b = l -> cx_session x = so ->
    idle_in E fr s -> length (s_ps s) = length (e_procs E) ->
    exists x' s' outs, call x s = Some (Done x' s') /\ cx_conn x' = Some c /\ Q (cx_session x') outs /\
      s_out s' = s_out s ++ outs /\ length (s_ps s') = length (e_procs E) /\ idle_in E fr s' /\
      (forall j, j ∉ fr -> cache_of s' j = cache_of s j).
Lemma handles_takes E f d p c l so so' o vs fr (Q : option oval -> list out -> Prop) :
  handles E (exec f E d p) c l so so' o vs fr (fun _ => True) -> (forall h, Q so' (o h)) -> takes E (exec f E d p) c l so Q fr.
Proof.
  intros H HQ x s b Hc Hb W R Hso Hid Hlen. destruct (H x s b Hc Hb W R Hso Hid I) as (x' & s' & Ex & C' & S' & O' & _ & I' & _ & K').
  exists x', s', (o (s_out s)). split_and!; try done; [rewrite S'; apply HQ|]. apply sized_exec in Ex. congruence.
Qed.
Lemma takes_weaken E call c l so (Q Q' : option oval -> list out -> Prop) fr :
  (forall so' o, Q so' o -> Q' so' o) -> takes E call c l so Q fr -> takes E call c l so Q' fr.
Proof.
  intros HQ H x s b Hc Hb W R Hso Hid Hlen. destruct (H x s b Hc Hb W R Hso Hid Hlen) as (x' & s' & o & E1 & E2 & E3 & E4).
  exists x', s', o. split; [done|]. split; [done|]. split; [by apply HQ|done].
Qed.

Fixpoint tseq (E : env) (call : callfn) (c : conn) (fr : list nat) (ls : list (list byte)) (so : option oval)
  (Q : option oval -> list out -> Prop) : Prop :=
  match ls with
  | [] => Q so []
  | l :: ls' => payload_ok l /\ takes E call c l so (fun so1 o1 => tseq E call c fr ls' so1 (fun so2 o2 => Q so2 (o1 ++ o2))) fr
  end.

Lemma frame_cur_takes E i up c fr ps so Q n x s u cap en :
  tseq E up c fr ps so Q -> i ∉ fr -> e_procs E !! i = Some (Proc (KFrame cap) en) ->
  cx_conn x = Some c -> cx_session x = so -> wf u -> readable u = frames ps ->
  (Z.of_nat (v_rlen u) < 2^32)%Z -> v_rlen u < n -> idle_in E (i :: fr) s -> length (s_ps s) = length (e_procs E) ->
  exists x' s' outs, frame_cur n i up x s u = Some (Done x' s') /\ cx_conn x' = Some c /\ Q (cx_session x') outs /\
    s_out s' = s_out s ++ outs /\ length (s_ps s') = length (e_procs E) /\
    idle_in E (i :: fr) s' /\ (forall j, j ∉ i :: fr -> cache_of s' j = cache_of s j).
Proof.
  intros Hseq Hi Hp. revert so Q Hseq n x s u.
  induction ps as [|p ps IH]; intros so Q Hseq n x s u Hc Hso W R Hlen Hn Hidle HK;
    destruct n as [|n]; try lia; cbn [frame_cur];
    destruct (Hidle i cap en) as (k & cc & Hk & Ecc & Ik); try done; try set_solver; rewrite Ecc;
    destruct (idle_wf k cc Ik) as (Wc & Rc & Tc);
    pose proof (cur_step_spec cc u Wc W Hlen) as S; cbv zeta in S; rewrite R in S.
  - unfold frames in S. simpl in S. destruct S as (c' & u' & -> & W' & S1 & S2 & S3 & S4).
    rewrite Rc in S4. simpl in S4. assert (readable c' = []) as R'.
    { rewrite S4. unfold accepted. rewrite Tc. cbn [length]. destruct (k <=? 0) eqn:Ek; cleq; [lia|done]. }
    simpl in Hseq. eexists _, _, []. split; [done|]. rewrite out_set_cache, sized_set_cache.
    split_and!; try done; rewrite ?app_nil_r; try done.
    + by rewrite Hso.
    + intros j cap' en' Hj Hj'. apply elem_of_cons in Hj as [->|Hj].
      * exists k, c'. rewrite (cache_set_same _ _ _ cc) by done. split_and!; try done.
        destruct Ik as (I1 & I2 & I3 & I4 & I5). rewrite <- I4, <- S3. apply wf_idle; congruence.
      * rewrite cache_set_other by (intros ->; done). apply (Hidle j cap' en'); set_solver.
    + intros j Hj. rewrite cache_set_other; [done|]. set_solver.
  - destruct Hseq as [Hpay Hh]. rewrite frames_cons in S. destruct Hpay as [Hp1 Hp2]. rewrite frame_announced in S by done.
    rewrite app_length, frame_length in S.
    assert (Hlp : 0 < length p) by (destruct p; simpl; [done|lia]).
    destruct ((4 + length p + length (frames ps) <? 4) ||
      (Z.of_nat (4 + length p + length (frames ps)) <? Z.of_nat (length p))%Z) eqn:E1.
    { apply orb_true_iff in E1 as [E1|E1]; [cleq; lia|]. apply Z.ltb_lt in E1. lia. }
    destruct (Z.of_nat (length p) =? Z.of_nat (4 + length p + length (frames ps)))%Z eqn:E2; [apply Z.eqb_eq in E2; lia|].
    destruct (Z.of_nat (length p) <=? 0)%Z eqn:E3; [apply Z.leb_le in E3; lia|].
    destruct (4 + Z.of_nat (length p) <=? Z.of_nat (4 + length p + length (frames ps)))%Z eqn:E4;
      [|apply Z.leb_gt in E4; lia].
    destruct S as (nb & u' & -> & Wn & Wu' & Rn & Ru'). rewrite Nat2Z.id in Rn, Ru'.
    rewrite frame_payload in Rn. rewrite frame_rest in Ru'.
    assert (Hset : idle_in E fr (set_cache s i cc)).
    { intros j cap' en' Hj Hj'. rewrite cache_set_other by (intros ->; done). apply (Hidle j cap' en'); set_solver. }
    destruct (Hh (set_buf x (Some nb)) (set_cache s i cc) nb) as (x1 & s1 & o1 & -> & Hc1 & Q1 & O1 & L1 & Id1 & C1); try done.
    { by rewrite sized_set_cache. }
    pose proof (readable_length u W) as Lu. rewrite R, frames_cons, app_length, frame_length in Lu.
    pose proof (readable_length u' Wu') as Lu'. rewrite Ru' in Lu'.
    destruct (IH _ _ Q1 n x1 s1 u') as (x2 & s2 & o2 & E2' & Hc2 & Q2 & O2 & L2 & Id2 & C2); try done; try lia.
    { intros j cap' en' Hj Hj'. apply elem_of_cons in Hj as [->|Hj]; [|by apply (Id1 j cap' en')].
      exists k, cc. rewrite C1 by done. by rewrite (cache_set_same _ _ _ cc). }
    exists x2, s2, (o1 ++ o2). rewrite out_set_cache in O1. split_and!; try done.
    + rewrite O2, O1. by rewrite <- app_assoc.
    + intros j Hj. rewrite C2 by done. rewrite C1 by set_solver. rewrite cache_set_other; [done|]. set_solver.
Qed.

Lemma frame_takes E i up c fr ps so Q cap en :
  tseq E up c fr ps so Q -> i ∉ fr -> e_procs E !! i = Some (Proc (KFrame cap) en) ->
  (Z.of_nat (length (frames ps)) < 2^32)%Z ->
  takes E (fun x s => match cx_buf x with Some ub => frame_recv i up x s ub | None => None end) c (frames ps) so Q (i :: fr).
Proof.
  intros Hseq Hi Hp Hlen x s b Hc Hb W R Hso Hidle HK. rewrite Hb. unfold frame_recv.
  destruct (Hidle i cap en) as (k & cc & Hk & Ecc & Ik); [set_solver|done|]. rewrite Ecc.
  destruct (idle_wf k cc Ik) as (Wc & Rc & Tc). pose proof (readable_length cc Wc) as Lc. rewrite Rc in Lc.
  simpl in Lc. rewrite <- Lc. cbn [Nat.ltb Nat.leb].
  pose proof (readable_length b W) as Lb. rewrite R in Lb.
  destruct (frame_cur_takes E i up c fr ps so Q (S (v_rlen b)) x s b cap en)
    as (x' & s' & o & -> & Hc' & Q' & O & L & Id & C); try done; try lia.
  destruct (Id i cap en) as (k' & cc' & Hk' & Ecc' & Ik'); [set_solver|done|].
  destruct (frame_cached_idle i up k' cc' (S (match cache_of s' i with Some c0 => v_rlen c0 | None => 0 end)) x' s')
    as (c2 & -> & I2); [lia|done|done|].
  eexists _, _, o. split; [done|]. rewrite out_set_cache, sized_set_cache. split_and!; try done.
  - intros j cap' en' Hj Hj'. destruct (decide (i = j)) as [->|Hne].
    + exists k', c2. by rewrite (cache_set_same _ _ _ cc').
    + rewrite cache_set_other by done. by apply (Id j cap' en').
  - intros j Hj. rewrite cache_set_other by set_solver. by apply C.
Qed.

Lemma takes_one E i p q f c l so Q fr sess :
  e_procs E !! i = Some p -> l_upper (e_links E) (PProc i) = Some q ->
  carries p = true -> e_isref E c = false -> l <> [] -> i ∉ fr ->
  (Z.of_nat (length (put sess p l)) < 2^32)%Z ->
  takes E (exec f E Up (Some q)) c l (if resolves p then Some (OInt (sess mod 2^32)%Z) else so) Q fr ->
  takes E (exec (S f) E Up (Some (PProc i))) c (put sess p l) so Q (i :: fr).
Proof.
  intros Hp Hup Hca Hr Hl Hi Hlen Hh x s b Hc Hb W R Hso Hidle HK.
  assert (Hi1 : idle_in E fr s) by (intros j ? ? ? ?; eapply Hidle; [set_solver|done]).
  destruct (is_frame p) eqn:Hf.
  - cbn [exec]. rewrite Hp, Hup. destruct p as [k en]. unfold is_frame in Hf. cbn [p_kind p_enable] in *.
    destruct k as [ | | | | | | | | | | |cap| | | | | ]; try done. subst en. unfold put in *. cbn [p_kind p_enable resolves] in *.
    unfold on_lower, by_reference, with_buf. rewrite Hc, Hr, Hb.
    assert (Hfs : frame l = frames [l]) by (unfold frames; simpl; by rewrite app_nil_r).
    assert (Hpay : payload_ok l).
    { split; [done|]. rewrite frame_length in Hlen. lia. }
    rewrite Hfs in *.
    destruct (frame_takes E i (exec f E Up (Some q)) c fr [l] so Q cap true)
      with (x := x) (s := visit s i Up x) (b := b) as (x' & s' & o & E' & Hc' & Q' & O & L & Id & C); try done.
    { simpl. split; [done|]. eapply takes_weaken; [|exact Hh]. intros so' o. simpl. by rewrite app_nil_r. }
    rewrite Hb in E'. exists x', s', o. split_and!; try done.
  - destruct (carries_step E i p x (visit s i Up x) c b sess l)
      as (b' & s1 & so1 & Hon & W' & R' & -> & _ & O1 & V1 & C1 & C1'); try done.
    assert (length (s_ps s1) = length (s_ps s)) as Ls1.
    { assert (sized (fun x s => on_lower E i (p_enable p) (fun _ _ => None) (fun x s => Some (Done x s)) (p_kind p) x s)) as Hz.
      { intros y t y' t' Hy. destruct p as [k en]. cbn [p_enable p_kind] in Hy.
        destruct k; cbn [on_lower] in Hy; unfold codec_write, codec_read, by_reference, with_buf, head_ignore in Hy;
          repeat case_match; try done; try (by injection Hy as _ <-);
          first [injection Hy as _ <-; by first [apply sized_inc_tx|apply sized_inc_rx]
                |eapply sized_recv; [|exact Hy]; by intros ? ? ? ? [= <- <-]]. }
      pose proof (Hz x (visit s i Up x)) as H0. rewrite Hon in H0. by apply (H0 _ _ eq_refl). }
    cbn [exec]. rewrite Hp, Hup, Hon. rewrite Hso.
    destruct (Hh (set_session (set_buf x (Some b')) (if resolves p then Some (OInt (sess mod 2^32)%Z) else so)) s1 b')
      as (x' & s' & o & E' & Hc' & Q' & O & L & Id & C); try done.
    { eapply idle_in_ext; [|exact Hi1]. intros j. by rewrite C1. }
    { by rewrite Ls1. }
    exists x', s', o. split_and!; try done.
    + rewrite O, O1. done.
    + intros j cap en Hj Hj'. apply elem_of_cons in Hj as [->|Hj]; [|by apply (Id j cap en)].
      rewrite C by done. rewrite C1. apply (Hidle i cap en); set_solver.
    + intros j Hj. rewrite C by set_solver. by rewrite C1.
Qed.

Lemma takes_path E t q is rs f c l so Q fr sess :
  path_up E t q is rs -> Forall (fun p => carries p = true) rs -> e_isref E c = false -> l <> [] ->
  NoDup (is ++ fr) -> (Z.of_nat (length (foldr (put sess) l rs)) < 2^32)%Z ->
  takes E (exec f E Up (Some t)) c l (sess_after rs sess so) Q fr ->
  takes E (exec (length is + f) E Up (Some q)) c (foldr (put sess) l rs) so Q (is ++ fr).
Proof.
  intros Hp. revert so. induction Hp as [|i is p rs q Hpi Hup Hp IH]; intros so Hca Hr Hl Hn Hlen Hh; [done|].
  inversion Hca as [|? ? Hc1 Hc2]; subst. simpl in Hn. apply NoDup_cons in Hn as [Hn1 Hn2].
  simpl in Hlen. pose proof (put_length sess p (foldr (put sess) l rs)) as Lp.
  rewrite sess_after_cons in Hh. simpl.
  apply (takes_one E i p q (length is + f) c (foldr (put sess) l rs) so Q (is ++ fr) sess); try done.
  - by apply unwire_nonempty.
  - apply IH; try done. lia.
Qed.
