(** * Basic facts about the stack model: wiring, buffer calls, fuel, the way
    down and the way up *)
From stdpp Require Import sets.
From Verif Require Import GoBase UBufModel UBufSpec UBufProofs UBufFacts FrameModel FrameSpec FrameProofs
  StackModel StackSpec.

Arguments frame : simpl never.
Arguments digits : simpl never.

(** ** Buffer calls *)
Lemma rmap_ok {S A B} (f : A -> B) (r : res S A) y b : rmap f r = Ok y b -> exists a, r = Ok a b /\ f a = y.
Proof. destruct r; simpl; intros; simplify_eq. by eexists. Qed.
Lemma headbyte_ok c b : wf b -> 1 <= v_hlen b ->
  exists b', v_headbyte c b = Ok None b' /\ wf b' /\ readable b' = c :: readable b /\
             v_hlen b' = v_hlen b - 1.
Proof.
  intros W H. destruct (step_spec (OpHeadByte c) b W I) as (b' & E & W' & _ & S1 & S2 & _).
  cbn [q_step absq q_head] in *. unfold v_hlen in *. destruct (v_rd b <? 1) eqn:E0; cleq; [lia|].
  exists b'. cbn [v_step] in E. destruct (v_headbyte c b); simpl in E; [|done]. by injection E as -> ->.
Qed.
Lemma headbyte_full c b : v_hlen b < 1 -> v_headbyte c b = Ok (Some EHead) b.
Proof. unfold v_headbyte, v_writehead, v_hlen. intros H. by destruct (v_rd b <? 1) eqn:E; cleq; [|lia]. Qed.
Lemma headU_ok v b : wf b -> 4 <= v_hlen b ->
  exists b', v_headU BE W32 v b = Ok None b' /\ wf b' /\ readable b' = digits BE W32 v ++ readable b /\
             v_hlen b' = v_hlen b - 4.
Proof.
  intros W H. destruct (step_spec (OpHeadU BE W32 v) b W I) as (b' & E & W' & _ & S1 & S2 & _).
  cbn [q_step absq q_head wbytes] in *. unfold v_hlen in *. destruct (v_rd b <? 4) eqn:E0; cleq; [lia|].
  exists b'. cbn [v_step] in E. destruct (v_headU BE W32 v b); simpl in E; [|done]. injection E as -> ->.
  rewrite <- enc_digits. cbn [snd q_prepend q_data q_head] in *. by rewrite enc_length in S1.
Qed.
Lemma headU_full v b : v_hlen b < 4 -> v_headU BE W32 v b = Ok (Some EHead) b.
Proof. unfold v_headU, v_writehead, v_hlen. cbn [wbytes]. intros H. by destruct (v_rd b <? 4) eqn:E; cleq; [|lia]. Qed.
Lemma readbyte_ok c l b : wf b -> readable b = c :: l ->
  exists b', v_readbyte b = Ok (c, None) b' /\ wf b' /\ readable b' = l /\ v_hlen b' = v_hlen b + 1.
Proof.
  intros W H. destruct (step_spec OpReadByte b W I) as (b' & E & W' & _ & S1 & S2 & _).
  cbn [q_step absq q_data] in *. rewrite H in *. exists b'. cbn [v_step] in E.
  apply rmap_ok in E as ([v e] & -> & Ev). cbn [fst snd absq q_pop q_data q_head] in *. injection Ev as -> ->. rewrite H in S2. done.
Qed.
Lemma readbyte_empty b : wf b -> readable b = [] -> v_readbyte b = Ok (0%Z, Some EEmpty) b.
Proof.
  intros W H. pose proof (readable_length b W) as L. rewrite H in L. unfold v_readbyte. by rewrite <- L.
Qed.
Lemma readU_ok v l b : wf b -> readable b = digits BE W32 v ++ l -> (0 <= v < 2^32)%Z ->
  exists b', v_readU BE W32 b = Ok (v, None) b' /\ wf b' /\ readable b' = l /\ v_hlen b' = v_hlen b + 4.
Proof.
  intros W H Hv. destruct (step_spec (OpReadU BE W32) b W I) as (b' & E & W' & _ & S1 & S2 & _).
  pose proof (digits_length BE W32 v) as Ld. cbn [wbytes] in Ld.
  cbn [q_step absq q_data wbytes] in *. rewrite H in *. rewrite app_length, Ld in *.
  destruct (4 + length l <? 4) eqn:E0; cleq; [lia|]. exists b'. cbn [v_step fst snd q_pop q_data q_head absq] in *. rewrite H in S2.
  rewrite announced_dec in E by (rewrite app_length; lia).
  rewrite digits_announced in E by done.
  apply rmap_ok in E as ([x e] & -> & Ev). cbn [fst snd] in *. injection Ev as -> ->. split_and!; [done..| |done].
  rewrite S2. rewrite <- Ld at 1. apply drop_app.
Qed.
Lemma readU_short b : wf b -> length (readable b) < 4 -> v_readU BE W32 b = Ok (0%Z, Some ENoData) b.
Proof.
  intros W H. rewrite (readable_length b W) in H. unfold v_readU. cbn [wbytes].
  by destruct (v_rlen b <? 4) eqn:E; cleq; [|lia].
Qed.
Lemma read_all b : wf b -> readable b <> [] ->
  exists b', v_read (v_rlen b) b = Ok (readable b, None) b' /\ wf b' /\ readable b' = [].
Proof.
  intros W H. destruct (step_spec (OpRead (v_rlen b)) b W I) as (b' & E & W' & _ & S1 & S2 & _).
  unfold q_step, q_empty, absq in *. cbn [q_data] in *. rewrite <- (readable_length b W) in *.
  destruct (readable b) as [|x l] eqn:R; [done|]. rewrite Nat.leb_refl in *.
  exists b'. cbn [v_step fst snd q_pop q_data] in *. rewrite firstn_all in E.
  apply rmap_ok in E as ([v e] & -> & Ev). cbn [fst snd] in *. injection Ev as -> ->.
  split_and!; [done..|]. by rewrite S2, drop_all.
Qed.
Lemma read_none b : wf b -> readable b = [] -> v_read (v_rlen b) b = Ok ([], None) b.
Proof. intros W H. pose proof (readable_length b W) as L. rewrite H in L. unfold v_read. by rewrite <- L. Qed.
Lemma write_ok p b : wf b -> p <> [] -> length p <= v_tlen b ->
  exists b', v_write p b = Ok (length p, None) b' /\ wf b' /\ readable b' = readable b ++ p /\
             v_hlen b' = v_hlen b /\ v_tlen b' = v_tlen b - length p.
Proof.
  intros W Hp H. destruct (step_spec (OpWrite p) b W I) as (b' & E & W' & _ & S1 & S2 & S3).
  cbn [q_step absq q_tail] in *. assert (length p <> 0) by (by destruct p).
  destruct (v_tlen b =? 0) eqn:E0; cleq; [lia|]. destruct (length p <=? v_tlen b) eqn:E1; cleq; [|lia].
  exists b'. cbn [v_step fst snd q_append q_data q_head q_tail] in *.
  destruct (v_write p b) as [[? ?] ?|]; simpl in E; [|done]. by injection E as -> -> ->.
Qed.
Lemma write_over p b : wf b -> v_tlen b < length p ->
  exists n e b', v_write p b = Ok (n, Some e) b'.
Proof.
  intros W H. destruct (step_spec (OpWrite p) b W I) as (b' & E & _).
  cbn [q_step absq q_tail] in *. cbn [v_step] in E.
  destruct (v_write p b) as [[n e] b1|]; simpl in E; [|done].
  destruct (v_tlen b =? 0) eqn:E0; cleq; [injection E as -> -> ->; by eexists _, _, _|].
  destruct (length p <=? v_tlen b) eqn:E1; cleq; [lia|]. injection E as -> -> ->. by eexists _, _, _.
Qed.
Lemma write_nil b : wf b -> exists e b', v_write [] b = Ok (0, e) b'.
Proof.
  intros W. destruct (step_spec (OpWrite []) b W I) as (b' & E & _).
  cbn [q_step absq q_tail] in *. cbn [v_step] in E.
  destruct (v_write [] b) as [[n e] b1|]; simpl in E; [|done].
  destruct (v_tlen b =? 0); simpl in E; injection E as -> -> ->; by eexists _, _.
Qed.
Lemma writebyte_ok c b : wf b -> 1 <= v_tlen b ->
  exists b', v_writebyte c b = Ok None b' /\ wf b' /\ readable b' = readable b ++ [c] /\ v_hlen b' = v_hlen b.
Proof.
  intros W H. destruct (step_spec (OpWriteByte c) b W I) as (b' & E & W' & _ & S1 & S2 & _).
  cbn [q_step absq q_tail] in *. destruct (v_tlen b =? 0) eqn:E0; cleq; [lia|].
  exists b'. cbn [v_step] in E. destruct (v_writebyte c b); simpl in E; [|done]. by injection E as -> ->.
Qed.
Lemma writebyte_full c b : v_tlen b = 0 -> v_writebyte c b = Ok (Some EFull) b.
Proof. unfold v_writebyte. by intros ->. Qed.
Lemma writeto_empty w b : wf b -> readable b = [] -> v_writeto w b = Ok (None, 0, None) b.
Proof. intros W H. pose proof (readable_length b W) as L. rewrite H in L. unfold v_writeto. by rewrite <- L. Qed.
Lemma writeto_some w b : wf b -> readable b <> [] ->
  exists b', v_writeto w b = Ok (Some (readable b), fst (w (readable b)),
                                 if snd (w (readable b)) then Some EIO else None) b'.
Proof.
  intros W H. unfold v_writeto. pose proof (readable_length b W) as L.
  destruct (v_rlen b =? 0) eqn:E; cleq; [destruct (readable b); simpl in *; [done|lia]|].
  assert (Hwr : v_wr b = v_rd b + v_rlen b) by (destruct W as (?&?&?&?); unfold v_rlen; lia).
  rewrite Hwr. rewrite (s_range_prefix b (v_rlen b) W) by lia. rewrite <- L, firstn_all.
  destruct (w (readable b)) as [n f]. simpl. destruct f; by eexists.
Qed.
Lemma alloc_room m o b : v_alloc m o = Some b ->
  wf b /\ readable b = [] /\ v_hlen b = Z.to_nat o /\ v_tlen b = Z.to_nat m - Z.to_nat o.
Proof.
  intros H. destruct (alloc_wf _ _ _ H) as (W & A & _). unfold absq in A.
  unfold q_new in A. injection A as A1 A2 A3 A4. done.
Qed.
Lemma alloc_legal m o : (0 < m)%Z -> (0 <= o <= m)%Z -> exists b, v_alloc m o = Some b.
Proof. intros H1 H2. apply alloc_some; lia. Qed.

(** ** State updates *)
Lemma cache_set_same s i c c0 : cache_of s i = Some c0 -> cache_of (set_cache s i c) i = Some c.
Proof.
  unfold cache_of, set_cache. destruct (s_ps s !! i) as [p|] eqn:E; simpl; [|done]. intros _.
  unfold set_ps. simpl. rewrite list_lookup_insert; [done|]. by apply lookup_lt_Some in E.
Qed.
Lemma cache_set_other s i j c : i <> j -> cache_of (set_cache s i c) j = cache_of s j.
Proof.
  unfold cache_of, set_cache. intros H. destruct (s_ps s !! i) as [p|]; [|done]. simpl.
  by rewrite list_lookup_insert_ne.
Qed.
Lemma cache_inc_tx s i j : cache_of (inc_tx s i) j = cache_of s j.
Proof.
  unfold cache_of, inc_tx. destruct (s_ps s !! i) as [p|] eqn:E; [|done]. simpl.
  destruct (decide (i = j)) as [->|]; [|by rewrite list_lookup_insert_ne].
  rewrite list_lookup_insert by (by apply lookup_lt_Some in E). by rewrite E.
Qed.
Lemma cache_inc_rx s i j : cache_of (inc_rx s i) j = cache_of s j.
Proof.
  unfold cache_of, inc_rx. destruct (s_ps s !! i) as [p|] eqn:E; [|done]. simpl.
  destruct (decide (i = j)) as [->|]; [|by rewrite list_lookup_insert_ne].
  rewrite list_lookup_insert by (by apply lookup_lt_Some in E). by rewrite E.
Qed.
Lemma out_set_cache s i c : s_out (set_cache s i c) = s_out s.
Proof. unfold set_cache. by destruct (s_ps s !! i). Qed.
Lemma out_inc_tx s i : s_out (inc_tx s i) = s_out s.
Proof. unfold inc_tx. by destruct (s_ps s !! i). Qed.
Lemma out_inc_rx s i : s_out (inc_rx s i) = s_out s.
Proof. unfold inc_rx. by destruct (s_ps s !! i). Qed.
Lemma visits_set_cache s i c : s_visits (set_cache s i c) = s_visits s.
Proof. unfold set_cache. by destruct (s_ps s !! i). Qed.
Lemma visits_inc_tx s i : s_visits (inc_tx s i) = s_visits s.
Proof. unfold inc_tx. by destruct (s_ps s !! i). Qed.
Lemma visits_inc_rx s i : s_visits (inc_rx s i) = s_visits s.
Proof. unfold inc_rx. by destruct (s_ps s !! i). Qed.

(** ** Fuel *)
Definition call_le (g h : callfn) : Prop := forall x s r, g x s = Some r -> h x s = Some r.

Lemma frame_cur_le n i g h x s u r : call_le g h ->
  frame_cur n i g x s u = Some r -> frame_cur n i h x s u = Some r.
Proof.
  intros L. revert x s u. induction n as [|n IH]; intros x s u; [done|]. cbn [frame_cur].
  destruct (cache_of s i) as [c|]; [|done].
  destruct (fd_cur_step c u) as [[[] c'] u']; try done; [by apply L|].
  destruct (g _ _) as [[x' s'|s']|] eqn:E; try done; apply L in E; rewrite E; auto.
Qed.
Lemma frame_cached_le n i g h x s r : call_le g h ->
  frame_cached n i g x s = Some r -> frame_cached n i h x s = Some r.
Proof.
  intros L. revert x s. induction n as [|n IH]; intros x s; [done|]. cbn [frame_cached].
  destruct (cache_of s i) as [c|]; [|done].
  destruct (fd_cached_step c) as [[] c']; try done.
  destruct (g _ _) as [[x' s'|s']|] eqn:E; try done; apply L in E; rewrite E; auto.
Qed.
Lemma frame_recv_le i g h x s u r : call_le g h ->
  frame_recv i g x s u = Some r -> frame_recv i h x s u = Some r.
Proof.
  intros L. unfold frame_recv. destruct (cache_of s i) as [c|]; [|done].
  destruct (0 <? v_rlen c).
  - destruct (ub_readfrom None c u) as [? []|[]]; [|done]. by apply frame_cached_le.
  - destruct (frame_cur _ i g x s u) as [[x' s'|s']|] eqn:E; [| |done];
      apply (frame_cur_le _ _ _ h) in E; try done; rewrite E; [by apply frame_cached_le|done].
Qed.

Lemma on_upper_le E i en d d' u u' w w' k x s r :
  call_le d d' -> call_le u u' -> call_le w w' ->
  on_upper E i en d u w k x s = Some r -> on_upper E i en d' u' w' k x s = Some r.
Proof.
  intros Hd Hu Hw. unfold on_upper, codec_write, by_reference, with_buf, head_ignore.
  destruct k; repeat first [done | apply Hd | apply Hu | apply Hw | case_match].
Qed.
Lemma on_lower_le E i en d d' u u' k x s r :
  call_le d d' -> call_le u u' ->
  on_lower E i en d u k x s = Some r -> on_lower E i en d' u' k x s = Some r.
Proof.
  intros Hd Hu. unfold on_lower, codec_read, by_reference, with_buf.
  destruct k; repeat first [done | apply Hd | apply Hu | by apply frame_recv_le | case_match].
Qed.
Lemma exec_mono1 f E d p x s r : exec f E d p x s = Some r -> exec (S f) E d p x s = Some r.
Proof.
  revert d p x s r. induction f as [|f IH]; intros d p x s r; [done|].
  intros H. change (exec (S f) E d p x s) with
    (match p with
      | None => Some (Crash s)
      | Some PUpper => Some (match d with Down => Done x s | Up => upper_recv E x s end)
      | Some PLower => Some (match d with Down => lower_send E x s | Up => Done x s end)
      | Some (PProc i) =>
          match e_procs E !! i with
          | None => Some (Crash s)
          | Some pr =>
              match d with
              | Down => on_upper E i (p_enable pr) (exec f E Down (l_lower (e_links E) (PProc i)))
                  (exec f E Up (l_upper (e_links E) (PProc i)))
                  (exec f E Down (l_upper (e_links E) (PProc i))) (p_kind pr) x (visit s i d x)
              | Up => on_lower E i (p_enable pr) (exec f E Down (l_lower (e_links E) (PProc i)))
                  (exec f E Up (l_upper (e_links E) (PProc i))) (p_kind pr) x (visit s i d x)
              end
          end
      end) in H.
  destruct p as [[| |i]|]; try done. remember (S f) as f1 eqn:Ef. cbn [exec].
  destruct (e_procs E !! i) as [pr|]; [|done]. subst f1.
  destruct d.
  - eapply on_upper_le; [..|exact H]; intros ? ? ?; apply IH.
  - eapply on_lower_le; [..|exact H]; intros ? ? ?; apply IH.
Qed.
Lemma exec_mono f f' E d p x s r : f <= f' -> exec f E d p x s = Some r -> exec f' E d p x s = Some r.
Proof. induction 1; [done|]. intros Hr. apply exec_mono1. auto. Qed.

(** ** Wiring *)
Inductive below (E : env) : pid -> list nat -> list proc -> Prop :=
| below_nil : below E PLower [] []
| below_cons i is p ps q : e_procs E !! i = Some p ->
    l_lower (e_links E) (PProc i) = Some q -> below E q is ps -> below E (PProc i) (i :: is) (p :: ps).

(** From [q] upwards through the processors [rs] (lowest first) to [t]. *)
Inductive path_up (E : env) (t : pid) : pid -> list nat -> list proc -> Prop :=
| path_nil : path_up E t t [] []
| path_cons i is p rs q : e_procs E !! i = Some p ->
    l_upper (e_links E) (PProc i) = Some q -> path_up E t q is rs -> path_up E t (PProc i) (i :: is) (p :: rs).

Lemma path_up_app E t m q is rs is' rs' :
  path_up E m q is rs -> path_up E t m is' rs' -> path_up E t q (is ++ is') (rs ++ rs').
Proof. induction 1; simpl; [done|]. intros. econstructor; eauto. Qed.

(** Links between neighbours. *)
Definition linked (lk : links) (a b : pid) : Prop := l_lower lk a = Some b /\ l_upper lk b = Some a.
Fixpoint chain (lk : links) (l : list pid) : Prop :=
  match l with
  | a :: ((b :: _) as l') => linked lk a b /\ chain lk l'
  | _ => True
  end.

Arguments chain : simpl never.
Lemma chain_cons lk a b l : chain lk (a :: b :: l) = (linked lk a b /\ chain lk (b :: l)).
Proof. done. Qed.

Lemma set_upper_lower lk p q : l_lower (set_upper lk p q) = l_lower lk.
Proof. done. Qed.
Lemma set_lower_upper lk p q : l_upper (set_lower lk p q) = l_upper lk.
Proof. done. Qed.
Lemma upper_same lk p q : l_upper (set_upper lk p q) p = Some q.
Proof. cbn [l_upper l_lower set_upper set_lower]. by rewrite decide_True. Qed.
Lemma lower_same lk p q : l_lower (set_lower lk p q) p = Some q.
Proof. cbn [l_upper l_lower set_upper set_lower]. by rewrite decide_True. Qed.
Lemma upper_ne lk p q r : r <> p -> l_upper (set_upper lk p q) r = l_upper lk r.
Proof. simpl. intros. by rewrite decide_False. Qed.
Lemma lower_ne lk p q r : r <> p -> l_lower (set_lower lk p q) r = l_lower lk r.
Proof. simpl. intros. by rewrite decide_False. Qed.

Lemma link_pairs_other ids lk p :
  (forall i, p = PProc i -> i ∉ ids) ->
  l_lower (link_pairs ids lk) p = l_lower lk p /\ l_upper (link_pairs ids lk) p = l_upper lk p.
Proof.
  revert lk. induction ids as [|i [|j ids] IH]; intros lk H; [done..|].
  change (link_pairs (i :: j :: ids) lk) with
    (link_pairs (j :: ids) (set_upper (set_lower lk (PProc i) (PProc j)) (PProc j) (PProc i))).
  destruct (IH (set_upper (set_lower lk (PProc i) (PProc j)) (PProc j) (PProc i))) as [-> ->].
  { intros k ->. specialize (H k eq_refl). set_solver. }
  rewrite set_upper_lower, lower_ne, upper_ne, set_lower_upper; [done| |].
  - intros ->. specialize (H j eq_refl). set_solver.
  - intros ->. specialize (H i eq_refl). set_solver.
Qed.

Lemma link_pairs_head i ids lk : NoDup (i :: ids) ->
  l_upper (link_pairs (i :: ids) lk) (PProc i) = l_upper lk (PProc i).
Proof.
  destruct ids as [|j ids]; [done|]. intros H.
  change (link_pairs (i :: j :: ids) lk) with
    (link_pairs (j :: ids) (set_upper (set_lower lk (PProc i) (PProc j)) (PProc j) (PProc i))).
  apply NoDup_cons in H as [H1 H2].
  destruct (link_pairs_other (j :: ids)
    (set_upper (set_lower lk (PProc i) (PProc j)) (PProc j) (PProc i)) (PProc i)) as [_ ->].
  { by intros k [= ->]. }
  rewrite upper_ne; [done|]. intros [= ->]. set_solver.
Qed.
Lemma link_pairs_last n ids lk : NoDup (ids ++ [n]) ->
  l_lower (link_pairs (ids ++ [n]) lk) (PProc n) = l_lower lk (PProc n).
Proof.
  revert lk. induction ids as [|i ids IH]; intros lk H; [done|]. simpl app in *.
  apply NoDup_cons in H as [H1 H2]. destruct (ids ++ [n]) as [|j l] eqn:El; [by destruct ids|].
  change (link_pairs (i :: j :: l) lk) with
    (link_pairs (j :: l) (set_upper (set_lower lk (PProc i) (PProc j)) (PProc j) (PProc i))).
  rewrite IH by done. rewrite set_upper_lower, lower_ne; [done|]. intros [= ->].
  apply H1. rewrite <- El. set_solver.
Qed.

Lemma link_pairs_chain ids lk : NoDup ids -> chain (link_pairs ids lk) (PProc <$> ids).
Proof.
  revert lk. induction ids as [|i [|j ids] IH]; intros lk H; [done..|].
  change (link_pairs (i :: j :: ids) lk) with
    (link_pairs (j :: ids) (set_upper (set_lower lk (PProc i) (PProc j)) (PProc j) (PProc i))).
  apply NoDup_cons in H as [H1 H2]. split; [|by apply IH]. split.
  - destruct (link_pairs_other (j :: ids)
      (set_upper (set_lower lk (PProc i) (PProc j)) (PProc j) (PProc i)) (PProc i)) as [-> _].
    { by intros k [= ->]. }
    rewrite set_upper_lower. apply lower_same.
  - rewrite link_pairs_head by done. apply upper_same.
Qed.

Lemma chain_ext lk lk' l :
  (forall a, a ∈ l -> a <> List.last l PUpper -> l_lower lk' a = l_lower lk a) ->
  (forall b, b ∈ tail l -> l_upper lk' b = l_upper lk b) -> NoDup l ->
  chain lk l -> chain lk' l.
Proof.
  induction l as [|a [|b l] IH]; intros Hl Hu N; [done..|]. intros [[H1 H2] Hc].
  apply NoDup_cons in N as [N1 N2]. split.
  - split.
    + rewrite Hl; [done|set_solver|]. intros Ha.
      apply N1. rewrite Ha. change (List.last (a :: b :: l) PUpper) with (List.last (b :: l) PUpper).
      clear. revert b. induction l as [|c l IH]; intros b; [simpl; set_solver|].
      specialize (IH c). change (List.last (b :: c :: l) PUpper) with (List.last (c :: l) PUpper). set_solver.
    + rewrite Hu; [done|]. simpl. set_solver.
  - apply IH; [| |done|done].
    + intros c Hc' Hn. apply Hl; [set_solver|]. done.
    + intros c Hc'. apply Hu. simpl in *. set_solver.
Qed.

Lemma list_last_snoc {A} (l : list A) n d : List.last (l ++ [n]) d = n.
Proof. induction l as [|a l IH]; [done|]. destruct l; [done|]. apply IH. Qed.

Lemma chain_snoc lk l a b : chain lk (l ++ [a]) -> linked lk a b -> chain lk (l ++ [a; b]).
Proof.
  induction l as [|c [|d l] IH]; simpl; rewrite ?chain_cons; [by intros _ H|tauto|].
  intros [H1 H2] H3. split; [done|]. by apply IH.
Qed.

Lemma build_chain ids stale : NoDup ids ->
  chain (build_links ids stale) (PUpper :: (PProc <$> ids) ++ [PLower]).
Proof.
  intros N. destruct ids as [|i ids].
  { simpl. split; [|done]. split; cbn; by rewrite decide_True. }
  destruct (exists_last (l := i :: ids)) as (l & n & El); [done|].
  unfold build_links. set (lk0 := set_upper (set_lower stale PUpper (PProc i)) (PProc i) PUpper).
  assert (Hlast : List.last (i :: ids) i = n) by (rewrite El; apply list_last_snoc).
  rewrite Hlast. cbv zeta. set (lk1 := link_pairs (i :: ids) lk0).
  set (lk2 := set_upper (set_lower lk1 (PProc n) PLower) PLower (PProc n)).
  assert (Hc : chain lk2 (PProc <$> (i :: ids))).
  { apply (chain_ext lk1); [| | |by apply link_pairs_chain].
    - intros a Ha Hn. unfold lk2. rewrite set_upper_lower, lower_ne; [done|]. intros ->. apply Hn.
      rewrite El, fmap_app. simpl. by rewrite list_last_snoc.
    - intros b Hb. unfold lk2. rewrite upper_ne, set_lower_upper; [done|]. intros ->.
      apply elem_of_list_fmap in Hb as (? & ? & _). done.
    - apply NoDup_fmap_2; [|done]. by intros ? ? [= ->]. }
  assert (Hfirst : linked lk2 PUpper (PProc i)).
  { unfold lk2. split.
    - rewrite set_upper_lower, lower_ne by done. unfold lk1.
      destruct (link_pairs_other (i :: ids) lk0 PUpper) as [-> _]; [done|]. unfold lk0.
      rewrite set_upper_lower. apply lower_same.
    - rewrite upper_ne, set_lower_upper by done. unfold lk1. rewrite link_pairs_head by done.
      unfold lk0. apply upper_same. }
  assert (Hend : linked lk2 (PProc n) PLower).
  { unfold lk2. split; [rewrite set_upper_lower; apply lower_same|apply upper_same]. }
  split; [done|]. rewrite El in Hc |- *. rewrite fmap_app in *. simpl in *.
  rewrite <- app_assoc. by apply chain_snoc.
Qed.

Lemma chain_app_r lk a b : chain lk (a ++ b) -> chain lk b.
Proof.
  induction a as [|x a IH]; [done|]. destruct (a ++ b) as [|y l] eqn:E.
  - apply app_nil in E as [-> ->]. done.
  - simpl. rewrite E. intros [_ H]. auto.
Qed.
Lemma chain_app_l lk a b : chain lk (a ++ b) -> chain lk a.
Proof.
  induction a as [|x [|y a] IH]; [done..|]. simpl. intros [H1 H2]. split; [done|]. by apply IH.
Qed.

(** Down from a suffix of the chain. *)
Lemma chain_below E ids ps q l :
  chain (e_links E) (q :: l) -> q :: l = (PProc <$> ids) ++ [PLower] ->
  Forall2 (fun i p => e_procs E !! i = Some p) ids ps -> below E q ids ps.
Proof.
  revert ps q l. induction ids as [|i ids IH]; intros ps q l Hc Eq H2.
  - simpl in Eq. injection Eq as -> ->. inversion H2; subst. constructor.
  - inversion H2 as [|? p ? ps' Hp H2']; subst. simpl in Eq. injection Eq as -> ->.
    destruct ids as [|j ids'].
    + inversion H2'; subst. destruct Hc as [[L _] _]. econstructor; [done|exact L|constructor].
    + destruct Hc as [[L _] Hc]. econstructor; [done|exact L|]. eapply IH; [exact Hc|done|done].
Qed.

(** Up through a prefix of the chain, lowest first. *)
Lemma chain_path_up E t ids ps q :
  chain (e_links E) (t :: (PProc <$> ids) ++ [q]) ->
  Forall2 (fun i p => e_procs E !! i = Some p) ids ps ->
  exists q', l_upper (e_links E) q = Some q' /\ path_up E t q' (rev ids) (rev ps).
Proof.
  revert ps q. induction ids as [|i ids IH] using rev_ind; intros ps q Hc H2.
  - inversion H2; subst. simpl in Hc. destruct Hc as [[_ U] _]. exists t. split; [done|constructor].
  - apply Forall2_app_inv_l in H2 as (ps1 & ps2 & H21 & H22 & ->).
    inversion H22 as [|? p ? ? Hp H22']; subst. inversion H22'; subst.
    rewrite fmap_app in Hc. simpl in Hc. rewrite <- app_assoc in Hc. simpl in Hc.
    assert (Hc1 : chain (e_links E) (t :: (PProc <$> ids) ++ [PProc i])).
    { change (t :: (PProc <$> ids) ++ [PProc i; q]) with (([t] ++ (PProc <$> ids)) ++ [PProc i] ++ [q]) in Hc.
      rewrite app_assoc in Hc. apply chain_app_l in Hc. by rewrite <- app_assoc in Hc. }
    assert (U : l_upper (e_links E) q = Some (PProc i)).
    { change (t :: (PProc <$> ids) ++ [PProc i; q]) with ((t :: (PProc <$> ids)) ++ [PProc i; q]) in Hc.
      apply chain_app_r in Hc. by destruct Hc as [[_ U] _]. }
    destruct (IH ps1 (PProc i) Hc1 H21) as (q' & Uq & Hp').
    exists (PProc i). split; [done|]. rewrite !rev_app_distr. simpl. econstructor; eauto.
Qed.

Lemma wired_chain E ids ps : wired E ids ps -> chain (e_links E) (PUpper :: (PProc <$> ids) ++ [PLower]).
Proof. intros (-> & N & _ & _). by apply build_chain. Qed.

(** The chain around a position: everything below, everything above. *)
Lemma wired_below E ids ps a b pa pb : wired E ids ps -> ids = a ++ b -> ps = pa ++ pb ->
  length a = length pa ->
  exists q, l_lower (e_links E) (match List.last (PProc <$> a) PUpper with x => x end) = Some q /\ below E q b pb.
Proof.
  intros W -> -> Hl. pose proof (wired_chain _ _ _ W) as Hc. destruct W as (_ & _ & _ & H2).
  apply Forall2_app_inv in H2 as [_ H2]; [|done].
  assert (Hc' : chain (e_links E) (List.last (PProc <$> a) PUpper :: (PProc <$> b) ++ [PLower])).
  { destruct (exists_last (l := PUpper :: (PProc <$> a))) as (l & n & El); [done|].
    assert (Hn : List.last (PProc <$> a) PUpper = n).
    { transitivity (List.last (PUpper :: (PProc <$> a)) PUpper); [by destruct a|].
      rewrite El. apply list_last_snoc. }
    rewrite Hn. rewrite fmap_app in Hc.
    change (PUpper :: ((PProc <$> a) ++ (PProc <$> b)) ++ [PLower]) with
      ((PUpper :: ((PProc <$> a) ++ (PProc <$> b))) ++ [PLower]) in Hc.
    change (PUpper :: ((PProc <$> a) ++ (PProc <$> b))) with ((PUpper :: (PProc <$> a)) ++ (PProc <$> b)) in Hc.
    rewrite El in Hc. rewrite <- !app_assoc in Hc. by apply chain_app_r in Hc. }
  destruct ((PProc <$> b) ++ [PLower]) as [|q l] eqn:El; [by destruct b|].
  destruct Hc' as [[L _] Hc']. exists q. split; [done|]. eapply chain_below; [exact Hc'|by rewrite El|done].
Qed.

Lemma wired_above E a i b pa p pb : wired E (a ++ i :: b) (pa ++ p :: pb) -> length a = length pa ->
  exists q, l_upper (e_links E) (PProc i) = Some q /\ path_up E PUpper q (rev a) (rev pa).
Proof.
  intros W Hl. pose proof (wired_chain _ _ _ W) as Hc. destruct W as (_ & _ & _ & H2).
  apply Forall2_app_inv in H2 as [H2 _]; [|done].
  apply chain_path_up; [|done]. rewrite fmap_app in Hc. simpl in Hc.
  change (PUpper :: (PProc <$> a) ++ [PProc i]) with ((PUpper :: (PProc <$> a)) ++ [PProc i]).
  assert (Hs : PUpper :: ((PProc <$> a) ++ PProc i :: list_fmap nat pid PProc b) ++ [PLower] =
    ((PUpper :: (PProc <$> a)) ++ [PProc i]) ++ (list_fmap nat pid PProc b ++ [PLower])).
  { simpl. rewrite <- !app_assoc. done. }
  rewrite Hs in Hc. by apply chain_app_l in Hc.
Qed.
Lemma wired_all_above E ids ps : wired E ids ps ->
  exists q, l_upper (e_links E) PLower = Some q /\ path_up E PUpper q (rev ids) (rev ps).
Proof. intros W. pose proof (wired_chain _ _ _ W) as Hc. destruct W as (_ & _ & _ & H2). by apply chain_path_up. Qed.
