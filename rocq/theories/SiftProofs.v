(** * Proofs about what is heard (C92, C93) *)
From Verif Require Import GoBase UBufModel UBufSpec UBufProofs UBufFacts FrameModel FrameSpec FrameProofs StackModel StackSpec StackPath StackFacts StackProofs StackSpecial StackEnd NetModel NetSpec NetProofs SafeSpec SafeProofs HonSpec HonProofs SiftSpec.
From stdpp Require Import list.

Lemma heads_hdrs ps : heads ps = hdrs ps.
Proof. unfold heads. rewrite wire_of_hdrs. simpl. lia. Qed.

(** ** Buffers *)
Lemma readbyte_drop b t b' : wf b -> v_readbyte b = Ok (t, None) b' -> wf b' /\ readable b' = drop 1 (readable b) /\ 1 <= length (readable b).
Proof.
  intros W. destruct (step_spec OpReadByte b W I) as (b1 & H & W' & _ & Q & R & _). simpl in H.
  intros Hr. rewrite Hr in H. injection H as H ->. split; [done|].
  unfold absq in *. cbn [q_step q_data] in *. destruct (readable b) as [|z l] eqn:E; simpl in *; [done|].
  split; [done|lia].
Qed.
Lemma readU_drop b t b' : wf b -> v_readU BE W32 b = Ok (t, None) b' -> wf b' /\ readable b' = drop 4 (readable b) /\ 4 <= length (readable b).
Proof.
  intros W Hr. destruct (decide (4 <= v_rlen b)) as [Hl|Hl].
  - rewrite v_readU_wf in Hr by done. injection Hr as <- <-. destruct (pop_spec b 4 W Hl) as [W' A]. injection A as A.
    rewrite (readable_length b W). done.
  - exfalso. unfold v_readU in Hr. cbn [wbytes] in Hr. destruct (v_rlen b <? 4) eqn:E; cleq; [done|lia].
Qed.

Section sift.
Context (E : env) (c : conn) (Hc : e_isref E c = false).

(** ** Outputs *)
Definition fine (o : out) : Prop := match o with ODeliver _ _ m => False | _ => True end.
(** Nothing is delivered. *)
Definition adds (s s' : st) : Prop := exists o, s_out s' = s_out s ++ o /\ Forall fine o.
Lemma adds_refl s : adds s s.
Proof. exists []. by rewrite app_nil_r. Qed.
Lemma adds_same s s' : s_out s' = s_out s -> adds s s'.
Proof. intros H. exists []. by rewrite app_nil_r. Qed.
Lemma adds_trans s s1 s2 : adds s s1 -> adds s1 s2 -> adds s s2.
Proof. intros (o1 & E1 & F1) (o2 & E2 & F2). exists (o1 ++ o2). split; [by rewrite E2, E1, app_assoc|]. by apply Forall_app. Qed.
Lemma adds_emit s l : Forall fine l -> adds s (emit s l).
Proof. by exists l. Qed.

(** ** Going down *)
Definition sunk (r : option outcome) (s : st) : Prop :=
  match r with
  | Some (Done x' s') => cx_conn x' = Some c /\ keeps [] s s' /\ adds s s'
  | Some (Crash s') => adds s s'
  | None => True
  end.
Lemma sunk_from s s1 r : keeps [] s s1 -> adds s s1 -> sunk r s1 -> sunk r s.
Proof.
  intros K A. destruct r as [[x' s'|s']|]; [|by apply adds_trans|done]. intros (H1 & H2 & H3).
  split; [done|]. split; [by eapply keeps_trans|by eapply adds_trans].
Qed.
Lemma sunk_done x s : cx_conn x = Some c -> sunk (Some (Done x s)) s.
Proof. intros H. split; [done|]. split; [apply keeps_refl|apply adds_refl]. Qed.
Lemma lower_send_sunk x s : cx_conn x = Some c -> sunk (Some (lower_send E x s)) s.
Proof.
  intros Hx. unfold lower_send. rewrite Hx, Hc. destruct (cx_buf x) as [ub|]; [|by apply sunk_done].
  destruct (v_writeto _ ub) as [[[of n] err] ub'|]; [|apply adds_refl].
  set (s1 := match of with Some l => _ | None => s end).
  assert (keeps [] s s1 /\ adds s s1) as [K A].
  { unfold s1. destruct of; [|split; [apply keeps_refl|apply adds_refl]]. split; [apply keeps_emit|]. apply adds_emit. by repeat constructor. }
  destruct err; (eapply sunk_from; [exact K|exact A|]); [|by apply sunk_done].
  split; [done|]. split; [apply keeps_emit|]. apply adds_emit. by repeat constructor.
Qed.
Lemma down_sunk q is ps : below E q is ps -> Forall (fun p => sends_on p = true) ps ->
  forall f x s, cx_conn x = Some c -> sunk (exec f E Down (Some q) x s) s.
Proof.
  induction 1 as [|i is p ps q Hi Hlow Hb IH]; intros Hs f x s Hx; (destruct f as [|f]; [done|]).
  - simpl. by apply lower_send_sunk.
  - inversion Hs as [|? ? Sp Hs']; subst. cbn [exec]. rewrite Hi, Hlow.
    eapply sunk_from; [apply keeps_visit|by apply adds_same|].
    assert (forall x s, cx_conn x = Some c -> sunk (exec f E Down (Some q) x s) s) as D by (intros; by apply IH).
    destruct p as [k en]. unfold sends_on in Sp. cbn [p_kind p_enable] in *.
    destruct k; try done; try (destruct en; [done|]; by apply D); try by apply D.
    + simpl. unfold by_reference, with_buf, head_ignore. rewrite Hx, Hc. destruct en; [|by apply D].
      destruct (cx_buf x); [|by apply sunk_done]. destruct (v_headU _ _ _ _); [by apply D|apply adds_refl].
    + simpl. unfold by_reference, with_buf, head_ignore. rewrite Hx, Hc.
      destruct (cx_buf x); [|by apply sunk_done]. destruct (v_headbyte _ _); [by apply D|apply adds_refl].
    + simpl. unfold by_reference, with_buf, head_ignore. rewrite Hx, Hc.
      destruct (cx_buf x); [|by apply sunk_done]. destruct (v_headbyte _ _); [by apply D|apply adds_refl].
    + simpl. unfold with_buf. destruct en; [|by apply D].
      destruct (cx_buf x); [|by apply sunk_done]. destruct (v_headU _ _ _ _) as [[]|]; [by apply sunk_done|by apply D|apply adds_refl].
    + simpl. unfold by_reference, with_buf, head_ignore. rewrite Hx, Hc.
      destruct (cx_buf x); [|by apply sunk_done]. destruct (v_headbyte _ _); [|destruct en; [apply adds_same, out_inc_tx|apply adds_refl]].
      destruct en; [|by apply D]. eapply sunk_from; [apply keeps_inc_tx|apply adds_same, out_inc_tx|]. by apply D.
Qed.

(** ** Going up *)
Definition handed (s : st) : list msg := (delivered (s_out s)).*2.
Lemma handed_same s s' : adds s s' -> handed s' = handed s.
Proof.
  intros (o & E1 & F). unfold handed. rewrite E1. unfold delivered. rewrite omap_app.
  assert (omap (fun o => match o with ODeliver z _ m => Some (z, m) | _ => None end) o = @nil (Z * msg)) as ->; [|by rewrite app_nil_r].
  clear E1. induction F as [|x o Hx F IH]; [done|]. destruct x; done.
Qed.

(** [k], [h]: the codec and its header bytes; [str]: what the peer wrote. *)
Context (k : kind) (h : nat) (mtu : Z) (Hmtu : (mtu < 2^32)%Z) (str : list byte).
Notation laid' := (laid k h mtu str).
Lemma laid_more ms e e' : e <= e' -> laid' ms e -> laid' ms e'.
Proof. intros Hl H. destruct H as [|ms e0 a l b m e]; econstructor; eauto; lia. Qed.

(** [l] stands at [p]; [n] header bytes were before it. *)
Definition stands (n p : nat) (l : list byte) : Prop :=
  exists a b, str = a ++ l ++ b /\ length a = p /\ n <= p /\ (Z.of_nat (n + length l) <= mtu)%Z.
Lemma stands_drop n p j l : stands n p l -> j <= length l -> stands (n + j) (p + j) (drop j l).
Proof.
  intros (a & b & E1 & La & Hn & Hl) Hj. exists (a ++ take j l), b. split_and!.
  - rewrite E1. rewrite <- app_assoc. rewrite (app_assoc (take j l)), take_drop. done.
  - rewrite app_length, take_length. lia.
  - lia.
  - rewrite drop_length. lia.
Qed.
Lemma stands_take n p j l : stands n p l -> stands n p (take j l).
Proof.
  intros (a & b & E1 & La & Hn & Hl). exists a, (drop j l ++ b). split_and!; try done.
  - by rewrite (app_assoc (take j l)), take_drop.
  - rewrite take_length. lia.
Qed.
Lemma stands_less n n' p l : n' <= n -> stands n p l -> stands n' p l.
Proof. intros Hl (a & b & E1 & La & Hn & H). exists a, b. split_and!; try done; lia. Qed.
Lemma stands_length n p l : stands n p l -> (Z.of_nat (length l) < 2^32)%Z.
Proof. intros (a & b & E1 & La & Hn & H). lia. Qed.

(** A cache is empty, or full of bytes that stand at [p] and end before [e]. *)
Definition idle (cc : vbuf) : Prop := wf cc /\ v_res cc = 0 /\ readable cc = [].
Definition holds (n p e : nat) (cc : vbuf) : Prop :=
  wf cc /\ v_res cc = 0 /\ v_tlen cc = 0 /\ stands n p (readable cc) /\ p + length (readable cc) <= e.
(** What was delivered and what the caches of the processors [is] (lowest first)
    hold lies one behind the other and ends at [e] or before it. *)
Fixpoint queued (n : nat) (is : list nat) (rs : list proc) (s : st) (e : nat) : Prop :=
  match is, rs with
  | i :: is, p :: rs =>
      match p with
      | Proc (KFrame _) true => exists cc, cache_of s i = Some cc /\
          (idle cc /\ queued (n + hdr p) is rs s e \/
           exists q, holds n q e cc /\ queued (n + hdr p) is rs s q)
      | _ => queued (n + hdr p) is rs s e
      end
  | [], [] => laid' (handed s) e
  | _, _ => False
  end.
Lemma queued_more n is rs s e e' : e <= e' -> queued n is rs s e -> queued n is rs s e'.
Proof.
  intros Hl. revert n rs e e' Hl. induction is as [|i is IH]; intros n [|p rs] e e' Hl; simpl; try done; [by apply laid_more|].
  intros H. destruct p as [kk en]. destruct kk; try (by eapply IH); destruct en; try (by eapply IH).
  destruct H as (cc & Hcc & [[Hi Hq]|(q & (H1 & H2 & H3 & H4 & H5) & Hq)]); exists cc; (split; [done|]).
  - left. split; [done|]. by eapply IH.
  - right. exists q. split; [|done]. split_and!; try done. lia.
Qed.
Lemma queued_same n is rs s s' e : (forall j, j ∈ is -> cache_of s' j = cache_of s j) -> handed s' = handed s ->
  queued n is rs s e -> queued n is rs s' e.
Proof.
  revert n rs e. induction is as [|i is IH]; intros n [|p rs] e Hk Hg; simpl; try done; [by rewrite Hg|].
  assert (forall n rs e, queued n is rs s e -> queued n is rs s' e) as IH'.
  { intros. apply IH; [|done|done]. intros. apply Hk. by right. }
  intros H. destruct p as [kk en]. destruct kk; try (by eapply IH'); destruct en; try (by eapply IH').
  destruct H as (cc & Hcc & H). exists cc. rewrite Hk by left. split; [done|].
  destruct H as [[Hi Hq]|(q & Hh & Hq)]; [left; eauto|right; eauto].
Qed.
Lemma queued_keeps n is rs s s' e : keeps [] s s' -> adds s s' -> queued n is rs s e -> queued n is rs s' e.
Proof. intros (_ & K & _) A. apply queued_same; [|by apply handed_same]. intros j _. apply K. by intros ?%elem_of_nil. Qed.
Lemma queued_set n is rs s i cc e : i ∉ is -> queued n is rs s e -> queued n is rs (set_cache s i cc) e.
Proof.
  intros Hi. apply queued_same.
  - intros j Hj. apply cache_set_other. by intros ->.
  - unfold handed. by rewrite out_set_cache.
Qed.

(** After the call all is in order up to [e], and no cache of other processors has changed. *)
Definition rose (n : nat) (is : list nat) (rs : list proc) (e : nat) (r : option outcome) (s : st) : Prop :=
  match r with
  | Some (Done x' s') => cx_conn x' = Some c /\ queued n is rs s' e /\ (forall j, j ∉ is -> cache_of s' j = cache_of s j)
  | _ => True
  end.
Lemma rose_done n is rs e x s : cx_conn x = Some c -> queued n is rs s e -> rose n is rs e (Some (Done x s)) s.
Proof. done. Qed.
Lemma rose_from n is rs e s s1 r : (forall j, j ∉ is -> cache_of s1 j = cache_of s j) -> rose n is rs e r s1 -> rose n is rs e r s.
Proof.
  intros K. destruct r as [[x' s'|s']|]; [|done|done]. intros (H1 & H2 & H3). split; [done|]. split; [done|].
  intros j Hj. by rewrite H3, K.
Qed.
Lemma rose_less n is rs e e' r s : e <= e' -> rose n is rs e r s -> rose n is rs e' r s.
Proof.
  intros Hl. destruct r as [[x' s'|s']|]; [|done|done]. intros (H1 & H2 & H3). split; [done|]. split; [by eapply queued_more|done].
Qed.
Lemma rose_sunk n is rs e r s : queued n is rs s e -> sunk r s -> rose n is rs e r s.
Proof.
  destruct r as [[x' s'|s']|]; simpl; [|done|done]. intros R (H1 & H2 & H3). split; [done|]. split; [by eapply queued_keeps|].
  destruct H2 as (_ & K & _). intros j _. apply K. by intros ?%elem_of_nil.
Qed.
Lemma visit_keeps (is : list nat) s i d x : forall j : nat, j ∉ is -> cache_of (visit s i d x) j = cache_of s j.
Proof. intros. apply cache_of_visit. Qed.
Lemma queued_visit n is rs s i d x e : queued n is rs s e -> queued n is rs (visit s i d x) e.
Proof. apply queued_same; [|done]. intros. apply cache_of_visit. Qed.

(** Above the codec: at most one message is delivered. *)
Lemma top_rose q is rs : path_up E PUpper q is rs -> Forall (fun p => passes_message p = true) rs ->
  forall f x s p e l, cx_conn x = Some c -> laid' (handed s) p -> stands h p l -> p + length l <= e -> (forall m, cx_msg x = Some m -> read_as k l m) ->
  rose h [] [] e (exec f E Up (Some q) x s) s.
Proof.
  induction 1 as [|i is p rs q Hi Hup Hp IH]; intros Hs f x s p0 e l Hx R Hst He Hm; (destruct f as [|f]; [done|]).
  - assert (laid' (handed s) e) as R' by (eapply laid_more; [|done]; lia).
    cbn [exec]. unfold upper_recv. destruct (cx_msg x) as [m|] eqn:Em; [|by apply rose_done].
    case_decide; [|by apply rose_done]. split; [done|]. split; [|done]. simpl.
    assert (forall z cc, handed (emit s [ODeliver z cc m]) = handed s ++ [m]) as Eg.
    { intros z cc. unfold handed, emit, delivered. simpl. by rewrite omap_app, fmap_app. }
    rewrite Eg. destruct Hst as (a & b & E1 & E2 & E3 & E4). eapply laid_snoc; [exact R|..]; try done; [lia|lia|by apply Hm|lia].
  - inversion Hs; subst. cbn [exec]. rewrite Hi, Hup, passes_up by done.
    eapply (rose_from _ _ _ _ _ (visit s i Up x)); [apply visit_keeps|]. by eapply IH.
Qed.

Definition mid (n p e : nat) (x : ctx) : Prop :=
  cx_conn x = Some c /\ exists b, cx_buf x = Some b /\ wf b /\ stands n p (readable b) /\ p + length (readable b) <= e.
Definition lifts (n : nat) (is : list nat) (rs : list proc) (u : callfn) : Prop :=
  forall x s p e, mid n p e x -> queued n is rs s p -> rose n is rs e (u x s) s.

(** ** The frame decoder *)
Lemma holds_more n p e cc c' d : idle cc -> stands n p d -> p + length d <= e -> wf c' -> v_res c' = v_res cc -> v_rd c' = v_rd cc -> v_cap c' = v_cap cc ->
  readable c' = readable cc ++ accepted (v_tlen cc) d -> idle c' \/ holds n p e c'.
Proof.
  intros (W & R & H) Fd He W' R' D' C' E'.
  pose proof (readable_length cc W) as Lc. pose proof (readable_length c' W') as Lc'.
  pose proof W as (W1 & W2 & W3 & W4). pose proof W' as (X1 & X2 & X3 & X4). unfold v_rlen, accepted in *.
  rewrite H in *. simpl in *. destruct (_ <=? length d) eqn:El; cleq; [|left; split_and!; [done|congruence|done]]. right. rewrite E' in Lc'.
  rewrite take_length in Lc'. split; [done|]. split; [congruence|]. split; [unfold v_tlen in *; lia|]. rewrite E'. split; [by apply stands_take|]. rewrite take_length. lia.
Qed.
Lemma idle_reset cc : wf cc -> v_res cc = 0 -> idle (v_reset cc).
Proof. intros W R. split; [by apply reset_wf|]. split; [done|]. apply reset_readable. Qed.
(** The cache is empty while the buffer is split. *)
Lemma cur_from n p e cc u : idle cc -> wf u -> stands n p (readable u) -> p + length (readable u) <= e ->
  match fd_cur_step cc u with
  | (FdStop, c', _) => idle c' \/ holds n p e c'
  | (FdLast, c', u') => idle c' /\ wf u' /\ stands (n + 4) (p + 4) (readable u') /\ p + 4 + length (readable u') <= e
  | (FdPanic, c', _) => True
  | (FdNew nb, c', u') => idle c' /\ wf nb /\ stands (n + 4) (p + 4) (readable nb) /\ wf u' /\
      exists q, p + 4 + length (readable nb) <= q /\ stands n q (readable u') /\ q + length (readable u') <= e
  end.
Proof.
  intros HC Wu Fu He. pose proof (readable_length u Wu) as Eu. pose proof (stands_length _ _ _ Fu) as Lu.
  pose proof HC as (Wc & Rc & _).
  pose proof (cur_step_spec cc u Wc Wu ltac:(lia)) as S. cbv zeta in S.
  destruct ((_ <? 4) || _) eqn:E1.
  { destruct S as (c' & u' & -> & W' & H1 & H2 & H3 & H4). by eapply holds_more. }
  apply orb_false_iff in E1 as [E1 _]. cleq.
  destruct (_ =? _)%Z eqn:E2 in S.
  { destruct S as (u' & -> & Wu' & R'). split; [done|]. split; [done|]. rewrite R'. split; [apply stands_drop; [done|lia]|]. rewrite drop_length. lia. }
  destruct (_ <=? 0)%Z eqn:E3 in S; [by rewrite S|].
  apply Z.leb_gt in E3.
  destruct (_ <=? _)%Z eqn:E4 in S.
  + apply Z.leb_le in E4. destruct S as (nb & u' & -> & Wn & Wu' & R1 & R2). rewrite R1, R2. split; [done|]. split; [done|]. split; [|split; [done|]].
    * apply stands_take, stands_drop; [done|lia].
    * exists (p + (4 + Z.to_nat (announced (readable u)))). rewrite take_length, !drop_length. split; [lia|]. split; [|lia].
      eapply stands_less; [|apply stands_drop; [done|lia]]. lia.
  + destruct S as (u' & ->). left. by apply idle_reset.
Qed.
Lemma cached_from n p e cc : holds n p e cc ->
  match fd_cached_step cc with
  | (FdPanic, _) => True
  | (FdNew nb, c') => wf nb /\ stands (n + 4) (p + 4) (readable nb) /\ exists q, p + 4 + length (readable nb) <= q /\ holds n q e c'
  | (_, c') => idle c' \/ holds n p e c'
  end.
Proof.
  intros HC. pose proof HC as (Wc & Rc & Tc & Sc & Ec). pose proof (cached_step_spec cc Wc) as S. cbv zeta in S.
  destruct (_ =? 0) eqn:E0 in S; [rewrite S; left; by apply idle_reset|].
  destruct ((_ <? 4) || _) eqn:E1; [rewrite S; by right|]. apply orb_false_iff in E1 as [E1 _]. cleq.
  destruct (_ <=? 0)%Z eqn:E3 in S; [by rewrite S|]. apply Z.leb_gt in E3.
  destruct S as (c' & W' & R' & C' & T' & S).
  destruct (_ <=? _)%Z eqn:E4 in S.
  - apply Z.leb_le in E4. destruct S as (nb & -> & Wn & R1 & R2). split; [done|]. rewrite R1. split; [apply stands_take, stands_drop; [done|lia]|].
    exists (p + (4 + Z.to_nat (announced (readable cc)))). rewrite take_length, drop_length. split; [lia|].
    split; [done|]. split; [congruence|]. split; [congruence|]. rewrite R2, drop_length. split; [|lia].
    eapply stands_less; [|apply stands_drop; [done|lia]]. lia.
  - rewrite S. left. apply idle_reset; [done|congruence].
Qed.
Lemma idle_cached cc : idle cc -> fd_cached_step cc = (FdStop, v_reset cc).
Proof. intros (W & R & H). pose proof (cached_step_spec cc W) as S. cbv zeta in S. by rewrite H in S. Qed.
Section frame.
Context (n : nat) (i : nat) (cap : option oval) (is : list nat) (rs : list proc) (up : callfn).
Context (Hi : i ∉ is) (Hup : lifts (n + 4) is rs up).
Notation Q := (queued n (i :: is) (Proc (KFrame cap) true :: rs)).
Notation R := (rose n (i :: is) (Proc (KFrame cap) true :: rs)).
Lemma q_idle s e cc : cache_of s i = Some cc -> idle cc -> queued (n + 4) is rs s e -> Q s e.
Proof. intros H1 H2 H3. exists cc. split; [done|]. by left. Qed.
Lemma q_holds s p e cc : cache_of s i = Some cc -> holds n p e cc -> queued (n + 4) is rs s p -> Q s e.
Proof. intros H1 H2 H3. exists cc. split; [done|]. right. by exists p. Qed.
Lemma set_keeps s cc : forall j, j ∉ i :: is -> cache_of (set_cache s i cc) j = cache_of s j.
Proof. intros j Hj. apply cache_set_other. intros ->. apply Hj. left. Qed.
Lemma rose_up e r s : rose (n + 4) is rs e r s -> match r with Some (Done _ s') => cache_of s' i = cache_of s i | _ => True end.
Proof. destruct r as [[x' s'|s']|]; [|done|done]. intros (_ & _ & H). by apply H. Qed.
Lemma frame_cur_rose j x s u p e cc : cx_conn x = Some c -> wf u -> stands n p (readable u) -> p + length (readable u) <= e ->
  cache_of s i = Some cc -> idle cc -> queued (n + 4) is rs s p -> R e (frame_cur j i up x s u) s.
Proof.
  revert x s u p cc. induction j as [|j IH]; intros x s u p cc Hx Wu Fu He Hcc Ic Hq; [done|].
  cbn [frame_cur]. rewrite Hcc. pose proof (cur_from n p e cc u Ic Wu Fu He) as S.
  destruct (fd_cur_step cc u) as [[act c'] u'].
  pose proof (cache_set_same s i c' cc Hcc) as Hc'. pose proof (queued_set _ _ _ _ i c' _ Hi Hq) as Hq'.
  destruct act as [| |nb|].
  - split; [done|]. split; [|apply set_keeps]. destruct S as [S|S]; [eapply q_idle|eapply q_holds]; try done. eapply queued_more; [|done]. lia.
  - destruct S as (Hi' & Wu' & Fu' & He'). apply (rose_from _ _ _ _ _ (set_cache s i c')); [apply set_keeps|].
    assert (rose (n + 4) is rs e (up (set_buf x (Some u')) (set_cache s i c')) (set_cache s i c')) as H.
    { apply (Hup _ _ (p + 4)); [|eapply queued_more; [|done]; lia]. split; [done|]. by exists u'. }
    pose proof (rose_up _ _ _ H) as Hk. destruct (up _ _) as [[x1 s1|s1]|]; [|done|done]. destruct H as (Hx1 & R1 & A1).
    split; [done|]. split; [eapply q_idle; [by rewrite Hk|done|done]|]. intros j0 Hj. apply A1. intros Hj'. apply Hj. by right.
  - destruct S as (Hi' & Wn & Fn & Wu' & q & Hpq & Fu' & He').
    apply (rose_from _ _ _ _ _ (set_cache s i c')); [apply set_keeps|].
    assert (rose (n + 4) is rs q (up (set_buf x (Some nb)) (set_cache s i c')) (set_cache s i c')) as H.
    { apply (Hup _ _ (p + 4)); [|eapply queued_more; [|done]; lia]. split; [done|]. by exists nb. }
    pose proof (rose_up _ _ _ H) as Hk. destruct (up _ _) as [[x1 s1|s1]|]; [|done|done]. destruct H as (Hx1 & R1 & A1).
    eapply (rose_from _ _ _ _ _ s1); [intros j0 Hj; apply A1; intros Hj'; apply Hj; by right|].
    eapply IH; try done. by rewrite Hk.
  - done.
Qed.
Lemma frame_cached_rose j x s e : cx_conn x = Some c -> Q s e -> R e (frame_cached j i up x s) s.
Proof.
  revert x s. induction j as [|j IH]; intros x s Hx (cc & Hcc & Hq); [done|].
  cbn [frame_cached]. rewrite Hcc. destruct Hq as [[Ic Hq]|(p & Hh & Hq)].
  { rewrite (idle_cached cc Ic). split; [done|]. split; [|apply set_keeps]. destruct Ic as (I1 & I2 & I3).
    eapply q_idle; [by apply (cache_set_same _ _ _ cc)|by apply idle_reset|by apply queued_set]. }
  pose proof (cached_from n p e cc Hh) as S. destruct (fd_cached_step cc) as [act c'].
  pose proof (cache_set_same s i c' cc Hcc) as Hc'. pose proof (queued_set _ _ _ _ i c' _ Hi Hq) as Hq'.
  assert (p <= e) as Hpe by (destruct Hh as (_ & _ & _ & _ & ?); lia).
  assert (idle c' \/ holds n p e c' -> Q (set_cache s i c') e) as Hstop.
  { intros [Hs|Hs]; [eapply q_idle|eapply q_holds]; try done. eapply queued_more; [|done]. lia. }
  destruct act as [| |nb|].
  - split; [done|]. split; [by apply Hstop|apply set_keeps].
  - split; [done|]. split; [by apply Hstop|apply set_keeps].
  - destruct S as (Wn & Fn & q & Hpq & Hh'). apply (rose_from _ _ _ _ _ (set_cache s i c')); [apply set_keeps|].
    assert (rose (n + 4) is rs q (up (set_buf x (Some nb)) (set_cache s i c')) (set_cache s i c')) as H.
    { apply (Hup _ _ (p + 4)); [|eapply queued_more; [|done]; lia]. split; [done|]. by exists nb. }
    pose proof (rose_up _ _ _ H) as Hk. destruct (up _ _) as [[x1 s1|s1]|]; [|done|done]. destruct H as (Hx1 & R1 & A1).
    eapply (rose_from _ _ _ _ _ s1); [intros j0 Hj; apply A1; intros Hj'; apply Hj; by right|].
    apply IH; [done|]. eapply q_holds; [by rewrite Hk|done|done].
  - done.
Qed.
Lemma frame_recv_rose x s u p e : cx_conn x = Some c -> wf u -> stands n p (readable u) -> p + length (readable u) <= e ->
  Q s p -> R e (frame_recv i up x s u) s.
Proof.
  intros Hx Wu Fu He (cc & Hcc & Hq). unfold frame_recv. rewrite Hcc.
  set (first := if 0 <? v_rlen cc then _ else _).
  assert (R e first s) as H.
  { unfold first. destruct Hq as [[Ic Hq]|(q & Hh & Hq)].
    - assert (v_rlen cc = 0) as E0 by (destruct Ic as (W & _ & H); rewrite <- (readable_length cc W), H; done).
      rewrite E0. cbn [Nat.ltb Nat.leb]. by apply (frame_cur_rose _ _ _ _ p e cc).
    - pose proof Hh as (Wc & Rc & Tc & Sc & Ec).
      destruct (0 <? v_rlen cc) eqn:E0; cleq.
      + destruct (ub_readfrom_spec cc u Wc Wu) as (n0 & c' & u' & -> & W' & H1 & H2 & H3 & H4).
        rewrite Tc in H4. assert (readable c' = readable cc) as E'.
        { rewrite H4. unfold accepted. simpl. by rewrite take_0, app_nil_r. }
        split; [done|]. split; [|apply set_keeps]. eapply (q_holds _ q); [by apply (cache_set_same _ _ _ cc)| |by apply queued_set].
        pose proof (readable_length cc Wc) as L1. pose proof (readable_length c' W') as L2. rewrite E', L1 in L2.
        pose proof Wc as (W1 & W2 & W3 & W4). pose proof W' as (X1 & X2 & X3 & X4).
        split; [done|]. split; [congruence|]. split; [unfold v_tlen, v_rlen in *; lia|]. rewrite E'. split; [done|]. lia.
      + assert (idle cc) as Ic. { split; [done|]. split; [done|]. apply nil_length_inv. rewrite (readable_length cc Wc). lia. }
        eapply frame_cur_rose; try done. eapply queued_more; [|done]. lia. }
  destruct first as [[x1 s1|s1]|]; [|done|done]. destruct H as (Hx1 & R1 & A1).
  eapply rose_from; [exact A1|]. by apply frame_cached_rose.
Qed.
End frame.

(** Processors below the codec. *)
Lemma queued_cons n i is p rs s e : (forall cap, p <> Proc (KFrame cap) true) -> queued n (i :: is) (p :: rs) s e <-> queued (n + hdr p) is rs s e.
Proof. intros H. simpl. destruct p as [kk en]. destruct kk as [| | | | | | | | | | |cap| | | | |], en; try done. by destruct (H cap). Qed.
Lemma carry_rose i p n is rs d u : e_procs E !! i = Some p -> carries p = true -> i ∉ is ->
  (forall x s, cx_conn x = Some c -> sunk (d x s) s) -> lifts (n + hdr p) is rs u ->
  lifts n (i :: is) (p :: rs) (on_lower E i (p_enable p) d u (p_kind p)).
Proof.
  intros Hi Hp Hni Hd Hu x s q e Hx R. pose proof Hx as (Hx1 & b & Hb & W & F & He).
  assert ((exists cap, p = Proc (KFrame cap) true) \/ ~ (exists cap, p = Proc (KFrame cap) true)) as [(cap & ->)|Hnf].
  { destruct p as [kk en]. destruct kk, en; try (right; by intros (cap' & Hq)). left. by eexists. }
  { simpl. unfold by_reference, with_buf. rewrite Hx1, Hc, Hb. by eapply frame_recv_rose. }
  assert (forall cap, p <> Proc (KFrame cap) true) as Hnf' by (intros cap ->; apply Hnf; by exists cap).
  rewrite queued_cons in R by done.
  assert (forall r, rose (n + hdr p) is rs e r s -> rose n (i :: is) (p :: rs) e r s) as Hback.
  { intros [[x' s'|s']|]; [|done|done]. intros (H1 & H2 & H3). split; [done|]. rewrite queued_cons by done. split; [done|].
    intros j Hj. apply H3. intros Hj'. apply Hj. by right. }
  apply Hback. clear Hback Hnf. assert (q <= e) as Hqe by lia.
  assert (queued (n + hdr p) is rs s e) as Re by (by eapply queued_more).
  unfold carries, sends_on in Hp. destruct p as [kk en]. cbn [p_kind p_enable] in *. unfold hdr in *. cbn [p_kind p_enable] in *.
  assert (forall m, m <= n -> lifts m is rs u -> queued m is rs s q -> rose m is rs e (u x s) s) as Hid.
  { intros m Hm H Hq. apply (H x s q); [|done]. split; [done|]. exists b. split_and!; try done. by eapply stands_less. }
  assert (forall t b', v_readbyte b = Ok (t, None) b' -> mid (n + 1) (q + 1) e (set_buf x (Some b'))) as Hbyte.
  { intros t b' Hr. apply readbyte_drop in Hr as (W' & R' & L'); [|done]. split; [done|]. exists b'. split_and!; try done.
    - rewrite R'. by apply stands_drop.
    - rewrite R', drop_length. lia. }
  destruct kk; try done; try (destruct en; [done|]; eapply (Hid (n + 0)); [lia|done|done]); try (eapply (Hid (n + 0)); [lia|done|done]); simpl;
    unfold by_reference, with_buf; rewrite ?Hx1, ?Hc, ?Hb.
  - destruct en; [by destruct (Hnf' capacity)|]. eapply (Hid (n + 0)); [lia|done|done].
  - destruct (v_readbyte b) as [[t [er|]] b'|] eqn:Er; [by apply rose_done| |done].
    destruct (_ =? _)%Z; [|eapply Hu; [by eapply Hbyte|eapply queued_more; [|exact R]; lia]]. split; [done|].
    split; [|done]. eapply queued_keeps; [apply keeps_emit| |done]. apply adds_emit. by repeat constructor.
  - destruct (v_readbyte b) as [[t [er|]] b'|] eqn:Er; [by apply rose_done| |done].
    destruct (en && _); [by apply rose_done|eapply Hu; [by eapply Hbyte|eapply queued_more; [|exact R]; lia]].
  - destruct en; [|eapply (Hid (n + 0)); [lia|done|done]].
    destruct (v_readU BE W32 b) as [[t [er|]] b'|] eqn:Er; [by apply rose_done| |done].
    apply readU_drop in Er as (W' & R' & L'); [|done]. apply (Hu _ _ (q + 4)); [|eapply queued_more; [|exact R]; lia]. split; [done|]. exists b'. split_and!; try done.
    + rewrite R'. by apply stands_drop.
    + rewrite R', drop_length. lia.
  - destruct (v_readbyte b) as [[t [er|]] b'|] eqn:Er; [by apply rose_done| |done].
    destruct en; [|eapply Hu; [by eapply Hbyte|eapply queued_more; [|exact R]; lia]].
    destruct (_ =? _)%Z.
    + destruct (s_ps s !! i) as [p|]; [|done]. destruct (stat_response E (ps_tx p) (ps_rx p)) as [[] rb|]; [|done].
      apply rose_sunk; [done|]. by apply Hd.
    + destruct (_ =? _)%Z.
      * destruct (stat_show b') as [[[nm tx] rx] ub2|]; [|done].
        split; [done|]. split; [|done]. eapply queued_keeps; [apply keeps_emit| |done]. apply adds_emit. by repeat constructor.
      * eapply (rose_from _ _ _ _ _ (inc_rx s i)); [intros; apply cache_inc_rx|]. eapply Hu; [by eapply Hbyte|].
        eapply queued_keeps; [apply keeps_inc_rx|apply adds_same, out_inc_rx|]. eapply queued_more; [|exact R]. lia.
Qed.
Lemma up_rose t q is rs : path_up E t q is rs -> Forall (fun p => carries p = true) rs -> NoDup is ->
  (forall i f x s, i ∈ is -> cx_conn x = Some c -> sunk (exec f E Down (l_lower (e_links E) (PProc i)) x s) s) ->
  forall n f, (forall g, lifts (n + hdrs rs) [] [] (exec g E Up (Some t))) ->
  lifts n is rs (exec f E Up (Some q)).
Proof.
  induction 1 as [|i is p rs q Hi Hup Hp IH]; intros Hs Nd Hd n f Ht.
  - simpl in Ht. rewrite Nat.add_0_r in Ht. done.
  - inversion Hs; subst. apply NoDup_cons in Nd as [Ni Nd]. intros x s p0 e Hx R. destruct f as [|f]; [done|]. cbn [exec]. rewrite Hi, Hup.
    eapply (rose_from _ _ _ _ _ (visit s i Up x)); [apply visit_keeps|].
    eapply (carry_rose i p n); try done.
    + intros. apply Hd; [left|done].
    + apply IH; [done|done| |].
      * intros. apply Hd; [by right|done].
      * intros g. simpl in Ht. rewrite <- Nat.add_assoc. apply Ht.
    + by apply queued_visit.
Qed.

(** The codec. *)
Lemma codec_rose kk i d u x s p e : (exists l m, decodes kk l m) -> kk = k ->
  (forall x s l, cx_conn x = Some c -> laid' (handed s) p -> stands h p l -> p + length l <= e -> (forall m, cx_msg x = Some m -> read_as k l m) ->
     rose h [] [] e (u x s) s) -> mid h p e x -> laid' (handed s) p ->
  rose h [] [] e (on_lower E i true d u kk x s) s.
Proof.
  intros (l0 & m0 & Hk) Ek Hu (Hx1 & b & Hb & W & F & He) R.
  assert (laid' (handed s) e) as Re by (eapply laid_more; [|done]; lia).
  assert (sound b) as Sb by (by apply sound_wf).
  assert (forall l b', v_read (v_rlen b) b = Ok (l, None) b' -> l <> [] -> l = readable b) as Hread.
  { intros l b' Hr Hl. destruct (decide (readable b = [])) as [En|En].
    - exfalso. pose proof (readable_length b W) as Lb. rewrite En in Lb. simpl in Lb. unfold v_read in Hr. rewrite <- Lb in Hr. simpl in Hr. injection Hr as <- _. done.
    - destruct (StackProofs.read_all b W En) as (b1 & Hr1 & _). rewrite Hr in Hr1. by injection Hr1. }
  destruct kk as [| | |mar unm|en de|oe de| | | | | | | | | | |]; try done; simpl; unfold codec_read, with_buf; rewrite ?Hb.
  - destruct (v_read (v_rlen b) b) as [[l er] b'|] eqn:Er; [|done].
    destruct l as [|y l]; [by apply rose_done|]. destruct er; [by apply rose_done|].
    apply (Hu _ _ (readable b)); try done. intros m [= <-]. rewrite <- Ek. simpl. f_equal. by eapply Hread.
  - destruct (v_read (v_rlen b) b) as [[l er] b'|] eqn:Er; [|done].
    destruct l as [|y l]; [by apply rose_done|]. destruct er; [by apply rose_done|].
    apply (Hu _ _ (readable b)); try done. intros m [= <-]. rewrite <- Ek. simpl. f_equal. by eapply Hread.
  - destruct (v_read (v_rlen b) b) as [[l er] b'|] eqn:Er; [|done].
    destruct l as [|y l]; [by apply rose_done|]. destruct er; [by apply rose_done|].
    destruct (unm (y :: l)) as [m1|] eqn:Eu; [|by apply rose_done].
    apply (Hu _ _ (readable b)); try done. intros m [= <-]. rewrite <- Ek. simpl. rewrite <- Eu. f_equal. symmetry. by eapply Hread.
  - destruct (de b) as [[m1|] b'|] eqn:Ed; [|by apply rose_done|done].
    apply (Hu _ _ (readable b)); try done. intros m [= <-]. rewrite <- Ek. simpl. by exists b, b'.
  - destruct de as [de|]; [|done]. destruct (de b) as [[m1 []] b'|] eqn:Ed; [by apply rose_done| |done].
    apply (Hu _ _ (readable b)); try done. simpl. intros m ->. rewrite <- Ek. by exists b, b'.
Qed.
End sift.

Lemma receive_sift E a i b pre k ps c l s outs s' str t p : wired E (a ++ i :: b) (pre ++ Proc k true :: ps) -> length a = length pre ->
  Forall (fun p => passes_message p = true) pre -> Forall (fun p => carries p = true) ps -> (exists l m, decodes k l m) ->
  e_isref E c = false -> (Z.of_nat (length l) <= e_mtu E)%Z -> (e_mtu E < 2^32)%Z ->
  str = take p str ++ l ++ t -> p <= length str ->
  queued k (hdrs ps) (e_mtu E) str 0 (rev b) (rev ps) s p ->
  finishes (fun f => receive f E c l s) s outs s' ->
  queued k (hdrs ps) (e_mtu E) str 0 (rev b) (rev ps) s' (p + length l).
Proof.
  intros W La Hpre Hps Hk Hr Hl HM Est Hpl R ((f0 & x' & Hf) & Ho). specialize (Hf f0 (le_n _)).
  destruct (wired_above _ _ _ _ _ _ _ W La) as (q1 & Hu1 & Hp1).
  pose proof (wired_at _ _ _ _ _ _ _ W La) as Hi.
  destruct (wired_up_to _ _ _ _ _ _ _ W La) as (q & Hq & Hp).
  unfold receive in Hf. rewrite Hq in Hf.
  destruct (rx_chunk_wf (Z.to_nat (e_mtu E)) l) as (Wu & Ru & _); [lia|].
  assert (rose c k (hdrs ps) (e_mtu E) str 0 (rev b) (rev ps) (p + length l)
    (exec f0 E Up (Some q) (Ctx (Some c) (Some (rx_chunk (Z.to_nat (e_mtu E)) l)) None None) s) s) as H.
  { apply (up_rose E c Hr k (hdrs ps) (e_mtu E) HM str (PProc i) q (rev b) (rev ps) Hp) with (p := p); [by apply Forall_rev| | | | |done].
    - pose proof (wired_nodup _ _ _ W) as N. apply NoDup_app in N as (_ & _ & N). apply NoDup_cons in N as [_ N]. by apply nodup_rev.
    - intros j f x s0 Hj Hx. apply elem_of_list_In, in_rev, elem_of_list_In in Hj.
      apply elem_of_list_split in Hj as (b1 & b2 & ->).
      assert (ps = take (S (length b1)) ps ++ drop (S (length b1)) ps) as Eps by (by rewrite take_drop).
      pose proof (wired_length _ _ _ W) as Ln. rewrite !app_length in Ln. simpl in Ln. rewrite app_length in Ln. simpl in Ln.
      destruct (wired_below E (a ++ i :: b1 ++ j :: b2) (pre ++ Proc k true :: ps) ((a ++ i :: b1) ++ [j]) b2
        (pre ++ Proc k true :: take (S (length b1)) ps) (drop (S (length b1)) ps) W) as (q2 & Hq2 & Hb2).
      { by rewrite <- !app_assoc. } { rewrite <- app_assoc. simpl. by rewrite take_drop. }
      { rewrite !app_length. cbn [length]. rewrite take_length. lia. }
      rewrite list_last_fmap_proc in Hq2. rewrite Hq2. eapply down_sunk; try done.
      apply Forall_drop, carries_sends. done.
    - rewrite hdrs_rev. simpl. intros g x s0 p0 e Hx R0. destruct g as [|g]; [done|]. cbn [exec]. rewrite Hi, Hu1. cbn [p_enable p_kind].
      eapply rose_from with (s1 := visit s0 i Up x); [apply visit_keeps|].
      eapply codec_rose with (p := p0); try done.
      intros x1 s1 l1 Hx1 R1 Hs1 He1 Hm1. eapply top_rose; try done. by apply Forall_rev.
    - split; [done|]. eexists. split; [done|]. split; [done|]. rewrite Ru. split; [|done].
      exists (take p str), t. split_and!; [done|rewrite take_length; lia|lia|lia]. }
  rewrite Hf in H. by destruct H as (_ & H & _).
Qed.
Lemma laid_str k h mtu str r ms e : laid k h mtu str ms e -> laid k h mtu (str ++ r) ms e.
Proof. induction 1 as [|ms e0 a l b m e H1 IH H2 -> H3 H4 H5 H6]; [constructor|]. eapply (laid_snoc _ _ _ _ ms e0 a l (b ++ r)); try done. by rewrite <- !app_assoc. Qed.
Lemma queued_str k h mtu str r n is rs s e : queued k h mtu str n is rs s e -> queued k h mtu (str ++ r) n is rs s e.
Proof.
  revert n rs e. induction is as [|i is IH]; intros n [|p rs] e; simpl; try done; [apply laid_str|].
  intros H. destruct p as [kk en]. destruct kk; try (by eapply IH); destruct en; try (by eapply IH).
  destruct H as (cc & Hcc & [[Hi Hq]|(q & (H1 & H2 & H3 & (a & b & E1 & E2 & E3 & E4) & H5) & Hq)]); exists cc; (split; [done|]).
  - left. split; [done|]. by eapply IH.
  - right. exists q. split; [|by eapply IH]. split_and!; try done. exists a, (b ++ r). split_and!; try done. rewrite E1. by rewrite <- !app_assoc.
Qed.
Lemma init_queued E t q is rs k h mtu str n s : path_up E t q is rs -> init_st E = Some s -> queued k h mtu str n is rs s 0.
Proof.
  intros Hp Hs. unfold init_st in Hs. destruct (mapM _ _) as [l|] eqn:Em; [|done]. injection Hs as <-.
  apply mapM_Some_1 in Em. revert n. induction Hp as [|i is p rs q Hi Hup Hp IH]; intros n; [constructor|].
  simpl. destruct p as [kk en]. destruct kk; try by apply IH. destruct en; [|by apply IH]. rename capacity into cap.
  destruct (Forall2_lookup_l _ _ _ _ _ Em Hi) as (ps & Hps & Hip).
  unfold init_pst in Hip. cbn [p_kind] in Hip.
  destruct (v_alloc (option_int cap (2 * e_mtu E)) 0) as [c|] eqn:Ea; [|done]. injection Hip as <-.
  exists c. unfold cache_of. simpl. rewrite Hps. split; [done|]. left. split; [|apply IH].
  destruct (alloc_wf _ _ _ Ea) as (W & _). split; [done|]. unfold v_alloc in Ea. destruct (_ || _); [done|]. by injection Ea as <-.
Qed.

Lemma queued_laid k h mtu str n is rs s e : queued k h mtu str n is rs s e -> laid k h mtu str (handed s) e.
Proof.
  revert n rs e. induction is as [|i is IH]; intros n [|p rs] e; simpl; try done.
  intros H. destruct p as [kk en]. destruct kk; try (by eapply IH); destruct en; try (by eapply IH).
  destruct H as (cc & Hcc & [[Hi Hq]|(q & (H1 & H2 & H3 & H4 & H5) & Hq)]); [by eapply IH|].
  eapply laid_more; [|by eapply IH]. lia.
Qed.

(** ** Runs *)
Lemma wire_got N a b ls s : nrun N any_read (new_net a b) ls s -> exists r, stream s = r ++ n_wire s /\ length r = n_got s.
Proof.
  induction 1 as [|ls s1 l s2 H IH _ Hs]; [by exists []|]. destruct IH as (r & E & L). unfold stream in *.
  destruct Hs as [| |tx hd a1 w b1 up rx sn ws g e x outs a' Hh Hf|tx hd a1 w b1 rx sn ws g n outs b' H1 H2 H3 H4| |]; simpl in *; try by exists r.
  - exists r. split; [|done]. by rewrite concat_app, E, app_assoc.
  - exists (r ++ take n w). split; [by rewrite <- app_assoc, take_drop|]. rewrite app_length, take_length. lia.
Qed.
Definition only (z : Z) (l : list (Z * msg)) : list msg := omap (fun p => if decide (fst p = z) then Some (snd p) else None) l.
Lemma sift_run N k ps a b ls s : hears_by N k ps -> init_st (nb N) = Some b -> nrun N any_read (new_net a b) ls s ->
  laid k (hdrs ps) (e_mtu (nb N)) (stream s) (handed (n_b s)) (n_got s) /\
  forall z, heard z s ++ n_rx s z ++ only z (n_up s) = only z (delivered (s_out (n_b s))).
Proof.
  intros (ids & pre & W & Hpre & Hps & Hm & Hr & Hk) Hi Hrun.
  destruct (wired_split1 _ _ _ _ _ W) as (a0 & i0 & b0 & -> & La & Lb).
  destruct (wired_up_to _ _ _ _ _ _ _ W La) as (q & Hq & Hp).
  cut (queued k (hdrs ps) (e_mtu (nb N)) (stream s) 0 (rev b0) (rev ps) (n_b s) (n_got s) /\
    forall z, heard z s ++ n_rx s z ++ only z (n_up s) = only z (delivered (s_out (n_b s)))).
  { intros [H1 H2]. split; [|done]. by eapply queued_laid. }
  induction Hrun as [|ls s1 l s2 H (R & I) _ Hs].
  { split; [by eapply init_queued|]. intros z. unfold init_st in Hi. destruct (mapM _ _); [|done]. by injection Hi as <-. }
  destruct (wire_got N a b ls s1 H) as (r & Er & Lr).
  destruct Hs as [| |tx hd a1 w b1 up rx sn ws g e x outs a' Hh Hf|tx hd a1 w b1 rx sn ws g n outs b' H1 H2 H3 H4|tx hd a1 w b1 z0 m0 up rx sn ws g Hcap|tx hd a1 w b1 up rx sn ws g z0 m0 q0 Hrx]; simpl in *; try (split; done).
  - split; [|done]. unfold stream in *. simpl in *. rewrite concat_app. by apply queued_str.
  - unfold stream in *. simpl in *. split.
    + replace (g + n) with (g + length (take n w)) by (rewrite take_length; lia).
      eapply (receive_sift (nb N) a0 i0 b0 pre k ps (ncb N) (take n w) b1 outs b' _ (drop n w)); try done.
      * rewrite take_length. lia.
      * rewrite take_drop, Er. f_equal. rewrite <- Lr. by rewrite take_app.
      * rewrite Er, app_length. lia.
    + intros z. destruct H4 as (_ & Ho). rewrite Ho. unfold delivered. rewrite omap_app. unfold only. rewrite omap_app.
      specialize (I z). unfold only, heard in *. simpl in *. rewrite app_nil_r in I. rewrite app_assoc. f_equal. exact I.
  - split; [done|]. intros z. rewrite <- I. unfold heard, only. simpl. f_equal.
    destruct (decide (z0 = z)) as [->|Hz].
    + rewrite fn_lookup_insert. by rewrite <- app_assoc.
    + by rewrite fn_lookup_insert_ne.
  - split; [done|]. intros z. rewrite <- I. unfold heard, only. simpl. rewrite omap_app. simpl.
    destruct (decide (z0 = z)) as [->|Hz].
    + rewrite fn_lookup_insert, Hrx. by rewrite <- app_assoc.
    + rewrite fn_lookup_insert_ne by done. by rewrite app_nil_r.
Qed.
Lemma only_sublist z l : only z l `sublist_of` l.*2.
Proof. induction l as [|[z' m] l IH]; simpl; [done|]. unfold only in *. simpl. case_decide; by constructor. Qed.
Lemma laid_sublist k h mtu str ms e ms' : laid k h mtu str ms e -> ms' `sublist_of` ms -> laid k h mtu str ms' e.
Proof.
  intros H. revert ms'. induction H as [|ms e0 a l b m e H1 IH H2 H3 H4 H5 H6 H7]; intros ms' Hs.
  - apply sublist_nil_r in Hs as ->. constructor.
  - apply sublist_app_r in Hs as (l1 & l2 & -> & S1 & S2).
    apply sublist_cons_r in S2 as [S2|(l3 & -> & S2)]; apply sublist_nil_r in S2 as ->.
    + rewrite app_nil_r. eapply laid_more; [|by apply IH]. lia.
    + apply (laid_snoc _ _ _ _ _ e0 a l b); try done. by apply IH.
Qed.
(** What is heard in one session is laid out in order in the stream. *)
Lemma heard_laid N k ps a b ls s z : hears_by N k ps -> init_st (nb N) = Some b -> nrun N any_read (new_net a b) ls s ->
  laid k (heads ps) (e_mtu (nb N)) (stream s) (heard z s) (n_got s).
Proof.
  intros Hh Hi Hrun. destruct (sift_run N k ps a b ls s Hh Hi Hrun) as (L & I). rewrite heads_hdrs.
  eapply laid_sublist; [exact L|]. etrans; [|apply (only_sublist z)]. rewrite <- I. by apply sublist_inserts_r.
Qed.
Lemma laid_in k n mtu str ms e m : laid k n mtu str ms e -> m ∈ ms ->
  exists a l b, str = a ++ l ++ b /\ n <= length a /\ (Z.of_nat (n + length l) <= mtu)%Z /\ read_as k l m.
Proof.
  induction 1 as [|ms e0 a l b m' e H1 IH H2 H3 H4 H5 H6 H7]; intros Hm; [by apply elem_of_nil in Hm|].
  apply elem_of_app in Hm as [Hm|Hm]; [by apply IH|]. apply elem_of_list_singleton in Hm as ->. eauto 10.
Qed.
Lemma heard_stands N k ps a b ls s z m : hears_by N k ps -> init_st (nb N) = Some b -> nrun N any_read (new_net a b) ls s ->
  m ∈ heard z s -> stands_in N k ps (stream s) m.
Proof.
  intros Hh Hi Hrun Hm. destruct (laid_in _ _ _ _ _ _ _ (heard_laid N k ps a b ls s z Hh Hi Hrun) Hm) as (u & l & v & E1 & E2 & E3 & E4).
  exists (drop (length u - heads ps) u), l. split_and!; [|rewrite drop_length; lia|rewrite app_length, drop_length; lia|done].
  exists (take (length u - heads ps) u), v. rewrite <- app_assoc, app_assoc, take_drop. exact E1.
Qed.
(** ... so nothing too long is ever heard. *)
Lemma too_long N k ps a b ls s z m n : hears_by N k ps -> init_st (nb N) = Some b -> nrun N any_read (new_net a b) ls s ->
  (forall l, read_as k l m -> n <= length l) -> (e_mtu (nb N) < Z.of_nat (heads ps + n))%Z -> m ∉ heard z s.
Proof.
  intros Hh Hi Hrun Hn Hl Hm. destruct (heard_stands _ _ _ _ _ _ _ _ _ Hh Hi Hrun Hm) as (h & l & _ & Lh & Ll & Hr).
  specialize (Hn l Hr). rewrite app_length in Ll. lia.
Qed.
(** The sender writes it all the same. *)
Lemma sent_lost N k ps e x l a b : matching N k ps -> hears_by N k ps -> init_st (nb N) = Some b -> 0 < ntxcap N ->
  encodes k (ml_msg x) l -> l <> [] -> (Z.of_nat (length l) <= e_mtu (na N) - e_overhead (na N))%Z ->
  (e_mtu (nb N) < Z.of_nat (heads ps + length l))%Z -> (forall l', read_as k l' (ml_msg x) -> length l <= length l') ->
  (exists s, nrun N any_read (new_net a b) [NPut e x; NTake e; NPass e] s /\ n_wire s = wire_of (dest_of (nsess N e) (ml_dest x)) ps l) /\
  forall ls s z, nrun N any_read (new_net a b) ls s -> ml_msg x ∉ heard z s.
Proof.
  intros M Hh Hi Ht He Hl Hfit Hbig Hlen. split; [|intros ls s z Hr; by eapply too_long].
  destruct M as (idsA & idsB & preA & preB & WA & WB & PA & PB & Hc & RA & Ac & MA & RB & MB).
  destruct (send_fits (na N) idsA preA k ps (nsess N e) (ml_dest x) (nca N) (ml_msg x) l a)
    as (a' & H & _); try done; [by apply carries_sends|].
  rewrite offered_accepts in H by (done || by apply wire_nonempty). eexists. split.
  - eapply nrun_cons'; [apply nk_put; simpl; lia|].
    eapply nrun_cons'; [apply nk_take; [done|by rewrite fn_lookup_insert]|].
    eapply nrun_one'. eapply nk_pass; [by rewrite fn_lookup_insert|exact H].
  - simpl. unfold written. simpl. rewrite decide_True by done. simpl. by rewrite app_nil_r.
Qed.
(** What fits both sides arrives. *)
Lemma fitting_arrives N k ps a b ls s : matching N k ps -> 0 < nrxcap N -> caches_idle (nb N) b ->
  nrun N (whole_read (framed ps)) (new_net a b) ls s -> all_sendable N k ps ls ->
  exists ms s' o, nrun N (whole_read (framed ps)) s ms s' /\ Forall inner ms /\
    (forall e, mails_of e o = given e ls) /\ forall z, heard z s' = mails_for N z o.
Proof.
  intros M Hc Hid Hr Ha. destruct (net_finishes N k ps M a b ls s Hc Hid Hr Ha) as (ms & s' & R' & Fi & Se & Al).
  assert (all_sendable N k ps (ls ++ ms)) as Ha'.
  { intros e x [H|H]%elem_of_app; [by apply Ha|]. rewrite Forall_forall in Fi. by destruct (Fi _ H). }
  destruct (net_in_order N k ps M a b (ls ++ ms) s' Hid (nrun_app _ _ _ _ _ _ _ Hr R') Ha') as (o & Ho & Hz).
  exists ms, s', o. split; [done|]. split; [done|]. split.
  - intros e. specialize (Ho e). rewrite Al, app_nil_r in Ho. rewrite Ho, given_app.
    rewrite (given_inner e ms) by done. by rewrite app_nil_r.
  - intros z. destruct (Hz z) as (rest & E & Hrest). rewrite (Hrest Se), app_nil_r in E. done.
Qed.
