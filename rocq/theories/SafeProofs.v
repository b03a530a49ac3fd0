(** * Proofs for C75 *)
From stdpp Require Import sets.
From Verif Require Import GoBase UBufModel UBufSpec UBufProofs UBufFacts FrameModel FrameSpec FrameProofs
  StackModel StackSpec StackProofs StackPath StackFacts StackEnd SafeSpec.
Arguments frame : simpl never.
Arguments digits : simpl never.

Lemma sound_wf b : sound b <-> wf b.
Proof. done. Qed.

(** ** Calls on buffers do not panic *)
Lemma headU_any w v b : wf b -> exists r b', v_headU BE w v b = Ok r b' /\ wf b'.
Proof.
  intros W. destruct (step_spec (OpHeadU BE w v) b W I) as (b' & H & W' & _). simpl in H.
  destruct (v_headU BE w v b) as [r b1|]; [|done]. injection H as _ ->. eauto.
Qed.
Lemma headbyte_any c b : wf b -> exists r b', v_headbyte c b = Ok r b' /\ wf b'.
Proof.
  intros W. destruct (step_spec (OpHeadByte c) b W I) as (b' & H & W' & _). simpl in H.
  destruct (v_headbyte c b) as [r b1|]; [|done]. injection H as _ ->. eauto.
Qed.
Lemma writebyte_any c b : wf b -> exists r b', v_writebyte c b = Ok r b' /\ wf b'.
Proof.
  intros W. destruct (step_spec (OpWriteByte c) b W I) as (b' & H & W' & _). simpl in H.
  destruct (v_writebyte c b) as [r b1|]; [|done]. injection H as _ ->. eauto.
Qed.
Lemma write_any l b : wf b -> exists r b', v_write l b = Ok r b' /\ wf b'.
Proof.
  intros W. destruct (step_spec (OpWrite l) b W I) as (b' & H & W' & _). simpl in H.
  destruct (v_write l b) as [r b1|]; [|done]. injection H as _ ->. eauto.
Qed.
Lemma writeU_any w v b : wf b -> exists r b', v_writeU BE w v b = Ok r b' /\ wf b'.
Proof.
  intros W. destruct (step_spec (OpWriteU BE w v) b W I) as (b' & H & W' & _). simpl in H.
  destruct (v_writeU BE w v b) as [r b1|]; [|done]. injection H as _ ->. eauto.
Qed.
Lemma readbyte_any b : wf b -> exists r b', v_readbyte b = Ok r b' /\ wf b' /\ block_of (readable b') (readable b).
Proof.
  intros W. destruct (step_spec OpReadByte b W I) as (b' & H & W' & _ & _ & R & _). simpl in H.
  destruct (v_readbyte b) as [r b1|]; [|done]. injection H as _ ->. eexists _, _. split; [done|]. split; [done|].
  rewrite R. unfold absq. cbn [q_step q_data]. destruct (readable b) as [|z l] eqn:E; cbn [snd q_data];
    rewrite ?E; [apply block_nil|]. exists [z], []. simpl. by rewrite app_nil_r.
Qed.
Lemma readU_any w b : wf b -> exists r b', v_readU BE w b = Ok r b' /\ wf b' /\ block_of (readable b') (readable b).
Proof.
  intros W. destruct (step_spec (OpReadU BE w) b W I) as (b' & H & W' & _ & _ & R & _). simpl in H.
  destruct (v_readU BE w b) as [r b1|]; [|done]. injection H as _ ->. eexists _, _. split; [done|]. split; [done|].
  rewrite R. simpl. destruct (_ <? _); simpl; [apply block_refl|apply block_drop].
Qed.
Lemma read_any n b : wf b -> exists r b', v_read n b = Ok r b' /\ wf b' /\ block_of (readable b') (readable b).
Proof.
  intros W. destruct (step_spec (OpRead n) b W I) as (b' & H & W' & _ & _ & R & _). simpl in H.
  destruct (v_read n b) as [r b1|]; [|done]. injection H as _ ->. eexists _, _. split; [done|]. split; [done|].
  rewrite R. simpl. repeat (case_match; simpl); try apply block_refl; try apply block_drop; try apply block_nil.
Qed.
Lemma any_fn_some fns x d : Forall (fun f => f <> None) fns -> exists r, any_fn fns x d = Some r.
Proof.
  induction fns as [|[f|] fns IH]; intros H; inversion H; subst; simpl; [eauto| |done].
  destruct (f x d); eauto.
Qed.
Lemma new_ubuf_any E : legal_mtu E -> exists b, new_ubuf E = Some b /\ wf b.
Proof. intros [[H1 _] H2]. destruct (new_ubuf_ok E H1 H2) as (b & ? & ? & _). eauto. Qed.

(** ** State *)
Definition grown (s s' : st) : Prop := exists o, s_out s' = s_out s ++ o.
Lemma grown_refl s : grown s s.
Proof. exists []. by rewrite app_nil_r. Qed.
Lemma grown_trans s s1 s2 : grown s s1 -> grown s1 s2 -> grown s s2.
Proof. intros [o1 E1] [o2 E2]. exists (o1 ++ o2). by rewrite E2, E1, app_assoc. Qed.
Lemma grown_same s s' : s_out s' = s_out s -> grown s s'.
Proof. intros E. exists []. by rewrite app_nil_r. Qed.
(** Sizes kept, and the caches outside [a]; what was shown stays shown. *)
Definition keeps (a : list nat) (s s' : st) : Prop :=
  length (s_ps s') = length (s_ps s) /\ (forall j, j ∉ a -> cache_of s' j = cache_of s j) /\ grown s s'.
Lemma keeps_refl a s : keeps a s s.
Proof. split; [done|]. split; [done|]. apply grown_refl. Qed.
Lemma keeps_trans a s s1 s2 : keeps a s s1 -> keeps a s1 s2 -> keeps a s s2.
Proof.
  intros (L1 & C1 & G1) (L2 & C2 & G2). split; [congruence|]. split; [|by eapply grown_trans].
  intros j Hj. rewrite C2, C1; done.
Qed.
Lemma keeps_sub a b s s' : (forall j, j ∈ a -> j ∈ b) -> keeps a s s' -> keeps b s s'.
Proof. intros H (L & C & G). split; [done|]. split; [|done]. intros j Hj. apply C. intros ?. apply Hj, H. done. Qed.
Lemma keeps_emit a s l : keeps a s (emit s l).
Proof. split; [done|]. split; [done|]. by exists l. Qed.
Lemma keeps_visit a s i d x : keeps a s (visit s i d x).
Proof. split; [done|]. split; [done|]. by apply grown_same. Qed.
Lemma keeps_inc_tx a s i : keeps a s (inc_tx s i).
Proof.
  split; [|split; [intros; apply cache_inc_tx|apply grown_same, out_inc_tx]].
  unfold inc_tx. destruct (s_ps s !! i); [|done]. apply insert_length.
Qed.
Lemma keeps_inc_rx a s i : keeps a s (inc_rx s i).
Proof.
  split; [|split; [intros; apply cache_inc_rx|apply grown_same, out_inc_rx]].
  unfold inc_rx. destruct (s_ps s !! i); [|done]. apply insert_length.
Qed.
Lemma keeps_set_cache a s i c : i ∈ a -> keeps a s (set_cache s i c).
Proof.
  intros Hi. split.
  - unfold set_cache. destruct (s_ps s !! i); [|done]. apply insert_length.
  - split; [|apply grown_same, out_set_cache]. intros j Hj. apply cache_set_other. by intros ->.
Qed.
Lemma ready_keeps E C s s' : keeps [] s s' -> ready E C s -> ready E C s'.
Proof.
  intros (L & K & _) [R1 R2]. split; [congruence|]. intros i cap Hi. destruct (R2 i cap Hi) as (c & Hc & H).
  exists c. rewrite K by (by intros ?%elem_of_nil). done.
Qed.
Lemma ready_set E C s i c : ready E C s -> C c -> ready E C (set_cache s i c).
Proof.
  intros [R1 R2] Hc. split.
  - rewrite <- R1. apply (keeps_set_cache [i] s i c). set_solver.
  - intros j cap Hj. destruct (R2 j cap Hj) as (c0 & Hc0 & H0). destruct (decide (i = j)) as [->|Hne].
    + exists c. by rewrite (cache_set_same _ _ _ c0).
    + exists c0. by rewrite cache_set_other.
Qed.

(** ** Going down *)
Section down.
Context (E : env) (c : conn) (Hmtu : legal_mtu E) (Hc : e_isref E c = false).

Definition ctx_ok (x : ctx) : Prop :=
  cx_conn x = Some c /\ match cx_buf x with Some b => wf b | None => True end.
Definition gone (r : option outcome) (s : st) : Prop :=
  exists x' s', r = Some (Done x' s') /\ cx_conn x' = Some c /\ keeps [] s s'.

Lemma lower_send_any x s : ctx_ok x -> gone (Some (lower_send E x s)) s.
Proof.
  intros [Hx Hb]. unfold lower_send. rewrite Hx, Hc. destruct (cx_buf x) as [b|]; [|eexists _, _; split; [done|]; split; [done|apply keeps_refl]].
  destruct (decide (readable b = [])) as [R|R].
  - rewrite writeto_empty by done. eexists _, _. split; [done|]. split; [done|apply keeps_refl].
  - destruct (writeto_some (e_write E (s_out s) c) b Hb R) as (b' & ->).
    destruct (snd _); (eexists _, _; split; [done|]; split; [done|]).
    + eapply keeps_trans; apply keeps_emit.
    + apply keeps_emit.
Qed.

Definition lowers (d : callfn) : Prop := forall x s, ctx_ok x -> gone (d x s) s.

Lemma ctx_ok_set x b : cx_conn x = Some c -> wf b -> ctx_ok (set_buf x (Some b)).
Proof. by split. Qed.
Lemma gone_done x s : cx_conn x = Some c -> gone (Some (Done x s)) s.
Proof. intros H. exists x, s. split; [done|]. split; [done|apply keeps_refl]. Qed.
Lemma gone_from s s1 r : keeps [] s s1 -> gone r s1 -> gone r s.
Proof. intros K (x & s' & -> & Hx & K'). exists x, s'. split; [done|]. split; [done|]. by eapply keeps_trans. Qed.

Lemma codec_write_any l d x s : lowers d -> cx_conn x = Some c -> gone (codec_write E l d x s) s.
Proof.
  intros Hd Hx. unfold codec_write. destruct (new_ubuf_any E Hmtu) as (b & -> & W).
  destruct (write_any l b W) as ([n e] & b' & -> & W').
  destruct n, e; try (by apply gone_done). by apply Hd, ctx_ok_set.
Qed.

Lemma on_upper_any i p d u w x s : sturdy p -> turns_round p = false -> lowers d -> ctx_ok x ->
  gone (on_upper E i (p_enable p) d u w (p_kind p) x s) s.
Proof.
  intros St Tr Hd Hx. pose proof Hx as [Hx1 Hb]. destruct p as [k en]. unfold sturdy, turns_round in *. simpl in *.
  destruct k as [| | |mar unm|e de|oe de| | |fns|fns| | | | | | |]; try done; simpl;
    unfold by_reference, with_buf, head_ignore; rewrite ?Hx1, ?Hc; try (by apply Hd); try by apply gone_done.
  - destruct en; [|by apply Hd]. destruct (cx_msg x) as [[]|]; try (by apply gone_done). by apply codec_write_any.
  - destruct en; [|by apply Hd]. destruct (cx_msg x) as [[]|]; try (by apply gone_done). by apply codec_write_any.
  - destruct en; [|by apply Hd]. destruct (cx_msg x) as [m|]; try (by apply gone_done).
    destruct (mar m); [|by apply gone_done]. by apply codec_write_any.
  - destruct en; [|by apply Hd]. destruct (cx_msg x) as [m|]; try (by apply gone_done).
    destruct (new_ubuf_any E Hmtu) as (b & -> & W). destruct (proj1 (St eq_refl) m b W) as (r & b' & -> & W').
    destruct r; [by apply gone_done|]. by apply Hd, ctx_ok_set.
  - destruct en; [|by apply Hd]. destruct oe as [e|]; [|by apply gone_done].
    destruct (cx_msg x) as [m|]; try (by apply gone_done).
    destruct (new_ubuf_any E Hmtu) as (b & -> & W). destruct (proj1 (St eq_refl) e m b eq_refl W) as (r & b' & -> & W').
    destruct r; [by apply gone_done|]. by apply Hd, ctx_ok_set.
  - destruct en; [|by apply Hd]. destruct (any_fn_some fns x false (St eq_refl)) as ([] & ->); [by apply Hd|].
    eapply gone_from; [apply keeps_inc_tx|]. by apply gone_done.
  - destruct en; [|by apply Hd]. destruct (any_fn_some fns x false (St eq_refl)) as ([] & ->); [|by apply Hd].
    eapply gone_from; [apply keeps_inc_tx|]. by apply gone_done.
  - destruct en; [|by apply Hd]. destruct (cx_buf x) as [b|]; [|by apply gone_done].
    destruct (headU_any W32 (Z.of_nat (v_rlen b) mod 2 ^ 32)%Z b Hb) as (r & b' & -> & W').
    by apply Hd, ctx_ok_set.
  - destruct (cx_buf x) as [b|]; [|by apply gone_done].
    destruct (headbyte_any 0%Z b Hb) as (r & b' & -> & W'). by apply Hd, ctx_ok_set.
  - destruct (cx_buf x) as [b|]; [|by apply gone_done].
    destruct (headbyte_any (if en then 17 else 0)%Z b Hb) as (r & b' & -> & W'). by apply Hd, ctx_ok_set.
  - destruct en; [|by apply Hd]. destruct (cx_buf x) as [b|]; [|by apply gone_done].
    destruct (headU_any W32 (option_int (cx_session x) 0 mod 2 ^ 32)%Z b Hb) as (r & b' & -> & W').
    destruct r; [by apply gone_done|]. by apply Hd, ctx_ok_set.
  - destruct (cx_buf x) as [b|]; [|by apply gone_done].
    destruct (headbyte_any 0%Z b Hb) as (r & b' & -> & W').
    eapply gone_from; [|by apply Hd, ctx_ok_set]. destruct en; [apply keeps_inc_tx|apply keeps_refl].
Qed.

Lemma down_any q is ps f : below E q is ps -> Forall sturdy ps -> Forall (fun p => turns_round p = false) ps ->
  length ps < f -> lowers (exec f E Down (Some q)).
Proof.
  intros Hb. revert f. induction Hb as [|i is p ps q Hi Hlow Hb IH]; intros f St Tr Hf.
  - destruct f as [|f]; [simpl in Hf; lia|]. intros x s Hx. by apply lower_send_any.
  - inversion St; inversion Tr; subst. destruct f as [|f]; [simpl in Hf; lia|]. simpl in Hf.
    intros x s Hx. cbn [exec]. rewrite Hi, Hlow. eapply gone_from; [apply keeps_visit|].
    apply on_upper_any; try done. apply IH; [done..|lia].
Qed.
End down.

(** ** The frame decoder *)
(** [C]: caches; [G]: contents of buffers going up; [bad]: what a crash needs. *)
Record decoder_ok (C : vbuf -> Prop) (G : list byte -> Prop) (bad : Prop) : Prop := {
  do_block x l : block_of x l -> G l -> G x;
  do_cur cc u : C cc -> wf u -> G (readable u) ->
    match fd_cur_step cc u with
    | (FdStop, c', _) => C c'
    | (FdLast, c', u') => C c' /\ wf u' /\ G (readable u')
    | (FdPanic, _, _) => bad
    | (FdNew nb, c', u') => C c' /\ wf nb /\ G (readable nb) /\ wf u' /\ G (readable u') /\ v_rlen u' < v_rlen u
    end;
  do_cached cc : C cc ->
    match fd_cached_step cc with
    | (FdPanic, _) => bad
    | (FdNew nb, c') => C c' /\ wf nb /\ G (readable nb) /\ v_rlen c' < v_rlen cc
    | (_, c') => C c'
    end;
  do_first cc u : C cc -> wf u -> G (readable u) -> 0 < v_rlen cc ->
    exists n c' u', ub_readfrom None cc u = Ok n (c', u') /\ C c' }.

Lemma block_nozero x l : block_of x l -> ~ zero_field l -> ~ zero_field x.
Proof. intros B H Z. apply H. by eapply block_trans. Qed.
Lemma block_length x l : block_of x l -> length x <= length l.
Proof. intros (a & b & ->). rewrite !app_length. lia. Qed.

Definition any_bytes (l : list byte) : Prop := Forall byte_ok l /\ (Z.of_nat (length l) < 2^32)%Z.
Definition clean_bytes (mtu : Z) (l : list byte) : Prop :=
  Forall byte_ok l /\ (Z.of_nat (length l) <= mtu)%Z /\ ~ zero_field l.

Lemma any_cache_wf c : any_cache c <-> exists k, wf c /\ v_res c = 0 /\ v_cap c = k /\ (Z.of_nat k < 2^32)%Z /\ Forall byte_ok (readable c).
Proof. unfold any_cache. split; intros (k & H); exists k; rewrite ?cache_state_wf in *; naive_solver. Qed.
Lemma reset_wf c : wf c -> wf (v_reset c).
Proof. intros (?&?&?&?). unfold wf, v_reset, v_cap in *; simpl. lia. Qed.
Lemma reset_readable c : readable (v_reset c) = [].
Proof. unfold readable, v_rlen, v_reset; simpl. by rewrite Nat.sub_diag. Qed.
Lemma reset_any c : wf c -> v_res c = 0 -> (Z.of_nat (v_cap c) < 2^32)%Z -> any_cache (v_reset c).
Proof.
  intros W R K. apply any_cache_wf. exists (v_cap c). split; [by apply reset_wf|]. split; [done|]. split; [done|].
  split; [done|]. by rewrite reset_readable.
Qed.

Lemma any_decoder (bad : Prop) : bad -> decoder_ok any_cache any_bytes bad.
Proof.
  intros Hbad. split.
  - intros x l B [H1 H2]. split; [by eapply block_byte_ok|]. pose proof (block_length _ _ B). lia.
  - intros cc u (k & Wc & Rc & Kc & Hk & Bc)%any_cache_wf Wu [Bu Lu]. pose proof (readable_length u Wu) as Eu.
    pose proof (cur_step_spec cc u Wc Wu ltac:(lia)) as S. cbv zeta in S.
    assert (any_cache cc) as HC by (apply any_cache_wf; eauto 10).
    destruct ((_ <? 4) || _) eqn:E1.
    { destruct S as (c' & u' & -> & W' & H1 & H2 & H3 & H4). apply any_cache_wf. exists k.
      split_and!; try congruence; try done. rewrite H4. apply Forall_app. split; [done|].
      eapply block_byte_ok; [apply block_accepted|done]. }
    destruct (_ =? _)%Z eqn:E2 in S.
    { destruct S as (u' & -> & Wu' & R'). split; [done|]. split; [done|]. rewrite R'. split; [by apply Forall_drop|].
      rewrite drop_length. lia. }
    destruct (_ <=? 0)%Z eqn:E3 in S; [by rewrite S|].
    apply orb_false_iff in E1 as [E1 _]. cleq. apply Z.leb_gt in E3.
    destruct (_ <=? _)%Z eqn:E4 in S.
    + destruct S as (nb & u' & -> & Wn & Wu' & R1 & R2). rewrite <- (readable_length u' Wu'), <- (readable_length u Wu), R1, R2.
      split_and!; try done.
      * split; [by apply Forall_take, Forall_drop|]. rewrite take_length, drop_length. lia.
      * split; [by apply Forall_drop|]. rewrite drop_length. lia.
      * rewrite drop_length. lia.
    + destruct S as (u' & ->). apply reset_any; congruence || lia.
  - intros cc (k & Wc & Rc & Kc & Hk & Bc)%any_cache_wf. pose proof (readable_length cc Wc) as Ec.
    assert (any_cache cc) as HC by (apply any_cache_wf; eauto 10).
    pose proof (cached_step_spec cc Wc) as S. cbv zeta in S.
    destruct (_ =? 0) eqn:E0 in S; [rewrite S; apply reset_any; congruence || lia|].
    destruct ((_ <? 4) || _) eqn:E1; [by rewrite S|]. apply orb_false_iff in E1 as [E1 _]. cleq.
    destruct (_ <=? 0)%Z eqn:E3 in S; [by rewrite S|]. apply Z.leb_gt in E3.
    destruct S as (c' & W' & R' & C' & T' & S).
    assert (v_rlen cc <= v_cap cc) by (unfold v_rlen; destruct Wc as (?&?&?&?); lia).
    destruct (_ <=? _)%Z eqn:E4 in S.
    + destruct S as (nb & -> & Wn & R1 & R2). rewrite <- (readable_length c' W'), <- (readable_length cc Wc), R1, R2.
      split_and!; try done.
      * apply any_cache_wf. exists k. split_and!; try congruence; try done. rewrite R2. by apply Forall_drop.
      * split; [by apply Forall_take, Forall_drop|]. rewrite take_length, drop_length. lia.
      * rewrite drop_length. lia.
    + rewrite S. apply reset_any; congruence || lia.
  - intros cc u (k & Wc & Rc & Kc & Hk & Bc)%any_cache_wf Wu [Bu Lu] _.
    destruct (ub_readfrom_spec cc u Wc Wu) as (n & c' & u' & H & W' & H1 & H2 & H3 & H4).
    exists n, c', u'. split; [done|]. apply any_cache_wf. exists k. split_and!; try congruence; try done.
    rewrite H4. apply Forall_app. split; [done|]. eapply block_byte_ok; [apply block_accepted|done].
Qed.

Lemma spare_decoder mtu : (mtu < 2^32)%Z -> decoder_ok (spare_cache mtu) (clean_bytes mtu) False.
Proof.
  intros Hmtu. split.
  - intros x l B (H1 & H2 & H3). split; [by eapply block_byte_ok|]. pose proof (block_length _ _ B). split; [lia|].
    by eapply block_nozero.
  - intros cc u (k & Ik & Hk) Wu (Bu & Lu & Zu). pose proof (readable_length u Wu) as Eu.
    destruct (idle_wf k cc Ik) as (Wc & Rc & Tc).
    pose proof (cur_step_spec cc u Wc Wu ltac:(lia)) as S. cbv zeta in S.
    assert (spare_cache mtu cc) as HC by (by exists k).
    destruct ((_ <? 4) || _) eqn:E1.
    { destruct S as (c' & u' & -> & W' & H1 & H2 & H3 & H4). exists k. split; [|done].
      rewrite Rc in H4. simpl in H4. assert (readable c' = []) as R'.
      { rewrite H4. unfold accepted. rewrite Tc. destruct (k <=? _) eqn:Ek; cleq; [lia|done]. }
      destruct Ik as (I1 & I2 & I3 & I4 & I5). rewrite <- I4, <- H3. apply wf_idle; congruence. }
    destruct (_ =? _)%Z eqn:E2 in S.
    { destruct S as (u' & -> & Wu' & R'). split; [done|]. split; [done|]. rewrite R'. split; [by apply Forall_drop|].
      rewrite drop_length. split; [lia|]. eapply block_nozero; [apply block_drop|done]. }
    apply orb_false_iff in E1 as [E1 _]. cleq.
    destruct (_ <=? 0)%Z eqn:E3 in S.
    { rewrite S. apply Zu. apply Z.leb_le in E3. by apply zeros_block. }
    apply Z.leb_gt in E3.
    destruct (_ <=? _)%Z eqn:E4 in S.
    + destruct S as (nb & u' & -> & Wn & Wu' & R1 & R2). rewrite <- (readable_length u' Wu'), <- (readable_length u Wu), R1, R2.
      split_and!; try done.
      * split; [by apply Forall_take, Forall_drop|]. rewrite take_length, drop_length. split; [lia|].
        eapply block_nozero; [eapply block_trans; [apply block_take|apply block_drop]|done].
      * split; [by apply Forall_drop|]. rewrite drop_length. split; [lia|]. eapply block_nozero; [apply block_drop|done].
      * rewrite drop_length. lia.
    + destruct S as (u' & ->). exists k. split; [|done]. destruct Ik as (I1 & I2 & I3 & I4 & I5). rewrite <- I4.
      by apply reset_idle.
  - intros cc (k & Ik & Hk). destruct (idle_wf k cc Ik) as (Wc & Rc & Tc).
    pose proof (cached_step_spec cc Wc) as S. cbv zeta in S. rewrite Rc in S. simpl in S. rewrite S.
    exists k. split; [|done]. destruct Ik as (I1 & I2 & I3 & I4 & I5). rewrite <- I4. by apply reset_idle.
  - intros cc u (k & Ik & Hk) _ _ H. destruct (idle_wf k cc Ik) as (Wc & Rc & Tc).
    rewrite <- (readable_length cc Wc), Rc in H. simpl in H. lia.
Qed.

(** ** Going up *)
Section up.
Context (E : env) (c : conn) (Hmtu : legal_mtu E) (Hc : e_isref E c = false).
Context (C : vbuf -> Prop) (G : list byte -> Prop) (bad : Prop) (ids : list nat).
Context (Hdec : forall i cap, i ∈ ids -> e_procs E !! i = Some (Proc (KFrame cap) true) -> decoder_ok C G bad)
  (HG : forall x l, block_of x l -> G l -> G x).

Definition in_ok (x : ctx) : Prop :=
  cx_conn x = Some c /\ exists b, cx_buf x = Some b /\ wf b /\ G (readable b).
(** The call returned, or crashed for the reason [bad]; caches outside [a] kept. *)
Definition came (a : list nat) (r : option outcome) (s : st) : Prop :=
  (exists x' s', r = Some (Done x' s') /\ cx_conn x' = Some c /\ ready E C s' /\ keeps a s s') \/
  (exists s', r = Some (Crash s') /\ bad /\ grown s s').
Definition raises (a : list nat) (u : callfn) : Prop := forall x s, in_ok x -> ready E C s -> came a (u x s) s.

Lemma came_done a x s : cx_conn x = Some c -> ready E C s -> came a (Some (Done x s)) s.
Proof. intros H R. left. exists x, s. split_and!; try done. apply keeps_refl. Qed.
Lemma came_from a s s1 r : keeps a s s1 -> came a r s1 -> came a r s.
Proof.
  intros K [(x & s' & -> & Hx & R & K')|(s' & -> & B & Gr)]; [left|right].
  - exists x, s'. split_and!; try done. by eapply keeps_trans.
  - exists s'. split_and!; try done. eapply grown_trans; [apply K|done].
Qed.
Lemma came_sub a b r s : (forall j, j ∈ a -> j ∈ b) -> came a r s -> came b r s.
Proof.
  intros Hs [(x & s' & -> & Hx & R & K')|(s' & -> & B & Gr)]; [left|right; eauto].
  exists x, s'. split_and!; try done. by eapply keeps_sub.
Qed.
Lemma came_gone a r s : ready E C s -> gone c r s -> came a r s.
Proof.
  intros R (x & s' & -> & Hx & K). left. exists x, s'. split; [done|]. split; [done|].
  split; [by eapply ready_keeps|]. eapply keeps_sub; [|done]. by intros j ?%elem_of_nil.
Qed.
Lemma in_ok_set x b : cx_conn x = Some c -> wf b -> G (readable b) -> in_ok (set_buf x (Some b)).
Proof. intros. split; [done|]. eauto. Qed.
Lemma in_ok_msg x m : in_ok x -> in_ok (set_msg x m).
Proof. intros [H1 H2]. by split. Qed.
Lemma in_ok_ses x z : in_ok x -> in_ok (set_session x z).
Proof. intros [H1 H2]. by split. Qed.

Lemma frame_cur_any i cap a up n x s u : i ∈ ids -> e_procs E !! i = Some (Proc (KFrame cap) true) -> i ∉ a -> raises a up ->
  cx_conn x = Some c -> wf u -> G (readable u) -> v_rlen u < n -> ready E C s ->
  came (i :: a) (frame_cur n i up x s u) s.
Proof.
  intros Hin Hi Ha Hup. pose proof (Hdec i cap Hin Hi) as D. revert x s u. induction n as [|n IH]; intros x s u Hx Wu Gu Hn R; [lia|].
  cbn [frame_cur]. destruct (proj2 R i cap Hi) as (cc & -> & Hcc).
  pose proof (do_cur _ _ _ D cc u Hcc Wu Gu) as S. destruct (fd_cur_step cc u) as [[act c'] u'].
  destruct act as [| |nb|].
  - left. eexists _, _. split; [done|]. split; [done|]. split; [by apply ready_set|]. apply keeps_set_cache. set_solver.
  - destruct S as (Hc' & Wu' & Gu'). eapply came_from; [apply (keeps_set_cache _ _ i c'); set_solver|].
    eapply came_sub; [|apply Hup; [by apply in_ok_set|by apply ready_set]]. set_solver.
  - destruct S as (Hc' & Wn & Gn & Wu' & Gu' & Hlt).
    destruct (Hup (set_buf x (Some nb)) (set_cache s i c')) as [(x1 & s1 & -> & Hx1 & R1 & K1)|(s1 & -> & B & Gr)].
    + by apply in_ok_set.
    + by apply ready_set.
    + eapply came_from; [|apply IH; try done; lia]. eapply keeps_trans; [apply (keeps_set_cache _ _ i c'); set_solver|].
      eapply keeps_sub; [|exact K1]. set_solver.
    + right. exists s1. split_and!; try done. eapply grown_trans; [apply grown_same, (out_set_cache s i c')|done].
  - right. eexists. split; [done|]. split; [done|]. apply grown_same, out_set_cache.
Qed.
Lemma frame_cached_any i cap a up n x s cc : i ∈ ids -> e_procs E !! i = Some (Proc (KFrame cap) true) -> i ∉ a -> raises a up ->
  cx_conn x = Some c -> cache_of s i = Some cc -> v_rlen cc < n -> ready E C s ->
  came (i :: a) (frame_cached n i up x s) s.
Proof.
  intros Hin Hi Ha Hup. pose proof (Hdec i cap Hin Hi) as D. revert x s cc. induction n as [|n IH]; intros x s cc Hx Ec Hn R; [lia|].
  cbn [frame_cached]. rewrite Ec. assert (C cc) as Hcc.
  { destruct (proj2 R i cap Hi) as (cc' & Ec' & H). congruence. }
  pose proof (do_cached _ _ _ D cc Hcc) as S. destruct (fd_cached_step cc) as [act c'].
  destruct act as [| |nb|].
  - left. eexists _, _. split; [done|]. split; [done|]. split; [by apply ready_set|]. apply keeps_set_cache. set_solver.
  - left. eexists _, _. split; [done|]. split; [done|]. split; [by apply ready_set|]. apply keeps_set_cache. set_solver.
  - destruct S as (Hc' & Wn & Gn & Hlt).
    destruct (Hup (set_buf x (Some nb)) (set_cache s i c')) as [(x1 & s1 & -> & Hx1 & R1 & K1)|(s1 & -> & B & Gr)].
    + by apply in_ok_set.
    + by apply ready_set.
    + eapply came_from; [|eapply (IH _ _ c'); try done; [|lia]].
      * eapply keeps_trans; [apply (keeps_set_cache _ _ i c'); set_solver|]. eapply keeps_sub; [|exact K1]. set_solver.
      * rewrite (proj1 (proj2 K1)) by done. by eapply cache_set_same.
    + right. exists s1. split_and!; try done. eapply grown_trans; [apply grown_same, (out_set_cache s i c')|done].
  - right. eexists. split; [done|]. split; [done|]. apply grown_same, out_set_cache.
Qed.
Lemma frame_recv_any i cap a up x s u : i ∈ ids -> e_procs E !! i = Some (Proc (KFrame cap) true) -> i ∉ a -> raises a up ->
  cx_conn x = Some c -> wf u -> G (readable u) -> ready E C s -> came (i :: a) (frame_recv i up x s u) s.
Proof.
  intros Hin Hi Ha Hup Hx Wu Gu R. unfold frame_recv. destruct (proj2 R i cap Hi) as (cc & -> & Hcc).
  set (first := if 0 <? v_rlen cc then _ else _).
  assert (came (i :: a) first s) as [(x1 & s1 & -> & Hx1 & R1 & K1)|(s1 & -> & B & Gr)].
  { unfold first. destruct (0 <? v_rlen cc) eqn:E0; cleq.
    - destruct (do_first _ _ _ (Hdec i cap Hin Hi) cc u Hcc Wu Gu E0) as (n & c' & u' & -> & Hc').
      left. eexists _, _. split; [done|]. split; [done|]. split; [by apply ready_set|]. apply keeps_set_cache. set_solver.
    - eapply frame_cur_any; try done. lia. }
  - eapply came_from; [exact K1|]. destruct (proj2 R1 i cap Hi) as (c1 & E1 & _). rewrite E1.
    eapply frame_cached_any; try done. lia.
  - right. eauto.
Qed.

Lemma on_lower_any i p a d u x s : i ∈ ids -> e_procs E !! i = Some p -> sturdy p -> lowers c d \/ turns_round p = true ->
  raises a u -> i ∉ a -> in_ok x -> ready E C s ->
  came (i :: a) (on_lower E i (p_enable p) d u (p_kind p) x s) s.
Proof.
  intros Hin Hi St Hd Hu Ha Hx R. pose proof Hx as (Hx1 & b & Hb & W & Gb).
  assert (forall x s, in_ok x -> ready E C s -> came (i :: a) (u x s) s) as Hu'.
  { intros x1 s1 H1 H2. eapply came_sub; [|by apply Hu]. set_solver. }
  destruct p as [k en]. unfold sturdy, turns_round in *. simpl in *.
  destruct k as [| | |mar unm|e de|oe de| | |fns|fns| | | | | | |]; simpl;
    unfold by_reference, with_buf, codec_read; rewrite ?Hx1, ?Hc, ?Hb; try (by apply came_done); try by apply Hu'.
  - destruct en; [|by apply Hu']. destruct (read_any (v_rlen b) b W) as ([l er] & b' & -> & W' & Bl).
    destruct l, er; try (by apply came_done). apply Hu'; [|done]. apply in_ok_msg, in_ok_set; eauto.
  - destruct en; [|by apply Hu']. destruct (read_any (v_rlen b) b W) as ([l er] & b' & -> & W' & Bl).
    destruct l, er; try (by apply came_done). apply Hu'; [|done]. apply in_ok_msg, in_ok_set; eauto.
  - destruct en; [|by apply Hu']. destruct (read_any (v_rlen b) b W) as ([l er] & b' & -> & W' & Bl).
    destruct l, er; try (by apply came_done). destruct (unm _); [|by apply came_done].
    apply Hu'; [|done]. apply in_ok_msg, in_ok_set; eauto.
  - destruct en; [|by apply Hu']. destruct (proj2 (St eq_refl) b W) as (r & b' & -> & W' & Bl).
    destruct r; [|by apply came_done]. apply Hu'; [|done]. apply in_ok_msg, in_ok_set; eauto.
  - destruct en; [|by apply Hu']. destruct de as [de|]; [|by apply came_done].
    destruct (proj2 (St eq_refl) de b eq_refl W) as ([r []] & b' & -> & W' & Bl); [by apply came_done|].
    apply Hu'; [|done]. apply in_ok_msg, in_ok_set; eauto.
  - destruct en; [by apply came_done|by apply Hu'].
  - destruct en; [|by apply Hu']. destruct Hd as [Hd|?]; [|done]. apply came_gone; [done|]. apply Hd.
    split; [done|]. by rewrite Hb.
  - destruct en; [|by apply Hu']. destruct (any_fn_some fns x true (St eq_refl)) as ([] & ->); [by apply Hu'|].
    eapply came_from; [apply keeps_inc_rx|]. apply came_done; [done|]. eapply ready_keeps; [apply keeps_inc_rx|done].
  - destruct en; [|by apply Hu']. destruct (any_fn_some fns x true (St eq_refl)) as ([] & ->); [|by apply Hu'].
    eapply came_from; [apply keeps_inc_rx|]. apply came_done; [done|]. eapply ready_keeps; [apply keeps_inc_rx|done].
  - destruct en; [|by apply Hu']. by eapply frame_recv_any.
  - destruct (readbyte_any b W) as ([t [er|]] & b' & -> & W' & Bl); [by apply came_done|].
    destruct (_ =? _)%Z; [|apply Hu'; [apply in_ok_set; eauto|done]]. left. eexists _, _. split; [done|]. split; [done|].
    rewrite ?Hx1. split; [eapply ready_keeps; [apply keeps_emit|done]|apply keeps_emit].
  - destruct (readbyte_any b W) as ([t [er|]] & b' & -> & W' & Bl); [by apply came_done|].
    destruct (_ && _); [by apply came_done|apply Hu'; [apply in_ok_set; eauto|done]].
  - destruct en; [|by apply Hu']. destruct (readU_any W32 b W) as ([t [er|]] & b' & -> & W' & Bl); [by apply came_done|].
    apply Hu'; [|done]. apply in_ok_ses, in_ok_set; eauto.
  - destruct (readbyte_any b W) as ([t [er|]] & b' & -> & W' & Bl); [by apply came_done|].
    destruct en; [|apply Hu'; [apply in_ok_set; eauto|done]].
    destruct (_ =? _)%Z.
    + destruct (lookup_lt_is_Some_2 (s_ps s) i) as (p & ->).
      { rewrite (proj1 R). by eapply lookup_lt_Some. }
      unfold stat_response. destruct (new_ubuf_any E Hmtu) as (b0 & -> & W0).
      destruct (headbyte_any 35%Z b0 W0) as (? & b1 & -> & W1).
      destruct (writeU_any W64 (ps_tx p) b1 W1) as (? & b2 & -> & W2).
      destruct (writeU_any W64 (ps_rx p) b2 W2) as (? & b3 & -> & W3).
      destruct (write_any (e_name E) b3 W3) as (? & b4 & -> & W4).
      destruct Hd as [Hd|?]; [|done]. apply came_gone; [done|]. apply Hd. by split.
    + destruct (_ =? _)%Z.
      * unfold stat_show. destruct (readU_any W64 b' W') as ([? ?] & b1 & -> & W1 & _).
        destruct (readU_any W64 b1 W1) as ([? ?] & b2 & -> & W2 & _).
        destruct (read_any 128 b2 W2) as ([? ?] & b3 & -> & W3 & _). left. eexists _, _. split; [done|]. split; [done|].
        split; [eapply ready_keeps; [apply keeps_emit|done]|apply keeps_emit].
      * eapply came_from; [apply keeps_inc_rx|]. apply Hu'; [apply in_ok_set; eauto|].
        eapply ready_keeps; [apply keeps_inc_rx|done].
Qed.

Lemma up_any a pa b pb f q : (forall j, j ∈ a ++ b -> j ∈ ids) -> wired E (a ++ b) (pa ++ pb) -> length a = length pa -> Forall sturdy (pa ++ pb) ->
  Forall (fun p => turns_round p = false) pb -> path_up E PUpper q (rev a) (rev pa) ->
  length a + length (pa ++ pb) < f -> raises a (exec f E Up (Some q)).
Proof.
  revert pa b pb f q. induction a as [|i a IH] using rev_ind; intros pa b pb f q Eids Wd La St Tr Hp Hf.
  - destruct f as [|f]; [lia|]. inversion Hp; subst. intros x s Hx R. simpl.
    unfold upper_recv. destruct (cx_msg x); [|by apply came_done; [apply Hx|]].
    case_decide; [|by apply came_done; [apply Hx|]].
    eapply came_from; [apply keeps_emit|]. apply came_done; [apply Hx|]. eapply ready_keeps; [apply keeps_emit|done].
  - destruct pa as [|p pa _] using rev_ind; [rewrite app_length in La; simpl in La; lia|].
    rewrite !app_length in La. simpl in La. rewrite !rev_app_distr in Hp. simpl in Hp.
    inversion Hp as [|? ? ? ? q1 Hi Hup Hp']; subst.
    destruct f as [|f]; [lia|]. intros x s Hx R. cbn [exec]. rewrite Hi, Hup.
    assert (i ∉ a) as Ha.
    { pose proof (wired_nodup _ _ _ Wd) as N. rewrite <- app_assoc in N. apply NoDup_app in N as (_ & N & _).
      intros Hin. apply (N i Hin). set_solver. }
    assert (sturdy p) as Sp. { rewrite !Forall_app in St. destruct St as [[_ St] _]. by inversion St. }
    eapply came_from; [apply (keeps_visit _ s i Up x)|]. eapply (came_sub (i :: a)); [set_solver|].
    rewrite !app_length in Hf. simpl in Hf.
    destruct (turns_round p) eqn:Et.
    + destruct p as [k en]. unfold turns_round in Et. simpl in Et. destruct k; try done. simpl. apply came_done; [apply Hx|].
      eapply ready_keeps; [apply keeps_visit|done].
    + apply on_lower_any; try done.
      * apply Eids. set_solver.
      * left. destruct (wired_below E ((a ++ [i]) ++ b) ((pa ++ [p]) ++ pb) (a ++ [i]) b (pa ++ [p]) pb Wd eq_refl eq_refl)
          as (q2 & Hlow & Hbelow). { rewrite !app_length. simpl. lia. }
        rewrite list_last_fmap_proc in Hlow. rewrite Hlow. rewrite !Forall_app in St.
        eapply down_any; try done; [apply St|lia].
      * eapply (IH pa (i :: b) (p :: pb)); try done.
        -- intros j Hj. apply Eids. set_solver.
        -- by rewrite <- !app_assoc in Wd.
        -- lia.
        -- by rewrite <- app_assoc in St.
        -- by constructor.
        -- rewrite app_length. simpl. lia.
Qed.
End up.

(** ** Whole inputs *)
Lemma framing_some E ids ps i cap : wired E ids ps -> i ∈ ids -> e_procs E !! i = Some (Proc (KFrame cap) true) ->
  existsb framing ps = true.
Proof.
  intros (_ & _ & _ & H2) Hi Hp. apply elem_of_list_lookup in Hi as (n & Hn).
  destruct (Forall2_lookup_l _ _ _ _ _ H2 Hn) as (p & Hpn & Hip). rewrite Hp in Hip. injection Hip as <-.
  apply existsb_exists. eexists. split; [apply elem_of_list_In, elem_of_list_lookup; eauto|done].
Qed.
Lemma finishes_grown E d q x s x' s' f0 : exec f0 E d q x s = Some (Done x' s') -> grown s s' ->
  exists outs, finishes (fun f => exec f E d q x s) s outs s'.
Proof. intros H [o Ho]. exists o. by eapply finishes_exec. Qed.

Lemma receive_any E ids ps C G bad c l s : wired E ids ps -> Forall sturdy ps -> legal_mtu E -> e_isref E c = false ->
  chunk E l -> (forall i cap, i ∈ ids -> e_procs E !! i = Some (Proc (KFrame cap) true) -> decoder_ok C G bad) ->
  (forall x l, block_of x l -> G l -> G x) -> G l -> ready E C s ->
  (exists outs s', finishes (fun f => receive f E c l s) s outs s' /\ ready E C s') \/
  (bad /\ exists outs, crashes (fun f => receive f E c l s) s outs).
Proof.
  intros Wd St Hm Hc [Bl Ll] Hdec HG Gl R.
  destruct (wired_all_above E ids ps Wd) as (q & Hq & Hp).
  destruct (rx_chunk_wf (Z.to_nat (e_mtu E)) l) as (Wu & Ru & _); [lia|].
  destruct (up_any E c Hm Hc C G bad ids Hdec HG ids ps [] [] (S (length ids + length ps)) q)
    with (x := Ctx (Some c) (Some (rx_chunk (Z.to_nat (e_mtu E)) l)) None None) (s := s)
    as [(x' & s' & Hx & _ & R' & K)|(s' & Hx & B & Gr)]; rewrite ?app_nil_r; try done.
  - by eapply wired_length.
  - lia.
  - split; [done|]. eexists. split; [done|]. by rewrite Ru.
  - left. unfold receive. rewrite Hq. destruct (finishes_grown _ _ _ _ _ _ _ _ Hx (proj2 (proj2 K))) as (o & Ho). eauto.
  - right. split; [done|]. destruct Gr as (o & Ho). exists o, (S (length ids + length ps)), s'. split; [|done].
    intros f Hf. unfold receive. rewrite Hq. by eapply exec_mono.
Qed.

Lemma receive_returns E ids ps c l s : wired E ids ps -> Forall sturdy ps -> legal_mtu E -> e_isref E c = false ->
  chunk E l -> ready E any_cache s ->
  (exists outs s', finishes (fun f => receive f E c l s) s outs s' /\ ready E any_cache s') \/
  (existsb framing ps = true /\ exists outs, crashes (fun f => receive f E c l s) s outs).
Proof.
  intros Wd St Hm Hc Hl R. apply (receive_any E ids ps any_cache any_bytes); try done.
  - intros i cap Hi Hp. apply any_decoder. by eapply framing_some.
  - apply (do_block _ _ _ (any_decoder True I)).
  - destruct Hl, Hm. split; [done|]. lia.
Qed.
Lemma receive_clean E ids ps c l s : wired E ids ps -> Forall sturdy ps -> legal_mtu E -> e_isref E c = false ->
  chunk E l -> ~ zero_field l -> ready E (spare_cache (e_mtu E)) s ->
  exists outs s', finishes (fun f => receive f E c l s) s outs s' /\ ready E (spare_cache (e_mtu E)) s'.
Proof.
  intros Wd St Hm Hc Hl Z R. assert (e_mtu E < 2^32)%Z as H32 by apply Hm.
  destruct (receive_any E ids ps (spare_cache (e_mtu E)) (clean_bytes (e_mtu E)) False c l s) as [H|[[] _]]; try done.
  - intros. by apply spare_decoder.
  - apply (do_block _ _ _ (spare_decoder _ H32)).
  - destruct Hl. done.
Qed.

Lemma send_any E ids ps session dest c m s : wired E ids ps -> Forall sturdy ps ->
  Forall (fun p => turns_round p = false) ps -> legal_mtu E -> e_isref E c = false ->
  exists outs s', finishes (fun f => send f E session dest (Some c) m s) s outs s' /\ keeps [] s s'.
Proof.
  intros Wd St Tr Hm Hc. destruct (wired_below E ids ps [] ids [] ps Wd eq_refl eq_refl eq_refl) as (q & Hq & Hb).
  simpl in Hq. unfold send. rewrite Hq.
  destruct (down_any E c Hm Hc q ids ps (S (length ps)) Hb St Tr ltac:(lia)) with
    (x := Ctx (Some c) None m (Some (OInt (match dest with Some d => d | None => session end)))) (s := s)
    as (x' & s' & Hx & _ & K); [done|].
  destruct (finishes_grown _ _ _ _ _ _ _ _ Hx (proj2 (proj2 K))) as (o & Ho). eauto.
Qed.
Lemma self_any E ids ps i tag c s : wired E ids ps -> Forall sturdy ps ->
  Forall (fun p => turns_round p = false) ps -> legal_mtu E -> e_isref E c = false -> i ∈ ids ->
  exists outs s', finishes (fun f => self_message f E i tag c s) s outs s' /\ keeps [] s s'.
Proof.
  intros Wd St Tr Hm Hc Hi. apply elem_of_list_split in Hi as (a & b & ->).
  pose proof (wired_length _ _ _ Wd) as L. rewrite app_length in L. simpl in L.
  assert (ps = take (S (length a)) ps ++ drop (S (length a)) ps) as Eps by (by rewrite take_drop).
  destruct (wired_below E (a ++ i :: b) ps (a ++ [i]) b (take (S (length a)) ps) (drop (S (length a)) ps) Wd) as (q & Hq & Hb).
  { by rewrite <- app_assoc. } { done. } { rewrite app_length, take_length. cbn [length]. lia. }
  rewrite list_last_fmap_proc in Hq. unfold self_message. rewrite Hq.
  destruct (new_ubuf_any E Hm) as (b0 & -> & W0). destruct (writebyte_any tag b0 W0) as (r & b1 & -> & W1).
  destruct (down_any E c Hm Hc q b (drop (S (length a)) ps) (S (length ps)) Hb) with
    (x := Ctx (Some c) (Some b1) None None) (s := s) as (x' & s' & Hx & _ & K); try done; try by apply Forall_drop.
  { rewrite drop_length. lia. }
  destruct (finishes_grown _ _ _ _ _ _ _ _ Hx (proj2 (proj2 K))) as (o & Ho). eauto.
Qed.

Lemma feed_any E ids ps (P : input -> Prop) C s js : wired E ids ps -> Forall sturdy ps ->
  Forall (fun p => turns_round p = false) ps -> legal_mtu E ->
  (forall c l s, e_isref E c = false -> chunk E l -> P (InBytes c l) -> ready E C s ->
     exists outs s', finishes (fun f => receive f E c l s) s outs s' /\ ready E C s') ->
  Forall (input_ok E ids) js -> Forall P js -> ready E C s ->
  exists outs s', finish_all (feed E <$> js) s outs s' /\ ready E C s'.
Proof.
  intros Wd St Tr Hm Hrec Hok HP. revert s. induction js as [|j js IH]; intros s R.
  - exists [], s. split; [constructor|done].
  - inversion Hok; inversion HP; subst.
    assert (exists outs s', finishes (fun f => feed E j f s) s outs s' /\ ready E C s') as (o1 & s1 & F1 & R1).
    { destruct j as [c l|z d c m|i t c]; simpl in *.
      - apply Hrec; tauto.
      - destruct (send_any E ids ps z d c m s) as (o & s' & F & K); try done. exists o, s'. split; [done|]. by eapply ready_keeps.
      - destruct (self_any E ids ps i t c s) as (o & s' & F & K); try done; try tauto. exists o, s'. split; [done|]. by eapply ready_keeps. }
    destruct (IH ltac:(done) ltac:(done) s1 R1) as (o2 & s2 & F2 & R2). exists (o1 ++ o2), s2. split; [|done].
    simpl. by eapply finish_cons.
Qed.

(** ** After Run *)
Lemma init_ready E ids ps s : wired E ids ps -> init_st E = Some s -> legal_mtu E ->
  default_caches E -> ready E (spare_cache (e_mtu E)) s.
Proof.
  intros Wd Hs Hm Hd. split.
  - unfold init_st in Hs. destruct (mapM _ _) as [l|] eqn:Em; [|done]. injection Hs as <-. simpl.
    apply mapM_Some_1 in Em. symmetry. by eapply Forall2_length.
  - intros i cap Hi. unfold init_st in Hs. destruct (mapM _ _) as [l|] eqn:Em; [|done]. injection Hs as <-.
    apply mapM_Some_1 in Em. destruct (Forall2_lookup_l _ _ _ _ _ Em Hi) as (p & Hp & Hip).
    rewrite (Hd i cap true Hi) in Hip. unfold init_pst in Hip. cbn [p_kind option_int] in Hip.
    destruct (v_alloc (2 * e_mtu E) 0) as [c|] eqn:Ea; [|done]. injection Hip as <-.
    exists c. unfold cache_of. simpl. rewrite Hp. split; [done|]. destruct Hm as [[H1 H2] _].
    exists (Z.to_nat (2 * e_mtu E)). split; [|lia]. apply (alloc_idle _ c). by rewrite Z2Nat.id by lia.
Qed.

(** ** A zero length field *)
Lemma zero_chunk E ids ps cap c x s : wired E ids (ps ++ [Proc (KFrame cap) true]) -> legal_mtu E ->
  e_isref E c = false -> chunk E ([0; 0; 0; 0]%Z ++ x) -> ready E (spare_cache (e_mtu E)) s ->
  crashes (fun f => receive f E c ([0; 0; 0; 0]%Z ++ x) s) s [].
Proof.
  intros Wd Hm Hc [Bl Ll] [_ R]. set (l := ([0; 0; 0; 0]%Z ++ x) : list byte) in *.
  destruct (wired_split1 _ _ _ _ _ Wd) as (a & i & b & -> & La & Lb). simpl in Lb. destruct b; [|done].
  destruct (wired_all_above _ _ _ Wd) as (q & Hq & Hp). rewrite !rev_app_distr in Hp. simpl in Hp.
  inversion Hp as [|? ? ? ? q1 Hi Hup Hp']; subst.
  destruct (R i cap Hi) as (cc & Ecc & k & Ik & Hk). destruct (idle_wf k cc Ik) as (Wc & Rc & Tc).
  destruct (rx_chunk_wf (Z.to_nat (e_mtu E)) l) as (Wu & Ru & Lu); [lia|].
  assert (H32 : (e_mtu E < 2^32)%Z) by apply Hm.
  pose proof (cur_step_spec cc _ Wc Wu ltac:(rewrite Lu; lia)) as S. cbv zeta in S. rewrite Ru in S.
  assert (4 <= length (A:=byte) l) as L4 by (unfold l; rewrite app_length; simpl; lia).
  replace (announced l) with 0%Z in S by done. clearbody l.
  destruct (_ || _) eqn:E1.
  { apply orb_true_iff in E1 as [E1|E1]; [apply Nat.ltb_lt in E1|apply Z.ltb_lt in E1]; lia. }
  destruct (0 =? _)%Z eqn:E2; [apply Z.eqb_eq in E2; lia|]. simpl in S.
  eexists 1, _. split.
  - intros f Hf. destruct f as [|f]; [lia|]. unfold receive. rewrite Hq. cbn [exec]. rewrite Hi. cbn [p_kind p_enable on_lower].
    unfold by_reference, with_buf. cbn [cx_conn cx_buf]. rewrite Hc. unfold frame_recv.
    replace (cache_of (visit s i Up _) i) with (Some cc) by (by rewrite <- Ecc).
    rewrite <- (readable_length cc Wc), Rc. cbn [length Nat.ltb Nat.leb frame_cur].
    replace (cache_of (visit s i Up _) i) with (Some cc) by (by rewrite <- Ecc). rewrite S. done.
  - rewrite out_set_cache, app_nil_r. done.
Qed.
