(** * Property-level facts about snapshots *)
From Verif Require Import GoBase UBufModel UBufSpec UBufProofs UBufHeapProofs UBufFacts.

(** ** Effect of one call on the heap, for an arbitrary heap *)

(** Cases: nothing; bytes and cursors of the handle change in place (the flag may
    be cleared); the handle moves to a fresh copy; the hook gives up its
    reference and then fails. *)
Inductive eff (w : world) (h : nat) (w' : world) : Prop :=
| eff_none : w' = w -> eff w h w'
| eff_in b c r i j fl st :
    bufs w !! h = Some b -> cells w !! h_loc b = Some c -> (fl = h_cow b \/ fl = false) ->
    w' = World (<[h_loc b := Cell (refc c) st]> (cells w))
               (<[h := HB r i j (h_loc b) fl]> (bufs w)) (copies w) -> eff w h w'
| eff_move b c r i j st :
    bufs w !! h = Some b -> cells w !! h_loc b = Some c -> h_cow b = true -> refc c <> 1%Z ->
    w' = World (<[h_loc b := Cell (wrap32 (refc c - 1)) (c_st c)]> (cells w) ++ [Cell 1 st])
               (<[h := HB r i j (length (cells w)) false]> (bufs w)) (S (copies w)) -> eff w h w'
| eff_lost b c r i j st :
    bufs w !! h = Some b -> cells w !! h_loc b = Some c -> h_cow b = true -> refc c <> 1%Z ->
    w' = World (<[h_loc b := Cell (wrap32 (refc c - 1)) st]> (cells w))
               (<[h := HB r i j (h_loc b) false]> (bufs w)) (copies w) -> eff w h w'.

Lemma eff_put w h v : eff w h (put w h v).
Proof.
  unfold put. destruct (bufs w !! h) as [b|] eqn:Hb; [|by constructor].
  destruct (cells w !! h_loc b) as [c|] eqn:Hc; [|by constructor].
  eapply eff_in; [exact Hb|exact Hc|by left|done].
Qed.

Lemma resolve_eff w h : eff w h (state_of (h_resolve w h)).
Proof.
  unfold h_resolve. destruct (bufs w !! h) as [b|] eqn:Hb; [|by constructor].
  destruct (h_cow b) eqn:Hcow; simpl; [|by constructor].
  destruct (cells w !! h_loc b) as [c|] eqn:Hc; [|by constructor].
  destruct (refc c =? 1)%Z eqn:E.
  - eapply (eff_in _ _ _ b c _ _ _ false (c_st c)); [done|done|by right|]. simpl. f_equal.
    symmetry. apply list_insert_id. rewrite Hc. by destruct c.
  - apply Z.eqb_neq in E. destruct (s_range _ _ _) as [src|]; simpl.
    + eapply eff_move; eauto.
    + eapply eff_lost; eauto.
Qed.

Lemma lkins {A} (l : list A) i x y : l !! i = Some x -> <[i:=y]> l !! i = Some y.
Proof. apply lookup_insert_same. Qed.

(** After any effect, storing the handle's bytes and cursors again is still one
    of the effects. *)
Lemma eff_then_put w h w1 v : eff w h w1 -> eff w h (put w1 h v).
Proof.
  intros [->|b c r i j fl st Hb Hc Hfl ->|b c r i j st Hb Hc Hcow Hr ->|b c r i j st Hb Hc Hcow Hr ->].
  - apply eff_put.
  - eapply (eff_in _ _ _ b c (v_res v) (v_rd v) (v_wr v) fl (v_st v)); eauto.
    unfold put; simpl. rewrite (lkins _ _ _ _ Hb); simpl. rewrite (lkins _ _ _ _ Hc); simpl.
    by rewrite !list_insert_insert.
  - eapply (eff_move _ _ _ b c (v_res v) (v_rd v) (v_wr v) (v_st v)); eauto.
    unfold put; simpl. rewrite (lkins _ _ _ _ Hb); simpl.
    set (cs := <[h_loc b:=_]> (cells w)).
    assert (Lcs : length cs = length (cells w)) by apply insert_length.
    assert (E : (cs ++ [Cell 1 st]) !! length (cells w) = Some (Cell 1 st)).
    { rewrite <- Lcs. by apply list_lookup_middle. }
    rewrite E; simpl. rewrite list_insert_insert. f_equal.
    rewrite <- Lcs. rewrite insert_app_r_alt by lia. by rewrite Nat.sub_diag.
  - eapply (eff_lost _ _ _ b c (v_res v) (v_rd v) (v_wr v) (v_st v)); eauto.
    unfold put; simpl. rewrite (lkins _ _ _ _ Hb); simpl. rewrite (lkins _ _ _ _ Hc); simpl.
    by rewrite !list_insert_insert.
Qed.

(** A call made after only the handle's cursors moved. *)
Lemma eff_after_cursors w h b c v w2 :
  bufs w !! h = Some b -> cells w !! h_loc b = Some c -> v_st v = c_st c ->
  eff (put w h v) h w2 -> eff w h w2.
Proof.
  intros Hb Hc Hst E. pose proof (put_buf w h b c v Hb Hc) as Hb1.
  assert (Hcs : cells (put w h v) = cells w).
  { rewrite (put_eq w h b c v Hb Hc). simpl. apply list_insert_id. rewrite Hc, Hst. by destruct c. }
  assert (Hbs : forall x, <[h := x]> (bufs (put w h v)) = <[h := x]> (bufs w)).
  { intros x. rewrite (put_eq w h b c v Hb Hc). simpl. apply list_insert_insert. }
  assert (Hcp : copies (put w h v) = copies w) by (by rewrite (put_eq w h b c v Hb Hc)).
  destruct E as [->|b' c' r i j fl st Hb' Hc' Hfl ->|b' c' r i j st Hb' Hc' Hcow Hr ->|b' c' r i j st Hb' Hc' Hcow Hr ->].
  - apply eff_put.
  - rewrite Hb1 in Hb'. injection Hb' as <-. simpl in *. rewrite Hcs in *. rewrite Hbs, Hcp.
    assert (c' = c) as -> by congruence. eapply (eff_in _ _ _ b c); eauto.
  - rewrite Hb1 in Hb'. injection Hb' as <-. simpl in *. rewrite Hcs in *. rewrite Hbs, Hcp.
    assert (c' = c) as -> by congruence. eapply (eff_move _ _ _ b c); eauto.
  - rewrite Hb1 in Hb'. injection Hb' as <-. simpl in *. rewrite Hcs in *. rewrite Hbs, Hcp.
    assert (c' = c) as -> by congruence. eapply (eff_lost _ _ _ b c); eauto.
Qed.

Lemma liftv_state {A} (f : vbuf -> res vbuf A) w h :
  state_of (liftv f w h) = w \/ exists v, state_of (liftv f w h) = put w h v.
Proof.
  unfold liftv. destruct (view w h) as [v|]; [|by left].
  right. destruct (f v) as [a v'|v']; by exists v'.
Qed.

Lemma liftv_eff {A} (f : vbuf -> res vbuf A) w h : eff w h (state_of (liftv f w h)).
Proof. destruct (liftv_state f w h) as [->|[v ->]]; [by constructor|apply eff_put]. Qed.

Lemma rmap_state {S A B} (f : A -> B) (r : res S A) : state_of (rmap f r) = state_of r.
Proof. by destruct r. Qed.

Lemma resolve_then_eff {A} (f : vbuf -> res vbuf A) w h :
  eff w h (state_of (rbind (h_resolve w h) (fun _ w1 => liftv f w1 h))).
Proof.
  pose proof (resolve_eff w h) as E. destruct (h_resolve w h) as [[] w1|w1]; simpl in *; [|done].
  destruct (liftv_state f w1 h) as [->|[v ->]]; [done|by apply eff_then_put].
Qed.

Lemma writebyte_eff x w h : eff w h (state_of (h_writebyte x w h)).
Proof.
  unfold h_writebyte. destruct (view w h) as [v|]; [|by constructor].
  destruct (v_tlen v =? 0); [by constructor|]. apply resolve_then_eff.
Qed.
Lemma write_eff p w h : eff w h (state_of (h_write p w h)).
Proof.
  unfold h_write. destruct (view w h) as [v|]; [|by constructor].
  destruct (v_tlen v =? 0); [by constructor|]. apply resolve_then_eff.
Qed.
Lemma write_err_eff p w h : eff w h (state_of (h_write_err p w h)).
Proof. unfold h_write_err. rewrite rmap_state. apply write_eff. Qed.
Lemma writeU_eff o wd x w h : eff w h (state_of (h_writeU o wd x w h)).
Proof.
  unfold h_writeU. destruct (view w h) as [v|]; [|by constructor].
  destruct (v_tlen v <? wbytes wd); [by constructor|]. apply write_err_eff.
Qed.
Lemma readfrom_eff r w h : eff w h (state_of (h_readfrom r w h)).
Proof.
  unfold h_readfrom. destruct (view w h) as [v|]; [|by constructor].
  destruct (v_tlen v =? 0); [by constructor|]. apply resolve_then_eff.
Qed.
Lemma writehead_eff d fn w h :
  (forall w', eff w' h (state_of (fn w' h))) -> eff w h (state_of (h_writehead d fn w h)).
Proof.
  intros Hfn. unfold h_writehead, view at 1.
  destruct (bufs w !! h) as [b|] eqn:Hb; [|by constructor].
  destruct (cells w !! h_loc b) as [c|] eqn:Hc; [|by constructor]. simpl.
  destruct (h_rd b <? d); [by constructor|].
  set (v1 := set_wr _ _). specialize (Hfn (put w h v1)).
  apply (eff_after_cursors w h b c v1 _ Hb Hc eq_refl) in Hfn.
  destruct (fn (put w h v1) h) as [e w1|w1]; simpl in *; [|done].
  destruct (view w1 h) as [v2|]; [|done]. simpl. by apply eff_then_put.
Qed.

Lemma h_step_eff o w h : eff w h (state_of (h_step o w h)).
Proof.
  destruct o; unfold h_step; rewrite ?rmap_state; try apply liftv_eff.
  - apply writebyte_eff.
  - apply write_eff.
  - apply writeU_eff.
  - apply readfrom_eff.
  - apply writehead_eff. intros. apply writebyte_eff.
  - apply writehead_eff. intros. apply write_err_eff.
  - apply writehead_eff. intros. apply writeU_eff.
Qed.

(** ** Well-formed heaps: every handle points to a cell *)
Definition locs_ok (w : world) : Prop :=
  forall k b, bufs w !! k = Some b -> h_loc b < length (cells w).

Lemma eff_locs w h w' : eff w h w' -> locs_ok w -> locs_ok w'.
Proof.
  intros [->|b c r i j fl st Hb Hc Hfl ->|b c r i j st Hb Hc Hcow Hr ->|b c r i j st Hb Hc Hcow Hr ->] HL;
    [done| | |]; intros k bk Hk; simpl in *; rewrite ?app_length, ?insert_length; simpl;
    apply list_lookup_insert_Some in Hk as [(-> & <- & _)|(_ & Hk)]; simpl;
    try (pose proof (HL _ _ Hb)); try (pose proof (HL _ _ Hk)); lia.
Qed.

Lemma snap_cases src t w : 
  (exists x, h_snapshot src t w = Ok x w) \/ h_snapshot src t w = Panic w \/
  exists h b, src = Some h /\ bufs w !! h = Some b /\
   let nb fl := HB (h_res b) (h_rd b) (h_wr b) (h_loc b) fl in
   (t = 0%Z /\ h_snapshot src t w = Ok (Some (length (bufs w))) (World (cells w) (bufs w ++ [nb false]) (copies w)) \/
    exists c, cells w !! h_loc b = Some c /\
     (t = 1%Z /\ h_snapshot src t w = Ok (Some (length (bufs w)))
        (World (<[h_loc b := Cell (wrap32 (refc c + 1)) (c_st c)]> (cells w))
               (<[h := nb true]> (bufs w) ++ [nb true]) (copies w)) \/
      t = 2%Z /\ exists src', s_range (c_st c) (h_rd b) (h_wr b) = Some src' /\
        h_snapshot src t w = Ok (Some (length (bufs w)))
          (new_buf w (VB (h_res b) (h_rd b) (h_wr b)
             (Store (splice (replicate (scap (c_st c)) 0%Z) (h_rd b) src') (scap (c_st c))))))).
Proof.
  unfold h_snapshot. destruct src as [h|]; [|left; by eexists].
  destruct (bufs w !! h) as [b|] eqn:Hb; [|by right; left].
  destruct (t =? 0)%Z eqn:E0.
  { apply Z.eqb_eq in E0. right; right. exists h, b. split; [done|]. split; [done|]. by left. }
  destruct (cells w !! h_loc b) as [c|] eqn:Hc; [|by right; left].
  destruct (t =? 1)%Z eqn:E1.
  { apply Z.eqb_eq in E1. right; right. exists h, b. split; [done|]. split; [done|]. right.
    exists c. split; [done|]. by left. }
  destruct (t =? 2)%Z eqn:E2; [|left; by eexists].
  destruct (s_range _ _ _) as [src'|] eqn:Er; [|by right; left].
  apply Z.eqb_eq in E2. right; right. exists h, b. split; [done|]. split; [done|]. right.
  exists c. split; [done|]. right. split; [done|]. exists src'. done.
Qed.

Lemma new_buf_locs w v : locs_ok w -> locs_ok (new_buf w v).
Proof.
  intros HL k b Hk. unfold new_buf in *; simpl in *. rewrite app_length; simpl.
  apply lookup_app_Some in Hk as [Hk|[_ Hk]].
  - specialize (HL _ _ Hk). lia.
  - apply list_lookup_singleton_Some in Hk as [_ <-]. simpl. lia.
Qed.

Lemma w_step_locs o w : locs_ok w -> locs_ok (state_of (w_step o w)).
Proof.
  intros HL. destruct o as [c r|d r|src t|h o]; simpl.
  - destruct (v_alloc c r); simpl; [by apply new_buf_locs|done].
  - destruct (v_from d r); simpl; [by apply new_buf_locs|done].
  - rewrite rmap_state.
    destruct (snap_cases src t w) as [[x ->]|[->|(h & b & -> & Hb & [[-> ->]|(c & Hc & [[-> ->]|[-> (s' & _ & ->)]])])]];
      simpl; try done.
    + intros k bk Hk; simpl in *. apply lookup_app_Some in Hk as [Hk|[_ Hk]].
      * by specialize (HL _ _ Hk).
      * apply list_lookup_singleton_Some in Hk as [_ <-]. simpl. by specialize (HL _ _ Hb).
    + intros k bk Hk; simpl in *. rewrite insert_length.
      apply lookup_app_Some in Hk as [Hk|[_ Hk]].
      * apply list_lookup_insert_Some in Hk as [(-> & <- & _)|(_ & Hk)]; simpl.
        -- by specialize (HL _ _ Hb).
        -- by specialize (HL _ _ Hk).
      * apply list_lookup_singleton_Some in Hk as [_ <-]. simpl. by specialize (HL _ _ Hb).
    + by apply new_buf_locs.
  - rewrite rmap_state. eapply eff_locs; [apply h_step_eff|done].
Qed.

Lemma w_run_locs ops w : locs_ok w -> locs_ok (snd (w_run ops w)).
Proof.
  revert w. induction ops as [|o ops IH]; intros w HL; simpl; [done|].
  pose proof (w_step_locs o w HL) as H1. destruct (w_step o w) as [x w1|w1]; simpl in *; [|done].
  specialize (IH w1 H1). by destruct (w_run ops w1).
Qed.

(** ** C08: a handle alone on its storage is untouched by calls on other handles *)
Lemma eff_frame w h w' k bk :
  eff w h w' -> locs_ok w -> bufs w !! k = Some bk -> k <> h -> exclusive w k ->
  bufs w' !! k = Some bk /\ cells w' !! h_loc bk = cells w !! h_loc bk /\ exclusive w' k.
Proof.
  intros E HL Hk Hne Hex.
  destruct E as [->|b c r i j fl st Hb Hc Hfl ->|b c r i j st Hb Hc Hcow Hr ->|b c r i j st Hb Hc Hcow Hr ->];
    [done| | |]; pose proof (Hex bk h b Hk (not_eq_sym Hne) Hb) as Hloc; simpl;
    rewrite !list_lookup_insert_ne by done; split_and!; try done.
  - intros b0 h2 b2 Hb0 Hn H2 El. simpl in *. rewrite list_lookup_insert_ne in Hb0 by done.
    assert (b0 = bk) as -> by congruence.
    apply list_lookup_insert_Some in H2 as [(-> & <- & _)|(_ & H2)]; simpl in *; [congruence|].
    by apply (Hex bk h2 b2).
  - rewrite lookup_app_l by (rewrite insert_length; by apply (HL k)). by rewrite list_lookup_insert_ne.
  - intros b0 h2 b2 Hb0 Hn H2 El. simpl in *. rewrite list_lookup_insert_ne in Hb0 by done.
    assert (b0 = bk) as -> by congruence.
    apply list_lookup_insert_Some in H2 as [(-> & <- & _)|(_ & H2)]; simpl in *.
    + pose proof (HL _ _ Hk). lia.
    + by apply (Hex bk h2 b2).
  - intros b0 h2 b2 Hb0 Hn H2 El. simpl in *. rewrite list_lookup_insert_ne in Hb0 by done.
    assert (b0 = bk) as -> by congruence.
    apply list_lookup_insert_Some in H2 as [(-> & <- & _)|(_ & H2)]; simpl in *; [congruence|].
    by apply (Hex bk h2 b2).
Qed.

Lemma new_buf_frame w v k bk :
  locs_ok w -> bufs w !! k = Some bk -> exclusive w k ->
  bufs (new_buf w v) !! k = Some bk /\ cells (new_buf w v) !! h_loc bk = cells w !! h_loc bk /\ exclusive (new_buf w v) k.
Proof.
  intros HL Hk Hex. pose proof (HL _ _ Hk) as Hlt. unfold new_buf; simpl.
  split; [by apply lookup_app_l_Some|]. split; [by apply lookup_app_l|].
  intros b0 h2 b2 Hb0 Hn H2 El; simpl in *.
  rewrite lookup_app_l in Hb0 by (by apply lookup_lt_Some in Hk). assert (b0 = bk) as -> by congruence.
  apply lookup_app_Some in H2 as [H2|[_ H2]].
  - by apply (Hex bk h2 b2).
  - apply list_lookup_singleton_Some in H2 as [_ <-]. simpl in El. lia.
Qed.

Lemma w_step_frame o w k bk :
  locs_ok w -> bufs w !! k = Some bk -> exclusive w k -> ~ uses o k ->
  let w' := state_of (w_step o w) in
  bufs w' !! k = Some bk /\ cells w' !! h_loc bk = cells w !! h_loc bk /\ exclusive w' k.
Proof.
  intros HL Hk Hex Hu. destruct o as [c r|d r|src t|h o]; simpl.
  - destruct (v_alloc c r); simpl; [by apply new_buf_frame|done].
  - destruct (v_from d r); simpl; [by apply new_buf_frame|done].
  - rewrite rmap_state.
    destruct (snap_cases src t w) as [[x ->]|[->|(h & b & -> & Hb & [[-> ->]|(c & Hc & [[-> ->]|[-> (s' & _ & ->)]])])]];
      cbn [state_of uses] in Hu |- *; try done.
    + cbn [bufs cells]. split; [by apply lookup_app_l_Some|]. split; [done|].
      intros b0 h2 b2 Hb0 Hn H2 El; simpl in *.
      rewrite lookup_app_l in Hb0 by (by apply lookup_lt_Some in Hk). assert (b0 = bk) as -> by congruence.
      apply lookup_app_Some in H2 as [H2|[_ H2]].
      * by apply (Hex bk h2 b2).
      * apply list_lookup_singleton_Some in H2 as [_ <-]. simpl in El. by apply (Hex bk h b).
    + pose proof (Hex bk h b Hk Hu Hb) as Hloc. cbn [bufs cells].
      split; [apply lookup_app_l_Some; by rewrite list_lookup_insert_ne|].
      split; [by rewrite list_lookup_insert_ne|].
      intros b0 h2 b2 Hb0 Hn H2 El; simpl in *.
      rewrite lookup_app_l in Hb0 by (rewrite insert_length; by apply lookup_lt_Some in Hk).
      rewrite list_lookup_insert_ne in Hb0 by done. assert (b0 = bk) as -> by congruence.
      apply lookup_app_Some in H2 as [H2|[_ H2]].
      * apply list_lookup_insert_Some in H2 as [(-> & <- & _)|(_ & H2)]; simpl in *; [done|].
        by apply (Hex bk h2 b2).
      * apply list_lookup_singleton_Some in H2 as [_ <-]. simpl in El. done.
    + by apply new_buf_frame.
  - rewrite rmap_state. simpl in Hu. eapply eff_frame; [apply h_step_eff|done..|]. done.
Qed.

Lemma w_run_frame ops w k bk :
  locs_ok w -> bufs w !! k = Some bk -> exclusive w k -> Forall (fun o => ~ uses o k) ops ->
  let w' := snd (w_run ops w) in
  bufs w' !! k = Some bk /\ cells w' !! h_loc bk = cells w !! h_loc bk.
Proof.
  revert w. induction ops as [|o ops IH]; intros w HL Hk Hex Hu; simpl; [done|].
  apply Forall_cons_1 in Hu as [Hu1 Hu2].
  pose proof (w_step_locs o w HL) as HL1.
  destruct (w_step_frame o w k bk HL Hk Hex Hu1) as (H1 & H2 & H3).
  destruct (w_step o w) as [x w1|w1]; simpl in *; [|done].
  destruct (IH w1 HL1 H1 H3 Hu2) as (H4 & H5).
  destruct (w_run ops w1) as [xs w2]; simpl in *. by rewrite H5, H2.
Qed.

(** What a client sees depends only on the handle and its cell. *)
Lemma view_frame w w' k bk :
  bufs w !! k = Some bk -> bufs w' !! k = Some bk -> cells w' !! h_loc bk = cells w !! h_loc bk ->
  view w' k = view w k.
Proof. intros H1 H2 H3. unfold view. by rewrite H1, H2, H3. Qed.

Lemma readable_copy b c src st :
  s_range (c_st c) (h_rd b) (h_wr b) = Some src ->
  st = Store (splice (replicate (scap (c_st c)) 0%Z) (h_rd b) src) (scap (c_st c)) ->
  readable (VB (h_res b) (h_rd b) (h_wr b) st) = readable (vof b c) /\ scap st = scap (c_st c).
Proof.
  intros Hr ->. unfold s_range in Hr.
  destruct ((h_rd b <=? h_wr b) && (h_wr b <=? scap (c_st c))) eqn:E; [|done].
  apply andb_prop in E as [E1 E2]. cleq. injection Hr as <-.
  change (take (h_wr b - h_rd b) (drop (h_rd b) (arr (c_st c)))) with (readable (vof b c)).
  assert (Ls : length (readable (vof b c)) = h_wr b - h_rd b).
  { unfold readable, v_rlen; simpl. rewrite take_length, drop_length. unfold scap in *. lia. }
  set (z := replicate (scap (c_st c)) 0%Z : list byte).
  assert (Lz : length z = scap (c_st c)) by apply replicate_length.
  split.
  - apply (readable_eq _ _ _ _ _ (take (h_rd b) z) _ (drop (h_wr b) z)).
    + unfold splice. f_equal. f_equal. f_equal. lia.
    + rewrite take_length. lia.
    + rewrite take_length. lia.
  - unfold scap at 1; simpl. rewrite splice_length; [done|]. fold z. lia.
Qed.

Lemma direct_ok w h n w' :
  w_step (WSnap (Some h) 2) w = Ok (WHandle (Some n)) w' ->
  exists b c s', bufs w !! h = Some b /\ cells w !! h_loc b = Some c /\
    s_range (c_st c) (h_rd b) (h_wr b) = Some s' /\ n = length (bufs w) /\
    w' = new_buf w (VB (h_res b) (h_rd b) (h_wr b)
             (Store (splice (replicate (scap (c_st c)) 0%Z) (h_rd b) s') (scap (c_st c)))).
Proof.
  cbn [w_step]. unfold h_snapshot. destruct (bufs w !! h) as [b|]; [|done]. cbn -[splice].
  destruct (cells w !! h_loc b) as [c|] eqn:Hc; [|done].
  destruct (s_range _ _ _) as [s'|] eqn:Hr; [|done].
  cbn -[new_buf]. intros [= <- <-]. exists b, c, s'. done.
Qed.

Lemma direct_snapshot_same w h n w' :
  locs_ok w -> w_step (WSnap (Some h) 2) w = Ok (WHandle (Some n)) w' ->
  n = length (bufs w) /\ seen w' n = seen w h /\ seen w' h = seen w h /\ exclusive w' n.
Proof.
  intros HL Hs. destruct (direct_ok w h n w' Hs) as (b & c & s' & Hb & Hc & Hr & -> & ->).
    split; [done|].
    destruct (readable_copy b c s' _ Hr eq_refl) as [R1 R2].
    pose proof (HL _ _ Hb) as Hlt.
    assert (V1 : view w h = Some (vof b c)) by (by apply view_eq).
    assert (V2 : view (new_buf w (VB (h_res b) (h_rd b) (h_wr b) (Store (splice (replicate (scap (c_st c)) 0%Z) (h_rd b) s') (scap (c_st c))))) h = Some (vof b c)).
    { apply view_eq; unfold new_buf; simpl.
      - by apply lookup_app_l_Some.
      - by apply lookup_app_l_Some. }
    split_and!.
    + unfold seen. rewrite V1. unfold view, new_buf; simpl.
      rewrite list_lookup_middle by done. simpl. rewrite list_lookup_middle by done. simpl.
      f_equal. f_equal.
      * f_equal. exact R1.
      * unfold v_tlen, v_cap; simpl. by rewrite R2.
    + unfold seen. by rewrite V1, V2.
    + intros b0 h2 b2 Hb0 Hn H2 El. unfold new_buf in *; simpl in *.
      rewrite list_lookup_middle in Hb0 by done. injection Hb0 as <-. simpl in El.
      apply lookup_app_Some in H2 as [H2|[Hge H2]].
      * pose proof (HL _ _ H2). lia.
      * apply list_lookup_singleton_Some in H2 as [E0 _]. lia.
Qed.

(** Ops on [n] alone never disturb anything that does not share with [n]. *)
Definition apart (w : world) (k n : nat) : Prop :=
  forall bk bn, bufs w !! k = Some bk -> bufs w !! n = Some bn -> h_loc bk <> h_loc bn.

Lemma eff_apart w h w' k bk :
  eff w h w' -> locs_ok w -> bufs w !! k = Some bk -> k <> h -> apart w k h ->
  bufs w' !! k = Some bk /\ cells w' !! h_loc bk = cells w !! h_loc bk /\ apart w' k h.
Proof.
  intros E HL Hk Hne Hex.
  destruct E as [->|b c r i j fl st Hb Hc Hfl ->|b c r i j st Hb Hc Hcow Hr ->|b c r i j st Hb Hc Hcow Hr ->];
    [done| | |]; pose proof (Hex bk b Hk Hb) as Hloc; pose proof (HL _ _ Hk) as Hlt; simpl;
    rewrite !list_lookup_insert_ne by done; split_and!; try done.
  - intros b0 b2 Hb0 H2. simpl in *. rewrite list_lookup_insert_ne in Hb0 by done.
    rewrite (lkins _ _ _ _ Hb) in H2. injection H2 as <-. simpl. congruence.
  - rewrite lookup_app_l by (by rewrite insert_length). by rewrite list_lookup_insert_ne.
  - intros b0 b2 Hb0 H2. simpl in *. rewrite list_lookup_insert_ne in Hb0 by done.
    rewrite (lkins _ _ _ _ Hb) in H2. injection H2 as <-. simpl.
    assert (b0 = bk) as -> by congruence. lia.
  - intros b0 b2 Hb0 H2. simpl in *. rewrite list_lookup_insert_ne in Hb0 by done.
    rewrite (lkins _ _ _ _ Hb) in H2. injection H2 as <-. simpl. congruence.
Qed.

Lemma run_on_apart (ops : list op) w n k bk :
  locs_ok w -> bufs w !! k = Some bk -> k <> n -> apart w k n ->
  let w' := snd (w_run (WOp n <$> ops) w) in
  bufs w' !! k = Some bk /\ cells w' !! h_loc bk = cells w !! h_loc bk.
Proof.
  revert w. induction ops as [|o ops IH]; intros w HL Hk Hne Ha; simpl; [done|].
  pose proof (h_step_eff o w n) as He.
  pose proof (eff_locs _ _ _ He HL) as HL1.
  destruct (eff_apart _ _ _ k bk He HL Hk Hne Ha) as (H1 & H2 & H3).
  destruct (h_step o w n) as [x w1|w1]; simpl in *; [|done].
  destruct (IH w1 HL1 H1 Hne H3) as [H4 H5].
  unfold fmap in *. destruct (w_run (list_fmap _ _ (WOp n) ops) w1) as [xs w2]; simpl in *. by rewrite H5, H2.
Qed.

Lemma exclusive_apart w n k : exclusive w n -> k <> n -> apart w k n.
Proof. intros Hex Hne bk bn Hk Hn. apply (Hex bn k bk Hn Hne Hk). Qed.

Lemma w0_locs : locs_ok w0.
Proof. intros k b Hk. simpl in Hk. by rewrite lookup_nil in Hk. Qed.

(** C08 in full: whatever happened before, and whatever handles exist. *)
Lemma direct_copy_independent hist h n w w1 ops :
  w = snd (w_run hist w0) ->
  w_step (WSnap (Some h) 2) w = Ok (WHandle (Some n)) w1 ->
  seen w1 n = seen w h /\ seen w1 h = seen w h /\
  (Forall (fun o => ~ uses o n) ops -> seen (snd (w_run ops w1)) n = seen w1 n) /\
  (forall k calls, k <> n -> k < length (bufs w1) ->
     seen (snd (w_run (WOp n <$> calls) w1)) k = seen w1 k).
Proof.
  intros -> Hs. set (w := snd (w_run hist w0)) in *.
  assert (HL : locs_ok w) by (apply w_run_locs, w0_locs).
  destruct (direct_snapshot_same w h n w1 HL Hs) as (-> & S1 & S2 & Hex).
  assert (HL1 : locs_ok w1).
  { pose proof (w_step_locs (WSnap (Some h) 2) w HL) as H. rewrite Hs in H. done. }
  split; [done|]. split; [done|]. split.
  - intros Hu. destruct (bufs w1 !! length (bufs w)) as [bn|] eqn:Hn.
    + destruct (w_run_frame ops w1 _ bn HL1 Hn Hex Hu) as [H1 H2].
      unfold seen. f_equal. by eapply view_frame.
    + exfalso. destruct (direct_ok w h _ w1 Hs) as (b & c & s' & Hb & Hc & Hr & _ & ->).
      unfold new_buf in Hn; simpl in Hn. by rewrite list_lookup_middle in Hn.
  - intros k calls Hne Hk. destruct (lookup_lt_is_Some_2 _ _ Hk) as [bk Hbk].
    destruct (run_on_apart calls w1 _ k bk HL1 Hbk Hne (exclusive_apart _ _ _ Hex Hne)) as [H1 H2].
    unfold seen. f_equal. by eapply view_frame.
Qed.

(** ** C09 *)
Lemma cow_family hist :
  (Z.of_nat (length hist) < 2^31)%Z -> history_ok hist fw0 ->
  exists outs s w, f_run hist fw0 = Some (outs, s) /\ w_run hist w0 = (Some <$> outs, w) /\
    forall h, seen w h = (fun f => (q_head (f_q f), q_data (f_q f), q_tail (f_q f))) <$> (f_bufs s !! h).
Proof.
  intros Hn Hok. destruct (w_run_refines hist w0 fw0 INV_init Hn Hok) as (outs & w & s & E1 & E2 & I).
  exists outs, s, w. split; [done|]. split; [done|]. intros h. unfold seen.
  destruct (f_bufs s !! h) as [f|] eqn:Hf; simpl.
  - destruct (INV_both' w s h f I Hf) as [b Hb].
    destruct (inv_view _ _ I h b f Hb Hf) as (c & Hc & W & A & _).
    rewrite (view_eq w h b c Hb Hc). simpl. rewrite <- A. done.
  - unfold view. destruct (bufs w !! h) as [b|] eqn:Hb; [|done].
    destruct (INV_both w s h b I Hb) as [f Hf2]. congruence.
Qed.

(** A write through one handle is not seen through any other. *)
Lemma f_run_app ops1 ops2 s :
  f_run (ops1 ++ ops2) s =
  match f_run ops1 s with
  | None => None
  | Some (xs, s1) => match f_run ops2 s1 with None => None | Some (ys, s2) => Some (xs ++ ys, s2) end
  end.
Proof.
  revert s. induction ops1 as [|o ops IH]; intros s; simpl.
  - by destruct (f_run ops2 s) as [[]|].
  - destruct (f_step o s) as [[x s1]|]; [|done]. rewrite IH.
    destruct (f_run ops s1) as [[xs s2]|]; [|done]. by destruct (f_run ops2 s2) as [[]|].
Qed.
Lemma history_ok_app ops1 ops2 s :
  history_ok (ops1 ++ ops2) s -> history_ok ops1 s /\
  (forall xs s1, f_run ops1 s = Some (xs, s1) -> history_ok ops2 s1).
Proof.
  revert s. induction ops1 as [|o ops IH]; intros s H; simpl in *.
  - split; [done|]. by intros xs s1 [= _ <-].
  - destruct H as [H1 H2]. destruct (f_step o s) as [[x s1]|]; [|done].
    destruct (IH s1 H2) as [H3 H4]. split; [done|].
    intros xs s2 E. destruct (f_run ops s1) as [[ys s3]|] eqn:E3; [|done]. injection E as _ <-. by eapply H4.
Qed.
Lemma w_run_app ops1 ops2 w xs w1 :
  w_run ops1 w = (Some <$> xs, w1) -> length xs = length ops1 ->
  w_run (ops1 ++ ops2) w = (fst (w_run ops1 w) ++ fst (w_run ops2 w1), snd (w_run ops2 w1)).
Proof.
  revert w xs. induction ops1 as [|o ops IH]; intros w xs E L; simpl in *.
  - injection E as E1 <-. by destruct (w_run ops2 w).
  - destruct (w_step o w) as [x w2|w2]; [|by destruct xs as [|? []]; simpl in *].
    destruct (w_run ops w2) as [ys w3] eqn:E2. destruct xs as [|y xs]; simpl in *; [done|].
    injection E as <- -> <-. rewrite (IH w2 xs E2 ltac:(lia)). rewrite E2. done.
Qed.
Lemma f_run_length ops s xs s' : f_run ops s = Some (xs, s') -> length xs = length ops.
Proof.
  revert s xs. induction ops as [|o ops IH]; intros s xs E; simpl in *.
  - by injection E as <- <-.
  - destruct (f_step o s) as [[x s1]|]; [|done]. destruct (f_run ops s1) as [[ys s2]|] eqn:E2; [|done].
    injection E as <- <-. simpl. by rewrite (IH s1 ys E2).
Qed.

Lemma f_step_other o s x s' h : f_step o s = Some (x, s') -> ~ (exists c, o = WOp h c) -> h < length (f_bufs s) ->
  f_q <$> (f_bufs s' !! h) = f_q <$> (f_bufs s !! h).
Proof.
  intros E Hu Hh. destruct o as [c r|d r|[k|] t|k o]; cbn [f_step] in E.
  - destruct ((0 <? c) && (0 <=? r) && (r <=? c))%Z; [|done]. injection E as <- <-. simpl. by rewrite lookup_app_l.
  - done.
  - destruct (f_bufs s !! k) as [f|]; [|done].
    destruct (t =? 1)%Z; [|destruct (t =? 2)%Z; [|destruct (t =? 0)%Z; [done|]]];
      injection E as <- <-; simpl; rewrite ?lookup_app_l by done; done.
  - by injection E as <- <-.
  - assert (h <> k) as Hne by (intros ->; destruct Hu; by eexists).
    destruct (f_bufs s !! k) as [f|]; [|done]. destruct (q_step o (f_q f)) as [y q'].
    destruct (writes o (f_q f)); injection E as <- <-; simpl; by rewrite list_lookup_insert_ne.
Qed.
Lemma f_step_grows o s x s' : f_step o s = Some (x, s') -> length (f_bufs s) <= length (f_bufs s').
Proof.
  intros E. destruct o as [c r|d r|[k|] t|k o]; cbn [f_step] in E.
  - destruct ((0 <? c) && (0 <=? r) && (r <=? c))%Z; [|done]. injection E as <- <-. simpl. rewrite app_length. lia.
  - done.
  - destruct (f_bufs s !! k) as [f|]; [|done].
    destruct (t =? 1)%Z; [|destruct (t =? 2)%Z; [|destruct (t =? 0)%Z; [done|]]];
      injection E as <- <-; simpl; rewrite ?app_length; lia.
  - injection E as <- <-. lia.
  - destruct (f_bufs s !! k) as [f|]; [|done]. destruct (q_step o (f_q f)) as [y q'].
    destruct (writes o (f_q f)); injection E as <- <-; simpl; rewrite insert_length; lia.
Qed.

Lemma cow_isolation hist ops h :
  (Z.of_nat (length hist + length ops) < 2^31)%Z -> history_ok (hist ++ ops) fw0 ->
  Forall (fun o => ~ (exists c, o = WOp h c)) ops -> h < length (bufs (snd (w_run hist w0))) ->
  seen (snd (w_run (hist ++ ops) w0)) h = seen (snd (w_run hist w0)) h.
Proof.
  intros Hn Hok Hu Hh. destruct (history_ok_app _ _ _ Hok) as [Hok1 Hok2].
  destruct (cow_family hist ltac:(lia) Hok1) as (o1 & s1 & w1 & F1 & R1 & V1).
  destruct (cow_family (hist ++ ops) ltac:(rewrite app_length; lia) Hok) as (o2 & s2 & w2 & F2 & R2 & V2).
  rewrite R1, R2 in *. simpl in *. rewrite V1, V2.
  assert (Hl : length (f_bufs s1) = length (bufs w1)).
  { destruct (w_run_refines hist w0 fw0 INV_init ltac:(simpl; lia) Hok1) as (x & w & s & E1 & E2 & I).
    rewrite F1 in E1. injection E1 as -> ->. rewrite R1 in E2. injection E2 as ->. symmetry. apply I. }
  rewrite f_run_app, F1 in F2. specialize (Hok2 _ _ F1). clear Hok Hok1 F1 V1 V2 R1 R2 Hn.
  destruct (f_run ops s1) as [[ys s2']|] eqn:F; [|done]. injection F2 as _ ->.
  rewrite <- Hl in Hh. clear Hl w1 w2 o1 o2.
  assert (G : f_q <$> (f_bufs s2 !! h) = f_q <$> (f_bufs s1 !! h)).
  { revert s1 ys Hok2 F Hh. induction ops as [|o ops IH]; intros s1 ys Hok F Hh; simpl in *.
    - by injection F as _ ->.
    - apply Forall_cons_1 in Hu as [Hu1 Hu2]. destruct Hok as [_ Hok].
      destruct (f_step o s1) as [[x s3]|] eqn:E; [|done].
      destruct (f_run ops s3) as [[zs s4]|] eqn:F3; [|done]. injection F as _ ->.
      rewrite <- (f_step_other o s1 x s3 h E Hu1 Hh).
      eapply IH; eauto.
      pose proof (f_step_grows _ _ _ _ E). lia. }
  destruct (f_bufs s2 !! h), (f_bufs s1 !! h); simpl in *; try done. injection G as ->. done.
Qed.

(** ** C10: a head write on a shared copy-on-write buffer *)
Lemma shared_not_exclusive w s h : INV w s -> shared s h = true ->
  exists b c, bufs w !! h = Some b /\ cells w !! h_loc b = Some c /\ h_cow b = true /\ refc c <> 1%Z /\ wf (vof b c).
Proof.
  intros I Hs. unfold shared in Hs. destruct (f_bufs s !! h) as [f|] eqn:Hf; [|done].
  apply Nat.leb_le in Hs.
  destruct (cnt_two_inv (fun g => f_id g = f_id f) (f_bufs s) h f Hs Hf eq_refl) as (j & g & Hj & Hg & Eid).
  destruct (INV_both' w s h f I Hf) as [b Hb]. destruct (INV_both' w s j g I Hg) as [bj Hbj].
  apply (inv_id _ _ I j h bj b g f Hbj Hb Hg Hf) in Eid.
  destruct (inv_view _ _ I h b f Hb Hf) as (c & Hc & W & A & Hcnt & _).
  exists b, c. split_and!; try done.
  - by eapply (inv_cow _ _ I h j).
  - rewrite Hcnt. unfold lcnt.
    pose proof (cnt_two (on (h_loc b)) (bufs w) h j b bj (not_eq_sym Hj) Hb Hbj eq_refl Eid). lia.
Qed.

Lemma resolve_in_head w h b c d :
  bufs w !! h = Some b -> cells w !! h_loc b = Some c -> h_cow b = true -> refc c <> 1%Z ->
  wf (vof b c) -> 0 < d -> d <= h_rd b ->
  exists w', h_resolve (put w h (set_wr (vof b c) (h_rd b - d))) h = Panic w'.
Proof.
  intros Hb Hc Hcow Hr W Hd Hle. pose proof W as (H1 & H2 & _). simpl in *.
  set (v1 := set_wr (vof b c) (h_rd b - d)).
  unfold h_resolve. rewrite (put_buf w h b c v1 Hb Hc). simpl. rewrite Hcow. simpl.
  rewrite (put_cell w h b c v1 Hb Hc). simpl.
  destruct (refc c =? 1)%Z eqn:E; [by apply Z.eqb_eq in E|].
  unfold s_range. destruct (h_rd b <=? h_rd b - d) eqn:E1; cleq; [lia|]. simpl. by eexists.
Qed.

Lemma head_write_shared_panics w h b c o :
  bufs w !! h = Some b -> cells w !! h_loc b = Some c -> h_cow b = true -> refc c <> 1%Z ->
  wf (vof b c) -> is_headwrite o = true -> writes o (absq (vof b c)) = true ->
  (forall p, o = OpHeadBytes p -> p <> []) ->
  exists w', h_step o w h = Panic w'.
Proof.
  intros Hb Hc Hcow Hr W Hh Hw Hp. pose proof W as (H1 & H2 & _). simpl in *.
  assert (Hv := view_eq w h b c Hb Hc).
  assert (T : forall d, 0 < d -> d <= h_rd b -> v_tlen (set_wr (vof b c) (h_rd b - d)) >= d).
  { intros d Hd Hle. unfold v_tlen, set_wr; simpl. unfold v_cap in *; simpl in *. lia. }
  destruct o as [| | | | | | | | | | |x|p|o wd x| |]; simpl in Hh; try done; cbn [writes absq q_head q_tail] in Hw; unfold h_step, h_writehead; rewrite Hv.
  - cleq. simpl in Hw. destruct (v_rd (vof b c) <? 1) eqn:E; cleq; [simpl in *; lia|].
    change (v_rd (vof b c)) with (h_rd b).
    destruct (resolve_in_head w h b c 1 Hb Hc Hcow Hr W ltac:(lia) Hw) as [w' Ew].
    unfold h_writebyte. rewrite (view_put w h b c) by done.
    pose proof (T 1 ltac:(lia) Hw) as HT.
    destruct (v_tlen _ =? 0) eqn:E0; cleq; [lia|]. rewrite Ew. simpl. by eexists.
  - apply andb_prop in Hw as [Hw _]. cleq. simpl in Hw.
    assert (Hpos : 0 < length p) by (destruct p; [by destruct (Hp [] eq_refl)|simpl; lia]).
    destruct (v_rd (vof b c) <? length p) eqn:E; cleq; [simpl in *; lia|].
    change (v_rd (vof b c)) with (h_rd b).
    destruct (resolve_in_head w h b c (length p) Hb Hc Hcow Hr W ltac:(lia) Hw) as [w' Ew].
    unfold h_write_err, h_write. rewrite (view_put w h b c) by done.
    pose proof (T (length p) ltac:(lia) Hw) as HT.
    destruct (v_tlen _ =? 0) eqn:E0; cleq; [lia|]. rewrite Ew. simpl. by eexists.
  - cleq. simpl in Hw. assert (Hpos : 0 < wbytes wd) by (destruct wd; simpl; lia).
    destruct (v_rd (vof b c) <? wbytes wd) eqn:E; cleq; [simpl in *; lia|].
    change (v_rd (vof b c)) with (h_rd b).
    destruct (resolve_in_head w h b c (wbytes wd) Hb Hc Hcow Hr W ltac:(lia) Hw) as [w' Ew].
    unfold h_writeU. rewrite (view_put w h b c) by done.
    pose proof (T (wbytes wd) ltac:(lia) Hw) as HT.
    destruct (v_tlen _ <? wbytes wd) eqn:E0; cleq; [lia|].
    unfold h_write_err, h_write. rewrite (view_put w h b c) by done.
    destruct (v_tlen _ =? 0) eqn:E1; cleq; [lia|]. rewrite Ew. simpl. by eexists.
Qed.

Lemma head_write_shared hist h o outs s :
  (Z.of_nat (length hist) < 2^31)%Z -> history_ok hist fw0 -> f_run hist fw0 = Some (outs, s) ->
  shared s h = true -> is_headwrite o = true -> (forall p, o = OpHeadBytes p -> p <> []) ->
  (forall f, f_bufs s !! h = Some f -> writes o (f_q f) = true) ->
  exists w', w_step (WOp h o) (snd (w_run hist w0)) = Panic w'.
Proof.
  intros Hn Hok F Hs Hh Hp Hw.
  destruct (w_run_refines hist w0 fw0 INV_init Hn Hok) as (outs' & w & s' & E1 & E2 & I).
  rewrite F in E1. injection E1 as <- <-. rewrite E2. simpl.
  destruct (shared_not_exclusive w s h I Hs) as (b & c & Hb & Hc & Hcow & Hr & W).
  destruct (INV_both w s h b I Hb) as [f Hf].
  destruct (inv_view _ _ I h b f Hb Hf) as (c' & Hc' & _ & A & _).
  assert (c' = c) as -> by congruence.
  destruct (head_write_shared_panics w h b c o Hb Hc Hcow Hr W Hh) as [w' E]; [|done|].
  - rewrite A. by apply Hw.
  - rewrite E. simpl. by eexists.
Qed.

(** ** C11 *)
Definition linked (w : world) (h n : nat) : Prop :=
  exists b bn, bufs w !! h = Some b /\ bufs w !! n = Some bn /\ h_loc bn = h_loc b /\
    h_cow b = false /\ h_cow bn = false.

Lemma linked_sym w h n : linked w h n -> linked w n h.
Proof. intros (b & bn & ? & ? & ? & ? & ?). exists bn, b. done. Qed.


Lemma linked_storage w h n : linked w h n -> storage w h = storage w n.
Proof.
  intros (b & bn & Hb & Hbn & El & _). unfold storage, view. rewrite Hb, Hbn, El.
  by destruct (cells w !! h_loc b).
Qed.

Lemma eff_linked w k w' h n : h <> n -> eff w k w' -> linked w h n ->
  linked w' h n /\ (k <> h -> cursors w' h = cursors w h) /\ (k <> n -> cursors w' n = cursors w n).
Proof.
  intros Hhn E (b & bn & Hb & Hbn & El & F1 & F2).
  assert (G : forall b' cs cp, bufs w !! k = Some b' ->
     (forall b2, h_cow b' = false -> h_loc b2 = h_loc b' -> h_cow b2 = false ->
     linked (World cs (<[k := b2]> (bufs w)) cp) h n)).
  { intros b' cs cp Hk b2 E1 E2 E3.
    destruct (decide (k = h)) as [->|N1]; [|destruct (decide (k = n)) as [->|N2]].
    - assert (b' = b) as -> by congruence. exists b2, bn. simpl.
      rewrite (lkins _ _ _ _ Hb), list_lookup_insert_ne by done. split_and!; congruence.
    - assert (b' = bn) as -> by congruence. exists b, b2. simpl.
      rewrite (lkins _ _ _ _ Hbn), list_lookup_insert_ne by done. split_and!; congruence.
    - exists b, bn. simpl. rewrite !list_lookup_insert_ne by done. done. }
  assert (N : forall b' b2 cs cp, bufs w !! k = Some b' -> h_cow b' = true -> 
     linked (World cs (<[k := b2]> (bufs w)) cp) h n).
  { intros b' b2 cs cp Hk Ht. exists b, bn. simpl.
    assert (k <> h) by (intros ->; congruence). assert (k <> n) by (intros ->; congruence).
    rewrite !list_lookup_insert_ne by done. done. }
  assert (Cu : forall cs b2 cp j, k <> j -> cursors (World cs (<[k:=b2]> (bufs w)) cp) j = cursors w j).
  { intros cs b2 cp j Hj. unfold cursors. simpl. by rewrite list_lookup_insert_ne. }
  destruct E as [->|b' c r i j fl st Hb' Hc Hfl ->|b' c r i j st Hb' Hc Hcow Hr ->|b' c r i j st Hb' Hc Hcow Hr ->].
  - split; [|done]. by exists b, bn.
  - split; [|split; intros; by apply Cu].
    destruct (h_cow b') eqn:Ecow; [by eapply N|]. eapply G; eauto. simpl. destruct Hfl; congruence.
  - split; [|split; intros; by apply Cu]. by eapply N.
  - split; [|split; intros; by apply Cu]. by eapply N.
Qed.


Lemma w_step_linked o w h n : h <> n -> locs_ok w -> linked w h n -> ~ cow_of o h -> ~ cow_of o n ->
  let w' := state_of (w_step o w) in
  linked w' h n /\ (~ uses o h -> cursors w' h = cursors w h) /\ (~ uses o n -> cursors w' n = cursors w n).
Proof.
  intros Hhn HL L Hch Hcn.
  assert (A : forall cs l cp, linked (World cs (bufs w ++ l) cp) h n /\
      cursors (World cs (bufs w ++ l) cp) h = cursors w h /\ cursors (World cs (bufs w ++ l) cp) n = cursors w n).
  { intros cs l cp. destruct L as (b & bn & Hb & Hbn & R). unfold cursors; simpl.
    assert (E1 : (bufs w ++ l) !! h = Some b) by (by apply lookup_app_l_Some).
    assert (E2 : (bufs w ++ l) !! n = Some bn) by (by apply lookup_app_l_Some).
    rewrite E1, E2, Hb, Hbn. split; [|done]. exists b, bn. done. }
  destruct o as [c r|d r|src t|k o]; cbn [w_step uses].
  - destruct (v_alloc c r); cbn [state_of]; [|done]. unfold new_buf. destruct (A (cells w ++ [Cell 1 (v_st v)]) [HB (v_res v) (v_rd v) (v_wr v) (length (cells w)) false] (copies w)) as (?&?&?). done.
  - destruct (v_from d r); cbn [state_of]; [|done]. unfold new_buf. destruct (A (cells w ++ [Cell 1 (v_st v)]) [HB (v_res v) (v_rd v) (v_wr v) (length (cells w)) false] (copies w)) as (?&?&?). done.
  - rewrite rmap_state.
    destruct (snap_cases src t w) as [[x ->]|[->|(k & b & -> & Hb & [[-> ->]|(c & Hc & [[-> ->]|[-> (s' & _ & ->)]])])]];
      cbn [state_of]; try done.
    + destruct (A (cells w) [HB (h_res b) (h_rd b) (h_wr b) (h_loc b) false] (copies w)) as (?&?&?). done.
    + assert (k <> h) by (intros ->; by apply Hch). assert (k <> n) by (intros ->; by apply Hcn).
      destruct L as (bh & bn & Hbh & Hbn & R). unfold cursors; simpl.
      set (l := [_]).
      assert (E1 : (<[k:=HB (h_res b) (h_rd b) (h_wr b) (h_loc b) true]> (bufs w) ++ l) !! h = Some bh)
        by (apply lookup_app_l_Some; by rewrite list_lookup_insert_ne).
      assert (E2 : (<[k:=HB (h_res b) (h_rd b) (h_wr b) (h_loc b) true]> (bufs w) ++ l) !! n = Some bn)
        by (apply lookup_app_l_Some; by rewrite list_lookup_insert_ne).
      rewrite E1, E2, Hbh, Hbn. split; [|done]. exists bh, bn. done.
    + unfold new_buf. destruct (A (cells w ++ [Cell 1 (Store (splice (replicate (scap (c_st c)) 0%Z) (h_rd b) s') (scap (c_st c)))]) [HB (h_res b) (h_rd b) (h_wr b) (length (cells w)) false] (copies w)) as (?&?&?). done.
  - rewrite rmap_state. by apply (eff_linked w k _ h n Hhn (h_step_eff o w k) L).
Qed.

Lemma w_run_linked ops w h n : h <> n -> locs_ok w -> linked w h n ->
  Forall (fun o => ~ cow_of o h /\ ~ cow_of o n) ops ->
  let w' := snd (w_run ops w) in
  linked w' h n /\ (Forall (fun o => ~ uses o h) ops -> cursors w' h = cursors w h)
  /\ (Forall (fun o => ~ uses o n) ops -> cursors w' n = cursors w n).
Proof.
  intros Hhn. revert w. induction ops as [|o ops IH]; intros w HL L Hc; simpl; [done|].
  apply Forall_cons_1 in Hc as [[Hc1 Hc2] Hc3].
  pose proof (w_step_locs o w HL) as HL1.
  destruct (w_step_linked o w h n Hhn HL L Hc1 Hc2) as (L1 & C1 & C2).
  destruct (w_step o w) as [x w1|w1]; simpl in *.
  - destruct (IH w1 HL1 L1 Hc3) as (L2 & C3 & C4).
    destruct (w_run ops w1) as [xs w2]; simpl in *. split; [done|]. split.
    + intros Hu. apply Forall_cons_1 in Hu as [Hu1 Hu2]. by rewrite C3, C1.
    + intros Hu. apply Forall_cons_1 in Hu as [Hu1 Hu2]. by rewrite C4, C2.
  - split; [done|]. split; intros Hu; apply Forall_cons_1 in Hu as [Hu1 Hu2]; auto.
Qed.

Lemma ref_ok w h n w' :
  w_step (WSnap (Some h) 0) w = Ok (WHandle (Some n)) w' ->
  exists b, bufs w !! h = Some b /\ n = length (bufs w) /\
    w' = World (cells w) (bufs w ++ [HB (h_res b) (h_rd b) (h_wr b) (h_loc b) false]) (copies w).
Proof.
  cbn [w_step]. unfold h_snapshot. destruct (bufs w !! h) as [b|]; [|done]. cbn.
  intros [= <- <-]. by exists b.
Qed.


Lemma reference_snapshot hist h n w w1 ops :
  w = snd (w_run hist w0) -> w_step (WSnap (Some h) 0) w = Ok (WHandle (Some n)) w1 ->
  seen w1 n = seen w h /\ seen w1 h = seen w h /\
  (unmarked w h -> Forall (fun o => ~ cow_of o h /\ ~ cow_of o n) ops ->
   let w2 := snd (w_run ops w1) in
   storage w2 h = storage w2 n /\
   (Forall (fun o => ~ uses o h) ops -> cursors w2 h = cursors w1 h) /\
   (Forall (fun o => ~ uses o n) ops -> cursors w2 n = cursors w1 n)).
Proof.
  intros -> Hs. set (w := snd (w_run hist w0)) in *.
  assert (HL : locs_ok w) by (apply w_run_locs, w0_locs).
  assert (HL1 : locs_ok w1).
  { pose proof (w_step_locs (WSnap (Some h) 0) w HL) as H. rewrite Hs in H. done. }
  destruct (ref_ok w h n w1 Hs) as (b & Hb & -> & ->).
  assert (E1 : forall l, (bufs w ++ l) !! h = Some b) by (intros; by apply lookup_app_l_Some).
  split_and!.
  - unfold seen, view; simpl. rewrite list_lookup_middle by done. rewrite Hb. done.
  - unfold seen, view; simpl. by rewrite E1, Hb.
  - intros Hu Hc.
    assert (Hne : h <> length (bufs w)) by (apply lookup_lt_Some in Hb; lia).
    destruct (w_run_linked ops _ h (length (bufs w)) Hne HL1) with (2 := Hc) as (L & C1 & C2).
    { exists b. eexists. simpl. rewrite E1, list_lookup_middle by done. split_and!; try done. by apply Hu. }
    split_and!; [by apply linked_storage|done|done].
Qed.

(** ** C15: counting copies *)
Definition csum (cs : list cell) : Z := foldr (fun c a => refc c - 1 + a)%Z 0%Z cs.
Lemma csum_app a b : csum (a ++ b) = (csum a + csum b)%Z.
Proof. induction a as [|c a IH]; simpl; [done|]. unfold csum in *. simpl. rewrite IH. lia. Qed.
Lemma csum_insert cs i x y : cs !! i = Some x -> csum (<[i := y]> cs) = (csum cs - refc x + refc y)%Z.
Proof.
  revert i. induction cs as [|c cs IH]; intros [|i] H; simplify_eq/=.
  - unfold csum; simpl. lia.
  - specialize (IH i H). unfold csum in *; simpl. rewrite IH. lia.
Qed.

Record KEPT (w : world) (m d : nat) : Prop := {
  k_locs : locs_ok w;
  k_ref : forall l c, cells w !! l = Some c -> (1 <= refc c <= Z.of_nat (lcnt l w))%Z;
  k_sum : (Z.of_nat (copies w) + csum (cells w) <= Z.of_nat m)%Z;
  k_cells : length (cells w) <= d + copies w;
}.

Lemma csum_nonneg w m d : KEPT w m d -> (0 <= csum (cells w))%Z.
Proof.
  intros K. assert (H : forall c, In c (cells w) -> (1 <= refc c)%Z).
  { intros c Hc. apply elem_of_list_In, elem_of_list_lookup in Hc as [l Hl]. by apply (k_ref _ _ _ K l c). }
  induction (cells w) as [|c cs IH]; unfold csum in *; simpl; [lia|].
  assert (1 <= refc c)%Z by (apply H; by left).
  assert (0 <= foldr (fun c a => refc c - 1 + a) 0 cs)%Z by (apply IH; intros; apply H; by right). lia.
Qed.

Lemma lcnt_le l w : lcnt l w <= length (bufs w).
Proof. unfold lcnt, cnt. apply filter_length. Qed.

Lemma lcnt_add w l b cs cp : lcnt l (World cs (bufs w ++ [b]) cp) = lcnt l w + (if decide (h_loc b = l) then 1 else 0).
Proof. unfold lcnt; simpl. rewrite cnt_app, cnt_cons. unfold cnt at 2. simpl.
  destruct (decide (on l b)), (decide (h_loc b = l)); unfold on in *; try done; lia. Qed.

Lemma lcnt_fresh w l : locs_ok w -> length (cells w) <= l -> lcnt l w = 0.
Proof.
  intros HL Hl. unfold lcnt, cnt. destruct (filter (on l) (bufs w)) as [|b k] eqn:E; [done|].
  assert (H : b ∈ filter (on l) (bufs w)) by (rewrite E; left).
  apply elem_of_list_filter in H as [H1 H2]. apply elem_of_list_lookup in H2 as [i Hi].
  specialize (HL _ _ Hi). unfold on in H1. lia.
Qed.

Lemma new_buf_KEPT w v m d : KEPT w m d -> KEPT (new_buf w v) m (S d).
Proof.
  intros K. split.
  - apply new_buf_locs, K.
  - intros l c Hl. unfold new_buf in *. simpl in Hl. rewrite lcnt_add. simpl.
    apply lookup_app_Some in Hl as [Hl|[Hge Hl]].
    + pose proof (k_ref _ _ _ K l c Hl). lia.
    + apply list_lookup_singleton_Some in Hl as [E <-]. simpl.
      rewrite decide_True by lia. lia.
  - unfold new_buf; simpl. rewrite csum_app. unfold csum at 2; simpl. pose proof (k_sum _ _ _ K). lia.
  - unfold new_buf; simpl. rewrite app_length. simpl. pose proof (k_cells _ _ _ K). lia.
Qed.

Lemma eff_KEPT w h w' m d : (Z.of_nat (length (bufs w)) < 2^31)%Z ->
  eff w h w' -> KEPT w m d ->
  KEPT w' m d /\ (copies w' <> copies w -> sharing w h) /\ length (bufs w') = length (bufs w).
Proof.
  intros Hn E K. pose proof (eff_locs _ _ _ E (k_locs _ _ _ K)) as HL'.
  pose proof (k_sum _ _ _ K) as Ksum. pose proof (k_cells _ _ _ K) as Kc.
  destruct E as [->|b c r i j fl st Hb Hc Hfl ->|b c r i j st Hb Hc Hcow Hr ->|b c r i j st Hb Hc Hcow Hr ->].
  - done.
  - split; [|simpl; by rewrite insert_length]. split; [done|..]; simpl.
    + intros l c' Hl. rewrite (lcnt_same_loc w h b) by done.
      apply list_lookup_insert_Some in Hl as [(<- & <- & _)|(_ & Hl)]; simpl; by apply (k_ref _ _ _ K).
    + rewrite (csum_insert _ _ c) by done. simpl. lia.
    + by rewrite insert_length.
  - pose proof (k_ref _ _ _ K _ _ Hc) as Hk. pose proof (lcnt_le (h_loc b) w) as Hle.
    assert (Hw : wrap32 (refc c - 1) = (refc c - 1)%Z) by (apply wrap32_small; lia).
    rewrite Hw in *. split; [split; [done|..]|split]; simpl.
    + intros l c' Hl.
      assert (Hcnt : lcnt l (World (<[h_loc b:=Cell (refc c - 1) (c_st c)]> (cells w) ++ [Cell 1 st])
               (<[h:=HB r i j (length (cells w)) false]> (bufs w)) (S (copies w)))
             + (if decide (h_loc b = l) then 1 else 0) = lcnt l w + (if decide (length (cells w) = l) then 1 else 0)).
      { unfold lcnt; simpl. pose proof (cnt_insert (on l) (bufs w) h b (HB r i j (length (cells w)) false) Hb) as E.
        unfold on in *. simpl in E. exact E. }
      apply lookup_app_Some in Hl as [Hl|[Hge Hl]].
      * pose proof Hl as Hlt. apply lookup_lt_Some in Hlt. rewrite insert_length in Hlt.
        rewrite (decide_False (P := length (cells w) = l)) in Hcnt by lia.
        apply list_lookup_insert_Some in Hl as [(<- & <- & _)|(Hne & Hl)]; simpl.
        -- rewrite decide_True in Hcnt by done. lia.
        -- rewrite decide_False in Hcnt by done. pose proof (k_ref _ _ _ K _ _ Hl). lia.
      * apply list_lookup_singleton_Some in Hl as [E <-]. rewrite insert_length in E, Hge. simpl.
        assert (l = length (cells w)) as -> by lia.
        rewrite (decide_True (P := length (cells w) = length (cells w))) in Hcnt by done.
        pose proof (k_locs _ _ _ K _ _ Hb). rewrite decide_False in Hcnt by lia. lia.
    + rewrite csum_app, (csum_insert _ _ c) by done. unfold csum at 2; simpl. lia.
    + rewrite app_length, insert_length. simpl. lia.
    + intros _. assert (2 <= cnt (on (h_loc b)) (bufs w)) as H2 by (unfold lcnt in *; lia).
      destruct (cnt_two_inv (on (h_loc b)) (bufs w) h b H2 Hb eq_refl) as (k & bk & Hk1 & Hk2 & Hk3).
      exists b, k, bk. done.
    + by rewrite insert_length.
  - pose proof (k_ref _ _ _ K _ _ Hc) as Hk. pose proof (lcnt_le (h_loc b) w) as Hle.
    assert (Hw : wrap32 (refc c - 1) = (refc c - 1)%Z) by (apply wrap32_small; lia).
    rewrite Hw in *. split; [|simpl; by rewrite insert_length]. split; [done|..]; simpl.
    + intros l c' Hl. rewrite (lcnt_same_loc w h b) by done.
      apply list_lookup_insert_Some in Hl as [(<- & <- & _)|(_ & Hl)]; simpl.
      * pose proof (k_ref _ _ _ K _ _ Hc). lia.
      * by apply (k_ref _ _ _ K).
    + rewrite (csum_insert _ _ c) by done. simpl. lia.
    + by rewrite insert_length.
Qed.

Lemma KEPT_mono w m d m' d' : KEPT w m d -> m <= m' -> d <= d' -> KEPT w m' d'.
Proof. intros [] ? ?. split; try done; lia. Qed.

Lemma w_step_KEPT o w m d : (Z.of_nat (length (bufs w)) + 1 < 2^31)%Z -> KEPT w m d ->
  let w' := state_of (w_step o w) in
  KEPT w' (m + cow_snaps [o]) (d + made [o]) /\ length (bufs w') <= S (length (bufs w)) /\
  (copies w' <> copies w -> exists h c, o = WOp h c /\ sharing w h).
Proof.
  intros Hn K.
  assert (NB : forall v, KEPT (new_buf w v) m (d + 1) /\ length (bufs (new_buf w v)) <= S (length (bufs w)) /\ copies (new_buf w v) = copies w).
  { intros v. split_and!; [|unfold new_buf; simpl; rewrite app_length; simpl; lia|done].
    rewrite Nat.add_1_r. by apply new_buf_KEPT. }
  destruct o as [c r|z r|src t|h o]; cbn [w_step cow_snaps made].
  - rewrite Nat.add_0_r. destruct (v_alloc c r) as [v|]; cbn [state_of].
    + destruct (NB v) as (?&?&?). split_and!; try done.
    + split_and!; [by eapply KEPT_mono; [done|lia|lia]|lia|done].
  - rewrite Nat.add_0_r. destruct (v_from z r) as [v|]; cbn [state_of].
    + destruct (NB v) as (?&?&?). split_and!; try done.
    + split_and!; [by eapply KEPT_mono; [done|lia|lia]|lia|done].
  - rewrite rmap_state.
    destruct (snap_cases src t w) as [[x ->]|[->|(h & b & -> & Hb & [[-> ->]|(c & Hc & [[-> ->]|[-> (s' & _ & ->)]])])]];
      cbn [state_of].
    + split_and!; [eapply KEPT_mono; [done|lia|lia]|lia|done].
    + split_and!; [eapply KEPT_mono; [done|lia|lia]|lia|done].
    + simpl. rewrite !Nat.add_0_r. split_and!; [|rewrite app_length; simpl; lia|done].
      split; simpl.
      * pose proof (w_step_locs (WSnap (Some h) 0) w (k_locs _ _ _ K)) as H. cbn [w_step] in H.
        unfold h_snapshot in H. rewrite Hb in H. exact H.
      * intros l c Hl. rewrite lcnt_add. pose proof (k_ref _ _ _ K _ _ Hl). lia.
      * apply K.
      * apply K.
    + simpl. rewrite !Nat.add_0_r. split_and!; [|rewrite app_length, insert_length; simpl; lia|done].
      pose proof (k_ref _ _ _ K _ _ Hc) as Hk. pose proof (lcnt_le (h_loc b) w) as Hle.
      rewrite wrap32_small by lia.
      split; simpl.
      * pose proof (w_step_locs (WSnap (Some h) 1) w (k_locs _ _ _ K)) as H. cbn [w_step] in H.
        unfold h_snapshot in H. rewrite Hb in H. simpl in H. rewrite Hc in H. simpl in H.
        intros k bk Hbk. specialize (H k bk). simpl in H, Hbk |- *. rewrite insert_length in *. by apply H.
      * intros l c' Hl.
        set (b' := HB (h_res b) (h_rd b) (h_wr b) (h_loc b) true).
        pose proof (lcnt_add (World (cells w) (<[h:=b']> (bufs w)) (copies w)) l b'
          (<[h_loc b:=Cell (refc c + 1) (c_st c)]> (cells w)) (copies w)) as E. simpl in E. rewrite E.
        rewrite (lcnt_same_loc w h b) by done.
        apply list_lookup_insert_Some in Hl as [(<- & <- & _)|(Hne & Hl)]; simpl.
        -- rewrite decide_True by done. lia.
        -- pose proof (k_ref _ _ _ K _ _ Hl). lia.
      * rewrite (csum_insert _ _ c) by done. simpl. pose proof (k_sum _ _ _ K). lia.
      * rewrite insert_length. apply K.
    + simpl. rewrite !Nat.add_0_r. destruct (NB (VB (h_res b) (h_rd b) (h_wr b)
             (Store (splice (replicate (scap (c_st c)) 0%Z) (h_rd b) s') (scap (c_st c))))) as (?&?&?).
      split_and!; try done.
  - rewrite rmap_state, !Nat.add_0_r.
    destruct (eff_KEPT w h _ m d ltac:(lia) (h_step_eff o w h) K) as (K' & Hs & Hl).
    split_and!; [done|lia|]. intros Hc. exists h, o. split; [done|]. by apply Hs.
Qed.

Lemma cow_snaps_cons o ops : cow_snaps (o :: ops) = cow_snaps [o] + cow_snaps ops.
Proof. destruct o as [| |[]|]; simpl; lia. Qed.
Lemma made_cons o ops : made (o :: ops) = made [o] + made ops.
Proof. destruct o as [| |[]|]; simpl; lia. Qed.

Lemma w_run_KEPT ops w m d : (Z.of_nat (length (bufs w) + length ops) < 2^31)%Z -> KEPT w m d ->
  let w' := snd (w_run ops w) in
  KEPT w' (m + cow_snaps ops) (d + made ops) /\ length (bufs w') <= length (bufs w) + length ops.
Proof.
  revert w m d. induction ops as [|o ops IH]; intros w m d Hn K.
  - simpl. rewrite !Nat.add_0_r. split; [done|lia].
  - rewrite cow_snaps_cons, made_cons. simpl in Hn. simpl.
    destruct (w_step_KEPT o w m d ltac:(lia) K) as (K1 & L1 & _).
    destruct (w_step o w) as [x w1|w1]; simpl in *.
    + destruct (IH w1 _ _ ltac:(lia) K1) as [K2 L2]. destruct (w_run ops w1) as [xs w2]; simpl in *.
      rewrite !Nat.add_assoc. split; [done|lia].
    + split; [|lia]. eapply KEPT_mono; [done|lia|lia].
Qed.

Lemma KEPT_init : KEPT w0 0 0.
Proof. split; simpl; [apply w0_locs|intros l c H; by rewrite lookup_nil in H|unfold csum; simpl; lia|lia]. Qed.

Lemma copies_bounded hist :
  (Z.of_nat (length hist) + 1 < 2^31)%Z ->
  let w := snd (w_run hist w0) in
  copies w <= cow_snaps hist /\ length (cells w) <= made hist + cow_snaps hist /\
  (forall o, copies (state_of (w_step o w)) <> copies w -> exists h c, o = WOp h c /\ sharing w h) /\
  (forall h c, length (cells (state_of (w_step (WOp h c) w))) <> length (cells w) -> sharing w h).
Proof.
  intros Hn. destruct (w_run_KEPT hist w0 0 0 ltac:(simpl; lia) KEPT_init) as [K L]. simpl in K, L.
  cbv zeta. set (w := snd (w_run hist w0)) in *.
  pose proof (csum_nonneg _ _ _ K). pose proof (k_sum _ _ _ K). pose proof (k_cells _ _ _ K).
  split; [lia|]. split; [lia|]. split.
  - intros o. apply (w_step_KEPT o w _ _ ltac:(lia) K).
  - intros h c Hc. destruct (eff_KEPT w h _ _ _ ltac:(lia) (h_step_eff c w h) K) as (_ & Hs & _).
    apply Hs. simpl in Hc. rewrite rmap_state in Hc.
    destruct (h_step_eff c w h) as [E|b cc r i j fl st Hb Hcc Hfl E|b cc r i j st Hb Hcc Hcow Hr E|b cc r i j st Hb Hcc Hcow Hr E];
      rewrite E in Hc |- *; simpl in Hc |- *; rewrite ?insert_length in Hc; [done|done|lia|done].
Qed.

(** ** Reference snapshots beside copy-on-write snapshots *)
Lemma splice_one a i (x : byte) : i < length a -> splice a i [x] = <[i := x]> a.
Proof. intros H. unfold splice. rewrite insert_take_drop by done. simpl. by rewrite Nat.add_1_r. Qed.
Lemma take_drop_insert a i n k (x : byte) : i <= k -> k < i + n ->
  take n (drop i (<[k := x]> a)) = <[k - i := x]> (take n (drop i a)).
Proof.
  intros H1 H2. rewrite drop_insert_le by done. rewrite take_insert_lt by lia. done.
Qed.
Lemma cow_beside_reference w h res rd wr st hl data tl x :
  cursors w h = Some (res, rd, wr) -> storage w h = Some st -> seen w h = Some (hl, data, tl) ->
  rd <= res -> res < wr -> res < blen st -> blen st <= scap st ->
  let n := length (bufs w) in let m := S n in
  exists w1 w2 w3,
    w_step (WSnap (Some h) 0) w = Ok (WHandle (Some n)) w1 /\
    w_step (WSnap (Some h) 1) w1 = Ok (WHandle (Some m)) w2 /\
    seen w2 m = Some (hl, data, tl) /\
    w_run [WOp n OpReset; WOp n (OpWriteByte x)] w2 = ([Some (WOut RUnit); Some (WOut (RErr None))], w3) /\
    seen w3 m = Some (hl, <[res - rd := x]> data, tl).
Proof.
  unfold cursors, storage, seen. intros Hc Hs He H1 H2 H3 H4.
  destruct (bufs w !! h) as [b|] eqn:Hb; [|done]. simpl in Hc. injection Hc as Er Ed Ew.
  unfold view in Hs, He. rewrite Hb in Hs, He. destruct (cells w !! h_loc b) as [c|] eqn:Hl; [|done]. simpl in Hs, He.
  injection Hs as Es. injection He as <- <- <-.
  pose proof (lookup_lt_Some _ _ _ Hb) as Hlt. pose proof (lookup_lt_Some _ _ _ Hl) as Hltc.
  cbv zeta. set (n := length (bufs w)).
  set (bs1 := bufs w ++ [HB (h_res b) (h_rd b) (h_wr b) (h_loc b) false]).
  set (w1 := World (cells w) bs1 (copies w)).
  set (mk := HB (h_res b) (h_rd b) (h_wr b) (h_loc b) true).
  set (bs2 := <[h := mk]> bs1 ++ [mk]).
  set (cs2 := <[h_loc b := Cell (wrap32 (refc c + 1)) (c_st c)]> (cells w)).
  set (w2 := World cs2 bs2 (copies w)).
  assert (Hb1 : bs1 !! h = Some b) by (apply lookup_app_l_Some; done).
  assert (S1 : w_step (WSnap (Some h) 0) w = Ok (WHandle (Some n)) w1).
  { cbn [w_step h_snapshot]. rewrite Hb. done. }
  assert (Ln : length bs1 = S n) by (unfold bs1; rewrite app_length; simpl; unfold n; lia).
  assert (S2 : w_step (WSnap (Some h) 1) w1 = Ok (WHandle (Some (S n))) w2).
  { cbn [w_step h_snapshot]. unfold w1 at 1. cbn [bufs]. rewrite Hb1. cbn [Z.eqb]. unfold w1 at 1. cbn [cells]. rewrite Hl. cbn [rmap].
    unfold w1. cbn [bufs cells copies]. rewrite Ln. done. }
  assert (Hn2 : bs2 !! n = Some (HB (h_res b) (h_rd b) (h_wr b) (h_loc b) false)).
  { unfold bs2. rewrite lookup_app_l by (rewrite insert_length; lia). rewrite list_lookup_insert_ne by lia.
    unfold bs1. rewrite lookup_app_r by (unfold n; lia). unfold n. by rewrite Nat.sub_diag. }
  assert (Hm2 : bs2 !! (S n) = Some mk).
  { unfold bs2. rewrite lookup_app_r by (rewrite insert_length; lia). rewrite insert_length, Ln, Nat.sub_diag. done. }
  assert (Hl2 : cs2 !! h_loc b = Some (Cell (wrap32 (refc c + 1)) (c_st c))) by (by apply list_lookup_insert).
  assert (L2 : length bs2 = S (S n)) by (unfold bs2; rewrite app_length, insert_length, Ln; simpl; lia).
  set (st' := Store (<[res := x]> (arr st)) (blen st)).
  set (w3 := World (<[h_loc b := Cell (wrap32 (refc c + 1)) st']> cs2) (<[n := HB res res (res + 1) (h_loc b) false]> bs2) (copies w)).
  exists w1, w2, w3. split; [done|]. split; [done|]. split.
  { unfold view. cbn [bufs cells w2]. rewrite Hm2. cbn [h_loc mk]. rewrite Hl2. done. }
  split.
  - cbn [w_run w_step h_step]. unfold liftv at 1. unfold view at 1. cbn [bufs cells w2]. rewrite Hn2. cbn [h_loc]. rewrite Hl2.
    cbn [v_step v_reset rmap]. unfold put at 1. cbn [bufs cells w2]. rewrite Hn2. cbn [h_loc]. rewrite Hl2. cbn [v_res v_rd v_wr v_st h_cow refc h_res h_rd h_wr c_st copies].
    match goal with |- context[World ?cs ?bs ?k] => set (w2' := World cs bs k) end.
    assert (Hb2' : bufs w2' !! n = Some (HB res res res (h_loc b) false)).
    { cbn [bufs w2']. rewrite <- Er. apply list_lookup_insert. lia. }
    assert (Hc2' : cells w2' !! h_loc b = Some (Cell (wrap32 (refc c + 1)) st)).
    { cbn [cells w2']. rewrite <- Es. apply list_lookup_insert. unfold cs2. rewrite insert_length. lia. }
    unfold h_writebyte, view. rewrite Hb2'. cbn [h_loc]. rewrite Hc2'. cbn [h_res h_rd h_wr c_st].
    unfold v_tlen, v_cap. cbn [v_st v_wr]. replace (scap st - res =? 0) with false by (symmetry; apply Nat.eqb_neq; lia).
    rewrite (resolve_clear w2' n _ Hb2' eq_refl). cbn [rbind]. unfold liftv, view. rewrite Hb2'. cbn [h_loc]. rewrite Hc2'. cbn [h_res h_rd h_wr c_st].
    unfold v_writebyte_body, s_set. cbn [v_st v_wr]. replace (res <? blen st) with true by (symmetry; apply Nat.ltb_lt; lia).
    cbn [rmap]. unfold put. rewrite Hb2'. cbn [h_loc]. rewrite Hc2'. cbn [v_st set_wr set_st v_res v_rd v_wr refc h_cow].
    rewrite splice_one by (unfold scap in *; lia). f_equal. unfold w3, w2'. cbn [cells bufs copies].
    rewrite list_insert_insert. rewrite list_insert_insert. done.
  - unfold view. cbn [bufs cells w3]. rewrite list_lookup_insert_ne by lia. rewrite Hm2. cbn [h_loc mk]. rewrite list_lookup_insert by (unfold cs2; rewrite insert_length; lia).
    cbn [c_st h_res h_rd h_wr mk fmap option_fmap option_map]. f_equal. f_equal; [f_equal|].
    + unfold readable, v_rlen. cbn [v_wr v_rd v_st]. unfold st'. cbn [arr]. rewrite take_drop_insert by lia. rewrite Ed, Ew, Es. done.
    + unfold v_tlen, v_cap. cbn [v_st v_wr]. unfold st', scap. cbn [arr]. rewrite insert_length. by rewrite Es.
Qed.
Lemma reference_beside_cow hist w h res rd wr st x :
  (Z.of_nat (length hist) + 2 < 2^31)%Z -> w = snd (w_run hist w0) ->
  cursors w h = Some (res, rd, wr) -> storage w h = Some st -> res < scap st ->
  let m := length (bufs w) in let n := S m in
  exists w1 w2 w3,
    w_step (WSnap (Some h) 1) w = Ok (WHandle (Some m)) w1 /\
    w_step (WSnap (Some h) 0) w1 = Ok (WHandle (Some n)) w2 /\
    w_run [WOp h OpReset; WOp h (OpWriteByte x)] w2 = ([Some (WOut RUnit); Some (WOut (RErr None))], w3) /\
    seen w3 h = Some (res, [x], scap st - (res + 1)) /\ storage w3 n = Some st /\ seen w3 n = seen w h.
Proof.
  intros Hn Ew Hc Hs H3.
  destruct (w_run_KEPT hist w0 0 0 ltac:(simpl; lia) KEPT_init) as [K L]. simpl in K, L. rewrite <- Ew in K, L. clear Ew.
  unfold cursors, storage, seen in *.
  destruct (bufs w !! h) as [b|] eqn:Hb; [|done]. simpl in Hc. injection Hc as Er Ed Ewr.
  unfold view in Hs |- * at 4. rewrite Hb in Hs |- *. destruct (cells w !! h_loc b) as [c|] eqn:Hl; [|done]. simpl in Hs.
  injection Hs as Es.
  pose proof (lookup_lt_Some _ _ _ Hb) as Hlt. pose proof (lookup_lt_Some _ _ _ Hl) as Hltc.
  pose proof (k_ref _ _ _ K _ _ Hl) as Href.
  assert (Hr : wrap32 (refc c + 1) <> 1%Z).
  { rewrite wrap32_small; [lia|]. assert (lcnt (h_loc b) w <= length (bufs w)); [|lia]. unfold lcnt. apply filter_length. }
  cbv zeta. set (m := length (bufs w)).
  set (mk := HB (h_res b) (h_rd b) (h_wr b) (h_loc b) true).
  set (bs1 := <[h := mk]> (bufs w) ++ [mk]).
  set (cs1 := <[h_loc b := Cell (wrap32 (refc c + 1)) (c_st c)]> (cells w)).
  set (w1 := World cs1 bs1 (copies w)).
  set (rf := HB (h_res b) (h_rd b) (h_wr b) (h_loc b) false).
  set (bs2 := bs1 ++ [rf]).
  set (w2 := World cs1 bs2 (copies w)).
  assert (Lm : length bs1 = S m) by (unfold bs1; rewrite app_length, insert_length; simpl; unfold m; lia).
  assert (Hb1 : bs1 !! h = Some mk).
  { unfold bs1. rewrite lookup_app_l by (rewrite insert_length; lia). apply list_lookup_insert. lia. }
  assert (S1 : w_step (WSnap (Some h) 1) w = Ok (WHandle (Some m)) w1).
  { cbn [w_step h_snapshot]. rewrite Hb. cbn [Z.eqb]. rewrite Hl. done. }
  assert (S2 : w_step (WSnap (Some h) 0) w1 = Ok (WHandle (Some (S m))) w2).
  { cbn [w_step h_snapshot]. unfold w1 at 1. cbn [bufs]. rewrite Hb1. cbn [Z.eqb rmap]. unfold w1. cbn [bufs cells copies]. rewrite Lm. done. }
  assert (Hb2 : bs2 !! h = Some mk) by (unfold bs2; apply lookup_app_l_Some; done).
  assert (Hn2 : bs2 !! (S m) = Some rf).
  { unfold bs2. rewrite lookup_app_r by lia. by rewrite Lm, Nat.sub_diag. }
  assert (L2 : length bs2 = S (S m)) by (unfold bs2; rewrite app_length, Lm; simpl; lia).
  assert (Hhm : h < m) by (unfold m; lia).
  assert (Hl2 : cs1 !! h_loc b = Some (Cell (wrap32 (refc c + 1)) (c_st c))) by (by apply list_lookup_insert).
  assert (Lc : length cs1 = length (cells w)) by (unfold cs1; apply insert_length).
  set (cp := scap st).
  set (cs3 := <[h_loc b := Cell (wrap32 (wrap32 (refc c + 1) - 1)) st]> cs1 ++ [Cell 1 (Store (<[res := x]> (replicate cp 0%Z)) cp)]).
  set (w3 := World cs3 (<[h := HB res res (res + 1) (length cs1) false]> bs2) (S (copies w))).
  exists w1, w2, w3. split; [done|]. split; [done|]. split.
  - cbn [w_run w_step h_step]. unfold liftv at 1. unfold view at 1. cbn [bufs cells w2]. rewrite Hb2. cbn [h_loc mk]. rewrite Hl2.
    cbn [v_step v_reset rmap]. unfold put at 1. cbn [bufs cells w2]. rewrite Hb2. cbn [h_loc mk]. rewrite Hl2. cbn [v_res v_rd v_wr v_st h_cow refc h_res h_rd h_wr c_st copies].
    match goal with |- context[World ?cs ?bs ?k] => set (w2' := World cs bs k) end.
    assert (Hb2' : bufs w2' !! h = Some (HB res res res (h_loc b) true)).
    { cbn [bufs w2']. rewrite <- Er. apply list_lookup_insert. lia. }
    assert (Hc2' : cells w2' !! h_loc b = Some (Cell (wrap32 (refc c + 1)) st)).
    { cbn [cells w2']. rewrite <- Es. apply list_lookup_insert. lia. }
    unfold h_writebyte. unfold view at 1. rewrite Hb2'. cbn [h_loc]. rewrite Hc2'. cbn [h_res h_rd h_wr c_st].
    unfold v_tlen, v_cap. cbn [v_st v_wr]. replace (scap st - res =? 0) with false by (symmetry; apply Nat.eqb_neq; lia).
    assert (HR : h_resolve w2' h = Ok tt (World (<[h_loc b := Cell (wrap32 (wrap32 (refc c + 1) - 1)) st]> (cells w2') ++ [Cell 1 (Store (replicate cp 0%Z) cp)])
       (<[h := HB res res res (length (cells w2')) false]> (bufs w2')) (S (copies w)))).
    { unfold h_resolve. rewrite Hb2'. cbn [h_cow negb h_loc]. rewrite Hc2'. cbn [refc c_st h_rd h_wr h_res].
      replace (wrap32 (refc c + 1) =? 1)%Z with false by (symmetry; by apply Z.eqb_neq).
      unfold s_range. replace ((res <=? res) && (res <=? scap st)) with true by (symmetry; apply andb_true_intro; split; apply Nat.leb_le; lia).
      assert (Hsp : forall a : list byte, splice a res [] = a).
      { intros a. unfold splice. cbn [length app]. rewrite Nat.add_0_r. apply take_drop. }
      rewrite Nat.sub_diag. cbn [take]. by rewrite Hsp. }
    rewrite HR. cbn [rbind]. clear HR.
    match goal with |- context[liftv _ ?W h] => set (w2'' := W) end.
    assert (E0 : length (cells w2') = length cs1) by (cbn [cells w2']; apply insert_length).
    assert (Hb3 : bufs w2'' !! h = Some (HB res res res (length cs1) false)).
    { cbn [bufs w2'']. rewrite E0. apply list_lookup_insert. cbn [bufs w2']. rewrite insert_length. lia. }
    assert (Hc3 : cells w2'' !! length cs1 = Some (Cell 1 (Store (replicate cp 0%Z) cp))).
    { cbn [cells w2'']. rewrite lookup_app_r by (rewrite insert_length; lia). by rewrite insert_length, E0, Nat.sub_diag. }
    unfold liftv, view. rewrite Hb3. cbn [h_loc]. rewrite Hc3. cbn [h_res h_rd h_wr c_st].
    unfold v_writebyte_body, s_set. cbn [v_st v_wr blen arr]. replace (res <? cp) with true by (symmetry; apply Nat.ltb_lt; unfold cp; lia).
    cbn [rmap]. unfold put. rewrite Hb3. cbn [h_loc]. rewrite Hc3. cbn [v_st set_wr set_st v_res v_rd v_wr refc h_cow].
    rewrite splice_one by (rewrite replicate_length; done). f_equal. unfold w3, w2'', w2', cs3. cbn [cells bufs copies].
    rewrite !list_insert_insert. f_equal.
    rewrite insert_app_r_alt by (rewrite insert_length; lia). rewrite insert_length, Nat.sub_diag. rewrite ?list_insert_insert. done.
  - assert (Hw3h : view w3 h = Some (VB res res (res + 1) (Store (<[res := x]> (replicate cp 0%Z)) cp))).
    { unfold view. cbn [bufs cells w3]. rewrite list_lookup_insert by lia. cbn [h_loc]. unfold cs3.
      rewrite lookup_app_r by (rewrite insert_length; lia). by rewrite insert_length, Nat.sub_diag. }
    assert (Hw3n : view w3 (S m) = Some (VB (h_res b) (h_rd b) (h_wr b) st)).
    { unfold view. cbn [bufs cells w3]. rewrite list_lookup_insert_ne by lia. rewrite Hn2. cbn [h_loc rf]. unfold cs3.
      rewrite lookup_app_l by (rewrite insert_length; lia). rewrite list_lookup_insert by lia. done. }
    rewrite Hw3h, Hw3n. cbn [fmap option_fmap option_map]. split_and!.
    + unfold v_hlen, readable, v_rlen, v_tlen, v_cap, scap. cbn [v_rd v_wr v_st arr]. rewrite insert_length, replicate_length. do 3 f_equal.
      replace (res + 1 - res) with 1 by lia. rewrite drop_insert_le by lia. rewrite Nat.sub_diag. rewrite drop_replicate.
      replace (cp - res) with (S (cp - res - 1)) by (unfold cp; lia). done.
    + done.
    + rewrite <- Es. done.
Qed.
