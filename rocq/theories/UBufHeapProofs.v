(** * Proofs about shared storage: families of buffers, copy on write *)
From Verif Require Import GoBase UBufModel UBufSpec UBufProofs.

(** ** Counting *)
Section count.
  Context {A : Type} (P : A -> Prop) {Pdec : forall x, Decision (P x)}.
  Definition cnt (l : list A) : nat := length (filter P l).

  Lemma cnt_cons x l : cnt (x :: l) = (if decide (P x) then 1 else 0) + cnt l.
  Proof. unfold cnt. rewrite filter_cons. by destruct (decide (P x)). Qed.
  Lemma cnt_app l k : cnt (l ++ k) = cnt l + cnt k.
  Proof. unfold cnt. by rewrite list.filter_app, app_length. Qed.
  Lemma cnt_insert l i x y : l !! i = Some x ->
    cnt (<[i := y]> l) + (if decide (P x) then 1 else 0) = cnt l + (if decide (P y) then 1 else 0).
  Proof.
    revert i. induction l as [|z l IH]; intros [|i] H; simplify_eq/=; rewrite !cnt_cons.
    - lia.
    - specialize (IH i H). lia.
  Qed.
  Lemma cnt_pos l i x : l !! i = Some x -> P x -> 1 <= cnt l.
  Proof.
    revert i. induction l as [|z l IH]; intros [|i] H HP; simplify_eq/=; rewrite cnt_cons.
    - rewrite decide_True by done. lia.
    - specialize (IH i H HP). lia.
  Qed.
  Lemma cnt_two l i j x y : i <> j -> l !! i = Some x -> l !! j = Some y -> P x -> P y -> 2 <= cnt l.
  Proof.
    revert i j. induction l as [|z l IH]; intros [|i] [|j] Hij Hi Hj Px Py; simplify_eq/=; rewrite cnt_cons.
    - rewrite decide_True by done. pose proof (cnt_pos l j y Hj Py). lia.
    - rewrite decide_True by done. pose proof (cnt_pos l i x Hi Px). lia.
    - specialize (IH i j ltac:(lia) Hi Hj Px Py). lia.
  Qed.
  Lemma cnt_two_inv l i x : 2 <= cnt l -> l !! i = Some x -> P x ->
    exists j y, j <> i /\ l !! j = Some y /\ P y.
  Proof.
    revert i. induction l as [|z l IH]; intros [|i] H Hi Px; simplify_eq/=; rewrite cnt_cons in H.
    - rewrite decide_True in H by done. unfold cnt in H.
      destruct (filter P l) as [|y k] eqn:E; simpl in H; [lia|].
      assert (Hy : y ∈ filter P l) by (rewrite E; left).
      apply elem_of_list_filter in Hy as [Py Hy]. apply elem_of_list_lookup in Hy as [j Hj].
      by exists (S j), y.
    - destruct (decide (P z)) as [Pz|Pz].
      + by exists 0, z.
      + destruct (IH i ltac:(lia) Hi Px) as (j & y & Hj & Ey & Py). exists (S j), y. split; [lia|done].
  Qed.
End count.

Definition on (l : nat) (b : hbuf) : Prop := h_loc b = l.
Global Instance on_dec l b : Decision (on l b).
Proof. unfold on. apply _. Defined.
Definition lcnt (l : nat) (w : world) : nat := cnt (on l) (bufs w).

(** ** The invariant *)
Definition vof (b : hbuf) (c : cell) : vbuf := VB (h_res b) (h_rd b) (h_wr b) (c_st c).

(** Handle [h] is the only user of its storage. *)
Definition exclusive (w : world) (h : nat) : Prop :=
  forall b h2 b2, bufs w !! h = Some b -> h2 <> h -> bufs w !! h2 = Some b2 -> h_loc b2 <> h_loc b.

Record INV (w : world) (s : fworld) : Prop := {
  inv_len : length (bufs w) = length (f_bufs s);
  inv_view : forall h b f, bufs w !! h = Some b -> f_bufs s !! h = Some f ->
     exists c, cells w !! h_loc b = Some c /\ wf (vof b c) /\ absq (vof b c) = f_q f
               /\ refc c = Z.of_nat (lcnt (h_loc b) w) /\ f_id f < f_next s;
  inv_id : forall h1 h2 b1 b2 f1 f2, bufs w !! h1 = Some b1 -> bufs w !! h2 = Some b2 ->
     f_bufs s !! h1 = Some f1 -> f_bufs s !! h2 = Some f2 ->
     (h_loc b1 = h_loc b2 <-> f_id f1 = f_id f2);
  inv_cow : forall h1 h2 b1 b2, h1 <> h2 -> bufs w !! h1 = Some b1 -> bufs w !! h2 = Some b2 ->
     h_loc b1 = h_loc b2 -> h_cow b1 = true;
}.

Lemma INV_init : INV w0 fw0.
Proof. split; simpl; intros; [done| | |]; by rewrite lookup_nil in *. Qed.

Lemma INV_both w s h b : INV w s -> bufs w !! h = Some b -> exists f, f_bufs s !! h = Some f.
Proof.
  intros I Hb. apply lookup_lt_is_Some. rewrite <- (inv_len _ _ I). apply lookup_lt_is_Some. by exists b.
Qed.
Lemma INV_both' w s h f : INV w s -> f_bufs s !! h = Some f -> exists b, bufs w !! h = Some b.
Proof.
  intros I Hb. apply lookup_lt_is_Some. rewrite (inv_len _ _ I). apply lookup_lt_is_Some. by exists f.
Qed.

(** ** view and put *)
Lemma view_eq w h b c : bufs w !! h = Some b -> cells w !! h_loc b = Some c -> view w h = Some (vof b c).
Proof. intros H1 H2. unfold view. by rewrite H1, H2. Qed.

Lemma put_eq w h b c v : bufs w !! h = Some b -> cells w !! h_loc b = Some c ->
  put w h v = World (<[h_loc b := Cell (refc c) (v_st v)]> (cells w))
                    (<[h := HB (v_res v) (v_rd v) (v_wr v) (h_loc b) (h_cow b)]> (bufs w)) (copies w).
Proof. intros H1 H2. unfold put. by rewrite H1, H2. Qed.

Lemma put_buf w h b c v : bufs w !! h = Some b -> cells w !! h_loc b = Some c ->
  bufs (put w h v) !! h = Some (HB (v_res v) (v_rd v) (v_wr v) (h_loc b) (h_cow b)).
Proof.
  intros H1 H2. rewrite (put_eq w h b c v H1 H2). simpl.
  apply list_lookup_insert. by apply lookup_lt_Some in H1.
Qed.
Lemma put_cell w h b c v : bufs w !! h = Some b -> cells w !! h_loc b = Some c ->
  cells (put w h v) !! h_loc b = Some (Cell (refc c) (v_st v)).
Proof.
  intros H1 H2. rewrite (put_eq w h b c v H1 H2). simpl.
  apply list_lookup_insert. by apply lookup_lt_Some in H2.
Qed.
Lemma view_put w h b c v : bufs w !! h = Some b -> cells w !! h_loc b = Some c ->
  view (put w h v) h = Some v.
Proof.
  intros H1 H2. unfold view. rewrite (put_buf w h b c v H1 H2). simpl.
  rewrite (put_cell w h b c v H1 H2). simpl. by destruct v.
Qed.
Lemma put_put w h b c v v' : bufs w !! h = Some b -> cells w !! h_loc b = Some c ->
  put (put w h v) h v' = put w h v'.
Proof.
  intros H1 H2.
  rewrite (put_eq _ h _ _ v' (put_buf w h b c v H1 H2) (put_cell w h b c v H1 H2)).
  rewrite !(put_eq w h b c) by done. simpl. by rewrite !list_insert_insert.
Qed.
Lemma put_same w h b c : bufs w !! h = Some b -> cells w !! h_loc b = Some c ->
  put w h (vof b c) = w.
Proof.
  intros H1 H2. rewrite (put_eq w h b c) by done. simpl.
  rewrite !list_insert_id by (try done; destruct b, c; done). by destruct w.
Qed.

(** ** Calls on a handle whose flag is clear are the owned-storage calls *)
Definition lift_res {A} (w : world) (h : nat) (r : res vbuf A) : res world A :=
  match r with Ok a v => Ok a (put w h v) | Panic v => Panic (put w h v) end.

Lemma liftv_eq {A} (f : vbuf -> res vbuf A) w h v : view w h = Some v -> liftv f w h = lift_res w h (f v).
Proof. intros H. unfold liftv. by rewrite H. Qed.

Lemma resolve_clear w h b : bufs w !! h = Some b -> h_cow b = false -> h_resolve w h = Ok tt w.
Proof. intros H1 H2. unfold h_resolve. by rewrite H1, H2. Qed.

Section owned.
  Variables (w : world) (h : nat) (b : hbuf) (c : cell).
  Hypotheses (Hb : bufs w !! h = Some b) (Hc : cells w !! h_loc b = Some c) (Hcow : h_cow b = false).

  Lemma writebyte_owned x : h_writebyte x w h = lift_res w h (v_writebyte x (vof b c)).
  Proof using All.
    unfold h_writebyte, v_writebyte. rewrite (view_eq w h b c Hb Hc).
    destruct (v_tlen (vof b c) =? 0); simpl.
    - by rewrite put_same.
    - rewrite (resolve_clear w h b Hb Hcow). simpl. apply liftv_eq. by apply view_eq.
  Qed.
  Lemma write_owned p : h_write p w h = lift_res w h (v_write p (vof b c)).
  Proof using All.
    unfold h_write, v_write. rewrite (view_eq w h b c Hb Hc).
    destruct (v_tlen (vof b c) =? 0); simpl.
    - by rewrite put_same.
    - rewrite (resolve_clear w h b Hb Hcow). simpl. apply liftv_eq. by apply view_eq.
  Qed.
  Lemma readfrom_owned r : h_readfrom r w h = lift_res w h (v_readfrom r (vof b c)).
  Proof using All.
    unfold h_readfrom, v_readfrom. rewrite (view_eq w h b c Hb Hc).
    destruct (v_tlen (vof b c) =? 0); simpl.
    - by rewrite put_same.
    - rewrite (resolve_clear w h b Hb Hcow). simpl. apply liftv_eq. by apply view_eq.
  Qed.
  Lemma write_err_owned p : h_write_err p w h = lift_res w h (v_write_err p (vof b c)).
  Proof using All.
    unfold h_write_err, v_write_err. rewrite write_owned.
    by destruct (v_write p (vof b c)) as [[n e] v|v].
  Qed.
  Lemma writeU_owned o wd x : h_writeU o wd x w h = lift_res w h (v_writeU o wd x (vof b c)).
  Proof using All.
    unfold h_writeU, v_writeU. rewrite (view_eq w h b c Hb Hc).
    destruct (v_tlen (vof b c) <? wbytes wd); simpl.
    - by rewrite put_same.
    - rewrite write_err_owned. unfold v_write_err.
      by destruct (v_write (enc o wd x) (vof b c)) as [[n e] v|v].
  Qed.
End owned.

Lemma writehead_owned w h b c d fn hfn :
  bufs w !! h = Some b -> cells w !! h_loc b = Some c -> h_cow b = false ->
  (forall w' b' c', bufs w' !! h = Some b' -> cells w' !! h_loc b' = Some c' -> h_cow b' = false ->
     hfn w' h = lift_res w' h (fn (vof b' c'))) ->
  h_writehead d hfn w h = lift_res w h (v_writehead d fn (vof b c)).
Proof.
  intros Hb Hc Hcow Hfn. unfold h_writehead, v_writehead. rewrite (view_eq w h b c Hb Hc).
  destruct (v_rd (vof b c) <? d) eqn:E; simpl.
  { by rewrite put_same. }
  set (v1 := set_wr (vof b c) (h_rd b - d)).
  rewrite (Hfn _ _ _ (put_buf w h b c v1 Hb Hc) (put_cell w h b c v1 Hb Hc)) by done.
  replace (vof (HB (v_res v1) (v_rd v1) (v_wr v1) (h_loc b) (h_cow b)) (Cell (refc c) (v_st v1)))
    with v1 by (by destruct v1).
  destruct (fn v1) as [e v2|v2]; simpl; rewrite (put_put w h b c) by done; [|done].
  rewrite (view_put w h b c) by done. by rewrite (put_put w h b c).
Qed.

Lemma h_step_owned w h b c o :
  bufs w !! h = Some b -> cells w !! h_loc b = Some c -> h_cow b = false ->
  h_step o w h = lift_res w h (v_step o (vof b c)).
Proof.
  intros Hb Hc Hcow.
  assert (Hm : forall (A B : Type) (f : A -> B) (r : res vbuf A),
             rmap f (lift_res w h r) = lift_res w h (rmap f r)) by (by intros A B f [? ?|?]).
  destruct o; try exact (liftv_eq (v_step _) w h _ (view_eq w h b c Hb Hc)); simpl.
  - by rewrite (writebyte_owned w h b c), Hm.
  - by rewrite (write_owned w h b c), Hm.
  - by rewrite (writeU_owned w h b c), Hm.
  - by rewrite (readfrom_owned w h b c), Hm.
  - rewrite (writehead_owned w h b c 1 (v_writebyte c0)), Hm; try done.
    intros. by apply writebyte_owned.
  - rewrite (writehead_owned w h b c (length p) (v_write_err p)), Hm; try done.
    intros. by apply write_err_owned.
  - rewrite (writehead_owned w h b c (wbytes w0) (v_writeU o w0 v)), Hm; try done.
    intros. by apply writeU_owned.
Qed.

(** ** Calls that write nothing *)
Lemma h_step_nowrite w h b c o :
  bufs w !! h = Some b -> cells w !! h_loc b = Some c -> wf (vof b c) ->
  writes o (absq (vof b c)) = false ->
  h_step o w h = lift_res w h (v_step o (vof b c)) /\ v_st (state_of (v_step o (vof b c))) = c_st c.
Proof.
  intros Hb Hc Hwf Hw. pose proof Hwf as (H1 & H2 & H3 & H4).
  assert (Hv : view w h = Some (vof b c)) by (by apply view_eq).
  assert (Hm : forall (A B : Type) (f : A -> B) (r : res vbuf A),
             rmap f (lift_res w h r) = lift_res w h (rmap f r)) by (by intros A B f [? ?|?]).
  destruct o; cbn [writes absq q_tail q_head] in Hw.
  - unfold h_step, h_writebyte, v_step, v_writebyte. rewrite Hv.
    apply negb_false_iff in Hw. rewrite Hw. simpl. by rewrite put_same.
  - unfold h_step, h_write, v_step, v_write. rewrite Hv.
    apply negb_false_iff in Hw. rewrite Hw. simpl. by rewrite put_same.
  - unfold h_step, h_writeU, v_step, v_writeU. rewrite Hv.
    assert (v_tlen (vof b c) <? wbytes w0 = true) as -> by (apply Nat.ltb_lt; by apply Nat.leb_gt in Hw).
    simpl. by rewrite put_same.
  - split; [by apply liftv_eq|]. simpl. unfold v_writeto. destruct (v_rlen (vof b c) =? 0); [done|].
    destruct (s_range _ _ _); [|done]. by destruct (w0 l) as [? []].
  - split; [by apply liftv_eq|]. simpl. unfold v_readbyte. destruct (v_rlen (vof b c) =? 0); [done|].
    by destruct (s_get _ _).
  - split; [by apply liftv_eq|]. simpl. unfold v_read. destruct (v_rlen (vof b c) =? 0); [done|].
    by destruct (s_from _ _).
  - split; [by apply liftv_eq|]. cbn [v_step]. unfold v_readU.
    destruct (v_rlen (vof b c) <? wbytes w0) eqn:E; [done|]. cleq.
    rewrite (v_readfull_enough _ (wbytes w0) 1 []) by (try done; destruct w0; simpl; lia).
    done.
  - unfold h_step, h_readfrom, v_step, v_readfrom. rewrite Hv.
    apply negb_false_iff in Hw. rewrite Hw. simpl. by rewrite put_same.
  - split; [by apply liftv_eq|]. simpl. unfold v_peek. destruct (v_rlen (vof b c) =? 0); [done|].
    by destruct (s_from _ _).
  - split; [by apply liftv_eq|]. simpl. unfold v_peekbyte. destruct (v_rlen (vof b c) <? 1); [done|].
    by destruct (s_get _ _).
  - split; [by apply liftv_eq|]. simpl. unfold v_peekU. destruct (v_rlen (vof b c) <? wbytes w0); [done|].
    by destruct (s_range _ _ _).
  - unfold h_step, h_writehead, v_step, v_headbyte, v_writehead. rewrite Hv.
    assert (v_rd (vof b c) <? 1 = true) as -> by (apply Nat.ltb_lt; by apply Nat.leb_gt in Hw).
    simpl. by rewrite put_same.
  - unfold h_step, h_writehead, v_step, v_headbytes, v_writehead. rewrite Hv.
    destruct (v_rd (vof b c) <? length p) eqn:E; simpl.
    { by rewrite put_same. }
    cleq. apply andb_false_iff in Hw as [Hw|Hw].
    { apply Nat.leb_gt in Hw. simpl in *. lia. }
    apply negb_false_iff in Hw. apply andb_prop in Hw as [Hw Ht]. apply andb_prop in Hw as [Hp He].
    rewrite (q_empty_len _ Hwf) in He. cleq. apply nil_length_inv in Hp as ->. simpl.
    rewrite Nat.sub_0_r.
    set (v1 := set_wr (vof b c) (h_rd b)).
    assert (Hrw : h_rd b = h_wr b) by (unfold v_rlen in He; simpl in *; lia).
    assert (v1 = vof b c) as -> by (unfold v1, vof, set_wr; simpl; by rewrite Hrw).
    rewrite put_same by done. unfold h_write_err, h_write, v_write_err, v_write. rewrite Hv.
    rewrite Ht. simpl. rewrite Hv. split; [|done]. f_equal.
  - unfold h_step, h_writehead, v_step, v_headU, v_writehead. rewrite Hv.
    assert (v_rd (vof b c) <? wbytes w0 = true) as -> by (apply Nat.ltb_lt; by apply Nat.leb_gt in Hw).
    simpl. by rewrite put_same.
  - split; [by apply liftv_eq|done].
  - split; [by apply liftv_eq|done].
Qed.

(** ** Clearing the flag of a handle that shares with nobody *)
Definition clearf (w : world) (h : nat) : world :=
  match bufs w !! h with
  | None => w
  | Some b => World (cells w) (<[h := HB (h_res b) (h_rd b) (h_wr b) (h_loc b) false]> (bufs w)) (copies w)
  end.

Lemma clearf_buf w h b : bufs w !! h = Some b ->
  bufs (clearf w h) !! h = Some (HB (h_res b) (h_rd b) (h_wr b) (h_loc b) false).
Proof.
  intros H. unfold clearf. rewrite H. simpl. apply list_lookup_insert. by apply lookup_lt_Some in H.
Qed.
Lemma clearf_cells w h : cells (clearf w h) = cells w.
Proof. unfold clearf. by destruct (bufs w !! h). Qed.
Lemma clearf_view w h : view (clearf w h) h = view w h.
Proof.
  unfold view. destruct (bufs w !! h) as [b|] eqn:E.
  - rewrite (clearf_buf w h b E), clearf_cells. done.
  - unfold clearf. by rewrite E, E.
Qed.
Lemma clearf_put w h b c v : bufs w !! h = Some b -> cells w !! h_loc b = Some c ->
  clearf (put w h v) h = put (clearf w h) h v.
Proof.
  intros Hb Hc. rewrite (put_eq (clearf w h) h _ c v (clearf_buf w h b Hb))
    by (rewrite clearf_cells; done).
  unfold clearf at 1. rewrite (put_buf w h b c v Hb Hc). rewrite (put_eq w h b c v Hb Hc). simpl.
  rewrite clearf_cells. unfold clearf. rewrite Hb. simpl.
  by rewrite !list_insert_insert.
Qed.

Lemma resolve_one w h b c :
  bufs w !! h = Some b -> cells w !! h_loc b = Some c -> refc c = 1%Z ->
  h_resolve w h = Ok tt (clearf w h).
Proof.
  intros Hb Hc Hr. unfold h_resolve. rewrite Hb.
  destruct (h_cow b) eqn:E; simpl.
  - rewrite Hc, Hr. simpl. unfold clearf. by rewrite Hb.
  - f_equal. unfold clearf. rewrite Hb. destruct w as [cs bs cp]; simpl in *. f_equal.
    rewrite list_insert_id; [done|]. destruct b; simpl in *. by subst.
Qed.

Section clear.
  Variables (w : world) (h : nat) (b : hbuf) (c : cell).
  Hypotheses (Hb : bufs w !! h = Some b) (Hc : cells w !! h_loc b = Some c) (Hr : refc c = 1%Z).

  Lemma resolve_cleared : h_resolve (clearf w h) h = Ok tt (clearf w h).
  Proof using All. by rewrite (resolve_clear _ _ _ (clearf_buf w h b Hb)). Qed.

  Lemma writebyte_clear x : v_tlen (vof b c) <> 0 -> h_writebyte x w h = h_writebyte x (clearf w h) h.
  Proof using All.
    intros Ht. unfold h_writebyte. rewrite clearf_view, (view_eq w h b c Hb Hc).
    destruct (v_tlen (vof b c) =? 0) eqn:E; cleq; [lia|].
    rewrite (resolve_one w h b c Hb Hc Hr), resolve_cleared. done.
  Qed.
  Lemma write_clear p : v_tlen (vof b c) <> 0 -> h_write p w h = h_write p (clearf w h) h.
  Proof using All.
    intros Ht. unfold h_write. rewrite clearf_view, (view_eq w h b c Hb Hc).
    destruct (v_tlen (vof b c) =? 0) eqn:E; cleq; [lia|].
    rewrite (resolve_one w h b c Hb Hc Hr), resolve_cleared. done.
  Qed.
  Lemma readfrom_clear r : v_tlen (vof b c) <> 0 -> h_readfrom r w h = h_readfrom r (clearf w h) h.
  Proof using All.
    intros Ht. unfold h_readfrom. rewrite clearf_view, (view_eq w h b c Hb Hc).
    destruct (v_tlen (vof b c) =? 0) eqn:E; cleq; [lia|].
    rewrite (resolve_one w h b c Hb Hc Hr), resolve_cleared. done.
  Qed.
  Lemma write_err_clear p : v_tlen (vof b c) <> 0 -> h_write_err p w h = h_write_err p (clearf w h) h.
  Proof using All. intros Ht. unfold h_write_err. by rewrite write_clear. Qed.
  Lemma writeU_clear o wd x : wbytes wd <= v_tlen (vof b c) ->
    h_writeU o wd x w h = h_writeU o wd x (clearf w h) h.
  Proof using All.
    intros Ht. unfold h_writeU. rewrite clearf_view, (view_eq w h b c Hb Hc).
    destruct (v_tlen (vof b c) <? wbytes wd) eqn:E; cleq; [lia|].
    apply write_err_clear. destruct wd; simpl in *; lia.
  Qed.
End clear.

(** The view in the middle of a head write. *)
Lemma writehead_clear w h b c d fn :
  bufs w !! h = Some b -> cells w !! h_loc b = Some c -> d <= h_rd b ->
  (forall w' b' c', bufs w' !! h = Some b' -> cells w' !! h_loc b' = Some c' -> refc c' = refc c ->
      vof b' c' = set_wr (vof b c) (h_rd b - d) -> fn w' h = fn (clearf w' h) h) ->
  h_writehead d fn w h = h_writehead d fn (clearf w h) h.
Proof.
  intros Hb Hc Hd Hfn. unfold h_writehead. rewrite clearf_view, (view_eq w h b c Hb Hc).
  destruct (v_rd (vof b c) <? d) eqn:E; cleq; [simpl in *; lia|].
  set (v1 := set_wr (vof b c) (v_rd (vof b c) - d)).
  rewrite <- (clearf_put w h b c v1 Hb Hc).
  rewrite (Hfn _ _ _ (put_buf w h b c v1 Hb Hc) (put_cell w h b c v1 Hb Hc)); [done|done|].
  done.
Qed.

Lemma h_step_clear w h b c o :
  bufs w !! h = Some b -> cells w !! h_loc b = Some c -> refc c = 1%Z -> wf (vof b c) ->
  writes o (absq (vof b c)) = true ->
  h_step o w h = h_step o (clearf w h) h.
Proof.
  intros Hb Hc Hr Hwf Hw. pose proof Hwf as (H1 & H2 & H3 & H4).
  assert (Hcap : forall i, v_tlen (set_wr (vof b c) i) = v_cap (vof b c) - i) by done.
  destruct o; cbn [writes absq q_tail q_head] in Hw; try done; cbn [h_step].
  - apply negb_true_iff in Hw. cleq. by rewrite (writebyte_clear w h b c).
  - apply negb_true_iff in Hw. cleq. by rewrite (write_clear w h b c).
  - cleq. by rewrite (writeU_clear w h b c).
  - apply negb_true_iff in Hw. cleq. by rewrite (readfrom_clear w h b c).
  - f_equal. cleq. eapply writehead_clear; try done.
    intros w' b' c' Hb' Hc' Hr' Hv'. apply (writebyte_clear w' h b' c'); try done; [congruence|].
    rewrite Hv', Hcap. simpl in *. lia.
  - f_equal. apply andb_prop in Hw as [Hw Hn]. cleq. eapply writehead_clear; try done.
    intros w' b' c' Hb' Hc' Hr' Hv'. apply (write_err_clear w' h b' c'); try done; [congruence|].
    rewrite Hv', Hcap. simpl in *. apply negb_true_iff in Hn.
    rewrite !andb_false_iff in Hn. destruct Hn as [[Hn|Hn]|Hn].
    + cleq. lia.
    + rewrite (q_empty_len _ Hwf) in Hn. cleq. unfold v_rlen in *. simpl in *. lia.
    + cleq. unfold v_tlen in *. simpl in *. lia.
  - f_equal. cleq. eapply writehead_clear; try done.
    intros w' b' c' Hb' Hc' Hr' Hv'. apply (writeU_clear w' h b' c'); try done; [congruence|].
    rewrite Hv', Hcap. simpl in *. lia.
Qed.

(** Tail writes begin with the copy-on-write hook. *)
Lemma h_step_resolve w h b c o w1 :
  bufs w !! h = Some b -> cells w !! h_loc b = Some c ->
  writes o (absq (vof b c)) = true -> is_headwrite o = false ->
  h_resolve w h = Ok tt w1 -> h_resolve w1 h = Ok tt w1 ->
  (exists v1, view w1 h = Some v1 /\ v_tlen v1 = v_tlen (vof b c)) ->
  h_step o w h = h_step o w1 h.
Proof.
  intros Hb Hc Hw Hh Hr Hr1 (v1 & Hv1 & Ht1).
  assert (Hv := view_eq w h b c Hb Hc).
  assert (HW : forall p, v_tlen (vof b c) <> 0 -> h_write p w h = h_write p w1 h).
  { intros p Ht. unfold h_write. rewrite Hv, Hv1, Ht1.
    destruct (v_tlen (vof b c) =? 0) eqn:E; cleq; [lia|]. by rewrite Hr, Hr1. }
  destruct o; cbn [writes absq q_tail q_head is_headwrite] in Hw, Hh; try done; unfold h_step.
  - apply negb_true_iff in Hw. cleq. unfold h_writebyte. rewrite Hv, Hv1, Ht1.
    destruct (v_tlen (vof b c) =? 0) eqn:E; cleq; [lia|]. by rewrite Hr, Hr1.
  - apply negb_true_iff in Hw. cleq. by rewrite HW.
  - cleq. unfold h_writeU. rewrite Hv, Hv1, Ht1.
    destruct (v_tlen (vof b c) <? wbytes w0) eqn:E; cleq; [lia|].
    unfold h_write_err. rewrite HW; [done|]. destruct w0; simpl in *; lia.
  - apply negb_true_iff in Hw. cleq. unfold h_readfrom. rewrite Hv, Hv1, Ht1.
    destruct (v_tlen (vof b c) =? 0) eqn:E; cleq; [lia|]. by rewrite Hr, Hr1.
Qed.

(** ** Preservation of the invariant *)
Lemma lcnt_same_loc w h b b' l cs cp :
  bufs w !! h = Some b -> h_loc b' = h_loc b ->
  lcnt l (World cs (<[h := b']> (bufs w)) cp) = lcnt l w.
Proof.
  intros Hb El. unfold lcnt; simpl.
  pose proof (cnt_insert (on l) (bufs w) h b b' Hb) as E.
  destruct (decide (on l b)), (decide (on l b')); unfold on in *; try lia; congruence.
Qed.

Lemma cow_of_shared w s h b h2 b2 : INV w s -> bufs w !! h = Some b -> bufs w !! h2 = Some b2 ->
  h2 <> h -> h_loc b2 = h_loc b -> h_cow b = true.
Proof. intros I Hb H2 Hn El. eapply (inv_cow _ _ I h h2); eauto. Qed.

Lemma exclusive_clear w s h b : INV w s -> bufs w !! h = Some b -> h_cow b = false -> exclusive w h.
Proof.
  intros I Hb Hcow b' h2 b2 Hb' Hn H2 El. assert (b' = b) as -> by congruence.
  pose proof (cow_of_shared w s h b h2 b2 I Hb H2 Hn El). congruence.
Qed.
Lemma exclusive_one w s h b c : INV w s -> bufs w !! h = Some b -> cells w !! h_loc b = Some c ->
  refc c = 1%Z -> exclusive w h.
Proof.
  intros I Hb Hc Hr b' h2 b2 Hb' Hn H2 El. assert (b' = b) as -> by congruence.
  destruct (INV_both w s h b I Hb) as [f Hf].
  destruct (inv_view _ _ I h b f Hb Hf) as (c' & Hc' & _ & _ & Hcnt & _).
  assert (c' = c) as -> by congruence.
  pose proof (cnt_two (on (h_loc b)) (bufs w) h h2 b b2 ltac:(done) Hb H2 eq_refl El).
  unfold lcnt in Hcnt. lia.
Qed.
Lemma not_shared_exclusive w s h : INV w s -> shared s h = false -> exclusive w h.
Proof.
  intros I Hs b h2 b2 Hb Hn H2 El.
  destruct (INV_both w s h b I Hb) as [f Hf]. destruct (INV_both w s h2 b2 I H2) as [f2 Hf2].
  apply (inv_id _ _ I h2 h b2 b f2 f H2 Hb Hf2 Hf) in El.
  unfold shared in Hs. rewrite Hf in Hs. apply Nat.leb_gt in Hs.
  pose proof (cnt_two (fun g => f_id g = f_id f) (f_bufs s) h h2 f f2 ltac:(done) Hf Hf2 eq_refl El).
  unfold cnt in *. lia.
Qed.
Lemma exclusive_cnt w s h b c : INV w s -> bufs w !! h = Some b -> cells w !! h_loc b = Some c ->
  exclusive w h -> refc c = 1%Z.
Proof.
  intros I Hb Hc Hex. destruct (INV_both w s h b I Hb) as [f Hf].
  destruct (inv_view _ _ I h b f Hb Hf) as (c' & Hc' & _ & _ & Hcnt & _). simplify_eq.
  rewrite Hcnt. unfold lcnt.
  pose proof (cnt_pos (on (h_loc b)) (bufs w) h b Hb eq_refl).
  destruct (decide (2 <= cnt (on (h_loc b)) (bufs w))) as [H2|H2]; [|lia].
  destruct (cnt_two_inv (on (h_loc b)) (bufs w) h b H2 Hb eq_refl) as (j & y & Hj & Hy & Py).
  by destruct (Hex b j y Hb Hj Hy).
Qed.

Ltac lins := repeat match goal with
  | H : <[?i := _]> ?l !! ?j = Some _ |- _ =>
      apply list_lookup_insert_Some in H as [(-> & <- & ?)|(? & H)]
  end.

Lemma put_INV w s h b c f v' :
  INV w s -> bufs w !! h = Some b -> cells w !! h_loc b = Some c -> f_bufs s !! h = Some f ->
  wf v' -> (v_st v' = c_st c \/ exclusive w h) ->
  INV (put w h v') (FW (f_next s) (<[h := Fam (f_id f) (absq v')]> (f_bufs s))).
Proof.
  intros I Hb Hc Hf Hwf Hst. rewrite (put_eq w h b c v' Hb Hc).
  destruct (inv_view _ _ I h b f Hb Hf) as (c0 & Hc0 & Hwf0 & Habs & Hcnt & Hid).
  assert (c0 = c) as -> by congruence.
  split; simpl.
  - rewrite !insert_length. apply I.
  - intros h1 b1 f1 Hb1 Hf1. rewrite (lcnt_same_loc w h b) by done.
    apply list_lookup_insert_Some in Hb1 as [(-> & <- & Hlt)|(Hne & Hb1)]; simpl.
    + rewrite list_lookup_insert in Hf1 by (by apply lookup_lt_Some in Hf). simplify_eq.
      eexists. split; [apply list_lookup_insert; by apply lookup_lt_Some in Hc|]. simpl.
      split; [by destruct v'|]. split; [by destruct v'|]. done.
    + rewrite list_lookup_insert_ne in Hf1 by done.
      destruct (inv_view _ _ I h1 b1 f1 Hb1 Hf1) as (c1 & Hc1 & Hwf1 & Habs1 & Hcnt1 & Hid1).
      destruct (decide (h_loc b1 = h_loc b)) as [El|El].
      * destruct Hst as [Est|Hex]; [|by destruct (Hex b h1 b1 Hb (not_eq_sym Hne) Hb1)].
        rewrite El in Hc1. assert (c1 = c) as -> by congruence. exists c. rewrite El in *.
        split; [|done]. rewrite list_lookup_insert by (by apply lookup_lt_Some in Hc).
        f_equal. rewrite Est. by destruct c.
      * exists c1. rewrite list_lookup_insert_ne by done. done.
  - intros h1 h2 b1 b2 f1 f2 Hb1 Hb2 Hf1 Hf2.
    assert (G : forall k bk fk, <[h:=HB (v_res v') (v_rd v') (v_wr v') (h_loc b) (h_cow b)]> (bufs w) !! k = Some bk ->
                <[h:={| f_id := f_id f; f_q := absq v' |}]> (f_bufs s) !! k = Some fk ->
                exists b0 f0, bufs w !! k = Some b0 /\ f_bufs s !! k = Some f0 /\ h_loc b0 = h_loc bk /\ f_id f0 = f_id fk).
    { intros k bk fk Hk Hfk.
      apply list_lookup_insert_Some in Hk as [(-> & <- & Hlt)|(Hne & Hk)].
      - rewrite list_lookup_insert in Hfk by (by apply lookup_lt_Some in Hf). simplify_eq. by exists b, f.
      - rewrite list_lookup_insert_ne in Hfk by done. by exists bk, fk. }
    destruct (G _ _ _ Hb1 Hf1) as (x1 & y1 & X1 & Y1 & <- & <-).
    destruct (G _ _ _ Hb2 Hf2) as (x2 & y2 & X2 & Y2 & <- & <-).
    by apply (inv_id _ _ I h1 h2).
  - intros h1 h2 b1 b2 Hn Hb1 Hb2 El.
    apply list_lookup_insert_Some in Hb1 as [(-> & <- & Hlt)|(Hne & Hb1)];
    apply list_lookup_insert_Some in Hb2 as [(-> & <- & Hlt2)|(Hne2 & Hb2)]; simpl in *; try done.
    + by apply (inv_cow _ _ I h1 h2 b b2).
    + by apply (inv_cow _ _ I h1 h2 b1 b).
    + by apply (inv_cow _ _ I h1 h2 b1 b2).
Qed.

(** A handle alone on its storage may be given a family of its own. *)
Lemma fresh_INV w s h f : INV w s -> f_bufs s !! h = Some f -> exclusive w h ->
  INV w (FW (S (f_next s)) (<[h := Fam (f_next s) (f_q f)]> (f_bufs s))).
Proof.
  intros I Hf Hex. destruct (INV_both' w s h f I Hf) as [b Hb].
  destruct (inv_view _ _ I h b f Hb Hf) as (c & Hc & Hwf & Habs & Hcnt & Hid).
  split; simpl.
  - rewrite insert_length. apply I.
  - intros h1 b1 f1 Hb1 Hf1.
    apply list_lookup_insert_Some in Hf1 as [(-> & <- & Hlt)|(Hne & Hf1)]; simpl.
    + assert (b1 = b) as -> by congruence. exists c. split_and!; try done. lia.
    + destruct (inv_view _ _ I h1 b1 f1 Hb1 Hf1) as (c1 & ? & ? & ? & ? & ?). exists c1.
      split_and!; try done. lia.
  - intros h1 h2 b1 b2 f1 f2 Hb1 Hb2 Hf1 Hf2.
    apply list_lookup_insert_Some in Hf1 as [(-> & <- & Hlt)|(Hne & Hf1)];
    apply list_lookup_insert_Some in Hf2 as [(-> & <- & Hlt2)|(Hne2 & Hf2)]; simpl in *.
    + by simplify_eq.
    + assert (b1 = b) as -> by congruence. split; intros E.
      * by destruct (Hex b h2 b2 Hb (not_eq_sym Hne2) Hb2).
      * destruct (inv_view _ _ I h2 b2 f2 Hb2 Hf2) as (c2 & _ & _ & _ & _ & Hid2). lia.
    + assert (b2 = b) as -> by congruence. split; intros E.
      * by destruct (Hex b h1 b1 Hb (not_eq_sym Hne) Hb1).
      * destruct (inv_view _ _ I h1 b1 f1 Hb1 Hf1) as (c2 & _ & _ & _ & _ & Hid2). lia.
    + by apply (inv_id _ _ I h1 h2).
  - apply I.
Qed.

(** Clearing the flag of an exclusive handle. *)
Lemma clearf_INV w s h : INV w s -> exclusive w h -> INV (clearf w h) s.
Proof.
  intros I Hex. unfold clearf. destruct (bufs w !! h) as [b|] eqn:Hb; [|done].
  set (b0 := HB (h_res b) (h_rd b) (h_wr b) (h_loc b) false).
  assert (G : forall k bk, <[h := b0]> (bufs w) !! k = Some bk ->
              exists b1, bufs w !! k = Some b1 /\ h_loc b1 = h_loc bk /\ (forall c, vof bk c = vof b1 c)
                         /\ (k <> h -> b1 = bk)).
  { intros k bk Hk. apply list_lookup_insert_Some in Hk as [(-> & <- & Hlt)|(Hne & Hk)].
    - by exists b.
    - by exists bk. }
  split; simpl.
  - rewrite insert_length. apply I.
  - intros h1 b1 f1 Hb1 Hf1. rewrite (lcnt_same_loc w h b) by done.
    destruct (G _ _ Hb1) as (x & Hx & Ex & Ev & _). rewrite <- Ex.
    destruct (inv_view _ _ I h1 x f1 Hx Hf1) as (c1 & ? & ? & ? & ? & ?).
    exists c1. by rewrite Ev.
  - intros h1 h2 b1 b2 f1 f2 Hb1 Hb2 Hf1 Hf2.
    destruct (G _ _ Hb1) as (x1 & Hx1 & <- & _). destruct (G _ _ Hb2) as (x2 & Hx2 & <- & _).
    by apply (inv_id _ _ I h1 h2).
  - intros h1 h2 b1 b2 Hn Hb1 Hb2 El.
    destruct (G _ _ Hb1) as (x1 & Hx1 & E1 & _ & N1). destruct (G _ _ Hb2) as (x2 & Hx2 & E2 & _ & N2).
    destruct (decide (h1 = h)) as [->|N].
    { destruct (Hex x1 h2 x2 Hx1 (not_eq_sym Hn) Hx2). congruence. }
    rewrite <- (N1 N). apply (inv_cow _ _ I h1 h2 x1 x2); congruence.
Qed.

(** The copy made by the hook. *)
Lemma copied_abs b c : wf (vof b c) ->
  let st := Store (splice (replicate (scap (c_st c)) 0%Z) (h_rd b) (readable (vof b c))) (scap (c_st c)) in
  forall b1, h_res b1 = h_res b -> h_rd b1 = h_rd b -> h_wr b1 = h_wr b ->
  wf (vof b1 (Cell 1 st)) /\ absq (vof b1 (Cell 1 st)) = absq (vof b c).
Proof.
  intros Hwf st b1 E1 E2 E3. pose proof Hwf as (H1 & H2 & H3 & H4).
  pose proof (readable_length _ Hwf) as Lr. unfold v_rlen, v_cap in *. simpl in *.
  assert (Hs : scap st = scap (c_st c)).
  { unfold st, scap; simpl. rewrite splice_length; rewrite replicate_length; [done|].
    fold (scap (c_st c)). lia. }
  split.
  - unfold wf, v_cap; simpl. rewrite Hs, E1, E2, E3. unfold st; simpl. lia.
  - unfold absq, v_tlen, v_cap; simpl. rewrite Hs, E1, E2, E3. f_equal.
    unfold vof; simpl. rewrite E1, E2, E3.
    set (z := replicate (scap (c_st c)) 0%Z : list byte).
    assert (Lz : length z = scap (c_st c)) by apply replicate_length.
    apply (readable_eq _ _ _ _ _ (take (h_rd b) z) _ (drop (h_wr b) z)).
    + unfold splice. f_equal. f_equal. f_equal. lia.
    + rewrite take_length. lia.
    + rewrite take_length. unfold vof in Lr. lia.
Qed.

Lemma wrap32_small z : (- 2^31 <= z < 2^31)%Z -> wrap32 z = z.
Proof. intros H. unfold wrap32. rewrite Z.mod_small; lia. Qed.

(** The hook, in general. *)
Lemma resolve_INV w s h b c f :
  INV w s -> bufs w !! h = Some b -> cells w !! h_loc b = Some c -> f_bufs s !! h = Some f ->
  (Z.of_nat (length (bufs w)) < 2^31)%Z ->
  exists w1 b1 c1, h_resolve w h = Ok tt w1 /\ bufs w1 !! h = Some b1 /\ h_cow b1 = false
    /\ cells w1 !! h_loc b1 = Some c1 /\ absq (vof b1 c1) = absq (vof b c)
    /\ exclusive w1 h /\ length (bufs w1) = length (bufs w)
    /\ INV w1 (FW (S (f_next s)) (<[h := Fam (f_next s) (f_q f)]> (f_bufs s))).
Proof.
  intros I Hb Hc Hf Hsmall.
  destruct (inv_view _ _ I h b f Hb Hf) as (c' & Hc' & Hwf & Habs & Hcnt & Hid).
  assert (c' = c) as -> by congruence. clear Hc'.
  destruct (decide (refc c = 1%Z)) as [Hr|Hr].
  { (* alone *)
    assert (Hex : exclusive w h) by (by eapply exclusive_one).
    assert (I1 := clearf_INV w s h I Hex).
    assert (Hex1 : exclusive (clearf w h) h).
    { eapply exclusive_clear; [exact I1|by apply clearf_buf|done]. }
    exists (clearf w h), (HB (h_res b) (h_rd b) (h_wr b) (h_loc b) false), c.
    split; [by eapply resolve_one|]. split; [by apply clearf_buf|]. split; [done|].
    split; [by rewrite clearf_cells|]. split; [done|]. split; [done|].
    split; [unfold clearf; rewrite Hb; simpl; apply insert_length|].
    by apply fresh_INV. }
  (* shared: the flag is set and a copy is made *)
  assert (Hn : 2 <= lcnt (h_loc b) w).
  { pose proof (cnt_pos (on (h_loc b)) (bufs w) h b Hb eq_refl). unfold lcnt in *. lia. }
  destruct (cnt_two_inv (on (h_loc b)) (bufs w) h b Hn Hb eq_refl) as (j & y & Hj & Hy & Py).
  assert (Hcow : h_cow b = true) by (by eapply (inv_cow _ _ I h j b y)).
  unfold h_resolve. rewrite Hb, Hcow. simpl. rewrite Hc.
  destruct (refc c =? 1)%Z eqn:Er; [by apply Z.eqb_eq in Er|].
  assert (Erange : s_range (c_st c) (h_rd b) (h_wr b) = Some (readable (vof b c))).
  { exact (s_range_rdwr (vof b c) Hwf). }
  rewrite Erange.
  set (st := Store (splice (replicate (scap (c_st c)) 0%Z) (h_rd b) (readable (vof b c))) (scap (c_st c))).
  set (b1 := HB (h_res b) (h_rd b) (h_wr b) (length (cells w)) false).
  set (cs := <[h_loc b := Cell (wrap32 (refc c - 1)) (c_st c)]> (cells w)).
  set (w1 := World (cs ++ [Cell 1 st]) (<[h := b1]> (bufs w)) (S (copies w))).
  assert (Lcs : length cs = length (cells w)) by (unfold cs; apply insert_length).
  assert (Hb1 : bufs w1 !! h = Some b1).
  { unfold w1; simpl. apply list_lookup_insert. by apply lookup_lt_Some in Hb. }
  assert (Hc1 : cells w1 !! h_loc b1 = Some (Cell 1 st)).
  { unfold w1; simpl. rewrite <- Lcs. by apply list_lookup_middle. }
  destruct (copied_abs b c Hwf b1 eq_refl eq_refl eq_refl) as [Hwf1 Habs1].
  assert (Hlt : forall k bk, bufs w !! k = Some bk -> h_loc bk < length (cells w)).
  { intros k bk Hk. destruct (INV_both w s k bk I Hk) as [fk Hfk].
    destruct (inv_view _ _ I k bk fk Hk Hfk) as (ck & Hck & _). by apply lookup_lt_Some in Hck. }
  assert (Hex1 : exclusive w1 h).
  { intros b' h2 b2 Hb' Hne H2 El. rewrite Hb1 in Hb'. simplify_eq.
    unfold w1 in H2; simpl in H2. rewrite list_lookup_insert_ne in H2 by done.
    pose proof (Hlt h2 b2 H2). simpl in El. lia. }
  exists w1, b1, (Cell 1 st). split; [done|]. split; [done|]. split; [done|]. split; [done|].
  split; [exact Habs1|]. split; [done|]. split; [unfold w1; simpl; apply insert_length|].
  (* counts *)
  assert (Hle : lcnt (h_loc b) w <= length (bufs w)).
  { unfold lcnt, cnt. apply filter_length. }
  assert (Cold : forall l, l <> length (cells w) ->
             lcnt l w1 + (if decide (h_loc b = l) then 1 else 0) = lcnt l w).
  { intros l Hl. unfold lcnt, w1; simpl.
    pose proof (cnt_insert (on l) (bufs w) h b b1 Hb) as E.
    destruct (decide (on l b1)) as [D|D]; [unfold on in D; simpl in D; lia|].
    destruct (decide (on l b)), (decide (h_loc b = l)); unfold on in *; try lia; done. }
  assert (Cnew : lcnt (length (cells w)) w1 = 1).
  { unfold lcnt, w1; simpl.
    pose proof (cnt_insert (on (length (cells w))) (bufs w) h b b1 Hb) as E.
    rewrite (decide_True (P := on (length (cells w)) b1)) in E by done.
    destruct (decide (on (length (cells w)) b)) as [D|D].
    { unfold on in D. pose proof (Hlt h b Hb). lia. }
    assert (cnt (on (length (cells w))) (bufs w) = 0); [|lia].
    unfold cnt. destruct (filter _ (bufs w)) as [|z zs] eqn:Ez; [done|].
    assert (Hz : z ∈ filter (on (length (cells w))) (bufs w)) by (rewrite Ez; left).
    apply elem_of_list_filter in Hz as [Pz Hz]. apply elem_of_list_lookup in Hz as [k Hk].
    pose proof (Hlt k z Hk). unfold on in Pz. lia. }
  split.
  - unfold w1; simpl. rewrite !insert_length. apply I.
  - intros h2 b2 f2 Hb2 Hf2. simpl in Hf2 |- *.
    destruct (decide (h2 = h)) as [->|Hne].
    + rewrite Hb1 in Hb2. injection Hb2 as <-.
      rewrite list_lookup_insert in Hf2 by (by apply lookup_lt_Some in Hf). injection Hf2 as <-.
      exists (Cell 1 st). split; [exact Hc1|]. split; [exact Hwf1|].
      split; [simpl; rewrite <- Habs; exact Habs1|]. simpl. rewrite Cnew. simpl. lia.
    + unfold w1 in Hb2; simpl in Hb2. rewrite list_lookup_insert_ne in Hb2 by done. rewrite list_lookup_insert_ne in Hf2 by done.
      destruct (inv_view _ _ I h2 b2 f2 Hb2 Hf2) as (c2 & Hc2 & Hwf2 & Habs2 & Hcnt2 & Hid2).
      pose proof (Hlt h2 b2 Hb2) as Hl2. pose proof (Cold (h_loc b2) ltac:(lia)) as HC.
      destruct (decide (h_loc b = h_loc b2)) as [El|El].
      * rewrite <- El in Hc2. assert (c2 = c) as -> by congruence.
        exists (Cell (wrap32 (refc c - 1)) (c_st c)). split.
        { simpl. rewrite lookup_app_l by lia. rewrite <- El. unfold cs.
          apply list_lookup_insert. rewrite El. done. }
        simpl. split; [exact Hwf2|]. split; [exact Habs2|]. split; [|lia].
        rewrite wrap32_small by lia. rewrite Hcnt2. lia.
      * exists c2. split.
        { simpl. rewrite lookup_app_l by lia. unfold cs. by rewrite list_lookup_insert_ne. }
        split; [done|]. split; [done|]. split; [|lia]. rewrite Hcnt2. f_equal. lia.
  - intros h2 h3 b2 b3 f2 f3 Hb2 Hb3 Hf2 Hf3. unfold w1 in Hb2, Hb3; simpl in *.
    assert (Hidlt : forall k fk, f_bufs s !! k = Some fk -> f_id fk < f_next s).
    { intros k fk Hfk. destruct (INV_both' w s k fk I Hfk) as [bk Hbk].
      by destruct (inv_view _ _ I k bk fk Hbk Hfk) as (ck & _ & _ & _ & _ & Hk). }
    apply list_lookup_insert_Some in Hb2 as [(-> & <- & Hlt2)|(Hne2 & Hb2)];
    apply list_lookup_insert_Some in Hb3 as [(-> & <- & Hlt3)|(Hne3 & Hb3)].
    + by simplify_eq.
    + rewrite list_lookup_insert in Hf2 by (by apply lookup_lt_Some in Hf).
      rewrite list_lookup_insert_ne in Hf3 by done. simplify_eq. simpl.
      pose proof (Hlt h3 b3 Hb3). pose proof (Hidlt h3 f3 Hf3). lia.
    + rewrite list_lookup_insert in Hf3 by (by apply lookup_lt_Some in Hf).
      rewrite list_lookup_insert_ne in Hf2 by done. simplify_eq. simpl.
      pose proof (Hlt h2 b2 Hb2). pose proof (Hidlt h2 f2 Hf2). lia.
    + rewrite list_lookup_insert_ne in Hf2, Hf3 by done. by apply (inv_id _ _ I h2 h3).
  - intros h2 h3 b2 b3 Hn23 Hb2 Hb3 El. unfold w1 in Hb2, Hb3; simpl in *.
    apply list_lookup_insert_Some in Hb2 as [(-> & <- & Hlt2)|(Hne2 & Hb2)];
    apply list_lookup_insert_Some in Hb3 as [(-> & <- & Hlt3)|(Hne3 & Hb3)]; try done; simpl in El.
    + pose proof (Hlt h3 b3 Hb3). lia.
    + pose proof (Hlt h2 b2 Hb2). lia.
    + by apply (inv_cow _ _ I h2 h3 b2 b3).
Qed.

Lemma new_INV w s v : INV w s -> wf v ->
  INV (new_buf w v) (FW (S (f_next s)) (f_bufs s ++ [Fam (f_next s) (absq v)])).
Proof.
  intros I Hwf.
  assert (Hlt : forall k bk, bufs w !! k = Some bk -> h_loc bk < length (cells w)).
  { intros k bk Hk. destruct (INV_both w s k bk I Hk) as [fk Hfk].
    destruct (inv_view _ _ I k bk fk Hk Hfk) as (ck & Hck & _). by apply lookup_lt_Some in Hck. }
  set (b1 := HB (v_res v) (v_rd v) (v_wr v) (length (cells w)) false).
  assert (Hl : length (bufs w) = length (f_bufs s)) by apply I.
  assert (S1 : forall k bk, (bufs w ++ [b1]) !! k = Some bk ->
            bufs w !! k = Some bk \/ k = length (bufs w) /\ bk = b1).
  { intros k bk Hk. apply lookup_app_Some in Hk as [Hk|[Hk1 Hk2]]; [by left|right].
    apply list_lookup_singleton_Some in Hk2 as [E <-]. split; [lia|done]. }
  assert (S2 : forall k fk, (f_bufs s ++ [Fam (f_next s) (absq v)]) !! k = Some fk ->
            f_bufs s !! k = Some fk \/ k = length (bufs w) /\ fk = Fam (f_next s) (absq v)).
  { intros k fk Hk. apply lookup_app_Some in Hk as [Hk|[Hk1 Hk2]]; [by left|right].
    apply list_lookup_singleton_Some in Hk2 as [E <-]. split; [lia|done]. }
  assert (Hidlt : forall k fk, f_bufs s !! k = Some fk -> f_id fk < f_next s).
  { intros k fk Hfk. destruct (INV_both' w s k fk I Hfk) as [bk Hbk].
    by destruct (inv_view _ _ I k bk fk Hbk Hfk) as (ck & _ & _ & _ & _ & Hk). }
  assert (Bnd : forall k bk, bufs w !! k = Some bk -> k <> length (bufs w)).
  { intros k bk Hk. apply lookup_lt_Some in Hk. lia. }
  assert (Bnd2 : forall k bk, f_bufs s !! k = Some bk -> k <> length (bufs w)).
  { intros k bk Hk. apply lookup_lt_Some in Hk. lia. }
  split; unfold new_buf; simpl; fold b1.
  - rewrite !app_length. simpl. lia.
  - intros h b f Hb Hf. unfold lcnt; simpl. rewrite cnt_app, cnt_cons.
    destruct (S1 _ _ Hb) as [Hb'|[-> ->]], (S2 _ _ Hf) as [Hf'|[E ->]].
    + destruct (inv_view _ _ I h b f Hb' Hf') as (c & Hc & H1 & H2 & H3 & H4).
      exists c. split; [by apply lookup_app_l_Some|]. split; [done|]. split; [done|]. split; [|lia].
      pose proof (Hlt _ _ Hb'). destruct (decide (on (h_loc b) b1)) as [D|D]; [unfold on in D; simpl in D; lia|].
      rewrite H3. unfold lcnt, cnt at 3. simpl. lia.
    + by destruct (Bnd _ _ Hb').
    + by destruct (Bnd2 _ _ Hf').
    + exists (Cell 1 (v_st v)). simpl. split; [by apply list_lookup_middle|].
      split; [by destruct v|]. split; [by destruct v|]. split; [|lia].
      rewrite decide_True by done.
      assert (cnt (on (length (cells w))) (bufs w) = 0) as ->; [|done].
      unfold cnt. destruct (filter _ (bufs w)) as [|z zs] eqn:Ez; [done|].
      assert (Hz : z ∈ filter (on (length (cells w))) (bufs w)) by (rewrite Ez; left).
      apply elem_of_list_filter in Hz as [Pz Hz]. apply elem_of_list_lookup in Hz as [k Hk].
      pose proof (Hlt k z Hk). unfold on in Pz. lia.
  - intros h1 h2 x1 x2 f1 f2 Hb1 Hb2 Hf1 Hf2.
    destruct (S1 _ _ Hb1) as [Hb1'|[-> ->]], (S2 _ _ Hf1) as [Hf1'|[E1 ->]];
      [|by destruct (Bnd _ _ Hb1')|by destruct (Bnd2 _ _ Hf1')|];
    (destruct (S1 _ _ Hb2) as [Hb2'|[-> ->]], (S2 _ _ Hf2) as [Hf2'|[E2 ->]];
      [|by destruct (Bnd _ _ Hb2')|by destruct (Bnd2 _ _ Hf2')|]); simpl.
    + by apply (inv_id _ _ I h1 h2).
    + pose proof (Hlt _ _ Hb1'). pose proof (Hidlt _ _ Hf1'). lia.
    + pose proof (Hlt _ _ Hb2'). pose proof (Hidlt _ _ Hf2'). lia.
    + done.
  - intros h1 h2 x1 x2 Hn Hb1 Hb2 El.
    destruct (S1 _ _ Hb1) as [Hb1'|[-> ->]], (S1 _ _ Hb2) as [Hb2'|[E2 ->]]; simpl in *.
    + by apply (inv_cow _ _ I h1 h2 x1 x2).
    + pose proof (Hlt _ _ Hb1'). lia.
    + pose proof (Hlt _ _ Hb2'). lia.
    + lia.
Qed.

Lemma snap_cow_INV w s h b c f :
  INV w s -> bufs w !! h = Some b -> cells w !! h_loc b = Some c -> f_bufs s !! h = Some f ->
  (Z.of_nat (length (bufs w)) < 2^31 - 1)%Z ->
  let b1 := HB (h_res b) (h_rd b) (h_wr b) (h_loc b) true in
  INV (World (<[h_loc b := Cell (wrap32 (refc c + 1)) (c_st c)]> (cells w))
             (<[h := b1]> (bufs w) ++ [b1]) (copies w))
      (FW (f_next s) (f_bufs s ++ [f])).
Proof.
  intros I Hb Hc Hf Hsmall b1.
  destruct (inv_view _ _ I h b f Hb Hf) as (c' & Hc' & Hwf & Habs & Hcnt & Hid).
  assert (c' = c) as -> by congruence. clear Hc'.
  assert (Hl : length (bufs w) = length (f_bufs s)) by apply I.
  assert (Hle : lcnt (h_loc b) w <= length (bufs w)) by (unfold lcnt, cnt; apply filter_length).
  (* every new handle comes from an old one with the same location, view and family *)
  assert (G : forall k bk fk, (<[h := b1]> (bufs w) ++ [b1]) !! k = Some bk ->
              (f_bufs s ++ [f]) !! k = Some fk ->
              exists k0 b0, bufs w !! k0 = Some b0 /\ f_bufs s !! k0 = Some fk /\ h_loc b0 = h_loc bk
                            /\ (forall c, vof bk c = vof b0 c)
                            /\ (k = k0 \/ k = length (bufs w) /\ k0 = h)
                            /\ (h_cow bk = true \/ k = k0 /\ bk = b0 /\ k <> h)).
  { intros k bk fk Hk Hfk. apply lookup_app_Some in Hk as [Hk|[Hk1 Hk2]].
    - rewrite lookup_app_l in Hfk.
      2:{ apply lookup_lt_Some in Hk. rewrite insert_length in Hk. lia. }
      apply list_lookup_insert_Some in Hk as [(<- & <- & Hlt)|(Hne & Hk)].
      + simplify_eq. exists h, b. repeat split; auto.
      + exists k, bk. repeat split; auto.
    - rewrite insert_length in *. apply list_lookup_singleton_Some in Hk2 as [E <-].
      rewrite lookup_app_r in Hfk by lia. rewrite <- Hl, E in Hfk. simpl in Hfk. simplify_eq.
      exists h, b. repeat split; auto. right. split; [lia|done]. }
  assert (C : forall l, lcnt l (World (<[h_loc b := Cell (wrap32 (refc c + 1)) (c_st c)]> (cells w))
                                  (<[h := b1]> (bufs w) ++ [b1]) (copies w))
              = lcnt l w + (if decide (h_loc b = l) then 1 else 0)).
  { intros l. unfold lcnt; simpl. rewrite cnt_app, cnt_cons.
    pose proof (cnt_insert (on l) (bufs w) h b b1 Hb) as E.
    assert (cnt (on l) [] = 0) by done.
    destruct (decide (on l b)), (decide (on l b1)), (decide (h_loc b = l)); unfold on in *; simpl in *; lia. }
  split; simpl.
  - rewrite !app_length, insert_length. simpl. lia.
  - intros h2 b2 f2 Hb2 Hf2. rewrite C.
    destruct (G _ _ _ Hb2 Hf2) as (k0 & b0 & Hk0 & Hf0 & El & Ev & _ & _). rewrite <- El.
    destruct (inv_view _ _ I k0 b0 f2 Hk0 Hf0) as (c2 & Hc2 & Hwf2 & Habs2 & Hcnt2 & Hid2).
    destruct (decide (h_loc b = h_loc b0)) as [E0|E0].
    + rewrite <- E0 in *. assert (c2 = c) as -> by congruence. eexists. split.
      { apply list_lookup_insert. by apply lookup_lt_Some in Hc2. }
      unfold vof. simpl. specialize (Ev c). unfold vof in *. rewrite Ev.
      split; [done|]. split; [done|]. split; [|done].
      rewrite wrap32_small by lia. lia.
    + exists c2. rewrite list_lookup_insert_ne by done. rewrite Ev.
      split; [done|]. split; [done|]. split; [done|]. split; [|done]. rewrite Hcnt2. f_equal. lia.
  - intros h1 h2 x1 x2 f1 f2 Hb1 Hb2 Hf1 Hf2.
    destruct (G _ _ _ Hb1 Hf1) as (k1 & y1 & Hk1 & Hg1 & <- & _).
    destruct (G _ _ _ Hb2 Hf2) as (k2 & y2 & Hk2 & Hg2 & <- & _).
    by apply (inv_id _ _ I k1 k2).
  - intros h1 h2 x1 x2 Hn Hb1 Hb2 El.
    assert (F : forall k bk, (<[h := b1]> (bufs w) ++ [b1]) !! k = Some bk -> exists fk, (f_bufs s ++ [f]) !! k = Some fk).
    { intros k bk Hk. apply lookup_lt_is_Some. apply lookup_lt_Some in Hk.
      rewrite app_length in *. rewrite insert_length in Hk. simpl in *. lia. }
    destruct (F _ _ Hb1) as [f1 Hf1]. destruct (F _ _ Hb2) as [f2 Hf2].
    destruct (G _ _ _ Hb1 Hf1) as (k1 & y1 & Hk1 & Hg1 & E1 & _ & P1 & [Q1|(Q1 & R1 & S1)]); [done|].
    subst k1 y1.
    destruct (G _ _ _ Hb2 Hf2) as (k2 & y2 & Hk2 & Hg2 & E2 & _ & P2 & _).
    destruct (decide (k2 = h1)) as [->|Hne].
    + (* k2 = h1 and h2 <> h1: then h2 is the new handle and h1 = h *)
      destruct P2 as [->|[_ ->]]; done.
    + apply (inv_cow _ _ I h1 k2 x1 y2); try done; congruence.
Qed.

(** ** One call preserves the correspondence *)
Lemma lookup_insert_same {A} (l : list A) i x y : l !! i = Some x -> <[i:=y]> l !! i = Some y.
Proof. intros H. apply list_lookup_insert. by apply lookup_lt_Some in H. Qed.

Theorem w_step_refines o w s :
  INV w s -> (Z.of_nat (length (bufs w)) < 2^31 - 1)%Z -> wop_ok o s ->
  exists x w' s', f_step o s = Some (x, s') /\ w_step o w = Ok x w' /\ INV w' s'
                  /\ length (bufs w') <= S (length (bufs w)).
Proof.
  intros I Hsmall Hok. assert (Hl : length (bufs w) = length (f_bufs s)) by apply I.
  destruct o as [cp r|d r|[h|] t|h o]; simpl in Hok.
  - (* alloc *)
    destruct (alloc_some cp r Hok) as [v Hv].
    destruct (alloc_wf cp r v Hv) as (Hwf & Habs & _).
    simpl. rewrite Hv.
    assert (((0 <? cp) && (0 <=? r) && (r <=? cp))%Z = true) as ->.
    { rewrite !andb_true_iff, Z.ltb_lt, !Z.leb_le. lia. }
    do 3 eexists. split; [reflexivity|]. rewrite Hl. split; [reflexivity|]. split.
    + rewrite <- Habs. by apply new_INV.
    + simpl. rewrite app_length. simpl. lia.
  - done.
  - (* snapshot *)
    destruct Hok as [Hh Ht]. destruct (lookup_lt_is_Some_2 _ _ Hh) as [f Hf].
    destruct (INV_both' w s h f I Hf) as [b Hb].
    destruct (inv_view _ _ I h b f Hb Hf) as (c & Hc & Hwf & Habs & Hcnt & Hid).
    simpl. rewrite Hf. unfold h_snapshot. rewrite Hb.
    destruct (t =? 0)%Z eqn:E0; [apply Z.eqb_eq in E0; done|]. rewrite Hc.
    destruct (t =? 1)%Z eqn:E1.
    { do 3 eexists. split; [reflexivity|]. simpl. rewrite Hl. split; [reflexivity|]. split.
      - by apply snap_cow_INV.
      - simpl. rewrite app_length, insert_length. simpl. lia. }
    destruct (t =? 2)%Z eqn:E2.
    { assert (s_range (c_st c) (h_rd b) (h_wr b) = Some (readable (vof b c))) as ->
        by exact (s_range_rdwr (vof b c) Hwf).
      do 3 eexists. split; [reflexivity|]. simpl. rewrite Hl. split; [reflexivity|]. split.
      - destruct (copied_abs b c Hwf b eq_refl eq_refl eq_refl) as [Hwf1 Habs1].
        rewrite <- Habs, <- Habs1. by apply new_INV.
      - simpl. rewrite app_length. simpl. lia. }
    do 3 eexists. split; [reflexivity|]. simpl. split; [reflexivity|]. split; [done|lia].
  - simpl. do 3 eexists. split; [reflexivity|]. split; [reflexivity|]. split; [done|lia].
  - (* a call *)
    destruct Hok as (Hop & f & Hf & Hhead).
    destruct (INV_both' w s h f I Hf) as [b Hb].
    destruct (inv_view _ _ I h b f Hb Hf) as (c & Hc & Hwf & Habs & Hcnt & Hid).
    simpl. rewrite Hf. destruct (q_step o (f_q f)) as [x q'] eqn:Eq.
    destruct (writes o (f_q f)) eqn:Ew.
    + (* it writes: first get exclusive storage with a clear flag *)
      assert (exists w1 b1 c1, h_step o w h = h_step o w1 h /\ bufs w1 !! h = Some b1 /\ h_cow b1 = false
                /\ cells w1 !! h_loc b1 = Some c1 /\ absq (vof b1 c1) = f_q f /\ exclusive w1 h
                /\ length (bufs w1) = length (bufs w)
                /\ INV w1 (FW (S (f_next s)) (<[h := Fam (f_next s) (f_q f)]> (f_bufs s)))) as G.
      { destruct (is_headwrite o) eqn:Eh.
        - assert (Hex : exclusive w h) by (by eapply not_shared_exclusive; [exact I|apply Hhead]).
          assert (Hr : refc c = 1%Z) by (by eapply exclusive_cnt).
          destruct (resolve_INV w s h b c f I Hb Hc Hf ltac:(lia)) as (w1 & b1 & c1 & H1 & H2 & H3 & H4 & H5 & H6 & H7 & H8).
          rewrite (resolve_one w h b c Hb Hc Hr) in H1. injection H1 as <-.
          exists (clearf w h), b1, c1. rewrite Habs in H5. split; [|done].
          apply (h_step_clear w h b c); try done. by rewrite Habs.
        - destruct (resolve_INV w s h b c f I Hb Hc Hf ltac:(lia)) as (w1 & b1 & c1 & H1 & H2 & H3 & H4 & H5 & H6 & H7 & H8).
          exists w1, b1, c1. split; [|rewrite Habs in H5; done].
          apply (h_step_resolve w h b c); try done.
          + by rewrite Habs.
          + by apply (resolve_clear w1 h b1).
          + exists (vof b1 c1). split; [by apply view_eq|]. 
            assert (q_tail (absq (vof b1 c1)) = q_tail (absq (vof b c))) as E by (by rewrite H5). exact E. }
      destruct G as (w1 & b1 & c1 & -> & Hb1 & Hcow1 & Hc1 & Habs1 & Hex1 & Hl1 & I1).
      rewrite (h_step_owned w1 h b1 c1 o Hb1 Hc1 Hcow1).
      assert (Hf1 : <[h:=Fam (f_next s) (f_q f)]> (f_bufs s) !! h = Some (Fam (f_next s) (f_q f)))
        by (by eapply lookup_insert_same).
      destruct (inv_view _ _ I1 h b1 _ Hb1 Hf1) as (c1' & Hc1' & Hwf1 & _).
      assert (c1' = c1) as -> by congruence. clear Hc1'.
      destruct (v_step_refines o (vof b1 c1) Hwf1 Hop) as (v' & Ev & Hwf' & Habs').
      rewrite Ev, Habs1, Eq. simpl. rewrite Habs1, Eq in Habs'. simpl in Habs'.
      do 3 eexists. split; [reflexivity|]. split; [reflexivity|]. split.
      * pose proof (put_INV w1 _ h b1 c1 _ v' I1 Hb1 Hc1 Hf1 Hwf' (or_intror Hex1)) as I2.
        simpl in I2. rewrite list_insert_insert in I2. rewrite Habs' in I2. exact I2.
      * rewrite (put_eq w1 h b1 c1) by done. simpl. rewrite insert_length. lia.
    + (* it writes nothing *)
      rewrite <- Habs in Ew.
      destruct (h_step_nowrite w h b c o Hb Hc Hwf Ew) as [E1 E2]. rewrite E1.
      destruct (v_step_refines o (vof b c) Hwf Hop) as (v' & Ev & Hwf' & Habs').
      rewrite Ev in *. simpl in E2. rewrite Habs, Eq in *. simpl in *.
      do 3 eexists. split; [reflexivity|]. split; [reflexivity|]. split.
      * pose proof (put_INV w _ h b c _ v' I Hb Hc Hf Hwf' (or_introl E2)) as I2.
        rewrite Habs' in I2. exact I2.
      * rewrite (put_eq w h b c) by done. simpl. rewrite insert_length. lia.
Qed.

Theorem w_run_refines ops w s :
  INV w s -> (Z.of_nat (length (bufs w) + length ops) < 2^31)%Z -> history_ok ops s ->
  exists xs w' s', f_run ops s = Some (xs, s') /\ w_run ops w = (Some <$> xs, w') /\ INV w' s'.
Proof.
  revert w s. induction ops as [|o ops IH]; intros w s I Hsmall Hok; simpl in *.
  - exists [], w, s. done.
  - destruct Hok as [Ho Hrest].
    destruct (w_step_refines o w s I ltac:(lia) Ho) as (x & w1 & s1 & E1 & E2 & I1 & L1).
    rewrite E1 in *. rewrite E2.
    destruct (IH w1 s1 I1 ltac:(lia) Hrest) as (xs & w2 & s2 & E3 & E4 & I2).
    rewrite E3, E4. by exists (x :: xs), w2, s2.
Qed.
