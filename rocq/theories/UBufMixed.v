(** * Copy-on-write snapshots in histories that also make Reference snapshots *)
From Verif Require Import GoBase UBufModel UBufSpec UBufProofs UBufHeapProofs UBufFacts UBufHeapFacts.
From stdpp Require Import sets list.

(** ** What a call does to the heap *)
(** Only the cursors of the handle move. *)
Definition quiet (w : world) (h : nat) (w' : world) : Prop :=
  w' = w \/ exists b c r i j, bufs w !! h = Some b /\ cells w !! h_loc b = Some c /\
    w' = World (cells w) (<[h := HB r i j (h_loc b) (h_cow b)]> (bufs w)) (copies w).

(** The handle ends with its mark clear: it had none, or it was the last, or it
    moved to a copy. *)
Definition ready (w : world) (h : nat) (w' : world) : Prop :=
  exists b c, bufs w !! h = Some b /\ cells w !! h_loc b = Some c /\
  ((exists r i j st, (h_cow b = false \/ refc c = 1%Z) /\
      w' = World (<[h_loc b := Cell (refc c) st]> (cells w))
                 (<[h := HB r i j (h_loc b) false]> (bufs w)) (copies w)) \/
   (exists r i j st, h_cow b = true /\ refc c <> 1%Z /\
      w' = World (<[h_loc b := Cell (wrap32 (refc c - 1)) (c_st c)]> (cells w) ++ [Cell 1 st])
                 (<[h := HB r i j (length (cells w)) false]> (bufs w)) (S (copies w)))).

(** The hook gives up its reference and fails. *)
Definition lost (w : world) (h : nat) (w' : world) : Prop :=
  exists b c r i j, bufs w !! h = Some b /\ cells w !! h_loc b = Some c /\ h_cow b = true /\ refc c <> 1%Z /\
    w' = World (<[h_loc b := Cell (wrap32 (refc c - 1)) (c_st c)]> (cells w))
               (<[h := HB r i j (h_loc b) false]> (bufs w)) (copies w).

Definition acts {A} (w : world) (h : nat) (r : res world A) : Prop :=
  match r with
  | Ok _ w' => quiet w h w' \/ ready w h w'
  | Panic w' => quiet w h w' \/ ready w h w' \/ lost w h w'
  end.

Lemma acts_rmap {A B} (f : A -> B) w h (r : res world A) : acts w h r -> acts w h (rmap f r).
Proof. by destruct r. Qed.

Lemma quiet_refl w h : quiet w h w.
Proof. by left. Qed.

(** Storing anything through a handle that is ready. *)
Lemma ready_put w h w' v : ready w h w' -> ready w h (put w' h v).
Proof.
  intros (b & c & Hb & Hc & [(r & i & j & st & Hm & ->)|(r & i & j & st & Hm & Hr & ->)]);
    exists b, c; split; [done| |done|]; split; [done| |done|].
  - left. exists (v_res v), (v_rd v), (v_wr v), (v_st v). split; [done|].
    unfold put; simpl. rewrite (lkins _ _ _ _ Hb); simpl. rewrite (lkins _ _ _ _ Hc); simpl.
    by rewrite !list_insert_insert.
  - right. exists (v_res v), (v_rd v), (v_wr v), (v_st v). split; [done|]. split; [done|].
    unfold put; simpl. rewrite (lkins _ _ _ _ Hb); simpl.
    set (cs := <[h_loc b:=_]> (cells w)).
    assert (Lcs : length cs = length (cells w)) by apply insert_length.
    assert (E : (cs ++ [Cell 1 st]) !! length (cells w) = Some (Cell 1 st)).
    { rewrite <- Lcs. by apply list_lookup_middle. }
    rewrite E; simpl. rewrite list_insert_insert. f_equal.
    rewrite <- Lcs. rewrite insert_app_r_alt by lia. by rewrite Nat.sub_diag.
Qed.

(** Storing the same bytes. *)
Lemma quiet_put w h b c v : bufs w !! h = Some b -> cells w !! h_loc b = Some c -> v_st v = c_st c ->
  quiet w h (put w h v).
Proof.
  intros Hb Hc Hs. right. exists b, c, (v_res v), (v_rd v), (v_wr v). split; [done|]. split; [done|].
  rewrite (put_eq w h b c v Hb Hc). f_equal. apply list_insert_id. rewrite Hc, Hs. by destruct c.
Qed.

(** A step that follows one that only moved cursors. *)
Lemma quiet_trans w h w1 w2 : quiet w h w1 -> quiet w1 h w2 -> quiet w h w2.
Proof.
  intros [->|(b & c & r & i & j & Hb & Hc & ->)]; [done|].
  intros [->|(b' & c' & r' & i' & j' & Hb' & Hc' & ->)].
  - right. exists b, c, r, i, j. done.
  - simpl in *. rewrite (lkins _ _ _ _ Hb) in Hb'. injection Hb' as <-. simpl in *.
    right. exists b, c, r', i', j'. rewrite list_insert_insert. done.
Qed.
Lemma quiet_ready w h w1 w2 : quiet w h w1 -> ready w1 h w2 -> ready w h w2.
Proof.
  intros [->|(b & c & r & i & j & Hb & Hc & ->)]; [done|].
  intros (b' & c' & Hb' & Hc' & D). simpl in *. rewrite (lkins _ _ _ _ Hb) in Hb'. injection Hb' as <-. simpl in *.
  assert (c' = c) as -> by congruence. exists b, c. split; [done|]. split; [done|].
  destruct D as [(r' & i' & j' & st & Hm & ->)|(r' & i' & j' & st & Hm & Hr & ->)].
  - left. exists r', i', j', st. by rewrite list_insert_insert.
  - right. exists r', i', j', st. by rewrite list_insert_insert.
Qed.
Lemma quiet_lost w h w1 w2 : quiet w h w1 -> lost w1 h w2 -> lost w h w2.
Proof.
  intros [->|(b & c & r & i & j & Hb & Hc & ->)]; [done|].
  intros (b' & c' & r' & i' & j' & Hb' & Hc' & Hm & Hr & ->).
  simpl in *. rewrite (lkins _ _ _ _ Hb) in Hb'. injection Hb' as <-. simpl in *.
  assert (c' = c) as -> by congruence. exists b, c, r', i', j'. by rewrite list_insert_insert.
Qed.
Lemma quiet_acts {A} w h w1 (r : res world A) : quiet w h w1 -> acts w1 h r -> acts w h r.
Proof.
  intros Q. destruct r as [a w'|w']; simpl.
  - intros [H|H]; [left; by eapply quiet_trans|right; by eapply quiet_ready].
  - intros [H|[H|H]]; [left; by eapply quiet_trans|right; left; by eapply quiet_ready|right; right; by eapply quiet_lost].
Qed.

Lemma resolve_acts w h : match h_resolve w h with
  | Ok _ w' => (exists b, bufs w !! h = Some b) -> (exists v, view w h = Some v) -> ready w h w'
  | Panic w' => quiet w h w' \/ lost w h w'
  end.
Proof.
  unfold h_resolve. destruct (bufs w !! h) as [b|] eqn:Hb; [|by left; left].
  destruct (h_cow b) eqn:Hm; simpl.
  2: { intros _ [v Hv]. unfold view in Hv. rewrite Hb in Hv. destruct (cells w !! h_loc b) as [c|] eqn:Hc; [|done].
       exists b, c. split; [done|]. split; [done|]. left. exists (h_res b), (h_rd b), (h_wr b), (c_st c). split; [by left|].
       rewrite !list_insert_id; [by destruct w|rewrite Hb; by destruct b; simpl in *; subst|rewrite Hc; by destruct c]. }
  destruct (cells w !! h_loc b) as [c|] eqn:Hc; [|by left; left].
  destruct (refc c =? 1)%Z eqn:E.
  - intros _ _. apply Z.eqb_eq in E. exists b, c. split; [done|]. split; [done|]. left. exists (h_res b), (h_rd b), (h_wr b), (c_st c).
    split; [by right|]. f_equal. symmetry. apply list_insert_id. rewrite Hc. by destruct c.
  - apply Z.eqb_neq in E. destruct (s_range _ _ _) as [src|]; simpl.
    + intros _ _. exists b, c. split; [done|]. split; [done|]. right. eauto 10.
    + right. exists b, c. eauto 10.
Qed.

Lemma resolve_then_acts {A} (f : vbuf -> res vbuf A) w h v : view w h = Some v ->
  acts w h (rbind (h_resolve w h) (fun _ w1 => liftv f w1 h)).
Proof.
  intros Hv. pose proof (resolve_acts w h) as R.
  assert (Hb : exists b, bufs w !! h = Some b).
  { unfold view in Hv. destruct (bufs w !! h) as [b|]; [by exists b|done]. }
  destruct (h_resolve w h) as [[] w1|w1]; simpl.
  - specialize (R Hb (ex_intro _ v Hv)). unfold liftv. destruct (view w1 h) as [v1|]; simpl; [|by right; left].
    destruct (f v1) as [a v2|v2]; simpl; [right|right; left]; by apply ready_put.
  - destruct R as [R|R]; [by left|by right; right].
Qed.

Lemma writebyte_acts x w h : acts w h (h_writebyte x w h).
Proof.
  unfold h_writebyte. destruct (view w h) as [v|] eqn:Hv; [|by left; left].
  destruct (v_tlen v =? 0); [by left; left|]. by apply (resolve_then_acts _ w h v).
Qed.
Lemma write_acts p w h : acts w h (h_write p w h).
Proof.
  unfold h_write. destruct (view w h) as [v|] eqn:Hv; [|by left; left].
  destruct (v_tlen v =? 0); [by left; left|]. by apply (resolve_then_acts _ w h v).
Qed.
Lemma write_err_acts p w h : acts w h (h_write_err p w h).
Proof. unfold h_write_err. apply acts_rmap, write_acts. Qed.
Lemma writeU_acts o wd x w h : acts w h (h_writeU o wd x w h).
Proof.
  unfold h_writeU. destruct (view w h) as [v|] eqn:Hv; [|by left; left].
  destruct (v_tlen v <? wbytes wd); [by left; left|]. apply write_err_acts.
Qed.
Lemma readfrom_acts r w h : acts w h (h_readfrom r w h).
Proof.
  unfold h_readfrom. destruct (view w h) as [v|] eqn:Hv; [|by left; left].
  destruct (v_tlen v =? 0); [by left; left|]. by apply (resolve_then_acts _ w h v).
Qed.
Lemma writehead_acts d fn w h :
  (forall w', acts w' h (fn w' h)) -> acts w h (h_writehead d fn w h).
Proof.
  intros Hfn. unfold h_writehead, view at 1.
  destruct (bufs w !! h) as [b|] eqn:Hb; [|by left; left].
  destruct (cells w !! h_loc b) as [c|] eqn:Hc; [|by left; left]. simpl.
  destruct (h_rd b <? d); [by left; left|].
  set (v1 := set_wr _ _). specialize (Hfn (put w h v1)).
  assert (Q : quiet w h (put w h v1)) by (by apply (quiet_put w h b c)).
  apply (quiet_acts _ _ _ _ Q) in Hfn.
  destruct (fn (put w h v1) h) as [e w1|w1]; simpl in *; [|done].
  destruct (view w1 h) as [v2|] eqn:Hv2; simpl; [|tauto].
  destruct Hfn as [Q1|R]; [left|right; by apply ready_put].
  eapply quiet_trans; [exact Q1|]. unfold view in Hv2.
  destruct (bufs w1 !! h) as [b1|] eqn:Hb1; [|done]. destruct (cells w1 !! h_loc b1) as [c1|] eqn:Hc1; [|done].
  injection Hv2 as <-. eapply quiet_put; [done|done|]. by destruct e.
Qed.

(** Calls that do not write leave the bytes alone. *)
Lemma v_read_st n v : v_st (state_of (v_read n v)) = v_st v.
Proof. unfold v_read. repeat (case_match; simpl; try done). Qed.
Lemma v_readfull_st k : forall n acc v r, v_readfull k n acc v = Some r -> v_st (state_of r) = v_st v.
Proof.
  induction k as [|k IH]; intros n acc v r; simpl; (destruct (n =? 0); [by intros [= <-]|]); [done|].
  pose proof (v_read_st n v) as Hr. destruct (v_read n v) as [[l e] v'|v']; simpl in Hr; [|by intros [= <-]].
  destruct (length l =? n); [by intros [= <-]|]. destruct e; [by intros [= <-]|].
  intros E. by rewrite (IH _ _ _ _ E).
Qed.
Lemma v_readU_st o wd v : v_st (state_of (v_readU o wd v)) = v_st v.
Proof.
  unfold v_readU. destruct (v_rlen v <? wbytes wd); [done|].
  destruct (v_readfull 1 (wbytes wd) [] v) as [r|] eqn:E; [|done]. apply v_readfull_st in E.
  by destruct r as [[l []] v'|v'].
Qed.

Lemma v_step_reads o v : writing o = false -> v_st (state_of (v_step o v)) = v_st v.
Proof.
  destruct o; try done; intros _; simpl; rewrite ?rmap_state; try apply v_readU_st.
  all: unfold v_writeto, v_readbyte, v_read, v_peek, v_peekbyte, v_peekU.
  all: repeat (case_match; simpl; try done).
Qed.

Lemma lift_reads {A} (f : vbuf -> res vbuf A) w h : (forall v, v_st (state_of (f v)) = v_st v) -> 
  quiet w h (state_of (liftv f w h)).
Proof.
  intros Hf. unfold liftv, view. destruct (bufs w !! h) as [b|] eqn:Hb; [|by left].
  destruct (cells w !! h_loc b) as [c|] eqn:Hc; [|by left].
  specialize (Hf (VB (h_res b) (h_rd b) (h_wr b) (c_st c))).
  destruct (f _) as [a v'|v']; simpl in *; by apply (quiet_put w h b c).
Qed.

Lemma reading_quiet o w h : writing o = false -> quiet w h (state_of (h_step o w h)).
Proof.
  intros Ho. assert (E : h_step o w h = liftv (v_step o) w h) by (by destruct o). rewrite E.
  apply lift_reads. intros v. by apply v_step_reads.
Qed.

Lemma h_step_acts o w h : acts w h (h_step o w h).
Proof.
  destruct (writing o) eqn:Ho.
  - destruct o; try done; unfold h_step; apply acts_rmap.
    + apply writebyte_acts.
    + apply write_acts.
    + apply writeU_acts.
    + apply readfrom_acts.
    + apply writehead_acts. intros. apply writebyte_acts.
    + apply writehead_acts. intros. apply write_err_acts.
    + apply writehead_acts. intros. apply writeU_acts.
  - pose proof (reading_quiet o w h Ho) as Q. destruct (h_step o w h); simpl in *; by left.
Qed.

(** ** The invariant *)
(** [R]: the handles made by Reference snapshots.  The reference count of a cell
    is at least the number of other handles on it, and when there are two of
    them they are marked. *)
Definition holders (w : world) (R : list nat) (l : nat) (ks : list nat) : Prop :=
  NoDup ks /\ forall k, k ∈ ks -> k ∉ R /\ exists b, bufs w !! k = Some b /\ h_loc b = l.

Record MIX (w : world) (R : list nat) (n : nat) : Prop := {
  m_locs : locs_ok w;
  m_refs : forall k b, k ∈ R -> bufs w !! k = Some b -> h_cow b = false;
  m_old : forall k, k ∈ R -> k < length (bufs w);
  m_count : forall l c ks, cells w !! l = Some c -> holders w R l ks -> (Z.of_nat (length ks) <= refc c)%Z;
  m_mark : forall k1 k2 b1 b2, k1 <> k2 -> k1 ∉ R -> k2 ∉ R -> bufs w !! k1 = Some b1 -> bufs w !! k2 = Some b2 ->
             h_loc b1 = h_loc b2 -> h_cow b1 = true;
  m_bound : forall l c, cells w !! l = Some c -> (- Z.of_nat n <= refc c <= Z.of_nat n + 1)%Z }.

Lemma MIX_init : MIX w0 [] 0.
Proof.
  split; try done; try (intros k Hk; by apply elem_of_nil in Hk).
Qed.

Lemma MIX_more w R n m : MIX w R n -> n <= m -> MIX w R m.
Proof. intros []. split; try done. intros l c Hc. specialize (m_bound0 l c Hc). lia. Qed.

Lemma quiet_same w h w' k : quiet w h w' -> k <> h ->
  bufs w' !! k = bufs w !! k /\ cells w' = cells w.
Proof.
  intros [->|(b & c & r & i & j & Hb & Hc & ->)] Hk; [done|]. simpl. by rewrite list_lookup_insert_ne.
Qed.

(** After a call that moves cursors only. *)
Lemma quiet_buf w h w' k b : quiet w h w' -> bufs w' !! k = Some b ->
  exists b0, bufs w !! k = Some b0 /\ h_loc b0 = h_loc b /\ h_cow b0 = h_cow b.
Proof.
  intros [->|(b' & c & r & i & j & Hb & Hc & ->)] Hk; [by exists b|]. simpl in Hk.
  apply list_lookup_insert_Some in Hk as [(-> & <- & _)|(_ & Hk)]; [by exists b'|by exists b].
Qed.
Lemma quiet_cells w h w' : quiet w h w' -> cells w' = cells w /\ length (bufs w') = length (bufs w).
Proof. intros [->|(b' & c & r & i & j & Hb & Hc & ->)]; [done|]. simpl. by rewrite insert_length. Qed.

Lemma MIX_quiet w R n h w' : MIX w R n -> quiet w h w' -> MIX w' R n.
Proof.
  intros [Hl Hr Ho Hc Hm Hb] Q. pose proof (quiet_cells _ _ _ Q) as [Ec El]. split.
  - intros k b Hk. destruct (quiet_buf _ _ _ _ _ Q Hk) as (b0 & Hk0 & E1 & E2). rewrite Ec, <- E1. by eapply Hl.
  - intros k b HR Hk. destruct (quiet_buf _ _ _ _ _ Q Hk) as (b0 & Hk0 & E1 & E2). rewrite <- E2. by eapply Hr.
  - intros k HR. rewrite El. by apply Ho.
  - rewrite Ec. intros l c ks Hlc [ND Hks]. apply (Hc l c ks Hlc). split; [done|].
    intros k Hk. destruct (Hks k Hk) as (HR & b & Hkb & Hloc). split; [done|].
    destruct (quiet_buf _ _ _ _ _ Q Hkb) as (b0 & Hk0 & E1 & E2). exists b0. split; [done|congruence].
  - intros k1 k2 b1 b2 Hne H1 H2 Hk1 Hk2 E.
    destruct (quiet_buf _ _ _ _ _ Q Hk1) as (b01 & Hk01 & E1 & E2).
    destruct (quiet_buf _ _ _ _ _ Q Hk2) as (b02 & Hk02 & E3 & E4).
    rewrite <- E2. eapply (Hm k1 k2 b01 b02); try done. congruence.
  - rewrite Ec. exact Hb.
Qed.

(** The call of a handle that ends ready. *)
Lemma MIX_ready w R n h w' : (Z.of_nat n < 2^31 - 2)%Z -> MIX w R n -> ready w h w' -> MIX w' R (S n).
Proof.
  intros Hn [Hl Hr Ho Hc Hm Hb] (b & c & Hh & Hcl & [(r & i & j & st & Hok & ->)|(r & i & j & st & Hok & Hne & ->)]).
  - (* in place *)
    assert (G : forall k bk, <[h := HB r i j (h_loc b) false]> (bufs w) !! k = Some bk ->
      exists b0, bufs w !! k = Some b0 /\ h_loc b0 = h_loc bk /\ (k <> h -> b0 = bk) /\ (h_cow bk = true -> h_cow b0 = true)).
    { intros k bk Hk. apply list_lookup_insert_Some in Hk as [(-> & <- & _)|(Hne & Hk)].
      - exists b. split; [done|]. split; [done|]. split; [done|]. done.
      - by exists bk. }
    assert (Gc : forall l c', <[h_loc b := Cell (refc c) st]> (cells w) !! l = Some c' ->
      exists c0, cells w !! l = Some c0 /\ refc c0 = refc c').
    { intros l c' Hlc. apply list_lookup_insert_Some in Hlc as [(<- & <- & _)|(_ & Hlc)]; [by exists c|by exists c']. }
    split; simpl.
    + intros k bk Hk. simpl in *. rewrite insert_length. destruct (G _ _ Hk) as (b0 & H0 & E0 & _). rewrite <- E0. by eapply Hl.
    + intros k bk HR Hk. destruct (G _ _ Hk) as (b0 & H0 & E0 & Es & Ec). destruct (h_cow bk) eqn:Eb; [|done].
      rewrite (Hr k b0 HR H0) in Ec. by symmetry; apply Ec.
    + intros k HR. rewrite insert_length. by apply Ho.
    + intros l c' ks Hlc [ND Hks]. destruct (Gc _ _ Hlc) as (c0 & Hc0 & Er). rewrite <- Er. apply (Hc l c0 ks Hc0). split; [done|].
      intros k Hk. destruct (Hks k Hk) as (HR & bk & Hkb & Hloc). split; [done|]. simpl in Hkb.
      destruct (G _ _ Hkb) as (b0 & H0 & E0 & _). exists b0. split; [done|congruence].
    + intros k1 k2 b1 b2 Hne H1 H2 Hk1 Hk2 E.
      destruct (G _ _ Hk1) as (b01 & H01 & E01 & S1 & _). destruct (G _ _ Hk2) as (b02 & H02 & E02 & S2 & _).
      assert (El : h_loc b01 = h_loc b02) by congruence.
      destruct (decide (k1 = h)) as [->|Hk1h].
      * exfalso. assert (b01 = b) as -> by congruence. pose proof (Hm h k2 b b02 Hne H1 H2 Hh H02 El) as Hmb.
        destruct Hok as [?|Hr1]; [congruence|].
        assert (X : (Z.of_nat (length [h; k2]) <= refc c)%Z); [|simpl in X; lia].
        apply (Hc (h_loc b) c [h; k2] Hcl). split.
        { constructor; [|apply NoDup_singleton]. intros ?%elem_of_list_singleton. done. }
        intros k [->|[->|Hk]%elem_of_cons]%elem_of_cons; [by eauto|by eauto|by apply elem_of_nil in Hk].
      * rewrite <- (S1 Hk1h). by apply (Hm k1 k2 b01 b02).
    + intros l c' Hlc. destruct (Gc _ _ Hlc) as (c0 & Hc0 & Er). specialize (Hb l c0 Hc0). lia.
  - (* moved *)
    assert (Hw : wrap32 (refc c - 1) = (refc c - 1)%Z).
    { specialize (Hb _ _ Hcl). apply wrap32_small. lia. }
    rewrite Hw. pose proof (lookup_lt_Some _ _ _ Hcl) as Hltc.
    assert (G : forall k bk, <[h := HB r i j (length (cells w)) false]> (bufs w) !! k = Some bk ->
      (k = h /\ h_loc bk = length (cells w) /\ h_cow bk = false) \/
      (k <> h /\ bufs w !! k = Some bk /\ h_loc bk < length (cells w))).
    { intros k bk Hk. apply list_lookup_insert_Some in Hk as [(-> & <- & _)|(Hne2 & Hk)]; [by left|right].
      split; [done|]. split; [done|]. by eapply Hl. }
    assert (HhR : h ∉ R). { intros HR. rewrite (Hr h b HR Hh) in Hok. done. }
    split; simpl.
    + intros k bk Hk. simpl in *. rewrite app_length, insert_length; simpl. destruct (G _ _ Hk) as [(_ & -> & _)|(_ & _ & ?)]; lia.
    + intros k bk HR Hk. destruct (G _ _ Hk) as [(_ & _ & ?)|(_ & Hk0 & _)]; [done|by eapply Hr].
    + intros k HR. rewrite insert_length. by apply Ho.
    + intros l c' ks Hlc [ND Hks].
      apply lookup_app_Some in Hlc as [Hlc|[Hge Hlc]].
      * assert (Hll : l < length (cells w)) by (apply lookup_lt_Some in Hlc; by rewrite insert_length in Hlc).
        assert (Hkw : forall k, k ∈ ks -> k <> h /\ k ∉ R /\ exists bk, bufs w !! k = Some bk /\ h_loc bk = l).
        { intros k Hk. destruct (Hks k Hk) as (HR & bk & Hkb & Hloc). simpl in Hkb.
          destruct (G _ _ Hkb) as [(-> & E & _)|(Hne2 & Hk0 & _)]; [lia|]. eauto. }
        apply list_lookup_insert_Some in Hlc as [(<- & <- & _)|(Hnel & Hlc)]; simpl.
        -- assert (X : (Z.of_nat (length (h :: ks)) <= refc c)%Z); [|simpl in X; lia].
           apply (Hc (h_loc b) c (h :: ks) Hcl). split.
           { constructor; [|done]. intros Hin. by destruct (Hkw h Hin). }
           intros k [->|Hk]%elem_of_cons; [by eauto|]. destruct (Hkw k Hk) as (_ & HR & Hex). done.
        -- apply (Hc l c' ks Hlc). split; [done|]. intros k Hk. by destruct (Hkw k Hk).
      * rewrite insert_length in *. apply list_lookup_singleton_Some in Hlc as [El <-]. simpl.
        assert (Hkw : forall k, k ∈ ks -> k = h).
        { intros k Hk. destruct (Hks k Hk) as (HR & bk & Hkb & Hloc). simpl in Hkb.
          destruct (G _ _ Hkb) as [(-> & E & _)|(Hne2 & Hk0 & Hlt)]; [done|lia]. }
        destruct ks as [|k1 [|k2 ks]]; simpl; [lia|lia|]. exfalso.
        assert (k1 = h) by (apply Hkw; left). assert (k2 = h) by (apply Hkw; right; left). subst.
        apply NoDup_cons in ND as [Hni _]. apply Hni. left.
    + intros k1 k2 b1 b2 Hne2 H1 H2 Hk1 Hk2 E.
      destruct (G _ _ Hk1) as [(-> & E1 & _)|(Hn1 & H01 & L1)], (G _ _ Hk2) as [(-> & E2 & _)|(Hn2 & H02 & L2)]; try lia; try done.
      by apply (Hm k1 k2 b1 b2).
    + intros l c' Hlc. apply lookup_app_Some in Hlc as [Hlc|[Hge Hlc]].
      * apply list_lookup_insert_Some in Hlc as [(<- & <- & _)|(Hnel & Hlc)]; simpl; [specialize (Hb _ _ Hcl)|specialize (Hb _ _ Hlc)]; lia.
      * apply list_lookup_singleton_Some in Hlc as [El <-]. simpl. lia.
Qed.

Lemma holders_new w R l ks m : holders w R l ks -> m ∈ ks ->
  exists ks', length ks = S (length ks') /\ NoDup ks' /\ m ∉ ks' /\ forall k, k ∈ ks' -> k ∈ ks.
Proof.
  intros [ND _] Hm. apply elem_of_list_split in Hm as (l1 & l2 & ->).
  exists (l1 ++ l2). rewrite !app_length. simpl. split; [lia|].
  apply NoDup_app in ND as (N1 & N2 & N3). apply NoDup_cons in N3 as [N3 N4].
  split; [|split].
  - apply NoDup_app. split; [done|]. split; [|done]. intros x Hx Hx2. apply (N2 x Hx). by right.
  - intros [H|H]%elem_of_app; [|done]. apply (N2 m H). left.
  - intros k [H|H]%elem_of_app; apply elem_of_app; [by left|right; by right].
Qed.

Lemma lookup_snoc_Some {A} (l : list A) x k y : (l ++ [x]) !! k = Some y ->
  (k < length l /\ l !! k = Some y) \/ (k = length l /\ y = x).
Proof.
  intros H. apply lookup_app_Some in H as [H|[Hge H]].
  - left. split; [by apply lookup_lt_Some in H|done].
  - right. apply list_lookup_singleton_Some in H as [E <-]. split; [lia|done].
Qed.

(** A new buffer with storage of its own. *)
Lemma MIX_new w R n v : MIX w R n -> MIX (new_buf w v) R (S n).
Proof.
  intros [Hl Hr Ho Hc Hm Hb]. unfold new_buf. split; simpl.
  - by apply new_buf_locs.
  - intros k b HR Hk. apply lookup_snoc_Some in Hk as [[_ Hk]|[_ ->]]; [by eapply Hr|done].
  - intros k HR. rewrite app_length. specialize (Ho k HR). lia.
  - intros l c ks Hlc [ND Hks]. apply lookup_snoc_Some in Hlc as [[Hlt Hlc]|[-> ->]].
    + apply (Hc l c ks Hlc). split; [done|]. intros k Hk. destruct (Hks k Hk) as (HR & b & Hkb & E).
      split; [done|]. simpl in Hkb. apply lookup_snoc_Some in Hkb as [[_ Hkb]|[_ ->]]; [by eauto|simpl in E; lia].
    + simpl. assert (Hkw : forall k, k ∈ ks -> k = length (bufs w)).
      { intros k Hk. destruct (Hks k Hk) as (HR & b & Hkb & E). simpl in Hkb.
        apply lookup_snoc_Some in Hkb as [[_ Hkb]|[-> _]]; [|done]. specialize (Hl _ _ Hkb). lia. }
      destruct ks as [|k1 [|k2 ks]]; simpl; [lia|lia|]. exfalso.
      assert (k1 = length (bufs w)) by (apply Hkw; left). assert (k2 = length (bufs w)) by (apply Hkw; right; left). subst.
      apply NoDup_cons in ND as [Hni _]. apply Hni. left.
  - intros k1 k2 b1 b2 Hne H1 H2 Hk1 Hk2 E.
    apply lookup_snoc_Some in Hk1 as [[L1 Hk1]|[-> ->]], Hk2 as [[L2 Hk2]|[-> ->]].
    + by apply (Hm k1 k2 b1 b2).
    + specialize (Hl _ _ Hk1). simpl in E. lia.
    + specialize (Hl _ _ Hk2). simpl in E. lia.
    + done.
  - intros l c Hlc. apply lookup_snoc_Some in Hlc as [[_ Hlc]|[_ ->]]; [specialize (Hb _ _ Hlc)|simpl]; lia.
Qed.

(** A Reference snapshot. *)
Lemma MIX_ref w R n h b : MIX w R n -> bufs w !! h = Some b ->
  MIX (World (cells w) (bufs w ++ [HB (h_res b) (h_rd b) (h_wr b) (h_loc b) false]) (copies w))
      (length (bufs w) :: R) (S n).
Proof.
  intros [Hl Hr Ho Hc Hm Hb] Hh. set (m := length (bufs w)). split; simpl.
  - intros k b' Hk. simpl in *. apply lookup_snoc_Some in Hk as [[_ Hk]|[_ ->]]; [by eapply Hl|]. simpl. by eapply Hl.
  - intros k b' HR Hk. apply lookup_snoc_Some in Hk as [[L Hk]|[_ ->]]; [|done].
    apply elem_of_cons in HR as [->|HR]; [unfold m in L; lia|by eapply Hr].
  - intros k HR. rewrite app_length; simpl. apply elem_of_cons in HR as [->|HR]; [unfold m; lia|specialize (Ho k HR); lia].
  - intros l c ks Hlc [ND Hks]. apply (Hc l c ks Hlc). split; [done|]. intros k Hk. destruct (Hks k Hk) as (HR & b' & Hkb & E).
    apply not_elem_of_cons in HR as [Hkm HR]. split; [done|]. simpl in Hkb.
    apply lookup_snoc_Some in Hkb as [[_ Hkb]|[-> ->]]; [by eauto|done].
  - intros k1 k2 b1 b2 Hne H1 H2 Hk1 Hk2 E. apply not_elem_of_cons in H1 as [Hn1 H1], H2 as [Hn2 H2].
    apply lookup_snoc_Some in Hk1 as [[L1 Hk1]|[-> ->]]; [|done].
    apply lookup_snoc_Some in Hk2 as [[L2 Hk2]|[-> ->]]; [|done].
    by apply (Hm k1 k2 b1 b2).
  - intros l c Hlc. specialize (Hb _ _ Hlc). lia.
Qed.

(** A copy-on-write snapshot of a handle that is not a Reference snapshot. *)
Lemma MIX_cow w R n h b c : (Z.of_nat n < 2^31 - 2)%Z -> MIX w R n -> h ∉ R ->
  bufs w !! h = Some b -> cells w !! h_loc b = Some c ->
  let mk := HB (h_res b) (h_rd b) (h_wr b) (h_loc b) true in
  MIX (World (<[h_loc b := Cell (wrap32 (refc c + 1)) (c_st c)]> (cells w)) (<[h := mk]> (bufs w) ++ [mk]) (copies w)) R (S n).
Proof.
  intros Hn [Hl Hr Ho Hc Hm Hb] HhR Hh Hcl mk. set (m := length (bufs w)).
  assert (Hw : wrap32 (refc c + 1) = (refc c + 1)%Z). { specialize (Hb _ _ Hcl). apply wrap32_small. lia. }
  rewrite Hw.
  assert (G : forall k bk, (<[h := mk]> (bufs w) ++ [mk]) !! k = Some bk ->
     (k = m /\ bk = mk) \/ (k < m /\ exists b0, bufs w !! k = Some b0 /\ h_loc b0 = h_loc bk /\ (h_cow b0 = true -> h_cow bk = true)
        /\ (k <> h -> bk = b0) /\ (k = h -> bk = mk))).
  { intros k bk Hk. apply lookup_snoc_Some in Hk as [[L Hk]|[-> ->]]; rewrite insert_length in *; [|by left].
    right. split; [done|]. apply list_lookup_insert_Some in Hk as [(E1 & E2 & _)|(Hne & Hk)].
    - rewrite <- E1, <- E2. exists b. unfold mk. simpl. split_and!; done.
    - exists bk. split_and!; done. }
  split; simpl.
  - intros k bk Hk. simpl in *. rewrite insert_length. destruct (G _ _ Hk) as [[_ ->]|(_ & b0 & H0 & E & _)]; [exact (Hl _ _ Hh)|].
    rewrite <- E. by eapply Hl.
  - intros k bk HR Hk. destruct (G _ _ Hk) as [[-> _]|(_ & b0 & H0 & _ & _ & Es & _)].
    + specialize (Ho _ HR). unfold m in *. lia.
    + destruct (decide (k = h)) as [->|Hne]; [done|]. rewrite (Es Hne). by eapply Hr.
  - intros k HR. rewrite app_length, insert_length. specialize (Ho k HR). lia.
  - intros l c' ks Hlc Hks.
    assert (Hold : forall ks', (forall k, k ∈ ks' -> k ∈ ks) -> m ∉ ks' -> NoDup ks' -> holders w R l ks').
    { intros ks' Hsub Hm' ND. split; [done|]. intros k Hk. destruct Hks as [_ Hks].
      destruct (Hks k (Hsub k Hk)) as (HR & bk & Hkb & E). split; [done|]. simpl in Hkb.
      destruct (G _ _ Hkb) as [[-> _]|(_ & b0 & H0 & E0 & _)]; [done|]. exists b0. split; [done|congruence]. }
    apply list_lookup_insert_Some in Hlc as [(<- & <- & _)|(Hnel & Hlc)]; simpl.
    + destruct (decide (m ∈ ks)) as [Hin|Hni].
      * destruct (holders_new _ _ _ _ _ Hks Hin) as (ks' & E & ND & Hni & Hsub).
        specialize (Hc _ _ ks' Hcl (Hold ks' Hsub Hni ND)). lia.
      * destruct Hks as [ND Hks']. specialize (Hc _ _ ks Hcl (Hold ks (fun _ x => x) Hni ND)). lia.
    + apply (Hc l c' ks Hlc). apply Hold; [done| |by destruct Hks].
      intros Hin. destruct Hks as [_ Hks]. destruct (Hks m Hin) as (_ & bk & Hkb & E). simpl in Hkb.
      destruct (G _ _ Hkb) as [[_ ->]|(Hlt & _)]; [by simpl in E|lia].
  - intros k1 k2 b1 b2 Hne H1 H2 Hk1 Hk2 E.
    destruct (G _ _ Hk1) as [[-> ->]|(L1 & b01 & H01 & E01 & S1 & D1 & M1)]; [done|].
    destruct (decide (k1 = h)) as [->|Hk1h]; [by rewrite M1|].
    destruct (G _ _ Hk2) as [[-> ->]|(L2 & b02 & H02 & E02 & S2 & D2 & M2)].
    + apply S1. simpl in E. apply (Hm k1 h b01 b); try done. congruence.
    + apply S1. apply (Hm k1 k2 b01 b02); try done. congruence.
  - intros l c' Hlc. apply list_lookup_insert_Some in Hlc as [(<- & <- & _)|(Hnel & Hlc)]; simpl; [specialize (Hb _ _ Hcl)|specialize (Hb _ _ Hlc)]; lia.
Qed.

(** ** One call *)
Definition more_refs (o : wop) (x : wout) : list nat :=
  match o, x with WSnap _ 0%Z, WHandle (Some n) => [n] | _, _ => [] end.

Lemma refs_cons o ops w x w' : w_step o w = Ok x w' -> refs (o :: ops) w = more_refs o x ++ refs ops w'.
Proof.
  intros E. simpl. rewrite E. destruct o as [| |s t|]; simpl; try done.
  destruct t; destruct x as [[m|]|]; done.
Qed.

Lemma w_step_MIX o w x w' R n : (Z.of_nat n < 2^31 - 2)%Z -> MIX w R n -> (forall k, k ∈ R -> o <> WSnap (Some k) 1) ->
  w_step o w = Ok x w' -> MIX w' (more_refs o x ++ R) (S n).
Proof.
  intros Hn M Hok E. destruct o as [c r|d r|src t|h o]; simpl in *.
  - destruct (v_alloc c r); [|done]. injection E as <- <-. by apply MIX_new.
  - destruct (v_from d r); injection E as <- <-; [by apply MIX_new|]. eapply MIX_more; [done|lia].
  - destruct (snap_cases src t w) as [[y Es]|[Es|(h & b & -> & Hb & [[-> Es]|(c & Hc & [[-> Es]|(-> & s' & Hr & Es)])])]].
    + rewrite Es in E. injection E as <- <-. 
      destruct src as [h|]; simpl in Es.
      * destruct (bufs w !! h) as [b|]; [|done]. 
        destruct (t =? 0)%Z eqn:E0.
        { injection Es as _ Es. apply (f_equal (fun w => length (bufs w))) in Es. simpl in Es. rewrite app_length in Es. simpl in Es. lia. }
        apply Z.eqb_neq in E0. destruct t; [done| |]; simpl; (eapply MIX_more; [done|lia]).
      * injection Es as <-. destruct t; simpl; (eapply MIX_more; [done|lia]).
    + by rewrite Es in E.
    + rewrite Es in E. injection E as <- <-. by apply (MIX_ref _ _ _ h).
    + rewrite Es in E. injection E as <- <-. simpl. apply MIX_cow; try done. intros HR. by apply (Hok h HR).
    + rewrite Es in E. injection E as <- <-. simpl. by apply MIX_new.
  - pose proof (h_step_acts o w h) as A. destruct (h_step o w h) as [y w1|w1]; simpl in *; [|done].
    injection E as <- <-. simpl. destruct A as [Q|Rd]; [eapply MIX_more; [by eapply MIX_quiet|lia]|by eapply MIX_ready].
Qed.

(** A call does not change what another handle sees. *)
Lemma w_step_apart o w R n h : MIX w R n -> h ∉ R -> h < length (bufs w) ->
  (forall k c, o = WOp k c -> k <> h /\ (writing c = true -> k ∉ R)) ->
  view (state_of (w_step o w)) h = view w h.
Proof.
  intros M HhR Hlt Hok. pose proof (m_locs _ _ _ M) as Hl.
  destruct (lookup_lt_is_Some_2 _ _ Hlt) as [b Hb].
  destruct (lookup_lt_is_Some_2 _ _ (Hl _ _ Hb)) as [cb Hcb].
  assert (NB : forall v, view (new_buf w v) h = view w h).
  { intros v. unfold view, new_buf. simpl. rewrite lookup_app_l by done. rewrite Hb.
    by rewrite lookup_app_l by (by eapply Hl). }
  destruct o as [c r|d r|src t|k o]; simpl.
  - destruct (v_alloc c r); simpl; [apply NB|done].
  - destruct (v_from d r); simpl; [apply NB|done].
  - rewrite rmap_state.
    destruct (snap_cases src t w) as [[y Es]|[Es|(k & b' & -> & Hb' & [[-> Es]|(c & Hc & [[-> Es]|(-> & s' & Hr & Es)])])]];
      rewrite Es; simpl; try done; try apply NB.
    + unfold view; simpl. by rewrite lookup_app_l by done.
    + unfold view; simpl. rewrite lookup_app_l by (by rewrite insert_length).
      destruct (decide (k = h)) as [->|Hne].
      * rewrite list_lookup_insert by done. simpl. assert (b' = b) as -> by congruence.
        rewrite list_lookup_insert by (by eapply Hl). by rewrite Hb, Hc.
      * rewrite list_lookup_insert_ne by done. rewrite Hb. destruct (decide (h_loc b' = h_loc b)) as [El|Hnl].
        -- rewrite El in *. rewrite list_lookup_insert by (by eapply Hl). by rewrite Hc.
        -- by rewrite list_lookup_insert_ne by done.
  - rewrite rmap_state. destruct (Hok k o eq_refl) as [Hkh HkR].
    assert (V : forall w', bufs w' !! h = Some b -> (exists c', cells w' !! h_loc b = Some c' /\ c_st c' = c_st cb) -> view w' h = view w h).
    { intros w' H1 (c' & H2 & H3). unfold view. rewrite H1, H2, Hb, Hcb, H3. done. }
    assert (Q : forall w', quiet w k w' -> view w' h = view w h).
    { intros w' Q. destruct (quiet_same w k w' h Q ltac:(done)) as [E1 E2]. apply V; [congruence|]. exists cb. rewrite E2. done. }
    destruct (writing o) eqn:Hwr; [|by apply Q, reading_quiet].
    specialize (HkR eq_refl).
    assert (A : quiet w k (state_of (h_step o w k)) \/ ready w k (state_of (h_step o w k)) \/ lost w k (state_of (h_step o w k))).
    { pose proof (h_step_acts o w k) as A. destruct (h_step o w k); simpl in *; tauto. }
    destruct A as [A|[A|A]]; [by apply Q| |].
    + destruct A as (bk & c & Hbk & Hc & [(r & i & j & st & Hm & ->)|(r & i & j & st & Hm & Hr & ->)]).
      * assert (Hne : h_loc bk <> h_loc b).
        { intros El. pose proof (m_mark _ _ _ M k h bk b Hkh HkR HhR Hbk Hb El) as Hmk. destruct Hm as [?|Hr1]; [congruence|].
          assert (X : (Z.of_nat (length [h; k]) <= refc c)%Z); [|simpl in X; lia].
          apply (m_count _ _ _ M (h_loc bk) c [h; k] Hc). split.
          { constructor; [|apply NoDup_singleton]. intros ?%elem_of_list_singleton. done. }
          intros k' [->|[->|Hk]%elem_of_cons]%elem_of_cons; [by eauto|by eauto|by apply elem_of_nil in Hk]. }
        apply V; simpl; [by rewrite list_lookup_insert_ne|]. exists cb. by rewrite list_lookup_insert_ne.
      * apply V; simpl; [by rewrite list_lookup_insert_ne|].
        rewrite lookup_app_l by (rewrite insert_length; by eapply Hl).
        destruct (decide (h_loc bk = h_loc b)) as [El|Hnl].
        -- rewrite El in *. rewrite list_lookup_insert by (by eapply Hl). eexists. split; [done|]. simpl. congruence.
        -- exists cb. by rewrite list_lookup_insert_ne.
    + destruct A as (bk & c & r & i & j & Hbk & Hc & Hm & Hr & ->).
      apply V; simpl; [by rewrite list_lookup_insert_ne|].
      destruct (decide (h_loc bk = h_loc b)) as [El|Hnl].
      * rewrite El in *. rewrite list_lookup_insert by (by eapply Hl). eexists. split; [done|]. simpl. congruence.
      * exists cb. by rewrite list_lookup_insert_ne.
Qed.

(** ** Histories *)
Lemma w_run_grows o w x w' : w_step o w = Ok x w' -> length (bufs w) <= length (bufs w').
Proof.
  intros E. destruct o as [c r|d r|src t|h o]; simpl in *.
  - destruct (v_alloc c r); [|done]. injection E as <- <-. simpl. rewrite app_length. lia.
  - destruct (v_from d r); injection E as <- <-; simpl; rewrite ?app_length; lia.
  - destruct (snap_cases src t w) as [[y Es]|[Es|(h & b & -> & Hb & [[-> Es]|(c & Hc & [[-> Es]|(-> & s' & Hr & Es)])])]];
      rewrite Es in E; try done; injection E as <- <-; simpl; rewrite ?app_length, ?insert_length; lia.
  - pose proof (h_step_acts o w h) as A. destruct (h_step o w h) as [y w1|w1]; simpl in *; [|done]. injection E as <- <-.
    destruct A as [Q|(b & c & Hb & Hc & [(r & i & j & st & Hm & ->)|(r & i & j & st & Hm & Hr & ->)])].
    + destruct (quiet_cells _ _ _ Q) as [_ ->]. done.
    + simpl. by rewrite insert_length.
    + simpl. by rewrite insert_length.
Qed.

Lemma run_apart ops : forall w R n h, (Z.of_nat (n + length ops) < 2^31 - 2)%Z -> MIX w R n ->
  (forall k, k ∈ R ++ refs ops w -> WSnap (Some k) 1 ∉ ops) -> h ∉ R ++ refs ops w -> h < length (bufs w) ->
  (forall k c, WOp k c ∈ ops -> k <> h /\ (writing c = true -> k ∉ R ++ refs ops w)) ->
  view (snd (w_run ops w)) h = view w h.
Proof.
  induction ops as [|o ops IH]; intros w R n h Hn M Hcow Hh Hlt Hops; [done|]. cbn [length] in Hn.
  assert (V : view (state_of (w_step o w)) h = view w h).
  { eapply (w_step_apart o w R n); try done; [set_solver|]. intros k c ->. destruct (Hops k c ltac:(left)) as [H1 H2].
    split; [done|]. intros Hw. specialize (H2 Hw). set_solver. }
  cbn [w_run]. destruct (w_step o w) as [x w'|w'] eqn:E; simpl in V |- *; [|done].
  assert (V' : view (snd (w_run ops w')) h = view w' h).
  { rewrite (refs_cons _ _ _ _ _ E) in Hcow, Hh, Hops.
    apply (IH w' (more_refs o x ++ R) (S n)); [lia| | | | |].
    - eapply w_step_MIX; [|exact M| |exact E]; [lia|]. intros k HR ->. apply (Hcow k); [set_solver|left].
    - intros k Hk Hin. apply (Hcow k); [set_solver|by right].
    - set_solver.
    - pose proof (w_run_grows _ _ _ _ E). lia.
    - intros k c Hin. destruct (Hops k c ltac:(by right)) as [H1 H2]. split; [done|]. intros Hw. specialize (H2 Hw). set_solver. }
  destruct (w_run ops w') as [xs w'']; simpl in *. congruence.
Qed.

Lemma run_MIX ops : forall w R n xs, (Z.of_nat (n + length ops) < 2^31 - 2)%Z -> MIX w R n ->
  (forall k, k ∈ R ++ refs ops w -> WSnap (Some k) 1 ∉ ops) -> fst (w_run ops w) = Some <$> xs -> length xs = length ops ->
  MIX (snd (w_run ops w)) (R ++ refs ops w) (n + length ops).
Proof.
  induction ops as [|o ops IH]; intros w R n xs Hn M Hcow E L; cbn [length] in *.
  { simpl. by rewrite app_nil_r, Nat.add_0_r. }
  cbn [w_run] in *. destruct (w_step o w) as [x w'|w'] eqn:Es; [|by destruct xs].
  assert (X := IH w' (more_refs o x ++ R) (S n) (tail xs)).
  rewrite (refs_cons _ _ _ _ _ Es) in Hcow |- *.
  destruct (w_run ops w') as [ys w'']; simpl in *. destruct xs as [|x' xs]; [done|]. simpl in *. injection E as -> ->.
  assert (M2 : MIX w'' ((more_refs o x' ++ R) ++ refs ops w') (S (n + length ops))).
  { apply X; [lia| | |done|lia].
    - eapply w_step_MIX; [|exact M| |exact Es]; [lia|]. intros k HR ->. apply (Hcow k); [set_solver|left].
    - intros k Hk Hin. apply (Hcow k); [set_solver|by right]. }
  rewrite Nat.add_succ_r. destruct M2 as [A1 A2 A3 A4 A5 A6]. split; try done.
  - intros k b Hk. apply A2. set_solver.
  - intros k Hk. apply A3. set_solver.
  - intros l c ks Hc [ND Hks]. apply (A4 l c ks Hc). split; [done|]. intros k Hk. destruct (Hks k Hk) as [HR Hx]. split; [set_solver|done].
  - intros k1 k2 b1 b2 Hne H1 H2. apply (A5 k1 k2 b1 b2 Hne); set_solver.
Qed.

Lemma w_run_fails ops w : (exists xs, fst (w_run ops w) = Some <$> xs /\ length xs = length ops) \/
  forall ops2, w_run (ops ++ ops2) w = w_run ops w.
Proof.
  revert w. induction ops as [|o ops IH]; intros w; [left; by exists []|]. cbn [w_run app].
  destruct (w_step o w) as [x w'|w']; [|by right].
  destruct (IH w') as [(xs & E & L)|H].
  - left. exists (x :: xs). destruct (w_run ops w'); simpl in *. by rewrite E, L.
  - right. intros ops2. by rewrite H.
Qed.

Lemma refs_app ops1 ops2 w xs : fst (w_run ops1 w) = Some <$> xs -> length xs = length ops1 ->
  refs (ops1 ++ ops2) w = refs ops1 w ++ refs ops2 (snd (w_run ops1 w)).
Proof.
  revert w xs. induction ops1 as [|o ops IH]; intros w xs E L; [done|]. cbn [app].
  destruct xs as [|x xs]; [done|]. cbn [w_run] in *. destruct (w_step o w) as [y w'|w'] eqn:Es; [|done].
  rewrite !(refs_cons _ _ _ _ _ Es). specialize (IH w' xs).
  destruct (w_run ops w') as [ys w'']; simpl in *. injection E as _ ->. rewrite (IH eq_refl ltac:(lia)). by rewrite app_assoc.
Qed.

Lemma mixed_isolation hist ops h : let all := hist ++ ops in
  (Z.of_nat (length all) < 2^31 - 2)%Z ->
  (forall r, r ∈ refs all w0 -> WSnap (Some r) 1 ∉ all) -> h ∉ refs all w0 ->
  h < length (bufs (snd (w_run hist w0))) ->
  (forall k c, WOp k c ∈ ops -> k <> h /\ (writing c = true -> k ∉ refs all w0)) ->
  seen (snd (w_run all w0)) h = seen (snd (w_run hist w0)) h.
Proof.
  intros all Hn Hcow Hh Hlt Hops. unfold all in *.
  destruct (w_run_fails hist w0) as [(xs & E & L)|H]; [|by rewrite H].
  rewrite (refs_app _ _ _ _ E L) in *. rewrite app_length in Hn.
  pose proof (run_MIX hist w0 [] 0 xs ltac:(lia) MIX_init) as M. simpl in M.
  assert (M' : MIX (snd (w_run hist w0)) (refs hist w0) (length hist)).
  { apply M; [|done|done]. intros k Hk Hin. apply (Hcow k); [set_solver|apply elem_of_app; by left]. }
  destruct (w_run hist w0) as [ys w1] eqn:Ew. simpl in *. subst ys.
  rewrite (w_run_app _ ops w0 xs w1 Ew L). unfold seen. f_equal.
  apply (run_apart ops w1 (refs hist w0) (length hist)); try done.
  intros k Hk Hin. apply (Hcow k Hk). apply elem_of_app. by right.
Qed.

(** ** Copy-on-write snapshots of Reference snapshots: the count is too low *)
Lemma rewrite_moves w k res rd wr l c y :
  bufs w !! k = Some (HB res rd wr l true) -> cells w !! l = Some c -> refc c <> 1%Z -> res < scap (c_st c) ->
  let cp := scap (c_st c) in
  w_run [WOp k OpReset; WOp k (OpWriteByte y)] w = ([Some (WOut RUnit); Some (WOut (RErr None))],
    World (<[l := Cell (wrap32 (refc c - 1)) (c_st c)]> (cells w) ++ [Cell 1 (Store (<[res := y]> (replicate cp 0%Z)) cp)])
          (<[k := HB res res (res + 1) (length (cells w)) false]> (bufs w)) (S (copies w))).
Proof.
  intros Hb Hc Hr Hlt cp. pose proof (lookup_lt_Some _ _ _ Hb) as Lb. pose proof (lookup_lt_Some _ _ _ Hc) as Lc.
  cbn [w_run w_step h_step]. unfold liftv at 1. unfold view at 1. rewrite Hb. cbn [h_loc]. rewrite Hc.
  cbn [v_step v_reset rmap]. unfold put at 1. rewrite Hb. cbn [h_loc]. rewrite Hc. cbn [v_res v_rd v_wr v_st h_cow refc h_res h_rd h_wr c_st copies].
  rewrite (list_insert_id (cells w)) by (rewrite Hc; by destruct c).
  match goal with |- context[World ?cs ?bs ?k] => set (w2 := World cs bs k) end.
  assert (Hb2 : bufs w2 !! k = Some (HB res res res l true)) by (by apply list_lookup_insert).
  assert (Hc2 : cells w2 !! l = Some c) by done.
  unfold h_writebyte. unfold view at 1. rewrite Hb2. cbn [h_loc]. rewrite Hc2. cbn [h_res h_rd h_wr c_st].
  unfold v_tlen, v_cap. cbn [v_st v_wr]. replace (scap (c_st c) - res =? 0) with false by (symmetry; apply Nat.eqb_neq; lia).
  assert (HR : h_resolve w2 k = Ok tt (World (<[l := Cell (wrap32 (refc c - 1)) (c_st c)]> (cells w2) ++ [Cell 1 (Store (replicate cp 0%Z) cp)])
     (<[k := HB res res res (length (cells w2)) false]> (bufs w2)) (S (copies w)))).
  { unfold h_resolve. rewrite Hb2. cbn [h_cow negb h_loc]. rewrite Hc2. cbn [refc c_st h_rd h_wr h_res].
    replace (refc c =? 1)%Z with false by (symmetry; by apply Z.eqb_neq).
    unfold s_range. replace ((res <=? res) && (res <=? scap (c_st c))) with true by (symmetry; apply andb_true_intro; split; apply Nat.leb_le; lia).
    assert (Hsp : forall a : list byte, splice a res [] = a).
    { intros a. unfold splice. cbn [length app]. rewrite Nat.add_0_r. apply take_drop. }
    rewrite Nat.sub_diag. cbn [take]. by rewrite Hsp. }
  rewrite HR. cbn [rbind]. clear HR.
  match goal with |- context[liftv _ ?W k] => set (w3 := W) end.
  assert (Hb3 : bufs w3 !! k = Some (HB res res res (length (cells w)) false)).
  { cbn [bufs w3]. apply list_lookup_insert. cbn [bufs w2]. rewrite insert_length. lia. }
  assert (Hc3 : cells w3 !! length (cells w) = Some (Cell 1 (Store (replicate cp 0%Z) cp))).
  { cbn [cells w3]. rewrite lookup_app_r by (rewrite insert_length; simpl; lia). rewrite insert_length. simpl. by rewrite Nat.sub_diag. }
  unfold liftv, view. rewrite Hb3. cbn [h_loc]. rewrite Hc3. cbn [h_res h_rd h_wr c_st].
  unfold v_writebyte_body, s_set. cbn [v_st v_wr blen arr]. replace (res <? cp) with true by (symmetry; apply Nat.ltb_lt; unfold cp; lia).
  cbn [rmap]. unfold put. rewrite Hb3. cbn [h_loc]. rewrite Hc3. cbn [v_st set_wr set_st v_res v_rd v_wr refc h_cow].
  rewrite splice_one by (rewrite replicate_length; done). f_equal. unfold w3, w2. cbn [cells bufs copies].
  rewrite !list_insert_insert. f_equal.
  rewrite insert_app_r_alt by (rewrite insert_length; lia). rewrite insert_length, Nat.sub_diag. done.
Qed.

Lemma rewrite_stays w k res rd wr l st y :
  bufs w !! k = Some (HB res rd wr l true) -> cells w !! l = Some (Cell 1 st) -> res < blen st -> blen st <= scap st ->
  w_run [WOp k OpReset; WOp k (OpWriteByte y)] w = ([Some (WOut RUnit); Some (WOut (RErr None))],
    World (<[l := Cell 1 (Store (<[res := y]> (arr st)) (blen st))]> (cells w))
          (<[k := HB res res (res + 1) l false]> (bufs w)) (copies w)).
Proof.
  intros Hb Hc Hlt Hle. pose proof (lookup_lt_Some _ _ _ Hb) as Lb. pose proof (lookup_lt_Some _ _ _ Hc) as Lc.
  cbn [w_run w_step h_step]. unfold liftv at 1. unfold view at 1. rewrite Hb. cbn [h_loc]. rewrite Hc.
  cbn [v_step v_reset rmap]. unfold put at 1. rewrite Hb. cbn [h_loc]. rewrite Hc. cbn [v_res v_rd v_wr v_st h_cow refc h_res h_rd h_wr c_st copies].
  rewrite (list_insert_id (cells w)) by done.
  match goal with |- context[World ?cs ?bs ?k] => set (w2 := World cs bs k) end.
  assert (Hb2 : bufs w2 !! k = Some (HB res res res l true)) by (by apply list_lookup_insert).
  assert (Hc2 : cells w2 !! l = Some (Cell 1 st)) by done.
  unfold h_writebyte. unfold view at 1. rewrite Hb2. cbn [h_loc]. rewrite Hc2. cbn [h_res h_rd h_wr c_st].
  unfold v_tlen, v_cap. cbn [v_st v_wr]. replace (scap st - res =? 0) with false by (symmetry; apply Nat.eqb_neq; lia).
  unfold h_resolve. rewrite Hb2. cbn [h_cow negb h_loc]. rewrite Hc2. cbn [refc c_st h_rd h_wr h_res].
  change (1 =? 1)%Z with true. cbn [rbind].
  match goal with |- context[liftv _ ?W k] => set (w3 := W) end.
  assert (Hb3 : bufs w3 !! k = Some (HB res res res l false)).
  { cbn [bufs w3]. apply list_lookup_insert. cbn [bufs w2]. rewrite insert_length. lia. }
  assert (Hc3 : cells w3 !! l = Some (Cell 1 st)) by done.
  unfold liftv, view. rewrite Hb3. cbn [h_loc]. rewrite Hc3. cbn [h_res h_rd h_wr c_st].
  unfold v_writebyte_body, s_set. cbn [v_st v_wr blen arr]. replace (res <? blen st) with true by (symmetry; by apply Nat.ltb_lt).
  cbn [rmap]. unfold put. rewrite Hb3. cbn [h_loc]. rewrite Hc3. cbn [v_st set_wr set_st v_res v_rd v_wr refc h_cow].
  rewrite splice_one by (unfold scap in *; lia). f_equal. unfold w3, w2. cbn [cells bufs copies].
  by rewrite !list_insert_insert.
Qed.

Lemma lk_plus {A} (B l : list A) i : (B ++ l) !! (length B + i) = l !! i.
Proof. rewrite lookup_app_r by lia. f_equal. lia. Qed.
Lemma ins_plus {A} (B l : list A) i x : <[length B + i := x]> (B ++ l) = B ++ <[i := x]> l.
Proof. rewrite insert_app_r. done. Qed.
Lemma w_run_cons o ops w x w' : w_step o w = Ok x w' ->
  w_run (o :: ops) w = (Some x :: fst (w_run ops w'), snd (w_run ops w')).
Proof. intros E. simpl. rewrite E. by destruct (w_run ops w'). Qed.
Lemma w_run_two o1 o2 ops w x1 x2 w' : w_run [o1; o2] w = ([Some x1; Some x2], w') ->
  w_run (o1 :: o2 :: ops) w = (Some x1 :: Some x2 :: fst (w_run ops w'), snd (w_run ops w')).
Proof.
  simpl. destruct (w_step o1 w) as [y1 v1|v1]; [|done]. destruct (w_step o2 v1) as [y2 v2|v2]; [|done].
  intros [= -> -> ->]. by destruct (w_run ops w').
Qed.

Lemma cow_of_reference w cap res q0 q y x :
  (0 <= res)%Z -> (res + Z.of_nat (S (length q)) <= cap)%Z ->
  let h := length (bufs w) in let r := h + 1 in let c := h + 2 in let d := h + 3 in
  let tl := Z.to_nat cap - (Z.to_nat res + S (length q)) in
  exists w1 w2,
    w_run [WAlloc cap res; WOp h (OpWrite (q0 :: q)); WSnap (Some h) 0; WSnap (Some h) 1; WSnap (Some r) 1;
           WOp r OpReset; WOp r (OpWriteByte y); WOp d OpReset; WOp d (OpWriteByte y)] w =
      ([Some (WHandle (Some h)); Some (WOut (RCount (S (length q)) None)); Some (WHandle (Some r));
        Some (WHandle (Some c)); Some (WHandle (Some d)); Some (WOut RUnit); Some (WOut (RErr None));
        Some (WOut RUnit); Some (WOut (RErr None))], w1) /\
    seen w1 h = Some (Z.to_nat res, q0 :: q, tl) /\
    w_run [WOp c OpReset; WOp c (OpWriteByte x)] w1 = ([Some (WOut RUnit); Some (WOut (RErr None))], w2) /\
    seen w2 h = Some (Z.to_nat res, x :: q, tl).
Proof.
  intros Hr Hcap. cbv zeta. destruct w as [C B cp]. cbn [bufs cells copies]. set (h := length B). set (L := length C).
  set (R := Z.to_nat res). set (N := Z.to_nat cap).
  assert (HN : R + S (length q) <= N) by (unfold R, N; lia).
  set (st0 := make_store N).
  set (st1 := Store (splice (replicate N 0%Z) R (q0 :: q)) N).
  assert (Hcap1 : scap st1 = N).
  { unfold scap, st1, splice. simpl. rewrite app_length, take_length. simpl. rewrite app_length, drop_length, replicate_length. lia. }
  set (bf := HB R R (R + S (length q)) L false). set (bm := HB R R (R + S (length q)) L true).
  set (W1 := World (C ++ [Cell 1 st0]) (B ++ [HB R R R L false]) cp).
  assert (S1 : w_step (WAlloc cap res) (World C B cp) = Ok (WHandle (Some h)) W1).
  { cbn [w_step]. unfold v_alloc. replace ((cap <=? 0) || (res <? 0) || (res >? cap))%Z with false.
    2: { symmetry. apply orb_false_intro; [apply orb_false_intro|]; [apply Z.leb_gt; lia|apply Z.ltb_ge; lia|rewrite Z.gtb_ltb; apply Z.ltb_ge; lia]. }
    done. }
  set (W2 := World (C ++ [Cell 1 st1]) (B ++ [bf]) cp).
  assert (LB : forall l i, (B ++ l) !! (h + i) = l !! i) by (intros; apply lk_plus).
  assert (LC : forall l i, (C ++ l) !! (L + i) = l !! i) by (intros; apply lk_plus).
  assert (IB : forall l i z, <[h + i := z]> (B ++ l) = B ++ <[i := z]> l) by (intros; apply ins_plus).
  assert (IC : forall l i z, <[L + i := z]> (C ++ l) = C ++ <[i := z]> l) by (intros; apply ins_plus).
  assert (LB0 : forall l, (B ++ l) !! h = l !! 0) by (intros l; rewrite <- (LB l 0); f_equal; lia).
  assert (LC0 : forall l, (C ++ l) !! L = l !! 0) by (intros l; rewrite <- (LC l 0); f_equal; lia).
  assert (IB0 : forall l z, <[h := z]> (B ++ l) = B ++ <[0 := z]> l) by (intros l z; rewrite <- (IB l 0); f_equal; lia).
  assert (IC0 : forall l z, <[L := z]> (C ++ l) = C ++ <[0 := z]> l) by (intros l z; rewrite <- (IC l 0); f_equal; lia).
  assert (S2 : w_step (WOp h (OpWrite (q0 :: q))) W1 = Ok (WOut (RCount (S (length q)) None)) W2).
  { cbn [w_step h_step]. unfold h_write, view, W1. cbn [bufs cells]. rewrite LB0. simpl. rewrite LC0. simpl.
    unfold v_tlen, v_cap, scap. simpl. rewrite replicate_length.
    replace (N - R =? 0) with false by (symmetry; apply Nat.eqb_neq; lia).
    unfold h_resolve. cbn [bufs]. rewrite LB0. simpl. unfold liftv, view. cbn [bufs cells]. rewrite LB0. simpl. rewrite LC0. simpl.
    unfold v_write_body, s_from. simpl. replace (R <=? N) with true by (symmetry; apply Nat.leb_le; lia).
    unfold v_tlen, v_cap, scap. simpl. rewrite take_length, drop_length, replicate_length.
    replace (Nat.min (Nat.min (N - R) (N - R)) (Nat.min (N - R) (S (length q)))) with (S (length q)) by lia.
    replace (S (length q) <? S (length q)) with false by (symmetry; apply Nat.ltb_ge; lia).
    simpl. unfold put. cbn [bufs cells]. rewrite LB0. simpl. rewrite LC0. simpl. rewrite IB0, IC0. simpl.
    rewrite firstn_all. done. }
  set (W3 := World (C ++ [Cell 1 st1]) (B ++ [bf; bf]) cp).
  assert (S3 : w_step (WSnap (Some h) 0) W2 = Ok (WHandle (Some (h + 1))) W3).
  { cbn [w_step h_snapshot]. unfold W2. cbn [bufs]. rewrite LB0. simpl. rewrite app_length, <- app_assoc. done. }
  set (W4 := World (C ++ [Cell 2 st1]) (B ++ [bm; bf; bm]) cp).
  assert (S4 : w_step (WSnap (Some h) 1) W3 = Ok (WHandle (Some (h + 2))) W4).
  { cbn [w_step h_snapshot]. unfold W3. cbn [bufs cells]. rewrite LB0. simpl. rewrite LC0. simpl. rewrite app_length, IB0, IC0, <- app_assoc. done. }
  set (W5 := World (C ++ [Cell 3 st1]) (B ++ [bm; bm; bm; bm]) cp).
  assert (S5 : w_step (WSnap (Some (h + 1)) 1) W4 = Ok (WHandle (Some (h + 3))) W5).
  { cbn [w_step h_snapshot]. unfold W4. cbn [bufs cells]. rewrite LB. simpl. rewrite LC0. simpl. rewrite app_length, IB, IC0, <- app_assoc. done. }
  assert (Hlen : forall l, length (C ++ l) = L + length l) by (intros; apply app_length).
  set (cpy := Cell 1 (Store (<[R := y]> (replicate N 0%Z)) N)).
  set (own := fun i => HB R R (R + 1) (L + i) false).
  set (W6 := World (C ++ [Cell 2 st1; cpy]) (B ++ [bm; own 1; bm; bm]) (S cp)).
  assert (S6 : w_run [WOp (h + 1) OpReset; WOp (h + 1) (OpWriteByte y)] W5 = ([Some (WOut RUnit); Some (WOut (RErr None))], W6)).
  { rewrite (rewrite_moves W5 (h + 1) R R (R + S (length q)) L (Cell 3 st1) y).
    - unfold W5. cbn [cells bufs refc c_st copies]. rewrite Hcap1, IC0, IB, Hlen. simpl. rewrite <- app_assoc. done.
    - unfold W5. cbn [bufs]. by rewrite LB.
    - unfold W5. cbn [cells]. by rewrite LC0.
    - done.
    - simpl. lia. }
  set (W7 := World (C ++ [Cell 1 st1; cpy; cpy]) (B ++ [bm; own 1; bm; own 2]) (S (S cp))).
  assert (S7 : w_run [WOp (h + 3) OpReset; WOp (h + 3) (OpWriteByte y)] W6 = ([Some (WOut RUnit); Some (WOut (RErr None))], W7)).
  { rewrite (rewrite_moves W6 (h + 3) R R (R + S (length q)) L (Cell 2 st1) y).
    - unfold W6. cbn [cells bufs refc c_st copies]. rewrite Hcap1, IC0, IB, Hlen. simpl. rewrite <- app_assoc. done.
    - unfold W6. cbn [bufs]. by rewrite LB.
    - unfold W6. cbn [cells]. by rewrite LC0.
    - done.
    - simpl. lia. }
  set (st2 := Store (<[R := x]> (arr st1)) N).
  set (W8 := World (C ++ [Cell 1 st2; cpy; cpy]) (B ++ [bm; own 1; own 0; own 2]) (S (S cp))).
  assert (S8 : w_run [WOp (h + 2) OpReset; WOp (h + 2) (OpWriteByte x)] W7 = ([Some (WOut RUnit); Some (WOut (RErr None))], W8)).
  { rewrite (rewrite_stays W7 (h + 2) R R (R + S (length q)) L st1 x).
    - unfold W7, W8. cbn [cells bufs refc c_st copies]. rewrite IC0, IB. simpl. unfold own. by rewrite Nat.add_0_r.
    - unfold W7. cbn [bufs]. by rewrite LB.
    - unfold W7. cbn [cells]. by rewrite LC0.
    - simpl. lia.
    - rewrite Hcap1. done. }
  assert (Sp : splice (replicate N 0%Z) R (q0 :: q) = replicate R 0%Z ++ (q0 :: q) ++ replicate (N - (R + S (length q))) 0%Z).
  { unfold splice. rewrite take_replicate, drop_replicate. replace (Nat.min R N) with R by lia. done. }
  exists W7, W8. split_and!.
  - rewrite (w_run_cons _ _ _ _ _ S1), (w_run_cons _ _ _ _ _ S2), (w_run_cons _ _ _ _ _ S3), (w_run_cons _ _ _ _ _ S4), (w_run_cons _ _ _ _ _ S5).
    rewrite (w_run_two _ _ _ _ _ _ _ S6), S7. done.
  - unfold seen, view, W7. cbn [bufs cells]. rewrite LB0. simpl. rewrite LC0. simpl.
    unfold v_hlen, readable, v_rlen, v_tlen, v_cap. cbn [v_rd v_wr v_st]. rewrite Hcap1. cbn [arr st1]. rewrite Sp.
    rewrite drop_app_alt by (by rewrite replicate_length). replace (R + S (length q) - R) with (length (q0 :: q)) by (simpl; lia).
    by rewrite take_app.
  - exact S8.
  - unfold seen, view, W8. cbn [bufs cells]. rewrite LB0. simpl. rewrite LC0. simpl.
    unfold v_hlen, readable, v_rlen, v_tlen, v_cap. cbn [v_rd v_wr v_st]. unfold scap. cbn [arr st2 st1]. rewrite insert_length.
    change (length (splice (replicate N 0%Z) R (q0 :: q))) with (scap st1). rewrite Hcap1. rewrite Sp.
    rewrite insert_app_r_alt by (rewrite replicate_length; lia). rewrite replicate_length, Nat.sub_diag. simpl.
    rewrite drop_app_alt by (by rewrite replicate_length). replace (R + S (length q) - R) with (length (x :: q)) by (simpl; lia).
    rewrite app_comm_cons. by rewrite take_app.
Qed.
