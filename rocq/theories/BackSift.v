(** * What is heard in both directions stands in what the other side wrote (C93, C95) *)
From Verif Require Import GoBase UBufModel UBufSpec UBufProofs UBufFacts FrameModel FrameSpec FrameProofs StackModel StackSpec StackPath StackFacts StackProofs StackSpecial StackEnd NetModel NetSpec NetProofs SafeSpec SafeProofs HonSpec HonProofs SiftSpec SiftProofs DuoModel DuoSpec DuoItems DuoProofs HushSpec BackSpec.
From stdpp Require Import sets list.

(** Whatever is sent down changes no cache and delivers nothing. *)
Definition goes_down (p : proc) : Prop := sends_on p = true \/ (p_enable p = true /\ exists l m, decodes (p_kind p) l m).
Lemma any_sunk E c q is ps : e_isref E c = false -> below E q is ps -> Forall goes_down ps ->
  forall f x s, cx_conn x = Some c -> sunk c (exec f E Down (Some q) x s) s.
Proof.
  intros Hc. induction 1 as [|i is p ps q Hi Hlow Hb IH]; intros Hs f x s Hx; (destruct f as [|f]; [done|]).
  - simpl. by apply lower_send_sunk.
  - inversion Hs as [|? ? Sp Hs']; subst. destruct Sp as [Sp|(En & l0 & m0 & Hd)].
    + cbn [exec]. rewrite Hi, Hlow. eapply sunk_from; [apply keeps_visit|by apply adds_same|].
      assert (forall x s, cx_conn x = Some c -> sunk c (exec f E Down (Some q) x s) s) as D by (intros; by apply IH).
      destruct p as [k en]. unfold sends_on in Sp. cbn [p_kind p_enable] in *.
      destruct k; try done; try (destruct en; [done|]; by apply D); try by apply D.
      * simpl. unfold by_reference, with_buf, head_ignore. rewrite Hx, Hc. destruct en; [|by apply D].
        destruct (cx_buf x); [|by apply sunk_done]. destruct (v_headU _ _ _ _); [by apply D|apply adds_refl].
      * simpl. unfold by_reference, with_buf, head_ignore. rewrite Hx, Hc.
        destruct (cx_buf x); [|by apply sunk_done]. destruct (v_headbyte _ _); [by apply D|apply adds_refl].
      * simpl. unfold by_reference, with_buf, head_ignore. rewrite Hx, Hc.
        destruct (cx_buf x); [|by apply sunk_done]. destruct (v_headbyte _ _); [by apply D|apply adds_refl].
      * simpl. unfold with_buf. destruct en; [|by apply D].
        destruct (cx_buf x); [|by apply sunk_done]. destruct (v_headU _ _ _ _) as [[]|]; [by apply sunk_done|by apply D|apply adds_refl].
      * simpl. unfold by_reference, with_buf, head_ignore. rewrite Hx, Hc.
        destruct (cx_buf x); [|by apply sunk_done]. destruct (v_headbyte _ _); [|destruct en; [apply adds_same, out_inc_tx|apply adds_refl]].
        destruct en; [|by apply D]. eapply sunk_from; [apply keeps_inc_tx|apply adds_same, out_inc_tx|]. by apply D.
    + cbn [exec]. rewrite Hi, Hlow. eapply sunk_from; [apply keeps_visit|by apply adds_same|].
      assert (forall x s, cx_conn x = Some c -> sunk c (exec f E Down (Some q) x s) s) as D by (intros; by apply IH).
      assert (forall l x s, cx_conn x = Some c -> sunk c (codec_write E l (exec f E Down (Some q)) x s) s) as Dw.
      { intros l y t Hy. unfold codec_write. destruct (new_ubuf E) as [ub|]; [|apply adds_refl].
        destruct (v_write l ub) as [[[|n] [er|]] ub'|]; try (by apply sunk_done); [by apply D|apply adds_refl]. }
      destruct p as [k en]. cbn [p_kind p_enable] in *. subst en.
      destruct k as [| | |mar unm|enc dec|enc dec| | | | | | | | | | |]; try done; simpl.
      * destruct (cx_msg x) as [[]|]; try (by apply sunk_done). by apply Dw.
      * destruct (cx_msg x) as [[]|]; try (by apply sunk_done). by apply Dw.
      * destruct (cx_msg x) as [m|]; [|by apply sunk_done]. destruct (mar m); [by apply Dw|by apply sunk_done].
      * destruct (cx_msg x) as [m|]; [|by apply sunk_done]. destruct (new_ubuf E) as [ub|]; [|apply adds_refl].
        destruct (enc m ub) as [[] ub'|]; [by apply sunk_done|by apply D|apply adds_refl].
      * destruct enc as [enc|]; [|by apply sunk_done]. destruct (cx_msg x) as [m|]; [|by apply sunk_done]. destruct (new_ubuf E) as [ub|]; [|apply adds_refl].
        destruct (enc m ub) as [[] ub'|]; [by apply sunk_done|by apply D|apply adds_refl].
Qed.

Lemma passes_goes_down pre k ps : Forall (fun p => passes_message p = true) pre -> Forall (fun p => carries p = true) ps ->
  (exists l m, decodes k l m) -> Forall goes_down (pre ++ Proc k true :: ps).
Proof.
  intros H1 H2 Hk. apply Forall_app. split; [|constructor].
  - eapply Forall_impl; [exact H1|]. intros p Hp. left. unfold passes_message, sends_on in *. by destruct (p_kind p).
  - by right.
  - eapply Forall_impl; [exact H2|]. intros p Hp. left. unfold carries in Hp. by apply andb_prop in Hp as [? _].
Qed.
Lemma send_sunk E ids ps c sess d m s outs s' : wired E ids ps -> Forall goes_down ps -> e_isref E c = false ->
  finishes (fun f => send f E sess d (Some c) m s) s outs s' -> keeps [] s s' /\ adds s s'.
Proof.
  intros W G Hc ((f0 & x' & Hf) & _). specialize (Hf f0 (le_n _)). unfold send in Hf.
  destruct (wired_below E ids ps [] ids [] ps W eq_refl eq_refl eq_refl) as (q & Hq & Hb). simpl in Hq. rewrite Hq in Hf.
  assert (H : sunk c (Some (Done x' s')) s) by (rewrite <- Hf; by eapply any_sunk). by destruct H as (_ & H1 & H2).
Qed.

Lemma lower_placed E ids ps i : wired E ids ps -> l_lower (e_links E) (PProc i) <> None -> i ∈ ids.
Proof.
  intros (El & _) Hlow. rewrite El in Hlow. unfold build_links in Hlow. destruct ids as [|i0 ids]; [done|].
  cbn [l_lower set_lower set_upper] in Hlow. destruct (decide (PProc i = PProc (List.last (i0 :: ids) i0))) as [E1|E1].
  { injection E1 as ->. apply (last_in i0 i0 ids). }
  apply link_pairs_lower in Hlow as [|Hl]; [done|]. simpl in Hl. done.
Qed.
Lemma self_sunk E ids ps c i tag s outs s' : wired E ids ps -> Forall goes_down ps -> e_isref E c = false ->
  l_lower (e_links E) (PProc i) <> None ->
  finishes (fun f => self_message f E i tag c s) s outs s' -> keeps [] s s' /\ adds s s'.
Proof.
  intros W G Hc Hlow ((f0 & x' & Hf) & _). specialize (Hf f0 (le_n _)). unfold self_message in Hf.
  pose proof (lower_placed _ _ _ _ W Hlow) as Hi. apply elem_of_list_split in Hi as (a & b & ->).
  pose proof (wired_length _ _ _ W) as Ln. rewrite app_length in Ln. simpl in Ln.
  destruct (wired_below E (a ++ i :: b) ps (a ++ [i]) b (take (S (length a)) ps) (drop (S (length a)) ps) W) as (q & Hq & Hb).
  { by rewrite <- app_assoc. } { by rewrite take_drop. } { rewrite app_length, take_length. cbn [length]. lia. }
  rewrite list_last_fmap_proc in Hq. rewrite Hq in Hf.
  destruct (new_ubuf E) as [ub|]; [|done]. destruct (v_writebyte tag ub) as [u ub'|]; [|done].
  assert (H : sunk c (Some (Done x' s')) s) by (rewrite <- Hf; eapply any_sunk; [done|done|by apply Forall_drop|done]). by destruct H as (_ & H1 & H2).
Qed.

Lemma wire_kept D ok ss ls s v : drun D ok (new_duo ss) ls s -> exists r, sent v s = r ++ d_wire s v /\ length r = d_got s v.
Proof.
  induction 1 as [|ls s1 l s2 H IH _ Hs]; [by exists []|]. destruct IH as (r & E & L). unfold sent in *.
  destruct Hs as [| |tx hd ss1 w up rx sn ws g b e x outs a' Hh Hf|tx hd ss1 w up rx sn ws g b i p tag outs s' H1 H2 H3 Hf|tx hd ss1 w up rx sn ws g b n outs s' H1 H2 H3 H4 Hf| |];
    simpl in *; try by exists r.
  - destruct (decide (v = b)) as [->|Hv]; [|by rewrite !fn_lookup_insert_ne by done; exists r].
    rewrite !fn_lookup_insert. exists r. split; [|done]. by rewrite concat_app, E, app_assoc.
  - destruct (decide (v = b)) as [->|Hv]; [|by rewrite !fn_lookup_insert_ne by done; exists r].
    rewrite !fn_lookup_insert. exists r. split; [|done]. by rewrite concat_app, E, app_assoc.
  - destruct (decide (v = b)) as [->|Hv].
    + rewrite !fn_lookup_insert, fn_lookup_insert_ne by (by destruct b). exists r. split; [|done].
      rewrite concat_app, E, app_assoc. done.
    + pose proof (other _ _ Hv) as ->. rewrite !fn_lookup_insert_ne, !fn_lookup_insert by done.
      exists (r ++ take n (w (negb b))). split; [by rewrite <- app_assoc, take_drop|]. rewrite app_length, take_length. lia.
Qed.
Lemma handed_keeps s s' : adds s s' -> delivered (s_out s') = delivered (s_out s).
Proof.
  intros (o & E1 & F). rewrite E1. unfold delivered. rewrite omap_app.
  assert (omap (fun o => match o with ODeliver z _ m => Some (z, m) | _ => None end) o = @nil (Z * msg)) as ->; [|by rewrite app_nil_r].
  clear E1. induction F as [|x o Hx F IH]; [done|]. destruct x; done.
Qed.

Lemma duo_sift D v k ps ss ls s : hears_by (one_way D (negb v)) k ps -> init_st (du_env D v) = Some (ss v) ->
  drun D any_reads (new_duo ss) ls s ->
  laid k (hdrs ps) (e_mtu (du_env D v)) (sent (negb v) s) (handed (d_st s v)) (d_got s (negb v)) /\
  forall z, dheard v z s ++ d_rx s (v, z) ++ only z (d_up s v) = only z (delivered (s_out (d_st s v))).
Proof.
  intros (ids & pre & W & Hpre & Hps & Hm & Hr & Hk) Hi Hrun. simpl in W, Hm, Hr. rewrite negb_involutive in W, Hm, Hr.
  pose proof (passes_goes_down _ _ _ Hpre Hps Hk) as G.
  destruct (wired_split1 _ _ _ _ _ W) as (a0 & i0 & b0 & -> & La & Lb).
  destruct (wired_up_to _ _ _ _ _ _ _ W La) as (q & Hq & Hp).
  cut (queued k (hdrs ps) (e_mtu (du_env D v)) (sent (negb v) s) 0 (rev b0) (rev ps) (d_st s v) (d_got s (negb v)) /\
    forall z, dheard v z s ++ d_rx s (v, z) ++ only z (d_up s v) = only z (delivered (s_out (d_st s v)))).
  { intros [H1 H2]. split; [|done]. by eapply queued_laid. }
  induction Hrun as [|ls s1 l s2 H (R & I) _ Hs].
  { split; [by eapply init_queued|]. intros z. simpl. unfold init_st in Hi. destruct (mapM _ _); [|done]. by injection Hi as <-. }
  destruct (wire_kept D _ _ _ _ (negb v) H) as (r & Er & Lr). unfold sent in *.
  destruct Hs as [| |tx hd ss1 w up rx sn ws g b e x outs a' Hh Hf|tx hd ss1 w up rx sn ws g b i p tag outs s' H1 H2 H3 Hf|tx hd ss1 w up rx sn ws g b n outs s' H1 H2 H3 H4 Hf|tx hd ss1 w up rx sn ws g b z0 m0 q0 Hup Hcap|tx hd ss1 w up rx sn ws g b z0 m0 q0 Hrx];
    simpl in *; try (split; done).
  - destruct (decide (v = b)) as [->|Hv].
    + rewrite fn_lookup_insert. rewrite !fn_lookup_insert_ne by (by destruct b).
      destruct (send_sunk _ _ _ _ _ _ _ _ _ _ W G Hr Hf) as [K A]. split; [by eapply queued_keeps|].
      intros z. rewrite (handed_keeps _ _ A). apply I.
    + pose proof (other _ _ Hv) as ->. rewrite negb_involutive in *. rewrite fn_lookup_insert, fn_lookup_insert_ne by (by destruct b).
      split; [|exact I]. rewrite concat_app. by apply queued_str.
  - destruct (decide (v = b)) as [->|Hv].
    + rewrite fn_lookup_insert. rewrite !fn_lookup_insert_ne by (by destruct b).
      destruct (self_sunk _ _ _ _ _ _ _ _ _ W G Hr H2 Hf) as [K A]. split; [by eapply queued_keeps|].
      intros z. rewrite (handed_keeps _ _ A). apply I.
    + pose proof (other _ _ Hv) as ->. rewrite negb_involutive in *. rewrite fn_lookup_insert, fn_lookup_insert_ne by (by destruct b).
      split; [|exact I]. rewrite concat_app. by apply queued_str.
  - destruct (decide (v = b)) as [->|Hv].
    + rewrite !fn_lookup_insert. rewrite fn_lookup_insert_ne by (by destruct b). split.
      * replace (g (negb b) + n) with (g (negb b) + length (take n (w (negb b)))) by (rewrite take_length; lia).
        eapply (receive_sift (du_env D b) a0 i0 b0 pre k ps (du_conn D b) (take n (w (negb b))) (ss1 b) outs s' _ (drop n (w (negb b)))); try done.
        -- rewrite take_length. lia.
        -- rewrite take_drop, Er. f_equal. rewrite <- Lr. by rewrite take_app.
        -- rewrite Er, app_length. lia.
      * intros z. destruct Hf as (_ & Ho). rewrite Ho. unfold delivered. rewrite omap_app. unfold only. rewrite omap_app.
        specialize (I z). rewrite H1 in I. unfold only, dheard in *. simpl in *. rewrite app_nil_r in I. rewrite app_assoc. f_equal. exact I.
    + pose proof (other _ _ Hv) as ->. rewrite negb_involutive in *. rewrite fn_lookup_insert.
      rewrite !(fn_lookup_insert_ne _ _ (negb b)) by (by destruct b). rewrite fn_lookup_insert_ne by (by destruct b).
      split; [|exact I]. rewrite concat_app. by apply queued_str.
  - split; [done|]. intros z. rewrite <- I. unfold dheard, only. simpl. f_equal.
    destruct (decide (v = b)) as [->|Hv].
    + rewrite fn_lookup_insert, Hup. simpl. destruct (decide (z0 = z)) as [->|Hz].
      * rewrite fn_lookup_insert. by rewrite <- app_assoc.
      * by rewrite fn_lookup_insert_ne by congruence.
    + by rewrite !fn_lookup_insert_ne by congruence.
  - split; [done|]. intros z. rewrite <- I. unfold dheard, only. simpl. rewrite omap_app. simpl.
    destruct (decide (b = v /\ z0 = z)) as [[-> ->]|Hz].
    + rewrite fn_lookup_insert, Hrx. by rewrite <- app_assoc.
    + rewrite fn_lookup_insert_ne by (intros [= -> ->]; tauto). by rewrite app_nil_r.
Qed.
Lemma duo_laid D v k ps ss ls s z : hears_by (one_way D (negb v)) k ps -> init_st (du_env D v) = Some (ss v) ->
  drun D any_reads (new_duo ss) ls s ->
  laid k (heads ps) (e_mtu (du_env D v)) (sent (negb v) s) (dheard v z s) (d_got s (negb v)).
Proof.
  intros Hh Hi Hrun. destruct (duo_sift D v k ps ss ls s Hh Hi Hrun) as (L & I). rewrite heads_hdrs.
  eapply laid_sublist; [exact L|]. etrans; [|apply (only_sublist z)]. rewrite <- I. by apply sublist_inserts_r.
Qed.
