(** * Who is told of a publication while calls are made one at a time *)
From Verif Require Import GoBase MgmtModel MgmtSpec MgmtProofs MgmtFacts AdmModel AdmSpec AdmProofs AdmSeq.

(** Headers a call has in its hands. *)
Definition hdrs (pc : apc) : list slice :=
  match pc with
  | CAddScan _ sl _ | CAddWrite _ sl | CAddStore _ sl | CDelScan _ sl _ | CDelWrite _ _ sl | CDelStore _ sl => [sl]
  | _ => []
  end.

Section one.
  Context (g : nat -> nat) (m : nat) (l : list nat) (slp : slice) (p : nat).
  (** A header of the same array shows the first [m] endpoints. *)
  Definition front (h : aheap) (sl : slice) : Prop :=
    sl_arr sl = sl_arr slp -> m <= sl_len sl /\ forall k, k < m -> array_of h sl !! k = l !! k.
  Record pinv (s : ast) : Prop := {
    pi_ok : sl_ok (a_heap s) slp;
    pi_len : sl_len slp = length l;
    pi_front : forall k, k < m -> array_of (a_heap s) slp !! k = l !! k;
    pi_back : forall k x, m <= k < sl_len slp -> array_of (a_heap s) slp !! k = Some x -> x ∉ take m l;
    pi_eps : front (a_heap s) (a_eps s);
    pi_calls : Forall (fun pc => Forall (front (a_heap s)) (hdrs pc)) (a_calls s);
    pi_pub : exists i, a_pubs s !! p = Some (slp, i) /\ length (told p s) = i /\ i <= length l;
    pi_told_front : forall k, k < m -> k < length (told p s) -> told p s !! k = l !! k;
    pi_told_back : forall k x, m <= k -> told p s !! k = Some x -> x ∉ take m l }.

  Lemma front_same h h' sl : (forall k, k < m -> m <= sl_len sl -> array_of h' sl !! k = array_of h sl !! k) ->
    front h sl -> front h' sl.
  Proof.
    intros H Hf E. destruct (Hf E) as [H1 H2]. split; [done|]. intros k Hk. rewrite H by done. by apply H2.
  Qed.

  Lemma told_snoc s h eps sv ps cs q e b :
    told p (Ast h eps sv ps cs (a_log s ++ [(q, e)]) b) = told p s ++ (if decide (q = p) then [e] else []).
  Proof.
    unfold told. simpl. rewrite List.filter_app, fmap_app. f_equal. simpl.
    case_decide as Hd; [subst; by rewrite Nat.eqb_refl|]. apply Nat.eqb_neq in Hd. by rewrite Hd.
  Qed.

  Lemma pinv_step ops s lab s' : m <= length l -> pinv s -> seqinv ([], []) ops s -> astep g s lab s' ->
    (forall c i, lab = AErase c i -> m <= i) -> pinv s'.
  Proof.
    intros Hm Hinv Hseq Hs Her. destruct Hinv as [H1 H2 H3 H4 H5 H6 H7 H8 H9].
    assert (forall c pc pc', a_calls s !! c = Some pc -> (forall sl, sl ∈ hdrs pc' -> sl ∈ hdrs pc \/ sl = a_eps s) ->
      Forall (fun pc => Forall (front (a_heap s)) (hdrs pc)) (<[c := pc']> (a_calls s))) as Hupd.
    { intros c pc pc' Hc Hsub. apply Forall_upd; [done|]. apply Forall_forall. intros sl Hsl.
      destruct (Hsub _ Hsl) as [Hin|Hin]; [|by subst].
      apply (proj1 (Forall_lookup _ _) H6) in Hc. by apply (proj1 (Forall_forall _ _) Hc). }
    destruct Hs; cbn [a_heap a_eps a_served a_pubs a_calls a_log a_panic] in *;
      try (constructor; cbn [a_heap a_eps a_served a_pubs a_calls a_log a_panic]; try done;
           by eapply Hupd; [done|]; simpl; intros ?; rewrite ?elem_of_list_singleton, ?elem_of_nil; naive_solver).
    - constructor; cbn [a_heap a_eps a_served a_pubs a_calls a_log a_panic]; try done. apply Forall_app. split; [done|].
      constructor; [|done]. by constructor.
    - constructor; cbn [a_heap a_eps a_served a_pubs a_calls a_log a_panic]; try done. apply Forall_app. split; [done|].
      constructor; [|done]. by constructor.
    - constructor; cbn [a_heap a_eps a_served a_pubs a_calls a_log a_panic]; try done.
      destruct H7 as (i & Hi & ? & ?). exists i. split; [by apply lookup_app_l_Some|done].
    - (* a delivery *)
      destruct H7 as (k & Hk & Hlen & Hle).
      change lg with (a_log (Ast h eps sv ps cs lg false)).
      constructor; rewrite ?told_snoc; cbn [a_heap a_eps a_served a_pubs a_calls a_log a_panic]; try done.
      + case_decide as Hd.
        * subst p0. rewrite Hk in H. injection H as <- <-. exists (S k).
          assert (p < length ps) by (by eapply lookup_lt_Some). rewrite list_lookup_insert by done.
          split_and!; [done| |lia]. rewrite app_length. simpl. lia.
        * exists k. rewrite list_lookup_insert_ne by done. rewrite app_nil_r. done.
      + intros j Hj. case_decide as Hd; [|rewrite app_nil_r; by apply H8].
        subst p0. rewrite Hk in H. injection H as <- <-. rewrite app_length. simpl. intros Hj2.
        destruct (decide (j < length (told p (Ast h eps sv ps cs lg false)))).
        * rewrite lookup_app_l by done. by apply H8.
        * assert (j = k) as -> by lia. rewrite lookup_app_r by lia.
          replace (k - _) with 0 by lia. simpl. rewrite <- H3 by done. done.
      + intros j y Hj. case_decide as Hd; [|rewrite app_nil_r; by apply H9].
        subst p0. rewrite Hk in H. injection H as <- <-. intros Hy. apply lookup_app_Some in Hy as [Hy|[Hj2 Hy]]; [by eapply H9|].
        apply list_lookup_singleton_Some in Hy as [Hj3 <-]. eapply (H4 j); [lia|]. replace j with k by lia. done.
    - constructor; cbn [a_heap a_eps a_served a_pubs a_calls a_log a_panic]; try done.
      + eapply Hupd; [done|]; simpl; intros ?; rewrite ?elem_of_nil; naive_solver.
      + destruct H7 as (k & Hi & ? & ?). exists k. split; [by apply lookup_app_l_Some|done].
    - (* an append *)
      destruct Hseq as (_ & Hsl & Hnow). simpl in Hsl.
      destruct Hnow as [(_ & Hr & _)|(ops0 & op & cs' & pc & -> & Hcs & Hd & Hph)].
      { exfalso. apply elem_of_list_lookup_2, Hr in H. done. }
      simpl in Hcs. destruct (last_call _ _ _ _ _ Hd Hcs H) as [<- Hu]; [done|].
      destruct op; simpl in Hph; [|done]. destruct Hph as (<- & -> & Hx & Hv & Hn).
      rewrite <- Hx in Hn. unfold listed in Hn; simpl in Hn.
      destruct (append1_spec _ _ _ _ _ _ Hsl H0) as (Hok & Hcon & Hlen & _ & _).
      pose proof (append1_look _ _ _ _ _ _ Hsl H0) as Hlook.
      destruct (Hlook slp H1) as (Hokp & Hp & Hfresh).
      assert (Hnot : sl_arr slp = sl_arr eps -> e ∉ take m l).
      { intros Ea. destruct (H5 (eq_sym Ea)) as [Hle Hfr]. intros He. apply Hn.
        apply elem_of_list_lookup in He as (k & He). assert (k < m).
        { apply lookup_lt_Some in He. rewrite take_length in He. lia. }
        rewrite lookup_take in He by done. rewrite <- Hfr in He by done. apply elem_of_list_lookup. exists k.
        rewrite contents_look by lia. done. }
      assert (Heps : front h' eps).
      { eapply front_same; [|exact H5]. intros k Hk Hle. destruct (Hlook eps Hsl) as (_ & Hq & _).
        rewrite Hq by lia. rewrite decide_False by lia. done. }
      constructor; cbn [a_heap a_eps a_served a_pubs a_calls a_log a_panic]; try done.
      + intros k Hk. rewrite Hp by lia. rewrite decide_False; [by apply H3|]. intros [Ea ->].
        destruct (H5 (eq_sym Ea)). lia.
      + intros k y Hk. rewrite Hp by lia.
        destruct (decide (sl_arr slp = sl_arr eps /\ k = sl_len eps)) as [Hdd|Hdd]; [|apply H4; lia].
        intros [= <-]. apply Hnot, Hdd.
      + rewrite Hu. apply Forall_app. split.
        * eapply Forall_impl; [exact Hd|]. intros ? <-. simpl. constructor.
        * constructor; [|constructor]. constructor; [|constructor]. intros Ea. destruct Hfresh as [Es|]; [|congruence].
          destruct (H5 ltac:(congruence)) as [Hle Hfr]. split; [lia|]. intros k Hk. rewrite <- contents_look by lia.
          rewrite Hcon, lookup_app_l by (rewrite contents_length; [lia|done]). rewrite contents_look by lia. by apply Hfr.
    - (* the header is stored *)
      constructor; cbn [a_heap a_eps a_served a_pubs a_calls a_log a_panic]; try done.
      + apply (proj1 (Forall_lookup _ _) H6) in H. by inversion H.
      + eapply Hupd; [done|]; simpl; intros ?; rewrite ?elem_of_nil; naive_solver.
    - constructor; cbn [a_heap a_eps a_served a_pubs a_calls a_log a_panic]; try done.
      + eapply Hupd; [done|]; simpl; intros ?; rewrite ?elem_of_nil; naive_solver.
      + destruct H7 as (k & Hi & ? & ?). exists k. split; [by apply lookup_app_l_Some|done].
    - (* an erasure *)
      destruct Hseq as (_ & Hsl & Hnow). simpl in Hsl.
      destruct Hnow as [(_ & Hr & _)|(ops0 & op & cs' & pc & -> & Hcs & Hd & Hph)].
      { exfalso. apply elem_of_list_lookup_2, Hr in H. done. }
      simpl in Hcs. destruct (last_call _ _ _ _ _ Hd Hcs H) as [<- Hu]; [done|].
      destruct op; simpl in Hph; [done|]. destruct Hph as (<- & -> & Hx & Hv & Hn).
      assert (NoDup (contents h eps)) as Hnd.
      { change (contents h eps) with (listed (Ast h eps sv ps cs lg false)). rewrite Hx, both_list. simpl.
        eapply in_order_nodup, set_step_in_order. }
      destruct (remove_look _ _ _ _ _ Hsl H0) as (Hi & -> & Hok & Hlook).
      destruct (Hlook slp H1) as (Hokp & Hp). destruct (Hlook eps Hsl) as (Hokq & Hq). specialize (Her c i eq_refl).
      constructor; cbn [a_heap a_eps a_served a_pubs a_calls a_log a_panic]; try done.
      + intros k Hk. rewrite Hp, decide_False by lia. by apply H3.
      + intros k y Hk. rewrite Hp.
        destruct (decide (sl_arr slp = sl_arr eps /\ i <= k < sl_len eps - 1)) as [[Ea Hdd]|Hdd]; [|apply H4; lia].
        destruct (H5 (eq_sym Ea)) as [Hle Hfr]. intros Hy Hin.
        apply elem_of_list_lookup in Hin as (k' & Hin). assert (k' < m).
        { apply lookup_lt_Some in Hin. rewrite take_length in Hin. lia. }
        rewrite lookup_take in Hin by done. rewrite <- Hfr in Hin by done.
        unfold array_of in Hy. rewrite Ea in Hy. fold (array_of h eps) in Hy.
        rewrite <- contents_look in Hy by lia. rewrite <- contents_look in Hin by lia.
        pose proof (NoDup_lookup _ _ _ _ Hnd Hy Hin). lia.
      + eapply front_same; [|exact H5]. intros k Hk _. rewrite Hq, decide_False by lia. done.
      + rewrite Hu. apply Forall_app. split.
        * eapply Forall_impl; [exact Hd|]. intros ? <-. simpl. constructor.
        * constructor; [|constructor]. constructor; [|constructor]. intros Ea. simpl in Ea.
          destruct (H5 Ea) as [Hle Hfr]. simpl. split; [lia|]. intros k Hk.
          change (array_of h' (Slice (sl_arr eps) (sl_len eps - 1))) with (array_of h' eps).
          rewrite Hq, decide_False by lia. by apply Hfr.
    - constructor; cbn [a_heap a_eps a_served a_pubs a_calls a_log a_panic]; try done.
      + apply (proj1 (Forall_lookup _ _) H6) in H. by inversion H.
      + eapply Hupd; [done|]; simpl; intros ?; rewrite ?elem_of_nil; naive_solver.
  Qed.
End one.

Lemma told_new g ls s p : arun g new_ast ls s -> length (a_pubs s) <= p -> told p s = [].
Proof.
  intros Hr Hp. pose proof (ai_log _ _ _ (ainv_given _ _ _ Hr)) as Hl. unfold told.
  induction Hl as [|[q e] lg [Hq _] Hl IH]; [done|]. simpl in *.
  rewrite (proj2 (Nat.eqb_neq q p)) by lia. done.
Qed.

Lemma now_listed ops s : seqinv ([], []) ops s -> ~ erasing s ->
  NoDup (listed s) /\ forall m, m <= length (listed s) ->
    Forall (fun pc => Forall (front m (listed s) (a_eps s) (a_heap s)) (hdrs pc)) (a_calls s).
Proof.
  intros (_ & Hsl & Hnow) Hne.
  assert (Hf : forall m, m <= length (listed s) -> front m (listed s) (a_eps s) (a_heap s) (a_eps s)).
  { intros m Hm _. unfold listed in *. rewrite contents_length in Hm by done. split; [done|]. intros k Hk.
    rewrite contents_look by lia. done. }
  assert (Hnd : forall ops, NoDup (fst (foldl both_step ([], []) ops))).
  { intros o. rewrite both_list. eapply in_order_nodup, set_step_in_order. }
  destruct Hnow as [(-> & Hr & Hx)|(ops0 & op & cs & pc & -> & Hcs & Hd & Hph)].
  - injection Hx as Hx _. rewrite Hx. split; [constructor|]. intros m _. apply Forall_forall. intros pc Hpc.
    rewrite (Hr _ Hpc). constructor.
  - assert (Hdone : forall m, Forall (fun pc => Forall (front m (listed s) (a_eps s) (a_heap s)) (hdrs pc)) cs).
    { intros m. eapply Forall_impl; [exact Hd|]. intros ? <-. constructor. }
    rewrite Hcs. pose proof (Hnd ops0) as Hnd0. pose proof (Hnd (ops0 ++ [op])) as Hnd1. rewrite foldl_app in Hnd1. simpl in Hnd1.
    set (x := foldl both_step ([], []) ops0) in *.
    assert (Hfin : NoDup (listed s) -> (forall m, m <= length (listed s) -> Forall (front m (listed s) (a_eps s) (a_heap s)) (hdrs pc)) ->
      NoDup (listed s) /\ forall m, m <= length (listed s) ->
      Forall (fun pc => Forall (front m (listed s) (a_eps s) (a_heap s)) (hdrs pc)) (cs ++ [pc])).
    { intros H1 H2. split; [done|]. intros m Hm. apply Forall_app. split; [done|]. constructor; [by apply H2|constructor]. }
    destruct op as [e|e], pc; simpl in Hph; try done.
    + destruct Hph as (-> & -> & Hx & _). apply Hfin; [by rewrite <- Hx in Hnd0|]. intros m Hm. constructor; [by apply Hf|constructor].
    + destruct Hph as (-> & Hx & _). apply Hfin; [by rewrite <- Hx in Hnd0|]. intros m Hm. constructor.
    + destruct Hph as (-> & Hx & _). apply Hfin; [by rewrite Hx|]. intros m Hm. constructor.
    + destruct Hph as (-> & -> & Hx & _). apply Hfin; [by rewrite Hx|]. intros m Hm. constructor; [by apply Hf|constructor].
    + destruct Hph as (-> & Hx & _ & _ & Hok & Hcon). apply Hfin; [by rewrite Hx|]. intros m Hm. constructor; [|constructor].
      intros _. rewrite <- Hx in Hcon. assert (sl_len sl = S (length (listed s))).
      { rewrite <- (contents_length _ _ Hok), Hcon, app_length. simpl. lia. }
      split; [lia|]. intros k Hk. rewrite <- contents_look by lia. rewrite Hcon, lookup_app_l by lia. done.
    + apply Hfin; [by change (listed s) with (fst (listed s, a_served s)); rewrite Hph|]. intros m Hm. constructor.
    + destruct Hph as (-> & -> & Hx & _). apply Hfin; [by rewrite <- Hx in Hnd0|]. intros m Hm. constructor; [by apply Hf|constructor].
    + destruct Hph as (-> & Hx & _). apply Hfin; [by rewrite <- Hx in Hnd0|]. intros m Hm. constructor.
    + destruct Hph as (-> & Hx & _). apply Hfin; [by rewrite Hx|]. intros m Hm. constructor.
    + destruct Hph as (-> & -> & Hx & _). apply Hfin; [by rewrite Hx|]. intros m Hm. constructor; [by apply Hf|constructor].
    + exfalso. apply Hne. exists (length cs), e0, sl. rewrite Hcs, lookup_app_r, Nat.sub_diag by done. done.
    + apply Hfin; [by change (listed s) with (fst (listed s, a_served s)); rewrite Hph|]. intros m Hm. constructor.
Qed.

(** A publication begins. *)
Lemma pinv_start g m ls s lab s' : orun g new_ast ls s -> ~ erasing s -> astep g s lab s' ->
  a_pubs s' = a_pubs s ++ [(a_eps s, 0)] -> m <= length (listed s) ->
  pinv m (listed s) (a_eps s) (length (a_pubs s)) s'.
Proof.
  intros Hr Hne Hs Hp Hm.
  assert (Ht : told (length (a_pubs s)) s = []) by (by eapply told_new; [apply orun_arun|]).
  assert (Hseq : seqinv ([], []) (omap a_op ls) s).
  { apply (seq_run g new_ast ls s); [done|done| |done]. by intros ? ?%elem_of_nil. }
  destruct (now_listed _ _ Hseq Hne) as [Hnd Hfr]. specialize (Hfr m Hm). destruct Hseq as (_ & Hsl & _).
  assert (Hlen : sl_len (a_eps s) = length (listed s)) by (symmetry; by apply contents_length).
  assert (Hcase : forall h eps sv ps cs lg cs', s = Ast h eps sv ps cs lg false ->
    s' = Ast h eps sv (ps ++ [(eps, 0)]) cs' lg false ->
    Forall (fun pc => Forall (front m (listed s) (a_eps s) h) (hdrs pc)) cs' ->
    pinv m (listed s) (a_eps s) (length (a_pubs s)) s').
  { intros h eps sv ps cs lg cs' -> -> Hc. simpl in *.
    assert (Hk : forall k, array_of h eps !! k = listed (Ast h eps sv ps cs lg false) !! k \/ sl_len eps <= k).
    { intros k. destruct (decide (k < sl_len eps)); [left|right; lia]. unfold listed. simpl. by rewrite contents_look. }
    assert (Ht' : told (length ps) (Ast h eps sv (ps ++ [(eps, 0)]) cs' lg false) = []) by done.
    constructor; rewrite ?Ht'; simpl; try done.
    - intros k ?. destruct (Hk k); [done|lia].
    - intros k x Hkx. destruct (Hk k) as [->|]; [|lia]. intros Hx Hin.
      apply elem_of_list_lookup in Hin as (k' & Hin). assert (k' < m).
      { apply lookup_lt_Some in Hin. rewrite take_length in Hin. lia. }
      rewrite lookup_take in Hin by done. pose proof (NoDup_lookup _ _ _ _ Hnd Hx Hin). lia.
    - intros _. split; [lia|]. intros k ?. destruct (Hk k); [done|lia].
    - exists 0. rewrite lookup_app_r, Nat.sub_diag by done. split_and!; [done..|]. lia.
    - lia. }
  destruct Hs; cbn [a_heap a_eps a_served a_pubs a_calls a_log a_panic] in *;
    try (exfalso; apply (f_equal length) in Hp; rewrite ?insert_length, app_length in Hp; simpl in Hp; lia).
  - eapply Hcase; [done..|]. done.
  - eapply Hcase; [done..|]. apply Forall_upd; [done|]. constructor.
  - eapply Hcase; [done..|]. apply Forall_upd; [done|]. constructor.
Qed.

Lemma told_front g ls1 s1 lab s2 ls2 s m : orun g new_ast ls1 s1 -> ~ erasing s1 ->
  orun g s1 [lab] s2 -> a_pubs s2 = a_pubs s1 ++ [(a_eps s1, 0)] -> orun g s2 ls2 s ->
  erases_from m ls2 -> m <= length (listed s1) ->
  pinv m (listed s1) (a_eps s1) (length (a_pubs s1)) s.
Proof.
  intros Hr1 Hne Hl Hp Hr2 Her Hm.
  assert (Hs : astep g s1 lab s2 /\ ((exists e, lab = AAdd e \/ lab = ADel e) -> all_returned s1)).
  { inversion Hl as [|ls s1' l' s2' Ha Hb Hc E]; subst. apply (app_inj_tail _ []) in E as [-> ->].
    inversion Ha as [E|? ? ? ? ? ? ? E]; subst; [done|]. by destruct ls. }
  assert (Hseq2 : exists ops, seqinv ([], []) ops s2).
  { eexists. eapply seq_step; [|apply Hs|apply Hs].
    apply (seq_run g new_ast ls1 s1); [done|done| |done]. by intros ? ?%elem_of_nil. }
  destruct Hs as [Hs _].
  assert (Hi : pinv m (listed s1) (a_eps s1) (length (a_pubs s1)) s /\ exists ops, seqinv ([], []) ops s); [|apply Hi].
  induction Hr2 as [|ls s3 l s4 Hr IH Hst Hone]; [split; [by eapply pinv_start|done]|].
  destruct IH as [Hi (ops & Hq)]. { intros c i H. eapply Her, elem_of_app. by left. } split.
  - eapply pinv_step; [done..|]. intros c i ->. eapply (Her c), elem_of_app. right. by left.
  - eexists. by eapply seq_step.
Qed.

Lemma told_once g ls1 s1 lab s2 ls2 s m : orun g new_ast ls1 s1 -> ~ erasing s1 ->
  orun g s1 [lab] s2 -> a_pubs s2 = a_pubs s1 ++ [(a_eps s1, 0)] -> orun g s2 ls2 s ->
  erases_from m ls2 -> m <= length (listed s1) -> finished (length (a_pubs s1)) s ->
  let t := told (length (a_pubs s1)) s in
  length t = length (listed s1) /\ take m t = take m (listed s1) /\ NoDup (take m t) /\
  (forall x, x ∈ take m t -> x ∉ drop m t).
Proof.
  intros Hr1 Hne Hl Hp Hr2 Her Hm (sl & i & Hf & Hi) t.
  assert (Hseq : seqinv ([], []) (omap a_op ls1) s1).
  { apply (seq_run g new_ast ls1 s1); [done|done| |done]. by intros ? ?%elem_of_nil. }
  destruct (now_listed _ _ Hseq Hne) as [Hnd _].
  destruct (told_front _ _ _ _ _ _ _ _ Hr1 Hne Hl Hp Hr2 Her Hm) as [H1 H2 H3 H4 H5 H6 (k & H7 & H7' & H7'') H8 H9].
  assert ((sl, i) = (a_eps s1, k)) as [= -> ->] by congruence. fold t in H7', H8, H9.
  assert (Hlen : length t = length (listed s1)) by lia.
  assert (Htk : take m t = take m (listed s1)).
  { apply list_eq. intros j. destruct (decide (j < m)).
    - rewrite !lookup_take by done. apply H8; lia.
    - rewrite !lookup_take_ge by lia. done. }
  split_and!; [done..| |].
  - rewrite Htk. rewrite <- (take_drop m (listed s1)) in Hnd. by apply NoDup_app in Hnd as [? _].
  - intros x Hx Hd. rewrite Htk in Hx. apply elem_of_list_lookup in Hd as (j & Hd). rewrite lookup_drop in Hd.
    eapply H9; [|exact Hd|done]. lia.
Qed.
Lemma told_all g ls1 s1 lab s2 ls2 s : orun g new_ast ls1 s1 -> ~ erasing s1 ->
  orun g s1 [lab] s2 -> a_pubs s2 = a_pubs s1 ++ [(a_eps s1, 0)] -> orun g s2 ls2 s ->
  (forall c i, AErase c i ∉ ls2) -> finished (length (a_pubs s1)) s ->
  told (length (a_pubs s1)) s = listed s1.
Proof.
  intros Hr1 Hne Hl Hp Hr2 Her Hf.
  destruct (told_once _ _ _ _ _ _ _ (length (listed s1)) Hr1 Hne Hl Hp Hr2) as (H1 & H2 & _); [|done..|].
  - intros c i Hc. by apply Her in Hc.
  - rewrite !take_ge in H2 by lia. done.
Qed.
