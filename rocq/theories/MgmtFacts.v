(** * The administration's properties *)
From Verif Require Import GoBase MgmtModel MgmtSpec MgmtProofs.

(** ** C37: ordered sets *)
Definition set_step (l : list nat) (op : setop) : list nat :=
  match op with
  | Ins x => if decide (x ∈ l) then l else l ++ [x]
  | Rem x => match index_of x l with Some i => drop_at i l | None => l end
  end.
Definition opt_step (l : list nat) (op : option setop) : list nat :=
  match op with Some o => set_step l o | None => l end.

Lemma since_app ops1 : forall ops2 now x cur,
  since (ops1 ++ ops2) now x cur = since ops2 (now + length ops1) x (since ops1 now x cur).
Proof.
  induction ops1 as [|[y|y] ops1 IH]; simpl; intros; [by rewrite Nat.add_0_r|rewrite IH; f_equal; lia..].
Qed.
Lemma since_bound ops : forall now x cur t,
  (forall t', cur = Some t' -> t' < now) -> since ops now x cur = Some t -> t < now + length ops.
Proof.
  induction ops as [|[y|y] ops IH]; simpl; intros now x cur t Hc H.
  - specialize (Hc _ H). lia.
  - apply IH in H; [lia|]. case_decide; [|intros t' Ht; specialize (Hc _ Ht); lia].
    destruct cur as [t0|]; intros t' [= <-]; [specialize (Hc _ eq_refl); lia|lia].
  - apply IH in H; [lia|]. case_decide; [done|]. intros t' Ht; specialize (Hc _ Ht); lia.
Qed.
Lemma present_bound ops x t : present_since ops x = Some t -> t < length ops.
Proof. intros H. apply since_bound in H; [lia|done]. Qed.
Lemma present_snoc ops op x :
  present_since (ops ++ [op]) x =
    match op with
    | Ins y => if decide (y = x) then (match present_since ops x with Some t => Some t | None => Some (length ops) end)
               else present_since ops x
    | Rem y => if decide (y = x) then None else present_since ops x
    end.
Proof. unfold present_since. rewrite since_app. destruct op; done. Qed.

Lemma in_order_nodup ops l : in_order_of_addition ops l -> NoDup l.
Proof.
  intros [_ H]. apply NoDup_alt. intros i j x Hi Hj.
  destruct (lt_eq_lt_dec i j) as [[Hlt|]|Hlt]; [|done|].
  - destruct (H _ _ _ _ Hlt Hi Hj) as (tx & ty & H1 & H2 & ?). rewrite H1 in H2. injection H2 as ->. lia.
  - destruct (H _ _ _ _ Hlt Hj Hi) as (tx & ty & H1 & H2 & ?). rewrite H1 in H2. injection H2 as ->. lia.
Qed.
Lemma nodup_index (l : list nat) i j x : NoDup l -> l !! i = Some x -> l !! j = Some x -> i = j.
Proof. intros H. eapply NoDup_lookup; done. Qed.
Lemma drop_at_elem (l : list nat) i x : NoDup l -> l !! i = Some x ->
  forall y, y ∈ drop_at i l <-> y ∈ l /\ y <> x.
Proof.
  intros Hn Hi y. rewrite <- (take_drop_middle _ _ _ Hi) in Hn |- *. unfold drop_at.
  assert (length (take i l) = i) as Hl by (apply take_length_le; apply lookup_lt_Some in Hi; lia).
  rewrite take_app_alt by done. rewrite (cons_middle x), app_assoc, drop_app_alt by (rewrite app_length; simpl; lia).
  rewrite <- app_assoc. rewrite NoDup_app, NoDup_cons in Hn. destruct Hn as (H1 & H2 & H3 & H4).
  rewrite !elem_of_app, elem_of_list_singleton. split.
  - intros [Hy|Hy]; [split; [by left|intros ->]|split; [by right; right|by intros ->]].
    apply (H2 _ Hy). left.
  - tauto.
Qed.
Lemma drop_at_lookup {A} (l : list A) i j : drop_at i l !! j = l !! (if j <? i then j else S j).
Proof.
  unfold drop_at. destruct (decide (i < length l)).
  - destruct (Nat.ltb_spec j i).
    + rewrite lookup_app_l by (rewrite take_length; lia). by rewrite lookup_take.
    + rewrite lookup_app_r by (rewrite take_length; lia). rewrite lookup_drop, take_length. f_equal. lia.
  - rewrite take_ge, drop_ge, app_nil_r by lia. destruct (Nat.ltb_spec j i); [done|].
    rewrite !lookup_ge_None_2 by lia. done.
Qed.

Lemma set_step_in_order ops : in_order_of_addition ops (foldl set_step [] ops).
Proof.
  induction ops as [|op ops IH] using rev_ind.
  { split; [intros x; split; [by intros ?%elem_of_nil|done]|done]. }
  rewrite foldl_app. simpl. set (l := foldl set_step [] ops) in *.
  pose proof (in_order_nodup _ _ IH) as Hnd. destruct IH as [Hm Ho].
  assert (forall y, y ∈ l -> exists t, present_since ops y = Some t) as Hp.
  { intros y Hy. apply Hm in Hy. destruct (present_since ops y); [eauto|done]. }
  destruct op as [x|x]; simpl.
  - case_decide as Hx.
    + assert (forall y, present_since (ops ++ [Ins x]) y = present_since ops y) as E.
      { intros y. rewrite present_snoc. case_decide; [|done]. subst. destruct (Hp _ Hx) as [t ->]. done. }
      split; [intros y; rewrite E; apply Hm|]. intros i j y z Hij Hy Hz. rewrite !E. by eapply Ho.
    + assert (present_since ops x = None) as Hn.
      { destruct (present_since ops x) eqn:E; [|done]. exfalso. apply Hx, Hm. by rewrite E. }
      split.
      * intros y. rewrite present_snoc, elem_of_app, elem_of_list_singleton. case_decide as Hxy.
        -- subst. rewrite Hn. split; [done|]. by right.
        -- rewrite Hm. split; [intros [?|?]; [done|congruence]|by left].
      * intros i j y z Hij Hy Hz.
        assert (i < length l) as Hi.
        { apply lookup_lt_Some in Hz. rewrite app_length in Hz. simpl in Hz. lia. }
        rewrite lookup_app_l in Hy by done.
        assert (y <> x) by (intros ->; apply Hx; by eapply elem_of_list_lookup_2).
        rewrite !present_snoc. rewrite decide_False by congruence.
        destruct (decide (j < length l)) as [Hj|Hj].
        -- rewrite lookup_app_l in Hz by done.
           assert (z <> x) by (intros ->; apply Hx; by eapply elem_of_list_lookup_2).
           rewrite decide_False by congruence. eapply Ho; [exact Hij|done|done].
        -- rewrite lookup_app_r in Hz by lia. apply list_lookup_singleton_Some in Hz as [_ <-].
           rewrite decide_True, Hn by done. destruct (Hp y) as [t Ht]; [by eapply elem_of_list_lookup_2|].
           exists t, (length ops). split_and!; [done..|]. by eapply present_bound.
  - pose proof (index_of_spec x l) as Hi. destruct (index_of x l) as [i|].
    + destruct Hi as [Hi _]. split.
      * intros y. rewrite (drop_at_elem _ _ _ Hnd Hi), present_snoc, Hm. case_decide; [subst; naive_solver|].
        naive_solver.
      * intros j k y z Hjk Hy Hz.
        assert (y <> x) by (eapply (drop_at_elem _ _ _ Hnd Hi); by eapply elem_of_list_lookup_2).
        assert (z <> x) by (eapply (drop_at_elem _ _ _ Hnd Hi); by eapply elem_of_list_lookup_2).
        rewrite !present_snoc, !decide_False by congruence. rewrite drop_at_lookup in Hy, Hz.
        eapply Ho; [|done..]. destruct (Nat.ltb_spec j i), (Nat.ltb_spec k i); lia.
    + assert (present_since ops x = None) as Hn.
      { destruct (present_since ops x) eqn:E; [|done]. exfalso. apply Hi, Hm. by rewrite E. }
      assert (forall y, present_since (ops ++ [Rem x]) y = present_since ops y) as E.
      { intros y. rewrite present_snoc. case_decide; [|done]. by subst. }
      split; [intros y; rewrite E; apply Hm|]. intros j k y z Hij Hy Hz. rewrite !E. by eapply Ho.
Qed.

(** The lists after a history of calls whose handlers are passive. *)
Definition is_run (c : cmd) : bool := match c with Run => true | _ => false end.
Lemma do_cmd_passive V c s : passive V -> wfm s ->
  exists s', (forall f, 0 < f -> do_cmd V (calls f V) c s = Some (MDone s')) /\ wfm s' /\
    get_endpoints s' = opt_step (get_endpoints s) (ep_op c) /\
    get_transports s' = opt_step (get_transports s) (tp_op c) /\
    m_listeners s' = m_listeners s ++ omap listener_op [c] /\
    m_processors s' = m_processors s ++ omap processor_op [c] /\
    m_decks s' = m_decks s || existsb is_run [c].
Proof.
  intros Hp Hs. pose proof (fun ev => passive_quiet V (m_log s) ev Hp) as Hq.
  assert (forall c s', (forall f, 0 < f -> do_cmd V (calls f V) c s = Some (MDone s')) -> wfm s') as Hw.
  { intros c' s' H. specialize (H 1 ltac:(lia)). eapply (do_cmd_wfm V (calls 1 V)) in H; [done| |done].
    apply calls_wfm. }
  destruct c as [e|e|t|t|l|p|ev|].
  - destruct (decide (e ∈ get_endpoints s)) as [He|He].
    + exists s. split_and!; try done; intros; simpl; rewrite ?app_nil_r, ?orb_false_r; by rewrite ?decide_True.
    + destruct (add_ep_quiet V s e) as (s' & H1 & H2 & H3 & _ & Ha & Hb & Hc & _); [done..|]. exists s'. split_and!; [done|by eapply Hw| |done|by rewrite app_nil_r|by rewrite app_nil_r|by rewrite orb_false_r].
      simpl. by rewrite decide_False.
  - destruct (index_of e (get_endpoints s)) as [i|] eqn:He.
    + destruct (del_ep_quiet V s e i) as (s' & H1 & H2 & H3 & _ & Ha & Hb & Hc & _); [done..|]. exists s'. split_and!; [done|by eapply Hw| |done|by rewrite app_nil_r|by rewrite app_nil_r|by rewrite orb_false_r].
      simpl. by rewrite He.
    + exists s. split_and!; try done; intros; simpl; rewrite ?app_nil_r, ?orb_false_r; by rewrite ?He.
  - destruct (decide (t ∈ get_transports s)) as [He|He].
    + exists s. split_and!; try done; intros; simpl; rewrite ?app_nil_r, ?orb_false_r; by rewrite ?decide_True.
    + destruct (add_tp_quiet V s t) as (s' & H1 & H2 & H3 & _ & Ha & Hb & Hc & _); [done..|]. exists s'. split_and!; [done|by eapply Hw|done| |by rewrite app_nil_r|by rewrite app_nil_r|by rewrite orb_false_r].
      simpl. by rewrite decide_False.
  - destruct (index_of t (get_transports s)) as [i|] eqn:He.
    + destruct (del_tp_quiet V s t i) as (s' & H1 & H2 & H3 & _ & Ha & Hb & Hc & _); [done..|]. exists s'. split_and!; [done|by eapply Hw|done| |by rewrite app_nil_r|by rewrite app_nil_r|by rewrite orb_false_r].
      simpl. by rewrite He.
    + exists s. split_and!; try done; intros; simpl; rewrite ?app_nil_r, ?orb_false_r; by rewrite ?He.
  - eexists. split_and!; [done|by eapply (Hw (SetEventListener l))|done|done|done|by simpl; rewrite app_nil_r|by simpl; rewrite orb_false_r].
  - eexists. split_and!; [done|by eapply (Hw (AppendDataProcessor p))|done|done|by simpl; rewrite app_nil_r|done|by simpl; rewrite orb_false_r].
  - exists (logged (audience s) ev s). split_and!; [|done|done|done|by simpl; rewrite app_nil_r|by simpl; rewrite app_nil_r|by simpl; rewrite orb_false_r].
    intros f Hf. simpl. by apply publish_quiet_calls.
  - eexists. split_and!; [done|by eapply (Hw Run)|done|done|by simpl; rewrite app_nil_r|by simpl; rewrite app_nil_r|by simpl; rewrite orb_true_r].
Qed.
Lemma calls_cons V c cs s s1 s2 :
  (forall f, 0 < f -> do_cmd V (calls f V) c s = Some (MDone s1)) -> returns V cs s1 s2 -> returns V (c :: cs) s s2.
Proof.
  intros H1 [f Hf]. exists (S (S f)). intros f' Hf'. destruct f' as [|f']; [lia|]. simpl.
  rewrite H1 by lia. simpl. apply Hf. lia.
Qed.
Lemma returns_nil V s : returns V [] s s.
Proof. exists 1. intros f Hf. by apply calls_nil. Qed.
Lemma returns_one V c s s' :
  (forall f, 0 < f -> do_cmd V (calls f V) c s = Some (MDone s')) -> returns V [c] s s'.
Proof. intros H. eapply calls_cons; [done|apply returns_nil]. Qed.
Lemma foldl_omap l ops : foldl opt_step l ops = foldl set_step l (omap id ops).
Proof. revert l; induction ops as [|[op|] ops IH]; simpl; intros; done. Qed.
Lemma calls_passive V cs : passive V -> forall s, wfm s ->
  exists s', returns V cs s s' /\ wfm s' /\
    get_endpoints s' = foldl set_step (get_endpoints s) (omap ep_op cs) /\
    get_transports s' = foldl set_step (get_transports s) (omap tp_op cs) /\
    m_listeners s' = m_listeners s ++ omap listener_op cs /\
    m_processors s' = m_processors s ++ omap processor_op cs /\
    m_decks s' = m_decks s || existsb is_run cs.
Proof.
  intros Hp. induction cs as [|c cs IH]; intros s Hs.
  { exists s. split_and!; try done; [apply returns_nil|..]; simpl; by rewrite ?app_nil_r, ?orb_false_r. }
  destruct (do_cmd_passive V c s Hp Hs) as (s1 & H1 & H2 & H3 & H4 & H5 & H6 & H7).
  destruct (IH _ H2) as (s2 & K1 & K2 & K3 & K4 & K5 & K6 & K7). exists s2. split_and!; [by eapply calls_cons|done|..].
  - rewrite K3, H3. simpl. by destruct (ep_op c).
  - rewrite K4, H4. simpl. by destruct (tp_op c).
  - rewrite K5, H5, <- app_assoc. simpl. by destruct (listener_op c).
  - rewrite K6, H6, <- app_assoc. simpl. by destruct (processor_op c).
  - rewrite K7, H7. simpl. by rewrite orb_false_r, orb_assoc.
Qed.

Lemma ordered_sets V cs : passive V ->
  exists s, returns V cs new_stack s /\
    in_order_of_addition (omap ep_op cs) (get_endpoints s) /\ NoDup (get_endpoints s) /\
    in_order_of_addition (omap tp_op cs) (get_transports s) /\ NoDup (get_transports s).
Proof.
  intros Hp. destruct (calls_passive V cs Hp _ wfm_new) as (s & H1 & _ & H2 & H3 & _). exists s.
  change (get_endpoints new_stack) with (@nil nat) in H2. change (get_transports new_stack) with (@nil nat) in H3.
  pose proof (set_step_in_order (omap ep_op cs)) as K1. pose proof (set_step_in_order (omap tp_op cs)) as K2.
  rewrite <- H2 in K1. rewrite <- H3 in K2. split_and!; [done..| |done|]; by eapply in_order_nodup.
Qed.

(** For all handlers: operations without effect. *)
Lemma add_present V s e : e ∈ get_endpoints s -> returns V [AddEndPoint e] s s.
Proof. intros H. apply returns_one. intros. simpl. by rewrite decide_True. Qed.
Lemma delete_absent V s e : e ∉ get_endpoints s -> returns V [DeleteEndPoint e] s s.
Proof. intros H. apply returns_one. intros. simpl. by rewrite index_of_None. Qed.
Lemma add_present_tp V s e : e ∈ get_transports s -> returns V [AddTransport e] s s.
Proof. intros H. apply returns_one. intros. simpl. by rewrite decide_True. Qed.
Lemma delete_absent_tp V s e : e ∉ get_transports s -> returns V [DeleteTransport e] s s.
Proof. intros H. apply returns_one. intros. simpl. by rewrite index_of_None. Qed.
Lemma no_effect V s x :
  (x ∈ get_endpoints s -> returns V [AddEndPoint x] s s) /\
  (x ∉ get_endpoints s -> returns V [DeleteEndPoint x] s s) /\
  (x ∈ get_transports s -> returns V [AddTransport x] s s) /\
  (x ∉ get_transports s -> returns V [DeleteTransport x] s s).
Proof. split_and!; [apply add_present|apply delete_absent|apply add_present_tp|apply delete_absent_tp]. Qed.

(** ** Handlers that call the stack *)
Lemma elem_split_first (x : nat) (l : list nat) : x ∈ l -> exists l1 l2, l = l1 ++ x :: l2 /\ x ∉ l1.
Proof.
  induction l as [|y l IH]; [by intros ?%elem_of_nil|]. intros H.
  destruct (decide (y = x)) as [->|]; [exists [], l; split; [done|apply not_elem_of_nil]|].
  apply elem_of_cons in H as [|H]; [congruence|]. destruct (IH H) as (l1 & l2 & -> & ?).
  exists (y :: l1), l2. split; [done|]. rewrite not_elem_of_cons. split; [congruence|done].
Qed.
Lemma notify_all_app V c ps1 ps2 ev s :
  notify_all V c (ps1 ++ ps2) ev s = andthen (notify_all V c ps1 ev s) (notify_all V c ps2 ev).
Proof.
  revert s. induction ps1 as [|p ps1 IH]; simpl; intros s; [done|].
  destruct (notify V c p ev s) as [[s1|s1]|]; simpl; [apply IH|done..].
Qed.
Lemma reacts_once_used V p ev cs s ev' : reacts_once V p ev cs -> (p, ev) ∈ m_log s -> quiet_for V (m_log s) ev'.
Proof.
  intros H Hin l q. rewrite H. rewrite decide_False; [done|]. intros [_ Hn]. apply Hn, elem_of_app. by left.
Qed.
Lemma reacts_once_other V p ev cs log ev' : reacts_once V p ev cs -> ev' <> ev -> quiet_for V log ev'.
Proof. intros H Hne l q. rewrite H. rewrite decide_False; [done|]. intros [[=]_]. done. Qed.
Lemma listener_notin (l : nat) (l1 : list nat) : l ∉ l1 -> ToListener l ∉ (ToListener <$> l1).
Proof. intros H (y & [= ->] & Hy)%elem_of_list_fmap. done. Qed.
Lemma nil_calls f V s : calls (S f) V [] s = Some (MDone s).
Proof. done. Qed.

(** A listener's reaction to [ev], and the rest of the delivery. *)
Lemma publish_to_listener V f ev l s l1 l2 s1 :
  m_listeners s = l1 ++ l :: l2 ->
  (forall p l, p ∈ (ToListener <$> l1) -> v_react V (m_log s ++ l) p ev = []) ->
  notify V (calls (S f) V) (ToListener l) ev (logged (ToListener <$> l1) ev s) = Some (MDone s1) ->
  wfm s1 -> quiet_for V (m_log s1) ev ->
  publish V (calls (S f) V) ev s =
    Some (MDone (logged ((ToListener <$> l2) ++ aud1 s1) ev s1)).
Proof.
  intros Hl H1 H2 Hs Hq. rewrite publish_split, Hl, fmap_app, fmap_cons, notify_all_app.
  rewrite notify_all_inert; [|done..]. cbn [andthen notify_all]. rewrite H2. cbn [andthen].
  rewrite notify_all_inert; [|done|intros; apply Hq]. cbn [andthen].
  rewrite publish1_inert; [by rewrite logged_app|done..|]. intros. unfold logged; simpl. rewrite <- app_assoc. apply Hq.
Qed.

(** A listener that adds the endpoint again when told of its addition. *)
Lemma nested_add V l e s : reacts_once V (ToListener l) (EvEndpointAdded e) [AddEndPoint e] ->
  wfm s -> l ∈ m_listeners s -> (ToListener l, EvEndpointAdded e) ∉ m_log s -> e ∉ get_endpoints s ->
  exists s', returns V [AddEndPoint e] s s' /\ get_endpoints s' = get_endpoints s ++ [e; e].
Proof.
  intros HV Hs Hl Hlog He. destruct (elem_split_first _ _ Hl) as (l1 & l2 & Hls & Hl1).
  set (ev := EvEndpointAdded e) in *. set (sa := logged ((ToListener <$> l1) ++ [ToListener l]) ev s).
  assert (forall ev', quiet_for V (m_log sa) ev') as Hq.
  { intros ev'. eapply reacts_once_used; [done|]. unfold sa, logged. simpl. rewrite fmap_app. simpl.
    rewrite !elem_of_app. right. right. left. }
  destruct (add_ep_quiet V sa e Hs (Hq _) He) as (sb & K1 & K2 & K3 & K4 & K5 & K6 & K7 & _).
  assert (wfm sb) as Hsb.
  { specialize (K1 1 ltac:(lia)). eapply (do_cmd_wfm V (calls 1 V)) in K1; [done|apply calls_wfm|done]. }
  destruct (append1 (v_grow V) (m_heap sb) (m_endpoints sb) e) as [h' sl'] eqn:Ha.
  assert (forall f, publish V (calls (S (S (S f))) V) ev s =
            Some (MDone (logged ((ToListener <$> l2) ++ aud1 sb) ev sb))) as Hpub.
  { intros f. eapply publish_to_listener; [exact Hls| | |done|].
    - intros p lg Hp. rewrite HV. rewrite decide_False; [done|]. intros [[= ->] _]. by apply (listener_notin l l1).
    - unfold notify. rewrite HV. rewrite decide_True; cycle 1.
      { split; [done|]. unfold logged; simpl. intros [Hin|Hin]%elem_of_app; [done|].
        apply elem_of_list_fmap in Hin as (y & [= <-] & Hy). by apply (listener_notin l l1). }
      match goal with |- calls _ _ _ ?x = _ => replace x with sa end; cycle 1.
      { unfold sa. rewrite <- logged_app. done. }
      change (calls (S (S (S f))) V [AddEndPoint e] sa) with
        (andthen (do_cmd V (calls (S (S f)) V) (AddEndPoint e) sa) (calls (S (S f)) V [])).
      rewrite K1 by lia. done.
    - rewrite K4. apply quiet_app, Hq. }
  destruct Hsb as (Hsb1 & Hsb2 & Hsb3).
  destruct (append1_spec _ _ _ _ _ _ Hsb1 Ha) as (J1 & J2 & _).
  eexists. split.
  - apply (returns_intro _ _ _ _ 4).
    change (calls 4 V [AddEndPoint e] s) with
        (andthen (do_cmd V (calls 3 V) (AddEndPoint e) s) (calls 3 V [])).
    cbn [do_cmd]. rewrite decide_False by done. rewrite Hpub. cbn [andthen]. cbn. rewrite Ha. done.
  - unfold get_endpoints. simpl. rewrite J2. change (contents (m_heap sb) (m_endpoints sb)) with (get_endpoints sb).
    rewrite K2. rewrite <- app_assoc. done.
Qed.

(** A listener that deletes the endpoint when told of its deletion: the next
    endpoint is removed as well, and for the last one the stack panics. *)
Lemma nested_delete_gen V l e s l1' r : reacts_once V (ToListener l) (EvEndpointDeleted e) [DeleteEndPoint e] ->
  wfm s -> l ∈ m_listeners s -> (ToListener l, EvEndpointDeleted e) ∉ m_log s ->
  get_endpoints s = l1' ++ e :: r -> e ∉ l1' ->
  exists sb s1, (forall f, publish V (calls (S (S (S f))) V) (EvEndpointDeleted e) s = Some (MDone s1)) /\
    wfm s1 /\ m_heap s1 = m_heap sb /\ m_endpoints s1 = m_endpoints sb /\
    get_endpoints s1 = l1' ++ r /\ sl_len (m_endpoints s1) = length l1' + length r.
Proof.
  intros HV Hs Hl Hlog He Hne. destruct (elem_split_first _ _ Hl) as (l1 & l2 & Hls & Hl1).
  set (ev := EvEndpointDeleted e) in *. set (sa := logged ((ToListener <$> l1) ++ [ToListener l]) ev s).
  assert (forall ev', quiet_for V (m_log sa) ev') as Hq.
  { intros ev'. eapply reacts_once_used; [done|]. unfold sa, logged. simpl. rewrite fmap_app. simpl.
    rewrite !elem_of_app. right. right. left. }
  destruct (del_ep_quiet V sa e (length l1') Hs (Hq _)) as (sb & K1 & K2 & K3 & K4 & K5 & K6 & K7 & K8 & K9 & K10 & K11 & _).
  { change (get_endpoints sa) with (get_endpoints s). rewrite He. by apply index_of_split. }
  change (get_endpoints sa) with (get_endpoints s) in *. rewrite He in K2.
  assert (wfm sb) as Hsb.
  { specialize (K1 1 ltac:(lia)). eapply (do_cmd_wfm V (calls 1 V)) in K1; [done|apply calls_wfm|done]. }
  assert (get_endpoints sb = l1' ++ r) as Hb.
  { rewrite K2. unfold drop_at. rewrite take_app. f_equal.
    rewrite (cons_middle e), app_assoc, drop_app_alt; [done|]. rewrite app_length. simpl. lia. }
  exists sb. eexists. split_and!.
  { intros f. eapply publish_to_listener; [exact Hls| | |done|].
    - intros p lg Hp. rewrite HV. rewrite decide_False; [done|]. intros [[= ->] _]. by apply (listener_notin l l1).
    - unfold notify. rewrite HV. rewrite decide_True; cycle 1.
      { split; [done|]. unfold logged; simpl. intros [Hin|Hin]%elem_of_app; [done|].
        apply elem_of_list_fmap in Hin as (y & [= <-] & Hy). by apply (listener_notin l l1). }
      match goal with |- calls _ _ _ ?x = _ => replace x with sa end; cycle 1.
      { unfold sa. rewrite <- logged_app. done. }
      change (calls (S (S (S f))) V [DeleteEndPoint e] sa) with
        (andthen (do_cmd V (calls (S (S f)) V) (DeleteEndPoint e) sa) (calls (S (S f)) V [])).
      rewrite K1 by lia. done.
    - rewrite K4. apply quiet_app, Hq. }
  all: try done.
  simpl. rewrite <- (contents_length (m_heap sb)) by apply Hsb. fold (get_endpoints sb). by rewrite Hb, app_length.
Qed.
Lemma nested_delete V l e x s l1' l2' : reacts_once V (ToListener l) (EvEndpointDeleted e) [DeleteEndPoint e] ->
  wfm s -> l ∈ m_listeners s -> (ToListener l, EvEndpointDeleted e) ∉ m_log s ->
  get_endpoints s = l1' ++ e :: x :: l2' -> e ∉ l1' ->
  exists s', returns V [DeleteEndPoint e] s s' /\ get_endpoints s' = l1' ++ l2'.
Proof.
  intros HV Hs Hl Hlog He Hne.
  destruct (nested_delete_gen V l e s l1' (x :: l2')) as (sb & s1 & H1 & H2 & _ & _ & H3 & H4); [done..|].
  destruct H2 as (W1 & W2 & W3).
  destruct (remove_at_spec (m_heap s1) (m_endpoints s1) (length l1') W1) as (h' & sl' & E & _ & _ & _ & K & _).
  { rewrite H4. simpl. lia. }
  eexists. split.
  - apply (returns_intro _ _ _ _ 4).
    change (calls 4 V [DeleteEndPoint e] s) with
        (andthen (do_cmd V (calls 3 V) (DeleteEndPoint e) s) (calls 3 V [])).
    cbn [do_cmd]. rewrite He, index_of_split by done. rewrite H1. cbn [andthen]. rewrite E. done.
  - unfold get_endpoints in *. simpl. rewrite K, H3. rewrite take_app. f_equal.
    rewrite (cons_middle x), app_assoc, drop_app_alt; [done|]. rewrite app_length. simpl. lia.
Qed.
Lemma nested_delete_last V l e s l1' : reacts_once V (ToListener l) (EvEndpointDeleted e) [DeleteEndPoint e] ->
  wfm s -> l ∈ m_listeners s -> (ToListener l, EvEndpointDeleted e) ∉ m_log s ->
  get_endpoints s = l1' ++ [e] -> e ∉ l1' -> panics V [DeleteEndPoint e] s.
Proof.
  intros HV Hs Hl Hlog He Hne.
  destruct (nested_delete_gen V l e s l1' []) as (sb & s1 & H1 & H2 & _ & _ & H3 & H4); [done..|].
  apply (panics_intro _ _ _ s1 4).
  change (calls 4 V [DeleteEndPoint e] s) with
        (andthen (do_cmd V (calls 3 V) (DeleteEndPoint e) s) (calls 3 V [])).
  cbn [do_cmd]. rewrite He, index_of_split by done. rewrite H1. cbn [andthen].
  unfold remove_at. rewrite H4. simpl length. replace (S (length l1') <=? length l1' + 0) with false; [done|].
  symmetry. apply Nat.leb_gt. lia.
Qed.
(** A listener that always does so: endless recursion. *)
Lemma endless_delete V l e : reacts V (ToListener l) (EvEndpointDeleted e) [DeleteEndPoint e] ->
  forall s, l ∈ m_listeners s -> e ∈ get_endpoints s -> endless V [DeleteEndPoint e] s.
Proof.
  intros HV s Hl He f. revert s Hl He. induction f as [f IH] using lt_wf_ind. intros s Hl He.
  destruct f as [|f]; [done|].
  change (calls (S f) V [DeleteEndPoint e] s) with
        (andthen (do_cmd V (calls f V) (DeleteEndPoint e) s) (calls f V [])).
  cbn [do_cmd]. pose proof (index_of_spec e (get_endpoints s)) as Hi. destruct (index_of _ _) as [i|]; [|done].
  assert (publish V (calls f V) (EvEndpointDeleted e) s = None) as ->; [|done].
  rewrite publish_split. destruct (elem_split_first _ _ Hl) as (l1 & l2 & Hls & Hl1).
  rewrite Hls, fmap_app, fmap_cons, notify_all_app.
  destruct f as [|f].
  - destruct l1 as [|y l1]; simpl; unfold notify; simpl; done.
  - rewrite notify_all_inert; [|done|]; cycle 1.
    { intros p lg Hp. rewrite HV. rewrite decide_False; [done|]. intros [= ->]. by apply (listener_notin l l1). }
    cbn [andthen notify_all]. unfold notify. rewrite HV, decide_True by done.
    rewrite IH; [done|lia|done..].
Qed.

(** ** C38 *)
Lemma publish_delivers V ev s : wfm s -> passive V ->
  returns V [PublishEvent ev] s (with_log s (m_log s ++ ((., ev) <$> audience s))).
Proof.
  intros Hs Hp. apply returns_one. intros f Hf. simpl. rewrite publish_quiet_calls; [done..|]. by apply passive_quiet.
Qed.
Lemma everybody_told V cs ev : passive V ->
  exists s es s', returns V cs new_stack s /\ in_order_of_addition (omap ep_op cs) es /\
    returns V [PublishEvent ev] s s' /\ m_log s' = m_log s ++ ((., ev) <$> everybody cs es).
Proof.
  intros Hp. destruct (calls_passive V cs Hp _ wfm_new) as (s & H1 & Hw & H2 & _ & H4 & H5 & H6).
  exists s, (get_endpoints s). eexists. split; [done|]. split.
  { rewrite H2. change (get_endpoints new_stack) with (@nil nat). apply set_step_in_order. }
  split; [by apply publish_delivers|]. simpl. f_equal. f_equal. unfold audience, everybody.
  rewrite H4, H5, H6. done.
Qed.
Lemma effective_publish V x s : wfm s -> passive V ->
  (x ∉ get_endpoints s -> exists s', returns V [AddEndPoint x] s s' /\
     m_log s' = m_log s ++ ((., EvEndpointAdded x) <$> audience s)) /\
  (x ∈ get_endpoints s -> exists s', returns V [DeleteEndPoint x] s s' /\
     m_log s' = m_log s ++ ((., EvEndpointDeleted x) <$> audience s)) /\
  (x ∉ get_transports s -> exists s', returns V [AddTransport x] s s' /\
     m_log s' = m_log s ++ ((., EvTransportAdded x) <$> audience s)) /\
  (x ∈ get_transports s -> exists s', returns V [DeleteTransport x] s s' /\
     m_log s' = m_log s ++ ((., EvTransportDeleted x) <$> audience s)).
Proof.
  intros Hs Hp. pose proof (fun ev => passive_quiet V (m_log s) ev Hp) as Hq. split_and!; intros Hx.
  - destruct (add_ep_quiet V s x) as (s' & H1 & H2 & H3 & H4 & _); [done..|]. exists s'. split; [by apply returns_one|done].
  - pose proof (index_of_spec x (get_endpoints s)) as Hi. destruct (index_of x _) as [i|] eqn:E; [|done].
    destruct (del_ep_quiet V s x i) as (s' & H1 & H2 & H3 & H4 & _); [done..|]. exists s'. split; [by apply returns_one|done].
  - destruct (add_tp_quiet V s x) as (s' & H1 & H2 & H3 & H4 & _); [done..|]. exists s'. split; [by apply returns_one|done].
  - pose proof (index_of_spec x (get_transports s)) as Hi. destruct (index_of x _) as [i|] eqn:E; [|done].
    destruct (del_tp_quiet V s x i) as (s' & H1 & H2 & H3 & H4 & _); [done..|]. exists s'. split; [by apply returns_one|done].
Qed.

(** ** C39 *)
Lemma drop_last {A} (l : list A) (x : A) : drop (length (l ++ [x]) - 1) (l ++ [x]) = [x].
Proof. rewrite app_length. simpl. rewrite Nat.add_sub. apply drop_app. Qed.
Lemma obtained_changes V s e l1 l2 z : wfm s -> passive V -> get_endpoints s = l1 ++ e :: l2 ++ [z] ->
  NoDup (l1 ++ e :: l2 ++ [z]) ->
  exists s', returns V [DeleteEndPoint e] s s' /\ obtained s s' = l1 ++ l2 ++ [z; z] /\
    obtained s s' <> get_endpoints s.
Proof.
  intros Hs Hp He Hnd.
  assert (e ∉ l1) as Hne. { apply NoDup_app in Hnd as (_ & H & _). intros Hin. apply (H _ Hin). left. } destruct (del_ep_quiet V s e (length l1)) as (s' & H1 & H2 & _ & _ & _ & _ & _ & _ & H3 & _).
  { done. } { by apply passive_quiet. } { rewrite He. by apply index_of_split. }
  assert (G : obtained s s' = l1 ++ l2 ++ [z; z]); cycle 1.
  { exists s'. split_and!; [by apply returns_one|done|]. rewrite G, He. intros E. rewrite <- E in Hnd.
    rewrite app_assoc in Hnd. apply NoDup_app in Hnd as (_ & _ & Hnd). apply NoDup_cons in Hnd as [Hz _].
    apply Hz. left. }
  rewrite H3, He.
  replace (l1 ++ e :: l2 ++ [z]) with ((l1 ++ e :: l2) ++ [z]) at 3 by (rewrite <- app_assoc; done).
  replace (l1 ++ e :: l2 ++ [z]) with ((l1 ++ e :: l2) ++ [z]) at 2 by (rewrite <- app_assoc; done).
  rewrite drop_last. unfold drop_at. rewrite take_app.
  rewrite (cons_middle e), (app_assoc l1), drop_app_alt by (rewrite app_length; simpl; lia).
  rewrite <- !app_assoc. done.
Qed.
Lemma obtained_replaced V s e y l1 : wfm s -> passive V -> get_endpoints s = l1 ++ [e] -> NoDup (l1 ++ [e]) ->
  y ∉ l1 ->
  exists s', returns V [DeleteEndPoint e; AddEndPoint y] s s' /\ obtained s s' = l1 ++ [y].
Proof.
  intros Hs Hp He Hne Hy.
  assert (e ∉ l1) as Hel. { apply NoDup_app in Hne as (_ & H & _). intros Hin. apply (H _ Hin). left. }
  destruct (del_ep_quiet V s e (length l1)) as (s1 & H1 & H2 & _ & _ & _ & _ & _ & _ & H3 & H4 & H5 & H6).
  { done. } { by apply passive_quiet. } { rewrite He. by apply index_of_split. }
  assert (get_endpoints s1 = l1) as G1.
  { rewrite H2, He. unfold drop_at. rewrite take_app. rewrite drop_ge by (rewrite app_length; simpl; lia).
    by rewrite app_nil_r. }
  assert (wfm s1) as Hs1.
  { specialize (H1 1 ltac:(lia)). eapply (do_cmd_wfm V (calls 1 V)) in H1; [done|apply calls_wfm|done]. }
  assert (obtained s s1 = l1 ++ [e]) as O1.
  { rewrite H3, He. rewrite drop_last. unfold drop_at. rewrite take_app.
    rewrite (drop_ge (l1 ++ [e])) by (rewrite app_length; simpl; lia). by rewrite app_nil_r. }
  assert (y ∉ get_endpoints s1) as Hy1 by (by rewrite G1).
  destruct (add_ep_quiet V s1 y) as (s2 & K1 & K2 & _); [done|by apply passive_quiet|done|].
  exists s2. split; [eapply calls_cons; [done|by apply returns_one]|].
  (* the slot behind the shortened list is written *)
  assert (sl_arr (m_endpoints s2) = sl_arr (m_endpoints s) /\ sl_len (m_endpoints s2) = sl_len (m_endpoints s)) as [A1 A2].
  { specialize (K1 1 ltac:(lia)). cbn [do_cmd] in K1. rewrite decide_False in K1 by done.
    rewrite publish_quiet_calls in K1; [|lia|done|by apply passive_quiet]. cbn [andthen] in K1.
    injection K1 as <-. simpl.
    assert (0 < sl_len (m_endpoints s)) as Hpos.
    { rewrite <- (contents_length (m_heap s)) by apply Hs. fold (get_endpoints s). rewrite He, app_length. simpl. lia. }
    unfold append1. simpl. rewrite H4, H5. unfold sl_ok in H6. destruct (sl_arr (m_endpoints s)) as [a|] eqn:Ea; [|lia].
    destruct H6 as (la & Hla & Hlen).
    assert (array_of (m_heap s1) (m_endpoints s1) = la) as -> by (unfold array_of; by rewrite H4, Hla).
    destruct (Nat.ltb_spec (sl_len (m_endpoints s) - 1) (length la)); [|lia]. simpl. split; [done|lia]. }
  unfold obtained. unfold get_endpoints in K2. unfold contents in K2 |- *. unfold array_of in K2 |- *.
  rewrite A1, A2 in K2. rewrite K2. unfold get_endpoints, contents, array_of in G1. by rewrite G1.
Qed.

(** Lists stay as they are while nothing is deleted. *)
Definition covers (s0 s : mst) : Prop :=
  sl_ok (m_heap s) (m_endpoints s0) /\ apart (m_transports s) (m_endpoints s0) /\
  (sl_arr (m_endpoints s0) = sl_arr (m_endpoints s) -> sl_len (m_endpoints s0) <= sl_len (m_endpoints s)) /\
  obtained s0 s = get_endpoints s0.
Lemma covers_step V s0 s c : passive V -> wfm s -> covers s0 s -> no_deletion c ->
  exists s', (forall f, 0 < f -> do_cmd V (calls f V) c s = Some (MDone s')) /\ wfm s' /\ covers s0 s'.
Proof.
  intros Hp Hs Hcov Hnd. destruct (do_cmd_passive V c s Hp Hs) as (s' & H1 & H2 & _).
  exists s'. split_and!; [done..|]. specialize (H1 1 ltac:(lia)).
  pose proof (fun ev => passive_quiet V (m_log s) ev Hp) as Hq.
  pose proof Hs as (W1 & W2 & W3). destruct Hcov as (C1 & C2 & C3 & C4).
  destruct c as [e|e|t|t|l|p|ev|]; cbn [do_cmd] in H1.
  - case_decide; [by injection H1 as <-|]. rewrite publish_quiet_calls in H1; [|lia|done..].
    cbn [andthen] in H1. injection H1 as <-. destruct (append1 _ _ _ _) as [h' sl'] eqn:Ha.
    cbn in Ha. destruct (append1_spec _ _ _ _ _ _ W1 Ha) as (K1 & K2 & K3 & K4 & K5).
    destruct (K5 _ C1 C3) as (J1 & J2 & J3). split_and!; [done| |done|].
    + simpl. done.
    + unfold obtained in *. simpl. by rewrite J2.
  - done.
  - case_decide; [by injection H1 as <-|]. rewrite publish_quiet_calls in H1; [|lia|done..].
    cbn [andthen] in H1. injection H1 as <-. destruct (append1 _ _ _ _) as [h' sl'] eqn:Ha.
    cbn in Ha. destruct (append1_spec _ _ _ _ _ _ W2 Ha) as (K1 & K2 & K3 & K4 & K5).
    destruct (K4 _ C1 C2) as (J1 & J2 & J3). split_and!; [done..| |].
    + simpl. done.
    + unfold obtained in *. simpl. by rewrite J2.
  - pose proof (index_of_spec t (get_transports s)) as Hi.
    destruct (index_of _ _) as [i|]; [|by injection H1 as <-]. destruct Hi as [Hi _].
    apply lookup_contents_lt in Hi.
    destruct (remove_at_spec _ _ _ W2 Hi) as (h' & sl' & E & K1 & Ka & Kl & K2 & K3 & Ko & K4).
    rewrite E in H1. destruct (K4 _ W1 (apart_sym _ _ W3)) as (K6 & K7 & K8).
    destruct (K4 _ C1 C2) as (J1 & J2 & J3).
    rewrite publish_quiet_calls in H1; [|lia| |done].
    + injection H1 as <-. split_and!; [done..|]. unfold obtained in *. simpl. by rewrite J2.
    + split_and!; [done..|]. by apply apart_sym.
  - by injection H1 as <-.
  - by injection H1 as <-.
  - rewrite publish_quiet_calls in H1; [|lia|done..]. by injection H1 as <-.
  - by injection H1 as <-.
Qed.
Lemma obtained_stable V s cs : wfm s -> passive V -> Forall no_deletion cs ->
  exists s', returns V cs s s' /\ obtained s s' = get_endpoints s.
Proof.
  intros Hs Hp Hcs.
  assert (covers s s) as Hc.
  { pose proof Hs as (? & ? & ?). split_and!; [done|by apply apart_sym|done|done]. }
  revert Hs Hc. generalize s at 1 3 4. induction Hcs as [|c cs H1 H2 IH]; intros s1 Hs1 Hc.
  - exists s1. split; [apply returns_nil|apply Hc].
  - destruct (covers_step V s s1 c) as (s2 & K1 & K2 & K3); [done..|].
    destruct (IH _ K2 K3) as (s3 & J1 & J2). exists s3. split; [by eapply calls_cons|done].
Qed.

(** An endpoint that deletes itself while an event is delivered. *)
Lemma notify_endpoints_add V c sl ev n1 n2 : forall i s,
  notify_endpoints V c sl i (n1 + n2) ev s =
  andthen (notify_endpoints V c sl i n1 ev s) (notify_endpoints V c sl (i + n1) n2 ev).
Proof.
  induction n1 as [|n1 IH]; simpl; intros i s; [by rewrite Nat.add_0_r|].
  destruct (_ !! _); [|done]. destruct (notify V c _ ev s) as [[s1|s1]|]; simpl; [|done..].
  rewrite IH. do 2 f_equal. lia.
Qed.
Lemma got_app ev l1 l2 : got ev (l1 ++ l2) = got ev l1 ++ got ev l2.
Proof. apply omap_app. Qed.
Lemma got_other ev ev' ps : ev' <> ev -> got ev ((., ev') <$> ps) = [].
Proof. intros H. induction ps as [|[]]; simpl; [done..| | | |]; try done. by rewrite decide_False. Qed.
Lemma got_endpoints ev es : got ev ((., ev) <$> (ToEndpoint <$> es)) = es.
Proof. induction es as [|e es IH]; simpl; [done|]. rewrite decide_True by done. f_equal. apply IH. Qed.
Lemma got_listeners ev ls : got ev ((., ev) <$> (ToListener <$> ls)) = [].
Proof. induction ls; done. Qed.
Lemma got_aud2 ev s : got ev ((., ev) <$> aud2 s) = [].
Proof.
  unfold aud2. rewrite !fmap_app, !got_app.
  assert (got ev ((., ev) <$> (ToProcessor <$> m_processors s)) = []) as -> by (induction (m_processors s); done).
  by destruct (m_decks s).
Qed.

Lemma self_deletion V s ev e l1 r : reacts V (ToEndpoint e) ev [DeleteEndPoint e] -> ev <> EvEndpointDeleted e ->
  wfm s -> get_endpoints s = l1 ++ e :: r -> NoDup (l1 ++ e :: r) ->
  exists s', returns V [PublishEvent ev] s s' /\
    got ev (drop (length (m_log s)) (m_log s')) =
      l1 ++ e :: drop 1 (r ++ drop (length (l1 ++ e :: r) - 1) (l1 ++ e :: r)).
Proof.
  intros HV Hev Hs He Hnd.
  assert (e ∉ l1 /\ e ∉ r) as [Hel Her].
  { apply NoDup_app in Hnd as (_ & H & Hnd). apply NoDup_cons in Hnd as [? _]. split; [|done].
    intros Hin. apply (H _ Hin). left. }
  set (ls := ToListener <$> m_listeners s). set (s1 := logged ls ev s).
  set (s2 := logged (ToEndpoint <$> l1) ev s1). set (s3 := logged [ToEndpoint e] ev s2).
  assert (quiet_for V (m_log s3) (EvEndpointDeleted e)) as Hq3.
  { intros l p. rewrite HV. by rewrite decide_False by congruence. }
  destruct (del_ep_quiet V s3 e (length l1)) as (s4 & H1 & H2 & _ & H3 & H4 & H5 & H6 & _ & H7 & H8 & H9 & H10);
    [done|done|change (get_endpoints s3) with (get_endpoints s); rewrite He; by apply index_of_split|].
  change (get_endpoints s3) with (get_endpoints s) in *. rewrite He in *.
  set (w := drop 1 (r ++ drop (length (l1 ++ e :: r) - 1) (l1 ++ e :: r))) in *.
  assert (wfm s4) as Hs4.
  { specialize (H1 1 ltac:(lia)). eapply (do_cmd_wfm V (calls 1 V)) in H1; [done|apply calls_wfm|done]. }
  assert (Hdrop : drop_at (length l1) (l1 ++ e :: r) = l1 ++ r).
  { unfold drop_at. rewrite take_app. f_equal.
    rewrite (cons_middle e), app_assoc, drop_app_alt; [done|]. rewrite app_length. simpl. lia. }
  rewrite Hdrop in *.
  assert (Hlen : sl_len (m_endpoints s) = length l1 + (1 + length r)).
  { rewrite <- (contents_length (m_heap s)) by apply Hs. fold (get_endpoints s). rewrite He, app_length. done. }
  assert (Hw : length w = length r).
  { unfold w. rewrite drop_length, app_length, drop_length, app_length. simpl. lia. }
  assert (Hwin : forall x, x ∈ w -> x <> e).
  { intros x Hx ->. apply elem_of_list_lookup in Hx as [i Hx]. unfold w in Hx. rewrite lookup_drop in Hx.
    destruct (decide (1 + i < length r)).
    - rewrite lookup_app_l in Hx by lia. apply Her. by eapply elem_of_list_lookup_2.
    - rewrite lookup_app_r in Hx by lia. rewrite lookup_drop in Hx. destruct r as [|y r]; simpl in *.
      + rewrite app_length in Hx. simpl in Hx. rewrite lookup_ge_None_2 in Hx; [done|]. rewrite app_length. simpl. lia.
      + rewrite app_length in Hx. simpl in Hx.
        rewrite lookup_app_r in Hx by lia.
        match type of Hx with _ !! ?k = _ => replace k with (S (length r + (i - length r))) in Hx by lia end.
        assert ((y :: r) !! (length r + (i - length r)) = Some e) as Hx' by exact Hx.
        apply Her. by eapply elem_of_list_lookup_2. }
  assert (HVo : forall p l, p <> ToEndpoint e -> v_react V l p ev = []).
  { intros p l Hp. rewrite HV. rewrite decide_False; [done|congruence]. }
  set (s5 := logged (ToEndpoint <$> w) ev s4). set (s6 := logged (aud2 s5) ev s5).
  assert (HA : take (length l1) (drop 0 (array_of (m_heap s1) (m_endpoints s))) = l1).
  { rewrite drop_0. change (m_heap s1) with (m_heap s).
    assert (take (length l1) (get_endpoints s) = l1) as Hx by (rewrite He; apply take_app).
    unfold get_endpoints, contents in Hx. rewrite take_take, Nat.min_l in Hx by lia. done. }
  assert (HB : take (length r) (drop (length l1 + 1) (array_of (m_heap s4) (m_endpoints s))) = w).
  { unfold obtained, contents in H7. change (m_endpoints s3) with (m_endpoints s) in H7. rewrite Hlen in H7.
    rewrite <- app_assoc in H7. apply (f_equal (drop (length l1 + 1))) in H7.
    rewrite skipn_firstn_comm in H7.
    replace (length l1 + (1 + length r) - (length l1 + 1)) with (length r) in H7 by lia.
    rewrite H7. unfold w. rewrite <- drop_drop, drop_app. done. }
  exists s6. split.
  - apply (returns_intro _ _ _ _ 4).
    change (calls 4 V [PublishEvent ev] s) with (andthen (publish V (calls 3 V) ev s) (calls 3 V [])).
    rewrite publish_split. rewrite notify_all_inert; [|done|]; cycle 1.
    { intros p l (x & -> & _)%elem_of_list_fmap. by apply HVo. }
    cbn [andthen]. fold ls s1. unfold publish1.
    change (m_endpoints s1) with (m_endpoints s). rewrite Hlen, notify_endpoints_add.
    rewrite (notify_endpoints_inert V (calls 3 V) (nil_calls 2 V) _ _ _ _ _ _ HA eq_refl).
    2:{ intros x l Hx. apply HVo. intros [= ->]. done. }
    fold s2. cbn [andthen]. rewrite notify_endpoints_add. cbn [notify_endpoints plus].
    assert (array_of (m_heap s2) (m_endpoints s) !! length l1 = Some e) as ->.
    { change (m_heap s2) with (m_heap s).
      assert (get_endpoints s !! length l1 = Some e) as Hx by (rewrite He; by apply list_lookup_middle).
      unfold get_endpoints, contents in Hx. apply lookup_take_Some in Hx. apply Hx. }
    unfold notify at 1. rewrite HV, decide_True by done. fold s3.
    match goal with |- context [calls 3 V [DeleteEndPoint e] ?x] => change x with s3 end.
    change (calls 3 V [DeleteEndPoint e] s3) with (andthen (do_cmd V (calls 2 V) (DeleteEndPoint e) s3) (calls 2 V [])).
    rewrite H1 by lia. cbn [andthen]. change (calls 2 V [] s4) with (Some (MDone s4)). cbn [andthen].
    rewrite (notify_endpoints_inert V (calls 3 V) (nil_calls 2 V) _ _ _ _ _ _ HB Hw).
    2:{ intros x l Hx. apply HVo. specialize (Hwin _ Hx). congruence. }
    fold s5. cbn [andthen]. rewrite publish2_inert; [|done|]; cycle 1.
    { intros p l Hp. apply HVo. intros ->. unfold aud2 in Hp. revert Hp. rewrite !elem_of_app, elem_of_list_fmap.
      destruct (m_decks s5); rewrite ?elem_of_list_singleton, ?elem_of_nil; naive_solver. }
    done.
  - unfold s6, logged. simpl. rewrite H3. unfold logged. simpl. rewrite <- !app_assoc, drop_app.
    rewrite !got_app. unfold ls. rewrite got_listeners, !got_endpoints, got_aud2, got_other by congruence.
    simpl. rewrite decide_True by done. rewrite app_nil_r. done.
Qed.
Lemma self_deletion_misses V s ev e l1 x r z : reacts V (ToEndpoint e) ev [DeleteEndPoint e] -> ev <> EvEndpointDeleted e ->
  wfm s -> get_endpoints s = l1 ++ e :: x :: r ++ [z] -> NoDup (l1 ++ e :: x :: r ++ [z]) ->
  exists s', returns V [PublishEvent ev] s s' /\
    got ev (drop (length (m_log s)) (m_log s')) = l1 ++ e :: r ++ [z; z].
Proof.
  intros HV Hev Hs He Hnd. destruct (self_deletion V s ev e l1 (x :: r ++ [z])) as (s' & H1 & H2); [done..|].
  exists s'. split; [done|]. rewrite H2. do 2 f_equal.
  replace (l1 ++ e :: x :: r ++ [z]) with ((l1 ++ e :: x :: r) ++ [z]) by (rewrite <- app_assoc; done).
  rewrite drop_last. simpl. rewrite drop_0, <- app_assoc. done.
Qed.
Lemma self_deletion_harmless V s ev e l1 r : reacts V (ToEndpoint e) ev [DeleteEndPoint e] -> ev <> EvEndpointDeleted e ->
  wfm s -> get_endpoints s = l1 ++ e :: r -> length r <= 1 -> NoDup (l1 ++ e :: r) ->
  exists s', returns V [PublishEvent ev] s s' /\
    got ev (drop (length (m_log s)) (m_log s')) = get_endpoints s.
Proof.
  intros HV Hev Hs He Hr Hnd. destruct (self_deletion V s ev e l1 r) as (s' & H1 & H2); [done..|].
  exists s'. split; [done|]. rewrite H2, He. do 2 f_equal. destruct r as [|y [|]]; [|simpl..].
  - rewrite app_nil_l. rewrite drop_last. done.
  - replace (l1 ++ [e; y]) with ((l1 ++ [e]) ++ [y]) by (rewrite <- app_assoc; done). rewrite drop_last. done.
  - simpl in Hr. lia.
Qed.

(** ** C40 *)
Lemma foldl_total V ps : forall o, foldl (fun o p => o + v_overhead V p)%Z o ps = (o + total V ps)%Z.
Proof. induction ps as [|p ps IH]; simpl; intros o; [lia|]. rewrite IH. lia. Qed.
Lemma append_processors V ps : forall s,
  returns V (AppendDataProcessor <$> ps) s
    (Mst (m_heap s) (m_endpoints s) (m_transports s) (m_listeners s) (m_processors s ++ ps)
         (m_decks s) (m_overhead s) (m_log s)).
Proof.
  induction ps as [|p ps IH]; intros s.
  - rewrite app_nil_r. destruct s. apply returns_nil.
  - rewrite fmap_cons. eapply calls_cons; [by intros|]. specialize (IH (Mst (m_heap s) (m_endpoints s) (m_transports s)
      (m_listeners s) (m_processors s ++ [p]) (m_decks s) (m_overhead s) (m_log s))). simpl in IH.
    rewrite <- app_assoc in IH. exact IH.
Qed.
Lemma runs V k : forall s, exists s', returns V (replicate k Run) s s' /\
  m_overhead s' = (m_overhead s + Z.of_nat k * total V (m_processors s))%Z /\ m_processors s' = m_processors s.
Proof.
  induction k as [|k IH]; intros s.
  - exists s. split_and!; [apply returns_nil|simpl; lia|done].
  - simpl replicate. edestruct IH as (s' & H1 & H2 & H3). exists s'. split_and!.
    + eapply calls_cons; [by intros|exact H1].
    + rewrite H2. simpl. rewrite foldl_total. lia.
    + by rewrite H3.
Qed.
Lemma calls_app V cs1 cs2 s s1 s2 : returns V cs1 s s1 -> returns V cs2 s1 s2 -> returns V (cs1 ++ cs2) s s2.
Proof.
  intros [f1 H1] [f2 H2]. exists (f1 + length cs1 + f2). intros f Hf.
  specialize (H2 (f - length cs1) ltac:(lia)). specialize (H1 f ltac:(lia)).
  clear f1 f2 Hf.
  assert (forall f s, calls f V cs1 s = Some (MDone s1) -> calls (f - length cs1) V cs2 s1 = Some (MDone s2) ->
    calls f V (cs1 ++ cs2) s = Some (MDone s2)) as G; [|by apply G].
  clear. induction cs1 as [|c cs1 IH]; intros f s H1 H2.
  - destruct f; [done|]. injection H1 as ->. by rewrite Nat.sub_0_r in H2.
  - destruct f as [|f]; [done|]. simpl in *. destruct (do_cmd V (calls f V) c s) as [[s'|s']|]; simpl in *; [|done..].
    by apply IH.
Qed.
Lemma overhead_after_runs V ps k : exists s,
  returns V ((AppendDataProcessor <$> ps) ++ replicate k Run) new_stack s /\
  m_overhead s = (Z.of_nat k * total V ps)%Z.
Proof.
  destruct (runs V k (Mst [] (Slice None 0) (Slice None 0) [] ps false 0 [])) as (s' & H1 & H2 & _).
  exists s'. split; [|done]. eapply calls_app; [apply append_processors|done].
Qed.
Lemma overhead_refuted V ps k : 2 <= k -> total V ps <> 0%Z -> exists s,
  returns V ((AppendDataProcessor <$> ps) ++ replicate k Run) new_stack s /\ m_overhead s <> total V ps.
Proof.
  intros Hk Ht. destruct (overhead_after_runs V ps k) as (s & H1 & H2). exists s. split; [done|]. rewrite H2. nia.
Qed.
Lemma overhead_once V ps : exists s,
  returns V ((AppendDataProcessor <$> ps) ++ [Run]) new_stack s /\ m_overhead s = total V ps.
Proof. destruct (overhead_after_runs V ps 1) as (s & H1 & H2). exists s. split; [done|]. lia. Qed.

(** ** C41 *)
Lemma find_filter_ne o n name : n <> name ->
  List.find (fun p : nat * option gval => fst p =? name) (List.filter (fun p => negb (fst p =? n)) o) =
  List.find (fun p => fst p =? name) o.
Proof.
  intros Hn. induction o as [|[m v] o IH]; simpl; [done|].
  destruct (Nat.eqb_spec m n); simpl.
  - subst. destruct (Nat.eqb_spec n name); [congruence|]. done.
  - destruct (Nat.eqb_spec m name); [done|]. apply IH.
Qed.
Lemma get_set o n v name : get_option (set_option o n v) name = if n =? name then v else get_option o name.
Proof.
  unfold get_option, set_option. simpl. destruct (Nat.eqb_spec n name); [done|]. by rewrite find_filter_ne.
Qed.
Lemma options_last h name :
  get_option (foldl (fun o p => set_option o (fst p) (snd p)) [] h) name = last_set h name.
Proof.
  assert (forall o, get_option (foldl (fun o p => set_option o (fst p) (snd p)) o h) name =
    if existsb (fun p : nat * option gval => fst p =? name) h then last_set h name else get_option o name) as G.
  { induction h as [|[n v] h IH]; simpl; intros o; [done|]. rewrite IH. simpl.
    destruct (existsb _ h) eqn:E; [by rewrite orb_true_r|]. rewrite get_set. destruct (n =? name); done. }
  rewrite G. destruct (existsb _ h) eqn:E; [done|]. clear G.
  induction h as [|[n v] h IH]; simpl in *; [done|]. apply orb_false_iff in E as [E1 E2]. by rewrite E2, E1.
Qed.
Lemma parse_typed v :
  (forall d z, parse_int v d = (z, true) <-> v = Some (GInt z)) /\
  (forall d b, parse_byte v d = (b, true) <-> v = Some (GByte b)) /\
  (forall d b, parse_bool v d = (b, true) <-> v = Some (GBool b)) /\
  (forall l, parse_bytes v = (l, true) <-> v = Some (GBytes l)) /\
  (forall d, (forall z, v <> Some (GInt z)) -> parse_int v d = (d, false)) /\
  (forall d, (forall b, v <> Some (GByte b)) -> parse_byte v d = (d, false)) /\
  (forall d, (forall b, v <> Some (GBool b)) -> parse_bool v d = (d, false)) /\
  ((forall l, v <> Some (GBytes l)) -> parse_bytes v = ([], false)).
Proof. destruct v as [[]|]; split_and!; simpl; intros; try split; try naive_solver. Qed.
Lemma mtu_in_force h name :
  let o := foldl (fun o p => set_option o (fst p) (snd p)) [] h in
  (forall z, last_set h name = Some (GInt z) -> mtu_after_run o name = z) /\
  ((forall z, last_set h name <> Some (GInt z)) -> mtu_after_run o name = 2048%Z).
Proof.
  simpl. unfold mtu_after_run. rewrite options_last. split; [by intros z ->|]. intros H.
  destruct (last_set h name) as [[]|]; naive_solver.
Qed.

(** ** C56 *)
Lemma chained_embedding os name n :
  let '(os1, o) := new_embedding os name in
  exists os2, set_name os1 o n = Some (os2, o) /\ name_of os2 o = Some n.
Proof.
  simpl. eexists. unfold set_name, name_of. rewrite list_lookup_middle by done. simpl. split; [done|].
  rewrite list_lookup_insert; [done|]. rewrite !app_length. simpl. lia.
Qed.
Lemma chained_base os name n : n <> name ->
  let '(os1, o) := new_base os name in
  exists os2 o', set_name os1 o n = Some (os2, o') /\ o' <> o /\ name_of os2 o' = Some name.
Proof.
  intros Hn. simpl. do 2 eexists. unfold set_name, name_of. rewrite list_lookup_middle by done. simpl. split; [done|].
  rewrite app_length. simpl. split; [lia|].
  rewrite list_lookup_insert_ne by lia. rewrite lookup_app_l by (rewrite app_length; simpl; lia).
  rewrite list_lookup_middle by done. done.
Qed.

(** ** For states a stack can be in *)
Lemma stack_state_wfm s : stack_state s -> wfm s.
Proof. intros [V H]. by eapply reachable_wfm. Qed.
Lemma nested_add' V l e s : reacts_once V (ToListener l) (EvEndpointAdded e) [AddEndPoint e] ->
  stack_state s -> l ∈ m_listeners s -> (ToListener l, EvEndpointAdded e) ∉ m_log s -> e ∉ get_endpoints s ->
  exists s', returns V [AddEndPoint e] s s' /\ get_endpoints s' = get_endpoints s ++ [e; e].
Proof. intros. eapply nested_add; eauto using stack_state_wfm. Qed.
Lemma nested_delete' V l e x s l1' l2' : reacts_once V (ToListener l) (EvEndpointDeleted e) [DeleteEndPoint e] ->
  stack_state s -> l ∈ m_listeners s -> (ToListener l, EvEndpointDeleted e) ∉ m_log s ->
  get_endpoints s = l1' ++ e :: x :: l2' -> e ∉ l1' ->
  exists s', returns V [DeleteEndPoint e] s s' /\ get_endpoints s' = l1' ++ l2'.
Proof. intros. eapply nested_delete; eauto using stack_state_wfm. Qed.
Lemma nested_delete_last' V l e s l1' : reacts_once V (ToListener l) (EvEndpointDeleted e) [DeleteEndPoint e] ->
  stack_state s -> l ∈ m_listeners s -> (ToListener l, EvEndpointDeleted e) ∉ m_log s ->
  get_endpoints s = l1' ++ [e] -> e ∉ l1' -> panics V [DeleteEndPoint e] s.
Proof. intros. eapply nested_delete_last; eauto using stack_state_wfm. Qed.
Lemma publish_delivers' V ev s : stack_state s -> passive V ->
  returns V [PublishEvent ev] s (with_log s (m_log s ++ ((., ev) <$> audience s))).
Proof. intros. eapply publish_delivers; eauto using stack_state_wfm. Qed.
Lemma effective_publish' V x s : stack_state s -> passive V ->
  (x ∉ get_endpoints s -> exists s', returns V [AddEndPoint x] s s' /\
     m_log s' = m_log s ++ ((., EvEndpointAdded x) <$> audience s)) /\
  (x ∈ get_endpoints s -> exists s', returns V [DeleteEndPoint x] s s' /\
     m_log s' = m_log s ++ ((., EvEndpointDeleted x) <$> audience s)) /\
  (x ∉ get_transports s -> exists s', returns V [AddTransport x] s s' /\
     m_log s' = m_log s ++ ((., EvTransportAdded x) <$> audience s)) /\
  (x ∈ get_transports s -> exists s', returns V [DeleteTransport x] s s' /\
     m_log s' = m_log s ++ ((., EvTransportDeleted x) <$> audience s)).
Proof. intros. eapply effective_publish; eauto using stack_state_wfm. Qed.
Lemma obtained_changes' V s e l1 l2 z : stack_state s -> passive V -> get_endpoints s = l1 ++ e :: l2 ++ [z] ->
  NoDup (l1 ++ e :: l2 ++ [z]) ->
  exists s', returns V [DeleteEndPoint e] s s' /\ obtained s s' = l1 ++ l2 ++ [z; z] /\
    obtained s s' <> get_endpoints s.
Proof. intros. eapply obtained_changes; eauto using stack_state_wfm. Qed.
Lemma obtained_replaced' V s e y l1 : stack_state s -> passive V -> get_endpoints s = l1 ++ [e] -> NoDup (l1 ++ [e]) ->
  y ∉ l1 ->
  exists s', returns V [DeleteEndPoint e; AddEndPoint y] s s' /\ obtained s s' = l1 ++ [y].
Proof. intros. eapply obtained_replaced; eauto using stack_state_wfm. Qed.
Lemma obtained_stable' V s cs : stack_state s -> passive V -> Forall no_deletion cs ->
  exists s', returns V cs s s' /\ obtained s s' = get_endpoints s.
Proof. intros. eapply obtained_stable; eauto using stack_state_wfm. Qed.
Lemma self_deletion_misses' V s ev e l1 x r z : reacts V (ToEndpoint e) ev [DeleteEndPoint e] -> ev <> EvEndpointDeleted e ->
  stack_state s -> get_endpoints s = l1 ++ e :: x :: r ++ [z] -> NoDup (l1 ++ e :: x :: r ++ [z]) ->
  exists s', returns V [PublishEvent ev] s s' /\
    got ev (drop (length (m_log s)) (m_log s')) = l1 ++ e :: r ++ [z; z].
Proof. intros. eapply self_deletion_misses; eauto using stack_state_wfm. Qed.
Lemma self_deletion_harmless' V s ev e l1 r : reacts V (ToEndpoint e) ev [DeleteEndPoint e] -> ev <> EvEndpointDeleted e ->
  stack_state s -> get_endpoints s = l1 ++ e :: r -> length r <= 1 -> NoDup (l1 ++ e :: r) ->
  exists s', returns V [PublishEvent ev] s s' /\
    got ev (drop (length (m_log s)) (m_log s')) = get_endpoints s.
Proof. intros. eapply self_deletion_harmless; eauto using stack_state_wfm. Qed.
