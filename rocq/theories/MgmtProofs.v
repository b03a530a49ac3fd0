(** * Proofs about the administration of a stack *)
From Verif Require Import GoBase MgmtModel MgmtSpec.

(** ** Slices *)
Definition sl_ok (h : aheap) (s : slice) : Prop :=
  match sl_arr s with
  | Some a => exists l, h !! a = Some l /\ sl_len s <= length l
  | None => sl_len s = 0
  end.
Definition apart (s1 s2 : slice) : Prop := forall a, sl_arr s1 = Some a -> sl_arr s2 <> Some a.
Definition wfm (s : mst) : Prop :=
  sl_ok (m_heap s) (m_endpoints s) /\ sl_ok (m_heap s) (m_transports s) /\ apart (m_endpoints s) (m_transports s).

Lemma contents_length h s : sl_ok h s -> length (contents h s) = sl_len s.
Proof.
  unfold sl_ok, contents, array_of. destruct (sl_arr s) as [a|]; [|intros ->; done].
  intros (l & -> & Hl). simpl. rewrite take_length. lia.
Qed.

Lemma firstn_app_2_own {A} (l1 l2 : list A) n m : length l1 = n -> take (n + m) (l1 ++ l2) = l1 ++ take m l2.
Proof. intros <-. apply firstn_app_2. Qed.

Lemma append1_spec g h s x h' s' :
  sl_ok h s -> append1 g h s x = (h', s') ->
  sl_ok h' s' /\ contents h' s' = contents h s ++ [x] /\ sl_len s' = S (sl_len s) /\
  (forall t, sl_ok h t -> apart s t -> sl_ok h' t /\ contents h' t = contents h t /\ apart s' t) /\
  (forall t, sl_ok h t -> (sl_arr t = sl_arr s -> sl_len t <= sl_len s) ->
     sl_ok h' t /\ contents h' t = contents h t /\ (sl_arr t = sl_arr s' -> sl_len t <= sl_len s')).
Proof.
  unfold sl_ok, append1, contents, array_of, apart. destruct s as [[a|] n]; simpl.
  - intros (l & Hl & Hn). rewrite Hl; simpl. destruct (Nat.ltb_spec n (length l)); intros [= <- <-]; simpl.
    + assert (a < length h) by (eapply lookup_lt_Some; done).
      rewrite list_lookup_insert by done. simpl.
      split_and!.
      * eexists; split; [done|]. rewrite insert_length. lia.
      * rewrite (take_S_r _ _ x) by (apply list_lookup_insert; lia).
        rewrite take_insert by lia. done.
      * done.
      * intros [[b|] m] Ht Ha; simpl in *; [|done]. assert (a <> b) by (intros ->; by eapply Ha).
        rewrite list_lookup_insert_ne by done. done.
      * intros [[b|] m] Ht Ha; simpl in *; [|done]. destruct (decide (a = b)) as [->|].
        -- specialize (Ha eq_refl). rewrite list_lookup_insert by done. simpl. destruct Ht as (l' & Hl' & Hm).
           rewrite Hl in Hl'. injection Hl' as <-. rewrite Hl. simpl. split_and!.
           ++ eexists; split; [done|]. by rewrite insert_length.
           ++ rewrite take_insert; [done|lia].
           ++ lia.
        -- rewrite list_lookup_insert_ne by done. split_and!; [done..|]. congruence.
    + assert (n = length l) as -> by lia.
      rewrite lookup_app_r, Nat.sub_diag by lia. simpl. rewrite !firstn_all.
      split_and!.
      * eexists; split; [done|]. rewrite app_length. simpl. lia.
      * replace (S (length l)) with (length l + 1) by lia. rewrite firstn_app_2_own by done. done.
      * done.
      * intros [[b|] m] Ht Ha; simpl in *; [|done]. destruct Ht as (l' & Hl' & Hm).
        assert (b < length h) by (eapply lookup_lt_Some; done).
        rewrite lookup_app_l by done. rewrite Hl'. split_and!; [eauto|done|].
        intros ? [= <-] [= ->]. lia.
      * intros [[b|] m] Ht Ha; simpl in *; [|done]. destruct Ht as (l' & Hl' & Hm).
        assert (b < length h) by (eapply lookup_lt_Some; done).
        rewrite lookup_app_l by done. rewrite Hl'. split_and!; [eauto|done|].
        intros [= ->]. lia.
  - intros -> [= <- <-]; simpl. rewrite lookup_app_r, Nat.sub_diag by lia. simpl. split_and!.
    + eexists; split; [done|]. simpl. lia.
    + done.
    + done.
    + intros [[b|] m] Ht Ha; simpl in *; [|done]. destruct Ht as (l' & Hl' & Hm).
      assert (b < length h) by (eapply lookup_lt_Some; done).
      rewrite lookup_app_l by done. rewrite Hl'. split_and!; [eauto|done|]. intros ? [= <-] [= ->]. lia.
    + intros [[b|] m] Ht Ha; simpl in *; [|done]. destruct Ht as (l' & Hl' & Hm).
      assert (b < length h) by (eapply lookup_lt_Some; done).
      rewrite lookup_app_l by done. rewrite Hl'. split_and!; [eauto|done|]. intros [= ->]. lia.
Qed.

Lemma remove_at_spec h s i :
  sl_ok h s -> i < sl_len s ->
  exists h' s', remove_at h s i = Some (h', s') /\ sl_ok h' s' /\ sl_arr s' = sl_arr s /\ sl_len s' = sl_len s - 1 /\
    contents h' s' = take i (contents h s) ++ drop (S i) (contents h s) /\
    contents h' s = take i (contents h s) ++ drop (S i) (contents h s) ++ drop (sl_len s - 1) (contents h s) /\
    sl_ok h' s /\
    (forall t, sl_ok h t -> apart s t -> sl_ok h' t /\ contents h' t = contents h t /\ apart s' t).
Proof.
  unfold sl_ok, remove_at, contents, array_of, apart. destruct s as [[a|] n]; simpl; [|lia].
  intros (l & Hl & Hn) Hi. rewrite Hl.
  replace (match n with 0 => false | S m' => i <=? m' end) with true
    by (destruct n; [lia|]; symmetry; apply Nat.leb_le; lia).
  assert (a < length h) by (eapply lookup_lt_Some; done).
  do 2 eexists; split; [done|]. simpl. rewrite list_lookup_insert by done. simpl.
  assert (Hlen : length (take i l ++ drop (S i) (take n l) ++ drop (n - 1) l) = length l).
  { rewrite !app_length, !drop_length, !take_length. lia. }
  assert (Hlen1 : length (take i l ++ drop (S i) (take n l)) = n - 1).
  { rewrite !app_length, !drop_length, !take_length. lia. }
  split_and!.
  - eexists; split; [done|]. lia.
  - done.
  - done.
  - rewrite app_assoc, take_app_alt by done. rewrite take_take, Nat.min_l by lia. done.
  - rewrite app_assoc. replace n with ((n-1) + 1) at 1 by lia. rewrite firstn_app_2_own by done.
    rewrite take_take, (Nat.min_l i n) by lia. rewrite <- app_assoc. f_equal. f_equal.
    rewrite skipn_firstn_comm. f_equal. lia.
  - eexists; split; [done|]. lia.
  - intros [[b|] m] Ht Ha; simpl in *; [|done]. assert (a <> b) by (intros ->; by eapply Ha).
    rewrite list_lookup_insert_ne by done. done.
Qed.

Lemma index_of_spec x l :
  match index_of x l with
  | Some i => l !! i = Some x /\ x ∉ take i l
  | None => x ∉ l
  end.
Proof.
  induction l as [|y l IH]; simpl; [by apply not_elem_of_nil|].
  case_decide as Hy; [subst; split; [done|by apply not_elem_of_nil]|].
  destruct (index_of x l); simpl.
  - destruct IH as [H1 H2]. split; [done|]. rewrite not_elem_of_cons. split; [congruence|done].
  - rewrite not_elem_of_cons. split; [congruence|done].
Qed.
Lemma index_of_split x l1 l2 : x ∉ l1 -> index_of x (l1 ++ x :: l2) = Some (length l1).
Proof.
  induction l1 as [|y l1 IH]; simpl; intros Hx; [by rewrite decide_True|].
  rewrite not_elem_of_cons in Hx. destruct Hx. rewrite decide_False by congruence. by rewrite IH.
Qed.
Lemma index_of_None x l : x ∉ l -> index_of x l = None.
Proof.
  induction l as [|y l IH]; simpl; intros Hx; [done|].
  rewrite not_elem_of_cons in Hx. destruct Hx. rewrite decide_False by congruence. by rewrite IH.
Qed.

(** ** Fuel *)
Definition more (c1 c2 : list cmd -> mst -> option mres) : Prop :=
  forall cs s r, c1 cs s = Some r -> c2 cs s = Some r.
Lemma andthen_more (r1 r2 : option mres) k1 k2 r :
  (forall x, r1 = Some x -> r2 = Some x) -> (forall s x, k1 s = Some x -> k2 s = Some x) ->
  andthen r1 k1 = Some r -> andthen r2 k2 = Some r.
Proof.
  intros H1 H2 H. destruct r1 as [[s|s]|]; simpl in H; [|injection H as <-|done].
  - rewrite (H1 _ eq_refl). simpl. by apply H2.
  - by rewrite (H1 _ eq_refl).
Qed.
Section more.
  Context (V : menv) (c1 c2 : list cmd -> mst -> option mres) (Hm : more c1 c2).
  Lemma notify_more p ev s r : notify V c1 p ev s = Some r -> notify V c2 p ev s = Some r.
  Proof. apply Hm. Qed.
  Lemma notify_all_more ps ev : forall s r, notify_all V c1 ps ev s = Some r -> notify_all V c2 ps ev s = Some r.
  Proof.
    induction ps as [|p ps IH]; simpl; [done|]. intros s r.
    apply andthen_more; [intros; by apply notify_more|done].
  Qed.
  Lemma notify_endpoints_more sl ev n : forall i s r,
    notify_endpoints V c1 sl i n ev s = Some r -> notify_endpoints V c2 sl i n ev s = Some r.
  Proof.
    induction n as [|n IH]; simpl; [done|]. intros i s r. destruct (_ !! _); [|done].
    apply andthen_more; [intros; by apply notify_more|]. intros. by apply IH.
  Qed.
  Lemma publish_more ev s r : publish V c1 ev s = Some r -> publish V c2 ev s = Some r.
  Proof.
    unfold publish.
    apply andthen_more; [intros; by apply notify_all_more|]. intros s1 ?.
    apply andthen_more; [intros; by apply notify_endpoints_more|]. intros s2 ?.
    apply andthen_more; [intros ?; destruct (m_decks s2); [apply notify_more|done]|]. intros s3 ?.
    apply andthen_more; [intros; by apply notify_all_more|]. intros s4 ?.
    destruct (m_decks s4); [apply notify_more|done].
  Qed.
  Lemma do_cmd_more c s r : do_cmd V c1 c s = Some r -> do_cmd V c2 c s = Some r.
  Proof.
    destruct c; simpl; try done.
    - case_decide; [done|]. apply andthen_more; [intros; by apply publish_more|done].
    - destruct (index_of _ _); [|done]. apply andthen_more; [intros; by apply publish_more|done].
    - case_decide; [done|]. apply andthen_more; [intros; by apply publish_more|done].
    - destruct (index_of _ _); [|done]. destruct (remove_at _ _ _); [|done]. apply publish_more.
    - apply publish_more.
  Qed.
End more.
Lemma calls_more V f1 : forall f2, f1 <= f2 -> more (calls f1 V) (calls f2 V).
Proof.
  induction f1 as [|f1 IH]; intros f2 Hf cs s r H; [done|]. destruct f2 as [|f2]; [lia|].
  destruct cs as [|c cs]; simpl in *; [done|].
  assert (more (calls f1 V) (calls f2 V)) as Hm by (apply IH; lia).
  revert H. apply andthen_more; [intros; by eapply do_cmd_more|intros; by apply Hm].
Qed.
Lemma returns_intro V cs s s' f : calls f V cs s = Some (MDone s') -> returns V cs s s'.
Proof. intros H. exists f. intros f' Hf. by eapply calls_more. Qed.
Lemma panics_intro V cs s s' f : calls f V cs s = Some (MCrash s') -> panics V cs s.
Proof. intros H. exists f, s'. intros f' Hf. by eapply calls_more. Qed.
Lemma returns_det V cs s s1 s2 : returns V cs s s1 -> returns V cs s s2 -> s1 = s2.
Proof.
  intros [f1 H1] [f2 H2]. specialize (H1 (f1 + f2)). specialize (H2 (f1 + f2)).
  rewrite H1 in H2 by lia. specialize (H2 ltac:(lia)). congruence.
Qed.

(** ** States stay well formed, whatever the handlers do *)
Section keep.
  Context (V : menv) (c : list cmd -> mst -> option mres).
  Context (P : mst -> Prop).
  Definition keeps (run : mst -> option mres) : Prop :=
    forall s r, P s -> run s = Some r -> match r with MDone s' | MCrash s' => P s' end.
  Context (Hc : forall cs, keeps (c cs)).
  Context (Hlog : forall s l, P s -> P (with_log s l)).
  Lemma andthen_keeps run k : keeps run -> (forall s, P s -> forall r, k s = Some r ->
      match r with MDone s' | MCrash s' => P s' end) -> keeps (fun s => andthen (run s) k).
  Proof.
    intros H1 H2 s r Hs Hr. unfold andthen in Hr. specialize (H1 s). destruct (run s) as [[s1|s1]|].
    - specialize (H1 _ Hs eq_refl). simpl in H1. by apply (H2 s1).
    - injection Hr as <-. by apply (H1 (MCrash s1)).
    - done.
  Qed.
  Lemma notify_keeps p ev : keeps (notify V c p ev).
  Proof. intros s r Hs Hr. eapply Hc; [|exact Hr]. by apply Hlog. Qed.
  Lemma notify_all_keeps ps ev : keeps (notify_all V c ps ev).
  Proof.
    induction ps as [|p ps IH]; simpl; [by intros s r Hs [= <-]|].
    apply andthen_keeps; [apply notify_keeps|]. intros s Hs r. by apply IH.
  Qed.
  Lemma notify_endpoints_keeps sl ev n : forall i, keeps (notify_endpoints V c sl i n ev).
  Proof.
    induction n as [|n IH]; simpl; intros i; [by intros s r Hs [= <-]|].
    intros s r Hs. destruct (_ !! _); [|by intros [= <-]].
    eapply (andthen_keeps _ _ (notify_keeps _ _)); [|done]. intros s' Hs' r'. by apply IH.
  Qed.
  Lemma publish_keeps ev : keeps (publish V c ev).
  Proof.
    intros s r Hs. unfold publish.
    apply (andthen_keeps _ _ (notify_all_keeps _ _)); [|done]. clear s Hs r. intros s Hs r.
    apply (andthen_keeps _ _ (notify_endpoints_keeps _ _ _ _)); [|done]. clear s Hs r. intros s Hs r.
    eapply (andthen_keeps (fun s => if m_decks s then notify V c ToUpperDeck ev s else Some (MDone s))); [| |done].
    { intros s' r' Hs'. destruct (m_decks s'); [by apply notify_keeps|by intros [= <-]]. }
    clear s Hs r. intros s Hs r.
    apply (andthen_keeps _ _ (notify_all_keeps _ _)); [|done]. clear s Hs r. intros s Hs r.
    destruct (m_decks s); [by apply notify_keeps|by intros [= <-]].
  Qed.
End keep.

Lemma apart_sym s t : apart s t -> apart t s.
Proof. intros H a Ha Hb. by apply (H a). Qed.

Lemma wfm_append_ep V s e : wfm s -> wfm (with_endpoints s (append1 (v_grow V) (m_heap s) (m_endpoints s) e)).
Proof.
  intros (H1 & H2 & H3). destruct (append1 _ _ _ _) as [h' s'] eqn:Ha.
  destruct (append1_spec _ _ _ _ _ _ H1 Ha) as (K1 & K2 & K3 & K4 & _).
  destruct (K4 _ H2 H3) as (K5 & K6 & K7). split_and!; done.
Qed.
Lemma wfm_append_tp V s e : wfm s -> wfm (with_transports s (append1 (v_grow V) (m_heap s) (m_transports s) e)).
Proof.
  intros (H1 & H2 & H3). destruct (append1 _ _ _ _) as [h' s'] eqn:Ha.
  destruct (append1_spec _ _ _ _ _ _ H2 Ha) as (K1 & K2 & K3 & K4 & _).
  destruct (K4 _ H1 (apart_sym _ _ H3)) as (K5 & K6 & K7). split_and!; [done..|]. by apply apart_sym.
Qed.
Lemma wfm_remove_ep s i p : wfm s -> remove_at (m_heap s) (m_endpoints s) i = Some p -> wfm (with_endpoints s p).
Proof.
  intros (H1 & H2 & H3) Hr.
  assert (i < sl_len (m_endpoints s)) as Hi.
  { unfold remove_at in Hr. destruct (Nat.leb_spec (S i) (sl_len (m_endpoints s))); [lia|done]. }
  destruct (remove_at_spec _ _ _ H1 Hi) as (h' & s' & E & K1 & _ & _ & _ & _ & _ & K2).
  rewrite E in Hr. injection Hr as <-. destruct (K2 _ H2 H3) as (? & ? & ?). split_and!; done.
Qed.
Lemma wfm_remove_tp s i p : wfm s -> remove_at (m_heap s) (m_transports s) i = Some p -> wfm (with_transports s p).
Proof.
  intros (H1 & H2 & H3) Hr.
  assert (i < sl_len (m_transports s)) as Hi.
  { unfold remove_at in Hr. destruct (Nat.leb_spec (S i) (sl_len (m_transports s))); [lia|done]. }
  destruct (remove_at_spec _ _ _ H2 Hi) as (h' & s' & E & K1 & _ & _ & _ & _ & _ & K2).
  rewrite E in Hr. injection Hr as <-. destruct (K2 _ H1 (apart_sym _ _ H3)) as (? & ? & ?).
  split_and!; [done..|]. by apply apart_sym.
Qed.
Lemma do_cmd_wfm V c cm : (forall cs, keeps wfm (c cs)) -> keeps wfm (do_cmd V c cm).
Proof.
  intros Hc. assert (forall s l, wfm s -> wfm (with_log s l)) as Hlog by (by intros).
  destruct cm; intros s r Hs; simpl.
  - case_decide; [by intros [= <-]|].
    apply (andthen_keeps _ _ _ (publish_keeps _ _ _ Hc Hlog _)); [|done].
    intros s1 Hs1 r1 [= <-]. by apply wfm_append_ep.
  - destruct (index_of _ _) as [i|]; [|by intros [= <-]].
    apply (andthen_keeps _ _ _ (publish_keeps _ _ _ Hc Hlog _)); [|done].
    intros s1 Hs1 r1. destruct (remove_at _ _ _) eqn:E; intros [= <-]; [|done]. by eapply wfm_remove_ep.
  - case_decide; [by intros [= <-]|].
    apply (andthen_keeps _ _ _ (publish_keeps _ _ _ Hc Hlog _)); [|done].
    intros s1 Hs1 r1 [= <-]. by apply wfm_append_tp.
  - destruct (index_of _ _) as [i|]; [|by intros [= <-]].
    destruct (remove_at _ _ _) eqn:E; [|by intros [= <-]]. intros Hr.
    eapply publish_keeps; [done..| |exact Hr]. by eapply wfm_remove_tp.
  - by intros [= <-].
  - by intros [= <-].
  - by apply publish_keeps.
  - by intros [= <-].
Qed.
Lemma calls_wfm f V : forall cs, keeps wfm (calls f V cs).
Proof.
  induction f as [|f IH]; intros cs s r Hs Hr; [done|]. destruct cs as [|c cs]; simpl in Hr; [by injection Hr as <-|].
  revert Hr. apply (andthen_keeps _ _ _ (do_cmd_wfm _ _ _ IH)); [|done]. intros s1 Hs1 r1. by apply IH.
Qed.
Lemma wfm_new : wfm new_stack.
Proof. by split_and!. Qed.
Lemma returns_wfm V cs s s' : wfm s -> returns V cs s s' -> wfm s'.
Proof.
  intros Hs [f Hf]. specialize (Hf f ltac:(lia)). by apply (calls_wfm _ _ _ _ _ Hs Hf).
Qed.
Lemma reachable_wfm V s : reachable_mst V s -> wfm s.
Proof. intros [cs H]. eapply returns_wfm; [apply wfm_new|done]. Qed.

(** ** Handlers that make no calls from now on *)
Definition quiet_for (V : menv) (log : list (party * event)) (ev : event) : Prop :=
  forall l p, v_react V (log ++ l) p ev = [].
Lemma passive_quiet V log ev : passive V -> quiet_for V log ev.
Proof. intros H l p. apply H. Qed.
Lemma quiet_app V log l ev : quiet_for V log ev -> quiet_for V (log ++ l) ev.
Proof. intros H l' p. rewrite <- app_assoc. apply H. Qed.

Section quiet.
  Context (V : menv) (c : list cmd -> mst -> option mres) (Hc : forall s, c [] s = Some (MDone s)).
  Definition logged (ps : list party) (ev : event) (s : mst) : mst :=
    with_log s (m_log s ++ ((., ev) <$> ps)).
  Lemma logged_nil ev s : logged [] ev s = s.
  Proof. unfold logged, with_log. rewrite app_nil_r. by destruct s. Qed.
  Lemma logged_app ps1 ps2 ev s : logged ps2 ev (logged ps1 ev s) = logged (ps1 ++ ps2) ev s.
  Proof. unfold logged, with_log. simpl. by rewrite fmap_app, app_assoc. Qed.
  (** Parties that do not react *)
  Lemma notify_inert p ev s : v_react V (m_log s) p ev = [] -> notify V c p ev s = Some (MDone (logged [p] ev s)).
  Proof. intros H. unfold notify. rewrite H, Hc. done. Qed.
  Lemma notify_all_inert ps ev : forall s,
    (forall p l, p ∈ ps -> v_react V (m_log s ++ l) p ev = []) ->
    notify_all V c ps ev s = Some (MDone (logged ps ev s)).
  Proof.
    induction ps as [|p ps IH]; simpl; intros s H; [by rewrite logged_nil|].
    rewrite notify_inert; simpl.
    - rewrite IH; [by rewrite logged_app|]. intros q l Hq. simpl. rewrite <- app_assoc. apply H. by right.
    - specialize (H p [] ltac:(left)). by rewrite app_nil_r in H.
  Qed.
  Lemma notify_endpoints_inert sl ev n : forall i s es,
    take n (drop i (array_of (m_heap s) sl)) = es -> length es = n ->
    (forall e l, e ∈ es -> v_react V (m_log s ++ l) (ToEndpoint e) ev = []) ->
    notify_endpoints V c sl i n ev s = Some (MDone (logged (ToEndpoint <$> es) ev s)).
  Proof.
    induction n as [|n IH]; simpl; intros i s es Hes Hl H.
    - subst es. simpl. by rewrite logged_nil.
    - destruct (array_of (m_heap s) sl !! i) as [e|] eqn:He.
      + rewrite (drop_S _ e) in Hes by done. simpl in Hes. subst es. simpl in *.
        rewrite notify_inert; simpl.
        * erewrite IH; [by rewrite logged_app| |by injection Hl as ->|].
          -- simpl. done.
          -- intros e' l He'. simpl. rewrite <- app_assoc. apply H. by right.
        * specialize (H e [] ltac:(left)). by rewrite app_nil_r in H.
      + apply lookup_ge_None_1 in He. rewrite drop_ge in Hes by done. subst es. done.
  Qed.
  (** The parties behind the endpoints, and behind the listeners. *)
  Definition aud2 (s : mst) : list party :=
    (if m_decks s then [ToUpperDeck] else []) ++ (ToProcessor <$> m_processors s) ++
    (if m_decks s then [ToLowerDeck] else []).
  Definition aud1 (s : mst) : list party := (ToEndpoint <$> get_endpoints s) ++ aud2 s.
  Definition publish2 (ev : event) (s2 : mst) : option mres :=
    andthen (if m_decks s2 then notify V c ToUpperDeck ev s2 else Some (MDone s2)) (fun s3 =>
    andthen (notify_all V c (ToProcessor <$> m_processors s3) ev s3) (fun s4 =>
    if m_decks s4 then notify V c ToLowerDeck ev s4 else Some (MDone s4))).
  Definition publish1 (ev : event) (s1 : mst) : option mres :=
    andthen (notify_endpoints V c (m_endpoints s1) 0 (sl_len (m_endpoints s1)) ev s1) (publish2 ev).
  Lemma publish_split ev s :
    publish V c ev s = andthen (notify_all V c (ToListener <$> m_listeners s) ev s) (publish1 ev).
  Proof. done. Qed.
  Lemma publish2_inert ev s : (forall p l, p ∈ aud2 s -> v_react V (m_log s ++ l) p ev = []) ->
    publish2 ev s = Some (MDone (logged (aud2 s) ev s)).
  Proof.
    intros Hq. unfold publish2, aud2 in *. destruct (m_decks s) eqn:Ed; simpl in *.
    - rewrite notify_inert; simpl.
      + rewrite notify_all_inert; simpl.
        * rewrite Ed. rewrite notify_inert; [by rewrite !logged_app|].
          unfold logged. simpl. rewrite <- app_assoc. apply Hq. right. apply elem_of_app. right. left.
        * intros p l Hp. rewrite <- app_assoc. apply Hq. right. apply elem_of_app. by left.
      + rewrite <- (app_nil_r (m_log s)). apply Hq. left.
    - rewrite notify_all_inert; simpl.
      + rewrite Ed. by rewrite app_nil_r.
      + intros p l Hp. apply Hq. apply elem_of_app. by left.
  Qed.
  Lemma publish1_inert ev s : wfm s -> (forall p l, p ∈ aud1 s -> v_react V (m_log s ++ l) p ev = []) ->
    publish1 ev s = Some (MDone (logged (aud1 s) ev s)).
  Proof.
    intros (H1 & _ & _) Hq. unfold publish1.
    erewrite notify_endpoints_inert; cycle 1.
    { rewrite drop_0. done. }
    { exact (contents_length _ _ H1). }
    { intros e l He. apply Hq. apply elem_of_app. left. by apply elem_of_list_fmap_1. }
    simpl. rewrite publish2_inert; [unfold aud1; by rewrite logged_app|].
    intros p l Hp. unfold logged; simpl. rewrite <- app_assoc. apply Hq. apply elem_of_app. by right.
  Qed.
  Lemma publish_quiet ev s : wfm s -> quiet_for V (m_log s) ev ->
    publish V c ev s = Some (MDone (logged (audience s) ev s)).
  Proof.
    intros Hs Hq. rewrite publish_split. rewrite notify_all_inert by (intros; apply Hq). simpl.
    rewrite publish1_inert; [|done|].
    - rewrite logged_app. done.
    - intros. unfold logged; simpl. rewrite <- app_assoc. apply Hq.
  Qed.
End quiet.

(** ** Passive handlers: the effect of each call *)
Definition drop_at {A} (i : nat) (l : list A) : list A := take i l ++ drop (S i) l.
Lemma calls_nil f V s : 0 < f -> calls f V [] s = Some (MDone s).
Proof. destruct f; [lia|done]. Qed.

Lemma publish_quiet_calls f V ev s : 0 < f -> wfm s -> quiet_for V (m_log s) ev ->
  publish V (calls f V) ev s = Some (MDone (logged (audience s) ev s)).
Proof. intros Hf Hs Hq. apply publish_quiet; [|done..]. intros. by apply calls_nil. Qed.

Lemma add_ep_quiet V s e : wfm s -> quiet_for V (m_log s) (EvEndpointAdded e) -> e ∉ get_endpoints s ->
  exists s', (forall f, 0 < f -> do_cmd V (calls f V) (AddEndPoint e) s = Some (MDone s')) /\
    get_endpoints s' = get_endpoints s ++ [e] /\ get_transports s' = get_transports s /\
    m_log s' = m_log s ++ ((., EvEndpointAdded e) <$> audience s) /\
    m_listeners s' = m_listeners s /\ m_processors s' = m_processors s /\ m_decks s' = m_decks s /\
    m_overhead s' = m_overhead s /\ obtained s s' = get_endpoints s.
Proof.
  intros Hs Hq He. destruct (append1 (v_grow V) (m_heap s) (m_endpoints s) e) as [h' sl'] eqn:Ha.
  pose proof Hs as (H1 & H2 & H3).
  destruct (append1_spec _ _ _ _ _ _ H1 Ha) as (K1 & K2 & K3 & K4 & K5).
  destruct (K4 _ H2 H3) as (K6 & K7 & K8). destruct (K5 (m_endpoints s) H1) as (_ & K9 & _); [done|].
  eexists. split.
  - intros f Hf. simpl. rewrite decide_False by done. rewrite publish_quiet_calls by done. simpl. rewrite Ha. done.
  - split_and!; try done.
Qed.
Lemma add_tp_quiet V s e : wfm s -> quiet_for V (m_log s) (EvTransportAdded e) -> e ∉ get_transports s ->
  exists s', (forall f, 0 < f -> do_cmd V (calls f V) (AddTransport e) s = Some (MDone s')) /\
    get_endpoints s' = get_endpoints s /\ get_transports s' = get_transports s ++ [e] /\
    m_log s' = m_log s ++ ((., EvTransportAdded e) <$> audience s) /\
    m_listeners s' = m_listeners s /\ m_processors s' = m_processors s /\ m_decks s' = m_decks s /\
    m_overhead s' = m_overhead s /\ m_endpoints s' = m_endpoints s /\
    (forall t, sl_ok (m_heap s) t -> apart (m_transports s) t ->
       sl_ok (m_heap s') t /\ contents (m_heap s') t = contents (m_heap s) t).
Proof.
  intros Hs Hq He. destruct (append1 (v_grow V) (m_heap s) (m_transports s) e) as [h' sl'] eqn:Ha.
  pose proof Hs as (H1 & H2 & H3).
  destruct (append1_spec _ _ _ _ _ _ H2 Ha) as (K1 & K2 & K3 & K4 & K5).
  destruct (K4 _ H1 (apart_sym _ _ H3)) as (K6 & K7 & K8).
  eexists. split.
  - intros f Hf. simpl. rewrite decide_False by done. rewrite publish_quiet_calls by done. simpl. rewrite Ha. done.
  - split_and!; try done. intros t Ht Hat. destruct (K4 _ Ht Hat) as (? & ? & ?). done.
Qed.
Lemma lookup_contents_lt h s i x : contents h s !! i = Some x -> i < sl_len s.
Proof. intros H. apply lookup_lt_Some in H. unfold contents in H. rewrite take_length in H. lia. Qed.
Lemma del_ep_quiet V s e i : wfm s -> quiet_for V (m_log s) (EvEndpointDeleted e) ->
  index_of e (get_endpoints s) = Some i ->
  exists s', (forall f, 0 < f -> do_cmd V (calls f V) (DeleteEndPoint e) s = Some (MDone s')) /\
    get_endpoints s' = drop_at i (get_endpoints s) /\ get_transports s' = get_transports s /\
    m_log s' = m_log s ++ ((., EvEndpointDeleted e) <$> audience s) /\
    m_listeners s' = m_listeners s /\ m_processors s' = m_processors s /\ m_decks s' = m_decks s /\
    m_overhead s' = m_overhead s /\
    obtained s s' = drop_at i (get_endpoints s) ++ drop (length (get_endpoints s) - 1) (get_endpoints s) /\
    sl_arr (m_endpoints s') = sl_arr (m_endpoints s) /\
    sl_len (m_endpoints s') = sl_len (m_endpoints s) - 1 /\ sl_ok (m_heap s') (m_endpoints s).
Proof.
  intros Hs Hq Hi. pose proof Hs as (H1 & H2 & H3).
  pose proof (index_of_spec e (get_endpoints s)) as Hx. rewrite Hi in Hx. destruct Hx as [Hx _].
  apply lookup_contents_lt in Hx.
  destruct (remove_at_spec _ _ _ H1 Hx) as (h' & s' & E & K1 & Ka & Kl & K2 & K3 & Ko & K4).
  destruct (K4 _ H2 H3) as (K6 & K7 & K8).
  eexists. split.
  - intros f Hf. simpl. rewrite Hi. rewrite publish_quiet_calls by done. simpl. rewrite E. done.
  - split_and!; try done. unfold obtained, drop_at, get_endpoints. simpl. rewrite K3, <- app_assoc.
    by rewrite contents_length.
Qed.
Lemma del_tp_quiet V s e i : wfm s -> quiet_for V (m_log s) (EvTransportDeleted e) ->
  index_of e (get_transports s) = Some i ->
  exists s', (forall f, 0 < f -> do_cmd V (calls f V) (DeleteTransport e) s = Some (MDone s')) /\
    get_endpoints s' = get_endpoints s /\ get_transports s' = drop_at i (get_transports s) /\
    m_log s' = m_log s ++ ((., EvTransportDeleted e) <$> audience s) /\
    m_listeners s' = m_listeners s /\ m_processors s' = m_processors s /\ m_decks s' = m_decks s /\
    m_overhead s' = m_overhead s /\ m_endpoints s' = m_endpoints s /\
    (forall t, sl_ok (m_heap s) t -> apart (m_transports s) t ->
       sl_ok (m_heap s') t /\ contents (m_heap s') t = contents (m_heap s) t).
Proof.
  intros Hs Hq Hi. pose proof Hs as (H1 & H2 & H3).
  pose proof (index_of_spec e (get_transports s)) as Hx. rewrite Hi in Hx. destruct Hx as [Hx _].
  apply lookup_contents_lt in Hx.
  destruct (remove_at_spec _ _ _ H2 Hx) as (h' & s' & E & K1 & Ka & Kl & K2 & K3 & Ko & K4).
  destruct (K4 _ H1 (apart_sym _ _ H3)) as (K6 & K7 & K8).
  assert (get_endpoints (with_transports s (h', s')) = get_endpoints s) as Hg by done.
  eexists. split.
  - intros f Hf. simpl. rewrite Hi, E. rewrite publish_quiet_calls; [done|done| |done].
    split_and!; [done..|]. by apply apart_sym.
  - split_and!; try done.
    + unfold logged. simpl. unfold audience. simpl. rewrite Hg. done.
    + intros t Ht Hat. destruct (K4 _ Ht Hat) as (? & ? & ?). done.
Qed.
