(** * In every interleaving the calls and the publications end *)
From Verif Require Import GoBase MgmtModel MgmtSpec MgmtProofs AdmModel AdmSpec AdmProofs AdmTold AdmRuns.

(** ** How long the lists can get *)
Definition pend (pc : apc) : nat :=
  match pc with CAddScan _ _ _ | CAddPub _ _ | CAddRead _ | CAddWrite _ _ => 1 | _ => 0 end.
Definition headers (pc : apc) : list slice :=
  match pc with
  | CAddScan _ sl _ | CAddWrite _ sl | CAddStore _ sl | CDelScan _ sl _ | CDelWrite _ _ sl | CDelStore _ sl => [sl]
  | _ => [] end.
Definition pub_of (pc : apc) : list nat := match pc with CAddPub _ p | CDelPub _ _ p => [p] | _ => [] end.

Notation sm := sum_list_with.
Lemma sm_insert {A} (w : A -> nat) l i x y : l !! i = Some x -> sm w (<[i := y]> l) + w x = sm w l + w y.
Proof.
  revert i. induction l as [|z l IH]; intros [|i] H; try done; simpl in *.
  - injection H as ->. lia.
  - specialize (IH _ H). lia.
Qed.
Lemma sm_snoc {A} (w : A -> nat) l x : sm w (l ++ [x]) = sm w l + w x.
Proof. rewrite sum_list_with_app. simpl. lia. Qed.

Record bnd (n : nat) (s : ast) : Prop := {
  bn_eps : sl_len (a_eps s) + sm pend (a_calls s) <= n;
  bn_pubs : forall p sl i, a_pubs s !! p = Some (sl, i) -> sl_len sl + sm pend (a_calls s) <= n;
  bn_calls : forall c pc sl, a_calls s !! c = Some pc -> sl ∈ headers pc -> sl_len sl + sm pend (a_calls s) <= n;
  bn_pub : forall c pc p, a_calls s !! c = Some pc -> p ∈ pub_of pc -> p < length (a_pubs s) }.

Lemma append1_len g h s x h' s' : append1 g h s x = (h', s') -> sl_len s' <= S (sl_len s).
Proof.
  unfold append1. intros H. destruct (sl_arr s) as [a|]; [destruct (sl_len s <? length (array_of h s))|]; injection H as <- <-; simpl; lia.
Qed.
Lemma remove_len h s i h' s' : remove_at h s i = Some (h', s') -> sl_len s' <= sl_len s.
Proof.
  unfold remove_at. intros H. destruct (S i <=? sl_len s); [|done]. destruct (sl_arr s) as [a|]; [|done]. injection H as <- <-. simpl. lia.
Qed.

(** One call moves on, to a place with no more pending than before. *)
Lemma bnd_call n h eps sv ps cs lg b h' eps' sv' ps' lg' b' c pc pc' :
  bnd n (Ast h eps sv ps cs lg b) -> cs !! c = Some pc -> pend pc' <= pend pc ->
  (eps' = eps \/ eps' ∈ headers pc) ->
  (ps' = ps \/ ps' = ps ++ [(eps, 0)] \/ exists p sl i j, ps !! p = Some (sl, i) /\ ps' = <[p := (sl, j)]> ps) ->
  (forall sl, sl ∈ headers pc' -> sl = eps \/ exists sl0, sl0 ∈ headers pc /\ sl_len sl + pend pc' <= sl_len sl0 + pend pc) ->
  (forall p, p ∈ pub_of pc' -> p < length ps') ->
  bnd n (Ast h' eps' sv' ps' (<[c := pc']> cs) lg' b').
Proof.
  intros [H1 H2 H3 H4] Hc Hp He Hps Hh Hpu. cbn [a_eps a_pubs a_calls] in *.
  pose proof (sm_insert pend cs c pc pc' Hc) as Hs.
  assert (sl_len eps' + sm pend cs <= n) as He'. { destruct He as [->|He]; [done|]. eapply H3; done. }
  assert (length ps <= length ps') as Hl.
  { destruct Hps as [->|[->|(p & sl & i & j & _ & ->)]]; [lia|rewrite app_length; simpl; lia|by rewrite insert_length]. }
  split; cbn [a_eps a_pubs a_calls].
  - lia.
  - intros p sl i Hpi. assert (sl_len sl + sm pend cs <= n); [|lia].
    destruct Hps as [->|[->|(p0 & sl0 & i0 & j0 & E & ->)]].
    + eauto.
    + apply lookup_app_Some in Hpi as [Hpi|[_ Hpi]]; [eauto|]. apply list_lookup_singleton_Some in Hpi as [_ Hpi]. by injection Hpi as <- <-.
    + destruct (decide (p = p0)) as [->|Hne].
      * rewrite list_lookup_insert in Hpi by (by eapply lookup_lt_Some). injection Hpi as <- <-. eauto.
      * rewrite list_lookup_insert_ne in Hpi by done. eauto.
  - intros k pk sl Hk Hin. destruct (decide (k = c)) as [->|Hne].
    + rewrite list_lookup_insert in Hk by (by eapply lookup_lt_Some). injection Hk as <-.
      destruct (Hh _ Hin) as [->|(sl0 & Hin0 & Hle)]; [lia|]. specialize (H3 _ _ _ Hc Hin0). lia.
    + rewrite list_lookup_insert_ne in Hk by done. specialize (H3 _ _ _ Hk Hin). lia.
  - intros k pk p Hk Hin. destruct (decide (k = c)) as [->|Hne].
    + rewrite list_lookup_insert in Hk by (by eapply lookup_lt_Some). injection Hk as <-. eauto.
    + rewrite list_lookup_insert_ne in Hk by done. specialize (H4 _ _ _ Hk Hin). lia.
Qed.
Lemma bnd_begin n h eps sv ps cs lg b e pc : bnd n (Ast h eps sv ps cs lg b) -> (pc = CAddScan e eps 0 \/ pc = CDelScan e eps 0) ->
  bnd (n + pend pc) (Ast h eps sv ps (cs ++ [pc]) lg b).
Proof.
  intros [H1 H2 H3 H4] Hpc. cbn [a_eps a_pubs a_calls] in *. split; cbn [a_eps a_pubs a_calls]; rewrite ?sm_snoc.
  - lia.
  - intros p sl i H. specialize (H2 _ _ _ H). lia.
  - intros c pk sl H Hin. apply lookup_app_Some in H as [H|[_ H]].
    + specialize (H3 _ _ _ H Hin). lia.
    + apply list_lookup_singleton_Some in H as [_ <-]. destruct Hpc as [->| ->]; simpl in *; apply elem_of_list_singleton in Hin as ->; lia.
  - intros c pk p H Hin. apply lookup_app_Some in H as [H|[_ H]]; [eauto|].
    apply list_lookup_singleton_Some in H as [_ <-]. destruct Hpc as [->| ->]; simpl in *; by apply elem_of_nil in Hin.
Qed.
Lemma bnd_pubs n h eps sv ps cs lg b lg' ps' : bnd n (Ast h eps sv ps cs lg b) -> length ps <= length ps' ->
  (forall p sl i, ps' !! p = Some (sl, i) -> sl = eps \/ exists q j, ps !! q = Some (sl, j)) -> bnd n (Ast h eps sv ps' cs lg' b).
Proof.
  intros [H1 H2 H3 H4] Hl Hps. cbn [a_eps a_pubs a_calls] in *. split; cbn [a_eps a_pubs a_calls]; try done.
  - intros p sl i H. destruct (Hps _ _ _ H) as [->|(q & j & Hq)]; [done|eauto].
  - intros c pk p H Hin. specialize (H4 _ _ _ H Hin). lia.
Qed.

Definition add1 (l : alab) : nat := match l with AAdd _ => 1 | _ => 0 end.
Lemma additions_snoc ls l : additions (ls ++ [l]) = additions ls + add1 l.
Proof. unfold additions. rewrite List.filter_app, app_length. f_equal. by destruct l. Qed.
Lemma bnd_step g n s l s' : bnd n s -> astep g s l s' -> bnd (n + add1 l) s'.
Proof.
  intros H Hs. destruct Hs; simpl add1; rewrite ?Nat.add_0_r.
  all: try (eapply bnd_call; [exact H|eassumption| | | | |]; simpl; try lia; try (by left); try (by right; left);
    try (right; by left); try (intros ? Hin; by apply elem_of_nil in Hin);
    try (intros ? Hin; apply elem_of_list_singleton in Hin as ->; right; eexists; split; [by left|simpl; lia]);
    try (intros ? Hin; apply elem_of_list_singleton in Hin as ->; by left);
    try (intros ? Hin; apply elem_of_list_singleton in Hin as ->; rewrite app_length; simpl; lia); fail).
  - apply (bnd_begin n h eps sv ps cs lg false e (CAddScan e eps 0) H). by left.
  - pose proof (bnd_begin n h eps sv ps cs lg false e (CDelScan e eps 0) H) as H'. simpl in H'. rewrite Nat.add_0_r in H'. apply H'. by right.
  - eapply bnd_pubs; [exact H|rewrite app_length; lia|]. intros p sl i Hp. apply lookup_app_Some in Hp as [Hp|[_ Hp]]; [right; eauto|].
    apply list_lookup_singleton_Some in Hp as [_ Hp]. injection Hp as <- <-. by left.
  - eapply bnd_pubs; [exact H|by rewrite insert_length|]. intros q sl' j Hq. right. destruct (decide (q = p)) as [->|Hne].
    + rewrite list_lookup_insert in Hq by (by eapply lookup_lt_Some). injection Hq as <- <-. eauto.
    + rewrite list_lookup_insert_ne in Hq by done. eauto.
  - apply append1_len in H1. eapply bnd_call; [exact H|eassumption| | | | |]; simpl; try lia; try (by left).
    + intros ? Hin. apply elem_of_list_singleton in Hin as ->. right. eexists. split; [by left|simpl; lia].
    + intros ? Hin. by apply elem_of_nil in Hin.
  - apply remove_len in H1. eapply bnd_call; [exact H|eassumption| | | | |]; simpl; try lia; try (by left).
    + intros ? Hin. apply elem_of_list_singleton in Hin as ->. right. eexists. split; [by left|simpl; lia].
    + intros ? Hin. by apply elem_of_nil in Hin.
  - by destruct H.
Qed.
Lemma bnd_run g ls s : arun g new_ast ls s -> bnd (additions ls) s.
Proof.
  induction 1 as [|ls s1 l s2 _ IH Hs].
  - split; simpl; try done; lia.
  - rewrite additions_snoc. by eapply bnd_step.
Qed.

(** ** What is left to do *)
Definition pcw (B : nat) (pc : apc) : nat :=
  match pc with
  | CAddScan _ sl i | CDelScan _ sl i => (sl_len sl - i) + B + 5
  | CAddPub _ _ | CDelPub _ _ _ => 4
  | CAddRead _ | CDelRead _ _ => 3
  | CAddWrite _ _ | CDelWrite _ _ _ => 2
  | CAddStore _ _ | CDelStore _ _ => 1
  | CDone => 0
  end.
Definition pubw (x : slice * nat) : nat := sl_len (fst x) - snd x.
Definition left_to_do (B : nat) (s : ast) : nat :=
  if a_panic s then 0 else sm (pcw B) (a_calls s) + sm pubw (a_pubs s).
Definition inn1 (l : alab) : nat := if a_inner l then 1 else 0.
Definition allow (B : nat) (l : alab) : nat := match l with AAdd _ | ADel _ => 2 * B + 5 | APublish => B | _ => 0 end.

Lemma less_step g n B s l s' : bnd n s -> n <= B -> astep g s l s' -> inn1 l + left_to_do B s' <= left_to_do B s + allow B l.
Proof.
  intros H HB Hs. assert (sl_len (a_eps s) <= B) as He by (pose proof (bn_eps _ _ H); lia). clear H HB.
  unfold left_to_do. destruct Hs; cbn [a_eps a_calls a_pubs a_panic] in *; unfold inn1; cbn [a_inner allow]; rewrite ?sm_snoc;
    repeat match goal with |- context [pubw (?a, ?b)] => change (pubw (a, b)) with (sl_len a - b) end; cbn [pcw].
  all: try match goal with H : ?cs !! ?c = Some ?pc |- context [sm (pcw ?B) (<[?c := ?pc']> ?cs)] =>
    pose proof (sm_insert (pcw B) cs c pc pc' H) as E; cbn [pcw] in E end.
  all: try match goal with H : ?ps !! ?p = Some ?x |- context [sm pubw (<[?p := ?y]> ?ps)] =>
    pose proof (sm_insert pubw ps p x y H) as E' end;
    repeat match goal with H : context [pubw (?a, ?b)] |- _ => change (pubw (a, b)) with (sl_len a - b) in H end; try lia.
  (* the panic *)
  pose proof (sm_insert (pcw B) cs c _ CDone H) as E. cbn [pcw] in E. lia.
Qed.

Lemma inner_snoc ls l : inner_steps (ls ++ [l]) = inner_steps ls + inn1 l.
Proof. unfold inner_steps. rewrite List.filter_app, app_length. f_equal. unfold inn1. simpl. by destruct (a_inner l). Qed.
Definition pub1 (l : alab) : nat := match l with APublish => 1 | _ => 0 end.
Lemma publications_snoc ls l : publications (ls ++ [l]) = publications ls + pub1 l.
Proof. unfold publications. rewrite List.filter_app, app_length. f_equal. by destruct l. Qed.
Lemma calls_snoc ls l : length (omap a_op (ls ++ [l])) = length (omap a_op ls) + length (option_list (a_op l)).
Proof. rewrite omap_snoc. unfold ops_after. by rewrite app_length. Qed.

Lemma adm_left g ls s B : arun g new_ast ls s -> additions ls <= B ->
  inner_steps ls + left_to_do B s <= length (omap a_op ls) * (2 * B + 5) + publications ls * B.
Proof.
  induction 1 as [|ls s1 l s2 Hr IH Hs]; intros HB.
  - unfold left_to_do, inner_steps. simpl. lia.
  - rewrite additions_snoc in HB. rewrite inner_snoc, publications_snoc, calls_snoc.
    pose proof (less_step _ _ B _ _ _ (bnd_run _ _ _ Hr) ltac:(lia) Hs) as Hl. specialize (IH ltac:(lia)).
    assert (allow B l = length (option_list (a_op l)) * (2 * B + 5) + pub1 l * B) as Ha by (destruct l; simpl; lia).
    rewrite Ha in Hl. lia.
Qed.
Lemma adm_steps g ls s : arun g new_ast ls s ->
  inner_steps ls <= length (omap a_op ls) * (2 * additions ls + 5) + publications ls * additions ls.
Proof. intros Hr. pose proof (adm_left g ls s _ Hr (le_n _)). lia. Qed.

(** ** Nothing stands still before its end *)
Lemma adm_ends g ls s : arun g new_ast ls s -> a_panic s = false ->
  (forall l s', a_inner l = true -> ~ astep g s l s') ->
  all_returned s /\ forall p, p < length (a_pubs s) -> finished p s.
Proof.
  intros Hr Hp Hno. pose proof (ainv_given _ _ _ Hr) as [Ae Ap Ac _]. pose proof (bn_pub _ _ (bnd_run _ _ _ Hr)) as Hpub.
  assert (forall p, p < length (a_pubs s) -> finished p s) as Hfin.
  { intros p Hlt. destruct (lookup_lt_is_Some_2 _ _ Hlt) as [[sl i] Hpi]. exists sl, i. split; [done|].
    destruct (decide (sl_len sl <= i)) as [|Hn]; [done|]. exfalso.
    destruct (publications_go_on g ls s p sl i Hr Hp Hpi ltac:(lia)) as (e & s' & Hs & _). by eapply (Hno (ADeliver p)). }
  split; [|done]. intros pc Hin. apply elem_of_list_lookup in Hin as [c Hc].
  destruct (Forall2_lookup_r _ _ _ _ _ Ac Hc) as (op & _ & Hok).
  destruct s as [h eps sv ps cs lg b]. cbn [a_heap a_eps a_pubs a_calls a_panic] in *. subst b.
  destruct pc as [e sl i|e p|e|e sl|e sl|e sl i|e i p|e i|e i sl|e sl|]; [exfalso..|done].
  - assert (okh (fun x => AAdd x ∈ ls) h sl) as [Hsl _] by (by destruct op; simpl in Hok; naive_solver).
    destruct (decide (sl_len sl <= i)) as [Hle|Hn].
    { eapply (Hno (AScan c)); [done|]. by eapply as_scan_end. }
    destruct (array_Some _ _ i Hsl ltac:(lia)) as [x Hx]. destruct (decide (x = e)) as [->|Hne].
    + eapply (Hno (AScan c)); [done|]. eapply as_scan_found; [done|lia|done].
    + eapply (Hno (AScan c)); [done|]. eapply as_scan_next; [done|lia|done|done].
  - destruct (Hfin p) as (sl & i & H1 & H2); [eapply Hpub; [exact Hc|by left]|].
    eapply (Hno (ADeck c)); [done|]. by eapply as_add_deck.
  - eapply (Hno (ARead c)); [done|]. by eapply as_add_read.
  - destruct (append1 g h sl e) as [h' sl'] eqn:E. eapply (Hno (AWrite c)); [done|]. by eapply as_add_write.
  - eapply (Hno (AStore c)); [done|]. by eapply as_add_store.
  - assert (okh (fun x => AAdd x ∈ ls) h sl) as [Hsl _] by (by destruct op; simpl in Hok; naive_solver).
    destruct (decide (sl_len sl <= i)) as [Hle|Hn].
    { eapply (Hno (AScan c)); [done|]. by eapply as_find_end. }
    destruct (array_Some _ _ i Hsl ltac:(lia)) as [x Hx]. destruct (decide (x = e)) as [->|Hne].
    + eapply (Hno (AScan c)); [done|]. eapply as_find; [done|lia|done].
    + eapply (Hno (AScan c)); [done|]. eapply as_find_next; [done|lia|done|done].
  - destruct (Hfin p) as (sl & k & H1 & H2); [eapply Hpub; [exact Hc|by left]|].
    eapply (Hno (ADeck c)); [done|]. by eapply as_del_deck.
  - eapply (Hno (ARead c)); [done|]. by eapply as_del_read.
  - destruct (remove_at h sl i) as [[h' sl']|] eqn:E.
    + eapply (Hno (AErase c i)); [done|]. by eapply as_del_write.
    + eapply (Hno (AErase c i)); [done|]. by eapply as_del_panic.
  - eapply (Hno (AStore c)); [done|]. by eapply as_del_store.
Qed.

(** ** A publication makes as many calls as there were endpoints *)
Definition counted_pub (s : ast) : Prop :=
  (forall p sl i, a_pubs s !! p = Some (sl, i) -> length (told p s) = i /\ i <= sl_len sl) /\
  (forall p, length (a_pubs s) <= p -> told p s = []).
Lemma told_snoc h eps sv ps cs lg b p q e h' eps' sv' ps' cs' b' :
  told p (Ast h' eps' sv' ps' cs' (lg ++ [(q, e)]) b') = told p (Ast h eps sv ps cs lg b) ++ if decide (q = p) then [e] else [].
Proof.
  unfold told. cbn [a_log]. rewrite List.filter_app, fmap_app. f_equal. simpl. destruct (Nat.eqb_spec q p) as [->|Hne].
  - by rewrite decide_True.
  - by rewrite decide_False.
Qed.
Lemma counted_begin h eps sv ps cs lg b sl h' eps' sv' cs' b' : counted_pub (Ast h eps sv ps cs lg b) ->
  counted_pub (Ast h' eps' sv' (ps ++ [(sl, 0)]) cs' lg b').
Proof.
  intros [H1 H2]. cbn [a_pubs] in *. split; cbn [a_pubs].
  - intros p sl0 i Hp. apply lookup_app_Some in Hp as [Hp|[Hle Hp]]; [by apply (H1 p)|].
    apply list_lookup_singleton_Some in Hp as [_ Hp]. injection Hp as <- <-. specialize (H2 p Hle). unfold told in *. cbn [a_log] in *. rewrite H2. simpl. lia.
  - intros p Hp. rewrite app_length in Hp. simpl in Hp. apply (H2 p). lia.
Qed.
Lemma counted_run g ls s : arun g new_ast ls s -> counted_pub s.
Proof.
  induction 1 as [|ls s1 l s2 _ IH Hs]; [by split|].
  destruct Hs; try exact IH; try (eapply counted_begin; exact IH).
  destruct IH as [H2 H3]. cbn [a_pubs] in *. split; cbn [a_pubs].
  - intros q sl0 j Hq. erewrite told_snoc, app_length. destruct (decide (p = q)) as [->|Hne].
    + rewrite list_lookup_insert in Hq by (by eapply lookup_lt_Some). injection Hq as <- <-. destruct (H2 _ _ _ H) as [-> _]. simpl. lia.
    + rewrite list_lookup_insert_ne in Hq by done. destruct (H2 _ _ _ Hq) as [-> ?]. simpl. lia.
  - intros q Hq. rewrite insert_length in Hq. erewrite told_snoc, H3 by done. apply lookup_lt_Some in H. rewrite decide_False by lia. done.
Qed.
(** The header a publication goes over stays the one it began with. *)
Lemma pub_header g s ls s' p sl i : arun g s ls s' -> a_pubs s !! p = Some (sl, i) -> exists j, a_pubs s' !! p = Some (sl, j).
Proof.
  intros Hr Hp. induction Hr as [|ls s1 l s2 _ [j IH] Hs]; [eauto|].
  destruct Hs; cbn [a_pubs] in *; eauto; try (exists j; by apply lookup_app_l_Some).
  destruct (decide (p = p0)) as [->|Hne].
  - rewrite list_lookup_insert by (by eapply lookup_lt_Some). rewrite IH in H. injection H as <- <-. eauto.
  - rewrite list_lookup_insert_ne by done. eauto.
Qed.
Lemma told_number g ls1 s1 lab s2 ls2 s : arun g new_ast ls1 s1 -> astep g s1 lab s2 ->
  a_pubs s2 = a_pubs s1 ++ [(a_eps s1, 0)] -> arun g s2 ls2 s ->
  let t := told (length (a_pubs s1)) s in
  length t <= length (listed s1) /\ (finished (length (a_pubs s1)) s <-> length t = length (listed s1)).
Proof.
  intros Hr1 Hs Hps Hr2 t. assert (arun g new_ast (ls1 ++ [lab] ++ ls2) s) as Hr.
  { rewrite app_assoc. clear -Hr1 Hs Hr2. induction Hr2 as [|ls s3 l s4 _ IH H]; [rewrite app_nil_r; by econstructor|].
    rewrite app_assoc. by econstructor. }
  destruct (pub_header g s2 ls2 s (length (a_pubs s1)) (a_eps s1) 0 Hr2) as [j Hj]; [by rewrite Hps, lookup_app_r, Nat.sub_diag|].
  destruct (counted_run _ _ _ Hr) as [Hc _]. destruct (Hc _ _ _ Hj) as [Hl Hle].
  unfold listed. rewrite contents_length by apply (ai_eps _ _ _ (ainv_given _ _ _ Hr1)). fold t in Hl. rewrite Hl. split; [done|].
  split.
  - intros (sl & i & H1 & H2). rewrite Hj in H1. injection H1 as <- <-. lia.
  - intros ->. exists (a_eps s1), (sl_len (a_eps s1)). done.
Qed.
