(** * Proofs about message objects and sessions *)
From Verif Require Import GoBase AddrModel AddrSpec.

Lemma arun_app s ls1 s1 ls2 s2 : arun s ls1 s1 -> arun s1 ls2 s2 -> arun s (ls1 ++ ls2) s2.
Proof.
  intros H1 H2. induction H2 as [|ls s3 l s4 H2 IH Hs]; [by rewrite app_nil_r|].
  rewrite app_assoc. econstructor; done.
Qed.
Lemma arun_one s l s' : astep s l s' -> arun s [l] s'.
Proof. intros H. change [l] with ([] ++ [l]). econstructor; [constructor|done]. Qed.
Lemma arun_cons s l s1 ls s2 : astep s l s1 -> arun s1 ls s2 -> arun s (l :: ls) s2.
Proof. intros H1 H2. change (l :: ls) with ([l] ++ ls). eapply arun_app; [by apply arun_one|done]. Qed.
Lemma arun_if_run P s ls s' : arun_if P s ls s' -> arun s ls s'.
Proof. induction 1; econstructor; done. Qed.
Lemma arun_if_app P s ls1 s1 ls2 s2 : arun_if P s ls1 s1 -> arun_if P s1 ls2 s2 -> arun_if P s (ls1 ++ ls2) s2.
Proof.
  intros H1 H2. induction H2 as [|ls s3 l s4 H2 IH Hs]; [by rewrite app_nil_r|].
  rewrite app_assoc. econstructor; done.
Qed.
Lemma arun_if_cons (P : ast -> alab -> Prop) s l s1 ls s2 : astep s l s1 -> P s l -> arun_if P s1 ls s2 -> arun_if P s (l :: ls) s2.
Proof.
  intros H1 HP H2. change (l :: ls) with ([l] ++ ls). eapply arun_if_app; [|done].
  change [l] with ([] ++ [l]). econstructor; [constructor|done|done].
Qed.

(** Setters. *)
Definition tells (m : epd) (h : list setter) : Prop :=
  (if m_has m then Some (m_dest m) else None) = destination h /\ m_conn m = connection h /\ m_data m = content h.
Lemma tells_new : tells new_epd [].
Proof. done. Qed.
Lemma tells_set m h f : tells m h -> tells (set1 m f) (h ++ [f]).
Proof.
  intros (Hd & Hc & Hx). unfold tells, destination, connection, content in *. rewrite !omap_app.
  destruct f; simpl; rewrite ?app_nil_r, ?List.last_last; done.
Qed.
Lemma calls_on_app o l1 l2 : calls_on o (l1 ++ l2) = calls_on o l1 ++ calls_on o l2.
Proof. unfold calls_on. apply omap_app. Qed.
Lemma calls_on_set o o' f : calls_on o [ASet o' f] = if decide (o' = o) then [f] else [].
Proof. unfold calls_on. simpl. by case_decide. Qed.
Lemma msgs_tell σ ls s : arun (new_addr σ) ls s -> forall o, tells (a_msgs s o) (calls_on o ls).
Proof.
  induction 1 as [|ls s1 l s2 H IH Hs]; [done|]. intros o. rewrite calls_on_app.
  destruct Hs as [ss dk ms tx out o' f| | | | | | | | | | | | |]; simpl in *; try (rewrite app_nil_r; apply IH).
  destruct (decide (o' = o)) as [->|].
  - rewrite fn_lookup_insert. by apply tells_set.
  - rewrite fn_lookup_insert_ne by done. rewrite app_nil_r. apply IH.
Qed.
Lemma posted_snoc k e ls l : posted k e (ls ++ [l]) =
  posted k e ls ++ match l with APut e' o => if decide (e' = e) then [as_set k (calls_on o ls)] else [] | _ => [] end.
Proof.
  unfold posted. assert (forall past, posted_after k e past (ls ++ [l]) = posted_after k e past ls ++
    match l with APut e' o => if decide (e' = e) then [as_set k (calls_on o (past ++ ls))] else [] | _ => [] end) as E;
    [|by rewrite E].
  induction ls as [|x ls IH]; intros past; simpl; [by rewrite !app_nil_r|].
  rewrite IH, <- !app_assoc. done.
Qed.
Lemma passed_down_snoc ss dk ms tx out e x p :
  passed_down e (Ast ss dk ms tx (out ++ [(x, p)])) = passed_down e (Ast ss dk ms tx out) ++ (if decide (x = e) then [p] else []).
Proof. unfold passed_down. simpl. rewrite omap_app. simpl. by case_decide. Qed.

(** What a goroutine has read of its message is what the message says. *)
Definition pass_of (k : Z) (m : epd) : passed := Passed (if m_has m then m_dest m else k) (m_conn m) (m_data m).
Definition consistent (ms : nat -> epd) (k : Z) (p : apc) : Prop :=
  match p with
  | AIdle | ATook _ => True
  | AAsk o => m_has (ms o) = true
  | AKnow o d => d = (if m_has (ms o) then m_dest (ms o) else k)
  | AConn o d c => d = (if m_has (ms o) then m_dest (ms o) else k) /\ c = m_conn (ms o)
  end.
Lemma pass_as_set k m h : tells m h -> pass_of k m = as_set k h.
Proof. intros (Hd & Hc & Hx). unfold pass_of, as_set. rewrite <- Hd, <- Hc, <- Hx. by destruct (m_has m). Qed.
Lemma consistent_untouched ms k p o f : o ∉ in_hand p -> consistent ms k p -> consistent (<[o := set1 (ms o) f]> ms) k p.
Proof.
  destruct p as [|o'|o'|o' d|o' d c]; simpl; try done; intros Ho;
    (rewrite fn_lookup_insert_ne by (intros ->; apply Ho; constructor)); done.
Qed.
Lemma dk_cases {A} (dk : nat -> option A) e x e' y : (<[e := x]> dk) e' = Some y -> (e' = e /\ x = Some y) \/ (e' <> e /\ dk e' = Some y).
Proof.
  destruct (decide (e = e')) as [->|]; [rewrite fn_lookup_insert; by left|rewrite fn_lookup_insert_ne by done; right; split; congruence].
Qed.
Lemma consistent_run σ ls s : arun_if untouched (new_addr σ) ls s ->
  forall e k p, a_deck s e = Some (k, p) -> consistent (a_msgs s) k p.
Proof.
  induction 1 as [|ls s1 l s2 H IH Hs HP]; [done|]. intros e k p.
  destruct Hs; simpl in *; try apply IH;
    try (intros [[-> E]|[? E]]%dk_cases; [simplify_eq; try done|by eapply IH]).
  - intros E. apply consistent_untouched; [|by eapply IH]. specialize (HP _ _ eq_refl e). unfold under_way in HP. simpl in HP.
    rewrite E in HP. intros ?. apply HP. apply elem_of_app. by left.
  - simpl. by rewrite H1.
  - simpl. apply IH in H0. simpl in H0. by rewrite H0.
  - simpl. apply IH in H0. simpl in H0. done.
Qed.

(** ** Messages *)
Definition rest_of (k : Z) (s : ast) (e : nat) : list passed := (fun o => pass_of k (a_msgs s o)) <$> under_way s e.
Lemma sent_as_posted σ ls s e : arun_if untouched (new_addr σ) ls s -> keeps_session e ls ->
  posted (σ e) e ls = passed_down e s ++ rest_of (σ e) s e /\
  (forall k p, a_deck s e = Some (k, p) -> k = σ e) /\ a_sess s e = σ e.
Proof.
  induction 1 as [|ls s1 l s2 H IH Hs HP]; intros Hk; [done|].
  destruct IH as (IH & IHk & IHs); [intros k Hin; apply (Hk k), elem_of_app; by left|].
  assert (forall k, l <> ASession e k) as Hl by (intros k ->; apply (Hk k), elem_of_app; right; constructor).
  pose proof (consistent_run _ _ _ H) as J. pose proof (msgs_tell _ _ _ (arun_if_run _ _ _ _ H)) as T.
  rewrite posted_snoc, IH. unfold rest_of, under_way in *.
  destruct Hs as [ss dk ms tx out o f|ss dk ms tx out e' k|ss dk ms tx out e' Hn|ss dk ms tx out e' x Hx Hor|ss dk ms tx out e' k He|
    ss dk ms tx out e' o|ss dk ms tx out e' k o q He Hq|ss dk ms tx out e' k o He Hh|ss dk ms tx out e' k o He Hh|ss dk ms tx out e' k o He|
    ss dk ms tx out e' k o d He|ss dk ms tx out e' k o d c He|ss dk ms tx out e' x He|ss dk ms tx out k x Hn]; simpl in *.
  - (* set *) rewrite app_nil_r. split; [|done]. f_equal. apply list_fmap_ext. intros i o' Hi. 
    assert (o' <> o) as Hne. { intros ->. apply (HP _ _ eq_refl e). eapply elem_of_list_lookup_2. unfold under_way. simpl. exact Hi. }
    by rewrite fn_lookup_insert_ne by done.
  - rewrite app_nil_r. split; [done|]. split; [done|]. rewrite fn_lookup_insert_ne; [done|]. intros ->. by apply (Hl k).
  - rewrite app_nil_r. destruct (decide (e' = e)) as [->|Hne].
    + rewrite fn_lookup_insert. split; [|split; [intros; by simplify_eq|done]]. f_equal. f_equal.
      destruct (dk e) as [[k p]|] eqn:E; [|done]. destruct (Hn e); [by rewrite E|done].
    + rewrite fn_lookup_insert_ne by done. done.
  - rewrite app_nil_r. done.
  - rewrite app_nil_r. destruct (decide (e' = e)) as [->|Hne].
    + rewrite fn_lookup_insert, He. done.
    + rewrite fn_lookup_insert_ne by done. done.
  - split; [|done]. destruct (decide (e' = e)) as [->|Hne].
    + rewrite fn_lookup_insert, <- app_assoc. f_equal. rewrite !fmap_app, <- app_assoc. simpl. do 3 f_equal. symmetry. apply pass_as_set, T.
    + rewrite fn_lookup_insert_ne, app_nil_r by done. done.
  - rewrite app_nil_r. destruct (decide (e' = e)) as [->|Hne].
    + rewrite !fn_lookup_insert, He, Hq. split; [done|]. split; [|done]. intros ? ? [= <- <-]. by eapply IHk.
    + rewrite !fn_lookup_insert_ne by done. done.
  - rewrite app_nil_r. destruct (decide (e' = e)) as [->|Hne].
    + rewrite !fn_lookup_insert, He. split; [done|]. split; [|done]. intros ? ? [= <- <-]. by eapply IHk.
    + rewrite !fn_lookup_insert_ne by done. done.
  - rewrite app_nil_r. destruct (decide (e' = e)) as [->|Hne].
    + rewrite !fn_lookup_insert, He. split; [done|]. split; [|done]. intros ? ? [= <- <-]. by eapply IHk.
    + rewrite !fn_lookup_insert_ne by done. done.
  - rewrite app_nil_r. destruct (decide (e' = e)) as [->|Hne].
    + rewrite !fn_lookup_insert, He. split; [done|]. split; [|done]. intros ? ? [= <- <-]. by eapply IHk.
    + rewrite !fn_lookup_insert_ne by done. done.
  - rewrite app_nil_r. destruct (decide (e' = e)) as [->|Hne].
    + rewrite !fn_lookup_insert, He. split; [done|]. split; [|done]. intros ? ? [= <- <-]. by eapply IHk.
    + rewrite !fn_lookup_insert_ne by done. done.
  - rewrite app_nil_r, passed_down_snoc. destruct (decide (e' = e)) as [->|Hne].
    + rewrite !fn_lookup_insert, He. split; [|split; [|done]].
      * rewrite <- app_assoc. f_equal. simpl. f_equal. destruct (J _ _ _ He) as [-> ->]. rewrite (IHk _ _ He). done.
      * intros ? ? [= <- <-]. by eapply IHk.
    + rewrite !fn_lookup_insert_ne, app_nil_r by done. done.
  - by rewrite app_nil_r.
  - by rewrite app_nil_r.
Qed.
Lemma sent_as_set σ ls s e : arun_if untouched (new_addr σ) ls s -> keeps_session e ls ->
  exists waiting, posted (σ e) e ls = passed_down e s ++ waiting /\ length waiting = length (under_way s e).
Proof.
  intros H Hk. destruct (sent_as_posted _ _ _ _ H Hk) as (E & _). eexists. split; [exact E|]. apply fmap_length.
Qed.

(** ** Reuse of messages *)
Lemma arun_one_eq s l s1 s2 : astep s l s1 -> s1 = s2 -> arun s [l] s2.
Proof. intros H <-. by apply arun_one. Qed.
Lemma insert_same {A} (f : nat -> A) e x y : <[e := x]> (<[e := y]> f) e = x.
Proof. apply fn_lookup_insert. Qed.
(** A goroutine that waits passes the next message down as the message is then. *)
Lemma pass_next ss dk ms tx out e k o q : dk e = Some (k, AIdle) -> tx e = o :: q ->
  exists n dk', arun (Ast ss dk ms tx out) (ATake e :: replicate n (ARead e))
      (Ast ss dk' ms (<[e := q]> tx) (out ++ [(e, pass_of k (ms o))])) /\
    dk' e = Some (k, AIdle) /\ forall x, x <> e -> dk' x = dk x.
Proof.
  intros Hd Ht. unfold pass_of. destruct (m_has (ms o)) eqn:Hh.
  - exists 4. eexists. split; [|split].
    + eapply arun_cons; [by econstructor|]. simpl.
      eapply arun_cons; [eapply ak_has; [apply fn_lookup_insert|done]|].
      eapply arun_cons; [eapply ak_dest; apply fn_lookup_insert|].
      eapply arun_cons; [eapply ak_conn; apply fn_lookup_insert|].
      apply arun_one. eapply ak_data; apply fn_lookup_insert.
    + apply fn_lookup_insert.
    + intros x Hx. by rewrite !fn_lookup_insert_ne by done.
  - exists 3. eexists. split; [|split].
    + eapply arun_cons; [by econstructor|]. simpl.
      eapply arun_cons; [eapply ak_has_not; [apply fn_lookup_insert|done]|].
      eapply arun_cons; [eapply ak_conn; apply fn_lookup_insert|].
      apply arun_one. eapply ak_data; apply fn_lookup_insert.
    + apply fn_lookup_insert.
    + intros x Hx. by rewrite !fn_lookup_insert_ne by done.
Qed.
Lemma reuse_lost σ ls s e k o f : arun (new_addr σ) ls s -> busyless s e k ->
  exists ls' s' m, arun s (APut e o :: ASet o f :: APut e o :: ls') s' /\
    (forall l, l ∈ ls' -> l = ATake e \/ l = ARead e) /\
    a_out s' = a_out s ++ [(e, m); (e, m)] /\ m = as_set k (calls_on o ls ++ [f]).
Proof.
  intros H (Hd & Ht). pose proof (msgs_tell _ _ _ H o) as T. destruct s as [ss dk ms tx out]. simpl in *.
  set (ms' := <[o := set1 (ms o) f]> ms). set (tx' := <[e := tx e ++ [o] ++ [o]]> tx).
  assert (arun (Ast ss dk ms tx out) [APut e o; ASet o f; APut e o] (Ast ss dk ms' (<[e := (<[e := tx e ++ [o]]> tx) e ++ [o]]> (<[e := tx e ++ [o]]> tx)) out)) as H1.
  { eapply arun_cons; [constructor|]. eapply arun_cons; [constructor|]. eapply arun_one. constructor. }
  destruct (pass_next ss dk ms' (<[e := (<[e := tx e ++ [o]]> tx) e ++ [o]]> (<[e := tx e ++ [o]]> tx)) out e k o [o] Hd) as (n1 & dk1 & R1 & D1 & _).
  { by rewrite !fn_lookup_insert, Ht. }
  destruct (pass_next ss dk1 ms' (<[e := [o]]> (<[e := (<[e := tx e ++ [o]]> tx) e ++ [o]]> (<[e := tx e ++ [o]]> tx))) (out ++ [(e, pass_of k (ms' o))]) e k o [] D1) as (n2 & dk2 & R2 & _).
  { by rewrite fn_lookup_insert. }
  eexists ((ATake e :: replicate n1 (ARead e)) ++ (ATake e :: replicate n2 (ARead e))), _, (pass_of k (ms' o)).
  split; [|split; [|split]].
  - change (APut e o :: ASet o f :: APut e o :: ?l) with ([APut e o; ASet o f; APut e o] ++ l).
    eapply arun_app; [exact H1|]. eapply arun_app; [exact R1|exact R2].
  - intros l Hl. rewrite elem_of_app, !elem_of_cons in Hl.
    destruct Hl as [[->|Hl]|[->|Hl]]; [by left| |by left|]; right; by apply elem_of_replicate in Hl as [? _].
  - simpl. by rewrite <- app_assoc.
  - unfold ms'. rewrite fn_lookup_insert. by apply pass_as_set, tells_set.
Qed.

(** ** Sessions *)
Lemma change_session σ ls s e k o k' : arun (new_addr σ) ls s -> busyless s e k -> k' <> k ->
  destination (calls_on o ls) = None ->
  exists ls' s', arun s (ASession e k' :: APut e o :: ls') s' /\ (forall l, l ∈ ls' -> l = ATake e \/ l = ARead e) /\
    (exists m, a_out s' = a_out s ++ [(e, m)] /\ p_session m = k) /\
    receives s' e k' /\ ~ receives s' e k.
Proof.
  intros H (Hd & Ht) Hne Hdest. pose proof (msgs_tell _ _ _ H o) as T. destruct s as [ss dk ms tx out]. simpl in *.
  destruct (pass_next (<[e := k']> ss) dk ms (<[e := tx e ++ [o]]> tx) out e k o [] Hd) as (n1 & dk1 & R1 & D1 & _).
  { by rewrite !fn_lookup_insert, Ht. }
  eexists (ATake e :: replicate n1 (ARead e)), _. split; [|split; [|split; [|split]]].
  - eapply arun_cons; [constructor|]. eapply arun_cons; [constructor|]. exact R1.
  - intros l Hl. rewrite elem_of_cons in Hl. destruct Hl as [->|Hl]; [by left|]. right. by apply elem_of_replicate in Hl as [? _].
  - eexists. split; [done|]. rewrite (pass_as_set _ _ _ T). simpl. by rewrite Hdest.
  - exists 0. eexists. assert (k' = (<[e := k']> ss) e) as E by (by rewrite fn_lookup_insert). rewrite E at 2. constructor. by rewrite D1.
  - intros (x & s' & Hs). apply Hne. inversion Hs; subst. by rewrite fn_lookup_insert.
Qed.
Lemma share_session σ ls s e1 e2 : arun (new_addr σ) ls s -> accepted s e1 -> accepted s e2 -> e1 <> e2 ->
  exists s', arun s [ASession e1 (a_sess s e2)] s' /\ receives s' e1 (a_sess s e2) /\ receives s' e2 (a_sess s e2).
Proof.
  intros H H1 H2 Hne. destruct s as [ss dk ms tx out]. simpl in *. eexists. split; [apply arun_one; constructor|]. split; exists 0; eexists.
  - assert (ss e2 = (<[e1 := ss e2]> ss) e1) as E by (by rewrite fn_lookup_insert). rewrite E at 2. by constructor.
  - assert (ss e2 = (<[e1 := ss e2]> ss) e2) as E by (by rewrite fn_lookup_insert_ne). rewrite E at 2. by constructor.
Qed.
Lemma settled_inv σ ls s : arun_if settled (new_addr σ) ls s ->
  (forall e k p, a_deck s e = Some (k, p) -> k = a_sess s e) /\
  (forall x y, accepted s x -> accepted s y -> a_sess s x = a_sess s y -> x = y).
Proof.
  unfold accepted. induction 1 as [|ls s1 l s2 H (IH1 & IH2) Hs HP]; [done|].
  assert (forall (dk : nat -> option (Z * apc)) e v x, dk e <> None -> (<[e := v]> dk) x <> None -> dk x <> None) as Hkeep.
  { intros dk e v x He. destruct (decide (e = x)) as [->|]; [done|]. by rewrite fn_lookup_insert_ne. }
  destruct Hs as [ss dk ms tx out o f|ss dk ms tx out e k|ss dk ms tx out e Hn|ss dk ms tx out e x Hx Hor|ss dk ms tx out e k He|
    ss dk ms tx out e o|ss dk ms tx out e k o q He Hq|ss dk ms tx out e k o He Hh|ss dk ms tx out e k o He Hh|ss dk ms tx out e k o He|
    ss dk ms tx out e k o d He|ss dk ms tx out e k o d c He|ss dk ms tx out e x He|ss dk ms tx out k x Hn]; simpl in *; try (split; assumption);
    try (split; [intros e' k' p' [[-> E]|[? E]]%dk_cases; [simplify_eq; by eapply IH1|by eapply IH1]|];
         intros x y Hx Hy; apply IH2; (eapply Hkeep; [|eassumption]; congruence)).
  - (* session *) assert (dk e = None) as Hn' by (specialize (HP _ _ eq_refl); unfold accepted in HP; simpl in HP; by destruct (dk e); [exfalso; apply HP|]).
    split.
    + intros e' k' p' E. rewrite fn_lookup_insert_ne by congruence. by eapply IH1.
    + intros x y Hx Hy. rewrite !fn_lookup_insert_ne by congruence. by apply IH2.
  - split.
    + intros e' k' p' [[-> E]|[? E]]%dk_cases; [by simplify_eq|by eapply IH1].
    + intros x y Hx Hy E. destruct (decide (x = e)) as [->|Hx'], (decide (y = e)) as [->|Hy']; [done|..].
      * rewrite fn_lookup_insert_ne in Hy by done. destruct (Hn y Hy). congruence.
      * rewrite fn_lookup_insert_ne in Hx by done. destruct (Hn x Hx). congruence.
      * rewrite fn_lookup_insert_ne in Hx, Hy by done. by apply IH2.
Qed.
Lemma arun_if_mono (P Q : ast -> alab -> Prop) s ls s' : (forall s l, P s l -> Q s l) -> arun_if P s ls s' -> arun_if Q s ls s'.
Proof. intros HPQ. induction 1; [constructor|]. econstructor; eauto. Qed.
Lemma same_session σ ls s e m s' : arun_if (fun s l => untouched s l /\ settled s l) (new_addr σ) ls s ->
  passes s e m s' ->
  receives s e (a_sess s e) /\ (forall k, receives s e k -> k = a_sess s e) /\
  exists o q, under_way s e = o :: q /\ m = as_set (a_sess s e) (calls_on o ls).
Proof.
  intros H (Hs & Ho).
  assert (forall k, receives s e k -> k = a_sess s e) as Hr.
  { intros k (x & s2 & Hg). by inversion Hg; subst. }
  assert (accepted s e -> receives s e (a_sess s e)) as Hg.
  { intros Ha. exists 0. destruct s as [ss dk ms tx out]. eexists. simpl. by constructor. }
  pose proof (consistent_run _ _ _ (arun_if_mono _ untouched _ _ _ (fun s l HP => proj1 HP) H)) as J.
  destruct (settled_inv _ _ _ (arun_if_mono _ settled _ _ _ (fun s l HP => proj2 HP) H)) as (K & _).
  pose proof (msgs_tell _ _ _ (arun_if_run _ _ _ _ H)) as T.
  inversion Hs; subst; simpl in *;
    try (apply (f_equal length) in Ho; rewrite app_length in Ho; simpl in Ho; lia).
  rename select (_ = Some (_, AConn _ _ _)) into He.
  split; [apply Hg; unfold accepted; simpl; congruence|]. split; [done|].
  apply app_inj_1 in Ho as [_ Ho]; [|done]. injection Ho as <-.
  exists o. eexists. split; [unfold under_way; simpl; rewrite He; done|].
  destruct (J _ _ _ He) as [-> ->]. rewrite (K _ _ _ He). by apply (pass_as_set _ _ _ (T o)).
Qed.
Lemma own_session σ ls s x y k : arun_if settled (new_addr σ) ls s -> receives s x k -> receives s y k -> x = y.
Proof.
  intros H (? & ? & Hx) (? & ? & Hy). destruct (settled_inv _ _ _ H) as (_ & U).
  inversion Hx; subst. inversion Hy; subst. by apply U.
Qed.

(** ** Who is accepted, and what reaches nobody *)
Lemma refuse_inv s e s' : astep s (ARefuse e) s' -> exists x, a_deck s x <> None /\ (x = e \/ a_sess s x = a_sess s e).
Proof. intros H. inversion H; subst; simpl. eauto. Qed.
Lemma accept_inv s e s' : astep s (AAccept e) s' -> forall x, a_deck s x <> None -> x <> e /\ a_sess s x <> a_sess s e.
Proof. intros H. inversion H; subst; simpl. done. Qed.
Lemma give_inv s e k x s' : astep s (AGive e k x) s' -> a_deck s e <> None /\ a_sess s e = k.
Proof. intros H. inversion H; subst; simpl. done. Qed.
Lemma drop_inv s k x s' : astep s (ADrop k x) s' -> forall e, a_deck s e <> None -> a_sess s e <> k.
Proof. intros H. inversion H; subst; simpl. done. Qed.

Lemma refused_when s e : (exists s', astep s (ARefuse e) s') <-> exists x, accepted s x /\ (x = e \/ receives s x (a_sess s e)).
Proof.
  split.
  - intros (s' & H). apply refuse_inv in H as (x & Hx & Hs). exists x. split; [done|].
    destruct Hs as [->|Hs]; [by left|right]. exists 0, s. destruct s. simpl in *. rewrite <- Hs. by apply ak_give.
  - intros (x & Hx & Hs). destruct s as [ss dk ms tx out]. eexists. apply (ak_refuse _ _ _ _ _ e x); [exact Hx|].
    destruct Hs as [->|(y & s' & Hs)]; [by left|right]. by apply give_inv in Hs as [_ ?].
Qed.
Lemma accepted_when s e : (exists s', astep s (AAccept e) s') <-> ~ exists s', astep s (ARefuse e) s'.
Proof.
  split.
  - intros (s' & H) (s2 & H2). apply refuse_inv in H2 as (x & Hx & Hs). destruct (accept_inv _ _ _ H x Hx) as [? ?]. by destruct Hs.
  - intros H. destruct s as [ss dk ms tx out]. eexists. apply ak_accept. intros x Hx. split.
    + intros ->. apply H. eexists. apply (ak_refuse _ _ _ _ _ e e); [done|by left].
    + intros E. apply H. eexists. apply (ak_refuse _ _ _ _ _ e x); [done|by right].
Qed.
Lemma dropped_when s k x : (exists s', astep s (ADrop k x) s') <-> ~ exists e, receives s e k.
Proof.
  split.
  - intros (s' & H) (e & y & s2 & H2). apply give_inv in H2 as [He Hk]. by apply (drop_inv _ _ _ _ H e).
  - intros H. destruct s as [ss dk ms tx out]. eexists. apply ak_drop. intros e He E. apply H. exists e, x. eexists. rewrite <- E. by apply ak_give.
Qed.
