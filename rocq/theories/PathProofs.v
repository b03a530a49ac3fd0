(** * Proofs about the addresses of the server transports *)
From Verif Require Import GoBase SockModel SockSpec SockProofs PathModel PathSpec.
From stdpp Require Import list.

Section path.
Context (uds : bool).
Notation prun := (prun uds).
Notation pstep := (pstep uds).

Lemma prun_app ok s ls1 s1 ls2 s2 : prun ok s ls1 s1 -> prun ok s1 ls2 s2 -> prun ok s (ls1 ++ ls2) s2.
Proof.
  intros H1 H2. induction H2 as [|ls s3 l s4 H2 IH Hs]; [by rewrite app_nil_r|].
  rewrite app_assoc. econstructor; done.
Qed.
Lemma prun_one (ok : pst -> plab -> Prop) s l s' : ok s l -> pstep s l s' -> prun ok s [l] s'.
Proof. intros H1 H. change [l] with ([] ++ [l]). econstructor; [constructor|done|done]. Qed.
Lemma prun_cons (ok : pst -> plab -> Prop) s l s1 ls s2 : ok s l -> pstep s l s1 -> prun ok s1 ls s2 -> prun ok s (l :: ls) s2.
Proof. intros H0 H1 H2. change (l :: ls) with ([l] ++ ls). eapply prun_app; [by apply prun_one|done]. Qed.
Lemma prun_any ok s ls s' : prun ok s ls s' -> prun anything s ls s'.
Proof. induction 1; econstructor; done. Qed.

(** ** Every run is one of SockModel *)
Lemma path_sock ok s ls s' : prun ok s ls s' -> exists ks, krun uds true 0 (p_sock s) ks (p_sock s').
Proof.
  induction 1 as [|ls s1 l s2 H [ks IH] Hok Hst]; [exists []; constructor|].
  inversion Hst; subst; simpl in *.
  - exists (ks ++ [l0]). by econstructor.
  - by exists ks.
  - exists (ks ++ [SGo]). econstructor; [done|]. by apply sk_listen.
  - by exists ks.
  - exists (ks ++ [SInner]). econstructor; [done|]. by apply sk_sock.
  - by exists ks.
Qed.

Lemma kstep_socks s l s' : kstep uds true 0 s l s' -> k_socks s' = k_socks s \/
  (exists i, k_crash s = None /\ k_gos s !! i = Some GListen /\ l = SGo /\ s' = go i (GStore (length (k_socks s))) (set_socks (k_socks s ++ [true]) s)) \/
  (exists w j, k_crash s = None /\ k_lock s = Some (PSock, w) /\ k_listener s = Some j /\ s' = set_lock (Some (PNil, w)) (set_socks (<[j := false]> (k_socks s)) s)).
Proof.
  intros H; inversion H; subst; try (by left).
  - right. right. by exists w, l0.
  - right. left. by exists i.
Qed.

(** ** The steps, as far as sockets, files and goroutines are concerned *)
Record pv := Pv {
  w_gos : list gpc; w_run : bool; w_lock : option (stoppc * option nat); w_lis : option nat; w_socks : list bool;
  w_file : option nat; w_ready : nat -> bool; w_left : nat -> bool; w_fatal : bool }.
Definition view (s : pst) : pv := let k := p_sock s in
  Pv (k_gos k) (k_running k) (k_lock k) (k_listener k) (k_socks k) (p_file s) (p_ready s) (p_left s) (p_fatal s).
Inductive vstep : pv -> plab -> pv -> Prop :=
| v_same v l : w_fatal v = false -> vstep v l v
| v_run gs li sk f r d : vstep (Pv gs false None li sk f r d false) (PSockStep SRun) (Pv (gs ++ [GListen]) true None li sk f r d false)
| v_lock gs w li sk f r d l : (w = None -> l = PSockStep SStop) -> (forall i, w = Some i -> gs !! i = Some GStop) ->
    vstep (Pv gs true None li sk f r d false) l (Pv gs true (Some (PSock, w)) li sk f r d false)
| v_idle gs li sk f r d i l : gs !! i = Some GStop ->
    vstep (Pv gs false None li sk f r d false) l (Pv (<[i := GDone]> gs) false None li sk f r d false)
| v_skip gs rn w pc li sk f r d l : (forall j, li = Some j -> sk !! j <> Some true) -> pc <> PSock ->
    vstep (Pv gs rn (Some (PSock, w)) li sk f r d false) l (Pv gs rn (Some (pc, w)) li sk f r d false)
| v_unlisten gs rn w j sk f r d l : sk !! j = Some true ->
    vstep (Pv gs rn (Some (PSock, w)) (Some j) sk f r d false) l
          (Pv gs rn (Some (PNil, w)) (Some j) (<[j := false]> sk) (if uds then None else f) r d false)
| v_nil gs rn w li sk f r d l :
    vstep (Pv gs rn (Some (PNil, w)) li sk f r d false) l (Pv gs rn (Some (PClose, w)) None sk f r d false)
| v_close gs rn w li sk f r d l :
    vstep (Pv gs rn (Some (PClose, w)) li sk f r d false) l (Pv gs rn (Some (PDrop, w)) li sk f r d false)
| v_drop gs rn w li sk f r d l :
    vstep (Pv gs rn (Some (PDrop, w)) li sk f r d false) l (Pv (finish w gs) false None li sk f r d false)
| v_listen gs rn lk li sk f r d i l : gs !! i = Some GListen -> (uds = true -> r i = true /\ f = None) -> (uds = false -> forall j, sk !! j <> Some true) ->
    vstep (Pv gs rn lk li sk f r d false) l
          (Pv (<[i := GStore (length sk)]> gs) rn lk li (sk ++ [true]) (if uds then Some (length sk) else f) r d false)
| v_fatal gs rn lk li sk f r d i l : gs !! i = Some GListen -> (uds = true -> r i = true /\ f <> None) -> (uds = false -> exists j, sk !! j = Some true) ->
    vstep (Pv gs rn lk li sk f r d false) l (Pv gs rn lk li sk f r d true)
| v_store gs rn lk li sk f r d i j l : gs !! i = Some (GStore j) ->
    vstep (Pv gs rn lk li sk f r d false) l (Pv (<[i := GAccept]> gs) rn lk (Some j) sk f r d false)
| v_move gs rn lk li sk f r d i g g' l : gs !! i = Some g -> working g -> working g' -> (forall j, g' = GWait j -> li = Some j) ->
    vstep (Pv gs rn lk li sk f r d false) l (Pv (<[i := g']> gs) rn lk li sk f r d false)
| v_err gs rn lk li sk f r d i g l : gs !! i = Some g -> working g \/ (exists n, g = GDial n) ->
    vstep (Pv gs rn lk li sk f r d false) l (Pv (<[i := GStop]> gs) rn lk li sk f r d false)
| v_clear gs rn lk li sk f r d i l : uds = true -> gs !! i = Some GListen ->
    vstep (Pv gs rn lk li sk f r d false) l (Pv gs rn lk li sk None (<[i := true]> r) d false)
| v_leave gs rn lk li sk f r d i l : uds = true -> gs !! i = Some GDone -> d i = false ->
    vstep (Pv gs rn lk li sk f r d false) l (Pv gs rn lk li sk None r (<[i := true]> d) false).

Lemma vstep_eq v l v1 v2 : vstep v l v1 -> v1 = v2 -> vstep v l v2.
Proof. by intros H <-. Qed.
Lemma pstep_view s l s' : pstep s l s' -> vstep (view s) l (view s').
Proof.
  intros H. inversion H as [k sl k' f r d Hk E|k f r d i Hu Hc Hg Hr|k f r d i Hc Hg Hr Hl|k f r d i Hc Hg Hr Hl|k f r d w j Hc Hl Hi Hj|k f r d i Hu Hc Hg Hd]; subst.
  - destruct k as [rn cn chs nx sk li lk gs us md cl hd cr].
    inversion Hk; subst; unfold view, go, user in *; simpl in *; subst; try (by apply v_same).
    + apply v_run.
    + by apply v_lock.
    + by apply v_lock; [|intros ? [= ->]].
    + by apply v_idle.
    + by apply v_skip.
    + rewrite E. apply v_skip; [|done]. intros j [= ->] Ej. pose proof (lookup_lt_Some _ _ _ Ej). by rewrite <- E, list_lookup_insert in Ej.
    + apply v_nil.
    + apply v_close.
    + apply v_drop.
    + apply (f_equal length) in E. rewrite app_length in E. simpl in E. lia.
    + by eapply v_store.
    + eapply v_move; [done|done|done|]. by intros j [= ->].
    + by eapply v_move.
    + eapply v_err; [done|by left].
    + by eapply v_move.
    + by eapply v_move.
    + lia.
    + lia.
    + eapply v_err; [done|]. right. by eexists.
  - by apply v_clear.
  - eapply vstep_eq; [eapply v_listen|]; simpl; [done| | |done]; unfold can_listen in Hl; by destruct uds; auto.
  - eapply v_fatal; simpl; [done| |]; unfold can_listen in Hl; destruct uds; try done.
    + intros _. split; [by apply Hr|done].
    + intros _. destruct (decide (true ∈ k_socks k)) as [[j Ej]%elem_of_list_lookup|Hn]; [by exists j|].
      exfalso. apply Hl. intros j Ej. apply Hn. by eapply elem_of_list_lookup_2.
  - unfold view. simpl. rewrite Hl, Hi. by apply v_unlisten.
  - by apply v_leave.
Qed.

Lemma snoc_look {A} (l : list A) x j y : (l ++ [x]) !! j = Some y -> (l !! j = Some y /\ j < length l) \/ (j = length l /\ y = x).
Proof.
  intros [H|[Hl H]]%lookup_app_Some; [left; split; [done|by eapply lookup_lt_Some]|right]. apply list_lookup_singleton_Some in H as [H ->]. split; [lia|done].
Qed.
Ltac look := repeat match goal with
  | H : <[?i := _]> ?l !! ?j = Some _ |- _ => apply list_lookup_insert_Some in H as [(-> & ? & _)|[? H]]
  | H : (?l ++ [_]) !! ?j = Some _ |- _ => apply snoc_look in H as [[H ?]|[-> ?]]
  end; simplify_eq.
Lemma finish_insert w (gs : list gpc) : exists i, finish w gs = <[i := GDone]> gs /\ (forall j, w = Some j -> i = j) /\ (w = None -> i = length gs).
Proof.
  destruct w as [i|]; simpl; [exists i; split_and!; try done; by intros j [= ->]|].
  exists (length gs). split_and!; try done. by rewrite list_insert_ge.
Qed.

(** ** Shape of all reachable states *)
Record fits (v : pv) : Prop := {
  f_left : forall i, w_left v i = true -> w_gos v !! i = Some GDone;
  f_ready : forall i, w_ready v i = true -> i < length (w_gos v);
  f_lock : forall st i, w_lock v = Some (st, Some i) -> w_gos v !! i = Some GStop;
  f_store : forall i l, w_gos v !! i = Some (GStore l) -> l < length (w_socks v) /\ w_socks v !! l = Some true /\ w_lis v <> Some l;
  f_one : forall i j l, w_gos v !! i = Some (GStore l) -> w_gos v !! j = Some (GStore l) -> i = j;
  f_wait : forall i l, w_gos v !! i = Some (GWait l) -> l < length (w_socks v);
  f_lis : forall l, w_lis v = Some l -> l < length (w_socks v);
  f_dial : forall i n, w_gos v !! i <> Some (GDial n) }.
Lemma ins_other {A} (gs : list A) i j x y z : gs !! i = Some x -> gs !! j = Some y -> x <> y -> <[i := z]> gs !! j = Some y.
Proof. intros H1 H2 H. destruct (decide (i = j)) as [->|]; [congruence|by rewrite list_lookup_insert_ne]. Qed.
Lemma app_keep {A} (l : list A) x j y : l !! j = Some y -> (l ++ [x]) !! j = Some y.
Proof. by apply lookup_app_l_Some. Qed.
Ltac byins F := eapply ins_other; [eassumption|by eapply F|first [done|intros ->; simpl in *; done]].
Lemma fits_step v l v' : fits v -> vstep v l v' -> fits v'.
Proof.
  intros [F1 F2 F3 F4 F5 F6 F7 F8] H. inversion H; subst; simpl in *; try (destruct (finish_insert w gs) as (i & -> & Hw & _));
    constructor; simpl; try intros ? ?; intros; try intros ?; rewrite ?insert_length, ?app_length; look; eauto; try done; try (by eapply F8).
  all: try (byins F1).
  all: try (byins F3).
  all: simpl; try (by eapply F8).
  all: try (match goal with H : ?r ?i = true |- ?i < _ => apply F2 in H; lia end).
  all: try (match goal with H : ?d ?i = true |- (_ ++ _) !! ?i = _ => apply app_keep; by apply F1 end).
  all: try (match goal with H : ?d ?i = true |- <[?j := GDone]> _ !! ?i = _ => apply F1 in H; destruct (decide (j = i)) as [->|];
    [by apply list_lookup_insert, lookup_lt_Some with GDone|by rewrite list_lookup_insert_ne] end).
  all: try (match goal with H : _ !! _ = Some (GStore _) |- _ => destruct (F4 _ _ H) as (? & ? & ?) end).
  - split_and!; try done. rewrite list_lookup_insert_ne; congruence.
  - done.
  - split_and!; [lia|by apply list_lookup_middle|]. intros E. apply F7 in E. lia.
  - split_and!; [lia|by apply app_keep|done].
  - match goal with H : _ !! _ = Some (GStore _) |- _ => destruct (F4 _ _ H) as (? & ? & ?) end. lia.
  - lia.
  - match goal with H : _ !! _ = Some (GWait _) |- _ => apply F6 in H end. lia.
  - specialize (F7 _ eq_refl). lia.
  - split_and!; [done..|]. intros [= ->]. match goal with H : ?i <> ?j |- _ => apply H; by eapply F5 end.
  - done.
  - match goal with H : _ \/ _ |- _ => destruct H as [|[? ->]] end; [byins F1|by eapply ins_other; [|by apply F1|]].
  - match goal with H : _ \/ _ |- _ => destruct H as [|[? ->]] end; [byins F3|by eapply ins_other; [|by eapply F3|]].
  - destruct (decide (i = i0)) as [->|]; [by eapply lookup_lt_Some|]. rewrite fn_lookup_insert_ne in *; auto.
  - destruct (decide (i = i0)) as [->|]; [done|]. rewrite fn_lookup_insert_ne in *; auto.
Qed.
Lemma view_ind (ok : pst -> plab -> Prop) (I : pv -> Prop) : I (view new_path) ->
  (forall s l s', ok s l -> fits (view s) -> I (view s) -> vstep (view s) l (view s') -> I (view s')) ->
  forall ls s, prun ok new_path ls s -> fits (view s) /\ I (view s).
Proof.
  intros I0 Is ls s H. induction H as [|ls s1 l s2 H [IH1 IH2] Hok Hst].
  - split; [|done]. constructor; intros; simpl in *; try rewrite lookup_nil in *; done.
  - apply pstep_view in Hst. split; [by eapply fits_step|by eapply Is].
Qed.
Lemma fits_reach ok ls s : prun ok new_path ls s -> fits (view s).
Proof. intros H. by apply (view_ind ok (fun _ => True) Logic.I) in H as [? _]. Qed.

(** ** Runs that follow the end of the earlier goroutines *)
Definition vended (v : pv) : Prop := forall i g, w_gos v !! i = Some g -> g = GDone /\ (uds = true -> w_left v i = true).
Definition vnew (v : pv) : option gpc := last (w_gos v).
Definition vleads (v : pv) (l : nat) : Prop := w_socks v !! l = Some true /\ (uds = true -> w_file v = Some l).
Definition serving (v : pv) : Prop := w_run v = true /\ (w_lock v = None \/ exists w, w_lock v = Some (PSock, w)).
Record tidy (v : pv) : Prop := {
  t_old : forall i, S i < length (w_gos v) -> w_gos v !! i = Some GDone /\ (uds = true -> w_left v i = true);
  t_ready : uds = true -> w_ready v (pred (length (w_gos v))) = true -> vnew v = Some GListen -> w_file v = None;
  t_store : forall l, serving v -> vnew v = Some (GStore l) -> vleads v l;
  t_work : forall g, serving v -> vnew v = Some g -> working g -> exists l, w_lis v = Some l /\ vleads v l /\ forall l', g = GWait l' -> l' = l;
  t_fatal : uds = true -> w_fatal v = false }.
Lemma only_new v i g : tidy v -> w_gos v !! i = Some g -> g <> GDone -> i = pred (length (w_gos v)) /\ vnew v = Some g.
Proof.
  intros T Hi Hg. pose proof (lookup_lt_Some _ _ _ Hi). assert (i = pred (length (w_gos v))) as ->.
  { destruct (decide (S i < length (w_gos v))) as [Hl|]; [|lia]. apply T in Hl as [Hl _]. congruence. }
  split; [done|]. unfold vnew. by rewrite last_lookup.
Qed.
Lemma last_insert {A} (gs : list A) i x : i < length gs -> i = pred (length gs) -> last (<[i := x]> gs) = Some x.
Proof. intros Hl Hi. rewrite last_lookup, insert_length, <- Hi. by apply list_lookup_insert. Qed.

Lemma tidy_new : tidy (view new_path).
Proof. constructor; simpl; try done; intros; lia. Qed.
Lemma tidy_move gs rn lk li sk f r d i g g' li' : tidy (Pv gs rn lk li sk f r d false) -> gs !! i = Some g -> g <> GDone -> g' <> GListen ->
  (forall l, g' <> GStore l) ->
  (serving (Pv gs rn lk li sk f r d false) -> working g' -> exists l, li' = Some l /\ vleads (Pv gs rn lk li sk f r d false) l /\ forall l', g' = GWait l' -> l' = l) ->
  tidy (Pv (<[i := g']> gs) rn lk li' sk f r d false).
Proof.
  intros T Hi Hg H1 H2 H3. destruct (only_new _ _ _ T Hi Hg) as [Ei _]. simpl in Ei. pose proof (lookup_lt_Some _ _ _ Hi) as Hl.
  destruct T as [T1 T2 T3 T4 T5]. constructor; simpl in *; unfold vnew; simpl; rewrite ?insert_length, ?last_insert by done.
  - intros j Hj. rewrite list_lookup_insert_ne by lia. by apply T1.
  - intros _ _ [= ->]. done.
  - intros l _ [= ->]. by destruct (H2 l).
  - intros g0 Hs [= <-] Hw. by apply H3.
  - done.
Qed.
Lemma tidy_off gs rn lk li sk f r d rn' lk' li' sk' f' : tidy (Pv gs rn lk li sk f r d false) ->
  ~ serving (Pv gs rn' lk' li' sk' f' r d false) -> (f' = None \/ f' = f) -> tidy (Pv gs rn' lk' li' sk' f' r d false).
Proof.
  intros [T1 T2 T3 T4 T5] Hs Hf. constructor; try done.
  intros Hu Hr Hn. simpl in *. destruct Hf as [->| ->]; [done|]. by apply T2.
Qed.
Lemma tidy_step s l s' : after_end uds s l -> fits (view s) -> tidy (view s) -> vstep (view s) l (view s') -> tidy (view s').
Proof.
  intros Hok F T H.
  assert (l = PSockStep SRun -> w_run (view s) = false -> vended (view s)) as HR by exact Hok. clear Hok.
  revert HR F T H. generalize (view s) (view s'). clear s s'. intros v v' HR F T H. inversion H; subst.
  - done.
  - specialize (HR eq_refl eq_refl). destruct T as [T1 T2 T3 T4 T5]. constructor; simpl in *; unfold vnew; simpl; rewrite ?app_length, ?last_snoc; simpl.
    + intros i Hi. destruct (lookup_lt_is_Some_2 gs i) as [g Hg]; [lia|]. destruct (HR _ _ Hg) as [-> Hd]. split; [by apply app_keep|done].
    + intros Hu Hr. replace (pred (length gs + 1)) with (length gs) in Hr by lia. apply (f_ready _ F) in Hr. simpl in Hr. lia.
    + done.
    + by intros g _ [= <-].
    + done.
  - destruct T as [T1 T2 T3 T4 T5]. constructor; try done.
    + intros l0 _. apply T3. split; [done|by left].
    + intros g _. apply T4. split; [done|by left].
  - by eapply tidy_move.
  - eapply tidy_off; [done| |by right]. intros [_ [?|[? [= -> _]]]]; done.
  - eapply tidy_off; [done| |destruct uds; [by left|by right]]. intros [_ [?|[? [= _]]]]; done.
  - eapply tidy_off; [done| |by right]. intros [_ [?|[? [= _]]]]; done.
  - eapply tidy_off; [done| |by right]. intros [_ [?|[? [= _]]]]; done.
  - assert (tidy (Pv gs false None li sk f r d false)) as T' by (eapply tidy_off; [done|by intros [? _]|by right]).
    destruct w as [i|]; [|done]. simpl. pose proof (f_lock _ F PDrop i eq_refl) as Hi. by eapply tidy_move.
  - destruct (only_new _ _ _ T H0) as [Ei Hn]; [done|]. pose proof (lookup_lt_Some _ _ _ H0) as Hl. destruct T as [T1 T2 T3 T4 T5].
    constructor; simpl in *; unfold vnew in *; simpl; rewrite ?insert_length, ?last_insert by done.
    + intros j Hj. rewrite list_lookup_insert_ne by lia. by apply T1.
    + done.
    + intros j _ [= <-]. split; simpl; [by apply list_lookup_middle|]. intros Hu. by rewrite Hu.
    + by intros g _ [= <-].
    + done.
  - destruct (only_new _ _ _ T H0) as [Ei Hn]; [done|]. destruct T as [T1 T2 T3 T4 T5]. constructor; try done.
    simpl in *. intros Hu. destruct (H1 Hu) as [Hr Hf]. exfalso. apply Hf. apply T2; [done| |done]. by rewrite <- Ei.
  - destruct (only_new _ _ _ T H0) as [Ei Hn]; [done|]. eapply tidy_move; try done. intros Hs _. exists j. split; [done|]. split; [by apply T|done].
  - destruct (only_new _ _ _ T H0) as [Ei Hn]; [by intros ->|]. eapply tidy_move; try done; [by intros ->|by intros ->|by intros ? ->|].
    intros Hs _. destruct (t_work _ T g Hs Hn H1) as (j & Hj & Hl & _). exists j. split_and!; [done..|]. simpl in Hj. intros j' Hj'. apply H3 in Hj'. congruence.
  - eapply tidy_move; try done. intros ->. by destruct H1 as [|[? ?]].
  - destruct (only_new _ _ _ T H1) as [Ei Hn]; [done|]. destruct T as [T1 T2 T3 T4 T5]. constructor; try done; unfold vnew in *; simpl in *; rewrite Hn.
    + done.
    + by intros g _ [= <-].
  - assert (last gs = Some GDone) as Hn.
    { pose proof (lookup_lt_Some _ _ _ H1). rewrite last_lookup. replace (pred (length gs)) with i; [done|].
      destruct (decide (S i < length gs)) as [Hl|]; [|lia]. apply T in Hl as [_ Hl]. simpl in Hl. rewrite Hl in H2; done. }
    destruct T as [T1 T2 T3 T4 T5]. constructor; try done; unfold vnew in *; simpl in *; rewrite ?Hn; try done.
    + intros j Hj. split; [by apply T1|]. intros _. destruct (decide (i = j)) as [->|]; [by rewrite fn_lookup_insert|].
      rewrite fn_lookup_insert_ne by done. by apply T1.
    + by intros g _ [= <-].
Qed.

(** ** Patient runs *)
Definition opened (v : pv) (l : nat) : Prop := w_socks v !! l = Some true.
Record calm (v : pv) : Prop := {
  c_prep : forall g, vnew v = Some g -> g = GListen \/ (exists l, g = GStore l) -> w_run v = true /\ w_lock v = None;
  c_open : forall l, opened v l -> serving v /\
    (vnew v = Some (GStore l) \/ (w_lis v = Some l /\ exists g, vnew v = Some g /\ (working g \/ g = GStop)));
  c_file : forall l, w_file v = Some l -> uds = true /\ opened v l;
  c_fatal : w_fatal v = false }.
Lemma calm_closed gs rn lk li sk f r d : calm (Pv gs rn lk li sk f r d false) -> ~ serving (Pv gs rn lk li sk f r d false) \/ vnew (Pv gs rn lk li sk f r d false) = Some GListen ->
  (forall l, sk !! l <> Some true) /\ f = None.
Proof.
  intros C Hs. assert (forall l, sk !! l <> Some true) as Ho.
  { intros l Hl. destruct (c_open _ C l Hl) as [H1 H2]. destruct Hs as [Hs|Hs]; [done|]. rewrite Hs in H2.
    destruct H2 as [H2|(_ & g & H2 & Hg)]; [done|]. injection H2 as <-. by destruct Hg. }
  split; [done|]. destruct f as [l|]; [|done]. destruct (c_file _ C l eq_refl) as [_ Hl]. by apply Ho in Hl.
Qed.
Lemma calm_off gs rn lk li sk r d : (forall g, last gs = Some g -> g <> GListen /\ forall l, g <> GStore l) -> (forall l, sk !! l <> Some true) ->
  calm (Pv gs rn lk li sk None r d false).
Proof.
  intros Hg Ho. constructor; try done.
  - intros g H1 [H2|[l H2]]; destruct (Hg g) as [G1 G2]; try done. by destruct (G2 l).
  - intros l Hl. by apply Ho in Hl.
Qed.
Lemma NP gs rn st w li sk f r d g : calm (Pv gs rn (Some (st, w)) li sk f r d false) -> last gs = Some g -> g <> GListen /\ forall l, g <> GStore l.
Proof.
  intros C Hn. split; [intros ->|intros l ->]; destruct (c_prep _ C _ Hn) as [_ ?]; try done; [by left|right; by eexists].
Qed.
Lemma calm_step s l s' : patient uds s l -> fits (view s) -> tidy (view s) -> calm (view s) -> vstep (view s) l (view s') -> calm (view s').
Proof.
  intros [Hok Hp] F T C H. pose proof (tidy_step _ _ _ Hok F T H) as T'.
  assert (l = PSockStep SStop -> forall i g, w_gos (view s) !! i = Some g -> g <> GListen /\ forall l, g <> GStore l) as HR by exact Hp. clear Hok Hp.
  revert HR F T C T' H. generalize (view s) (view s'). clear s s'. intros v v' HR F T C T' H.
  assert (forall g, vnew v = Some g -> w_gos v !! pred (length (w_gos v)) = Some g) as Hlast.
  { intros g. unfold vnew. by rewrite last_lookup. }
  inversion H; subst.
  - done.
  - destruct (calm_closed _ _ _ _ _ _ _ _ C) as [Ho ->]; [left; by intros [? _]|]. constructor; try done.
    intros j Hj. by apply Ho in Hj.
  - destruct C as [C1 C2 C3 C4]. constructor; try done.
    + intros g Hn Hg. exfalso. destruct w as [i|].
      * destruct (only_new _ _ _ T (H1 i eq_refl)) as [_ Hn']; [done|]. unfold vnew in *. simpl in *. rewrite Hn in Hn'. injection Hn' as ->. by destruct Hg as [?|[? ?]].
      * specialize (HR (H0 eq_refl) _ _ (Hlast _ Hn)) as [G1 G2]. destruct Hg as [?|[j ?]]; [done|]. by apply (G2 j).
    + intros j Hj. destruct (C2 j Hj) as [_ Hj']. split; [|done]. split; [done|]. right. by eexists.
  - destruct (only_new _ _ _ T H0) as [Ei Hn]; [done|]. destruct (calm_closed _ _ _ _ _ _ _ _ C) as [Ho ->]; [left; by intros [? _]|].
    apply calm_off; [|done]. rewrite last_insert by (by try eapply lookup_lt_Some). by intros g [= <-].
  - assert (forall j, sk !! j <> Some true) as Ho.
    { intros j Hj. destruct (c_open _ C j Hj) as [_ [Hn|[Hj' _]]].
      - destruct (c_prep _ C _ Hn) as [_ ?]; [right; by eexists|done].
      - by apply (H0 j). }
    assert (f = None) as ->. { destruct f as [j|]; [|done]. destruct (c_file _ C j eq_refl) as [_ Hj]. by apply Ho in Hj. }
    apply calm_off; [|done]. intros g Hn. by apply (NP _ _ _ _ _ _ _ _ _ _ C Hn).
  - assert (forall i, <[j := false]> sk !! i <> Some true) as Ho.
    { intros i Hi. apply list_lookup_insert_Some in Hi as [(_ & ? & _)|[Hne Hi]]; [done|]. destruct (c_open _ C i Hi) as [_ [Hn|[Hj _]]].
      - destruct (c_prep _ C _ Hn) as [_ ?]; [right; by eexists|done].
      - simpl in Hj. congruence. }
    assert ((if uds then None else f) = None) as ->.
    { destruct f as [i|]; [|by destruct uds]. by destruct (c_file _ C i eq_refl) as [-> _]. }
    apply calm_off; [|done]. intros g Hn. by apply (NP _ _ _ _ _ _ _ _ _ _ C Hn).
  - destruct (calm_closed _ _ _ _ _ _ _ _ C) as [Ho ->]; [left; by intros [_ [?|[? ?]]]|].
    apply calm_off; [|done]. intros g Hn. by apply (NP _ _ _ _ _ _ _ _ _ _ C Hn).
  - destruct (calm_closed _ _ _ _ _ _ _ _ C) as [Ho ->]; [left; by intros [_ [?|[? ?]]]|].
    apply calm_off; [|done]. intros g Hn. by apply (NP _ _ _ _ _ _ _ _ _ _ C Hn).
  - destruct (calm_closed _ _ _ _ _ _ _ _ C) as [Ho ->]; [left; by intros [_ [?|[? ?]]]|].
    apply calm_off; [|done]. destruct w as [i|]; simpl.
    + destruct (only_new _ _ _ T (f_lock _ F _ i eq_refl)) as [Ei Hn]; [done|]. rewrite last_insert; [by intros g [= <-]| |done].
      eapply lookup_lt_Some, (f_lock _ F _ i eq_refl).
    + intros g Hn. by apply (NP _ _ _ _ _ _ _ _ _ _ C Hn).
  - destruct (only_new _ _ _ T H0) as [Ei Hn]; [done|]. destruct (calm_closed _ _ _ _ _ _ _ _ C) as [Ho _]; [by right|].
    destruct (c_prep _ C _ Hn) as [Hr Hk]; [by left|]. simpl in Hr, Hk. subst rn lk.
    constructor; try done; unfold vnew; simpl; rewrite ?last_insert by (by try eapply lookup_lt_Some).
    + intros j Hj. split; [split; [done|by left]|]. left. apply snoc_look in Hj as [[Hj _]|[-> _]]; [by apply Ho in Hj|done].
    + intros j Hj. destruct uds eqn:Eu.
      * injection Hj as <-. split; [done|]. by apply list_lookup_middle.
      * subst f. destruct (c_file _ C j eq_refl) as [? _]. congruence.
  - exfalso. destruct uds eqn:Eu; [by pose proof (t_fatal _ T' Eu)|]. destruct (only_new _ _ _ T H0) as [Ei Hn]; [done|].
    destruct (calm_closed _ _ _ _ _ _ _ _ C) as [Ho _]; [by right|]. destruct (H2 eq_refl) as [j Hj]. by apply Ho in Hj.
  - destruct (only_new _ _ _ T H0) as [Ei Hn]; [done|]. destruct (c_prep _ C _ Hn) as [Hr Hk]; [right; by eexists|]. simpl in Hr, Hk. subst rn lk.
    constructor; try done; unfold vnew; simpl; rewrite ?last_insert by (by try eapply lookup_lt_Some).
    + intros i' Hi'. destruct (c_open _ C i' Hi') as [Hs [Hj|(_ & g & Hj & Hg)]]; rewrite Hn in Hj; injection Hj as <-; [|by destruct Hg].
      split; [done|]. right. split; [done|]. exists GAccept. split; [done|by left].
    + apply (c_file _ C).
  - destruct (only_new _ _ _ T H0) as [Ei Hn]; [by intros ->|].
    constructor; try done; unfold vnew; simpl; rewrite ?last_insert by (by try eapply lookup_lt_Some).
    + intros g0 [= <-] [->|[? ->]]; done.
    + intros i' Hi'. destruct (c_open _ C i' Hi') as [Hs [Hj|(Hj & _)]]; [by rewrite Hn in Hj; injection Hj as ->|].
      split; [done|]. right. split; [done|]. exists g'. split; [done|by left].
    + apply (c_file _ C).
  - destruct (only_new _ _ _ T H0) as [Ei Hn]; [intros ->; by destruct H1 as [|[? ?]]|].
    constructor; try done; unfold vnew; simpl; rewrite ?last_insert by (by try eapply lookup_lt_Some).
    + intros g0 [= <-] [?|[? ?]]; done.
    + intros i' Hi'. destruct (c_open _ C i' Hi') as [Hs [Hj|(Hj & _)]]; [rewrite Hn in Hj; injection Hj as ->; by destruct H1 as [|[? ?]]|].
      split; [done|]. right. split; [done|]. exists GStop. split; [done|by right].
    + apply (c_file _ C).
  - destruct C as [C1 C2 C3 C4]. by constructor.
  - destruct C as [C1 C2 C3 C4]. by constructor.
Qed.

Lemma leads_tidy ls s g : prun (after_end uds) new_path ls s -> up (p_sock s) -> newest s = Some g -> working g ->
  exists l, k_listener (p_sock s) = Some l /\ leads uds s l /\ forall l', g = GWait l' -> l' = l.
Proof.
  intros H Hu Hn Hw. destruct (view_ind _ tidy tidy_new tidy_step _ _ H) as [_ T].
  destruct Hu as (_ & Hl & Hr). exact (t_work _ T g (conj Hr (or_introl Hl)) Hn Hw).
Qed.
Lemma unix_never_fatal ls s : uds = true -> prun (after_end uds) new_path ls s -> p_fatal s = false.
Proof. intros Hu H. destruct (view_ind _ tidy tidy_new tidy_step _ _ H) as [_ T]. exact (t_fatal _ T Hu). Qed.
Lemma calm_new : calm (view new_path).
Proof. by constructor. Qed.
Lemma patient_after s l : patient uds s l -> after_end uds s l.
Proof. by intros [? _]. Qed.
Lemma calm_reach ls s : prun (patient uds) new_path ls s -> calm (view s).
Proof.
  intros H. assert (fits (view s) /\ tidy (view s) /\ calm (view s)) as (_ & _ & ?); [|done].
  apply (view_ind (patient uds) (fun v => tidy v /\ calm v)) with ls; [split; [apply tidy_new|apply calm_new]| |done].
  intros s1 l s2 Hok F [T C] Hst. split; [by eapply tidy_step; [apply patient_after|..]|by eapply calm_step].
Qed.
Lemma never_fatal ls s : prun (patient uds) new_path ls s -> p_fatal s = false.
Proof. intros H%calm_reach. exact (c_fatal _ H). Qed.
Lemma stopped_free ls s : prun (patient uds) new_path ls s -> k_running (p_sock s) = false -> free s.
Proof.
  intros H Hr. pose proof (never_fatal _ _ H) as Hf. apply calm_reach in H. destruct s as [k f r d ft]. simpl in *. subst ft.
  unfold view in H. simpl in H. apply calm_closed in H; [done|]. left. intros [? _]. simpl in *. congruence.
Qed.

(** ** Restarts that do not wait *)
Lemma stop_lift k l k' f r d : kstep uds true 0 k l k' -> stop_label l ->
  exists l' f', pstop l' /\ pstep (Pst k f r d false) l' (Pst k' f' r d false).
Proof.
  intros H Hs. destruct (kstep_socks _ _ _ H) as [E|[(i & _ & _ & -> & _)|(w & j & Hc & Hl & Hj & ->)]].
  - exists (PSockStep l), f. split; [destruct Hs as [->| ->]; unfold pstop; auto|by apply pk_sock].
  - by destruct Hs.
  - destruct (decide (k_socks k !! j = Some true)) as [Ej|Ej].
    + exists PUnlisten, (if uds then None else f). split; [by right; right|by apply pk_unlisten].
    + exists (PSockStep l), f. split; [destruct Hs as [->| ->]; unfold pstop; auto|]. apply pk_sock; [done|]. simpl.
      destruct (k_socks k !! j) as [[]|] eqn:E; [done| |].
      * by apply list_insert_id.
      * apply list_insert_ge. by apply lookup_ge_None.
Qed.
Lemma stops_lift k ls k' f r d : krun uds true 0 k ls k' -> Forall stop_label ls ->
  exists ls' f', Forall pstop ls' /\ prun anything (Pst k f r d false) ls' (Pst k' f' r d false).
Proof.
  induction 1 as [|ls k1 l k2 H IH Hst]; intros HF; [exists [], f; split; constructor|].
  apply Forall_app in HF as [HF Hl]. destruct (IH HF) as (ls' & f1 & F' & R).
  destruct (stop_lift k1 l k2 f1 r d Hst) as (l' & f' & Hp & S'); [by inversion Hl|].
  exists (ls' ++ [l']), f'. split; [apply Forall_app; split; [done|by constructor]|]. by econstructor.
Qed.
Definition after_stop (k : sst) : sst -> Prop := fun k1 =>
  k_running k1 = false /\ k_lock k1 = None /\ k_crash k1 = None /\ k_gos k1 = k_gos k /\ k_listener k1 = None /\
  k_socks k1 = match k_listener k with Some l => <[l := false]> (k_socks k) | None => k_socks k end.
Lemma stops ok ls s : prun ok new_path ls s -> stoppable s ->
  exists ls1 k1 f1, Forall pstop ls1 /\ prun anything s ls1 (Pst k1 f1 (p_ready s) (p_left s) false) /\ after_stop (p_sock s) k1.
Proof.
  intros H (Hu & Hn & Hf). destruct (path_sock _ _ _ _ H) as [ks Hk].
  destruct (inv1_reach uds true 0 (p_sock s)) as [_ Ho]; [by exists ks|].
  destruct Ho as (ch & q & H1 & H2); [by destruct Hu as (_ & _ & ->)|by destruct Hu as (_ & -> & _)|].
  destruct (stop_run uds true 0 (p_sock s) ch q Hu H1 H2 Hn) as (ls0 & F & R).
  destruct s as [k f r d ft]. simpl in *. subst ft. destruct (stops_lift _ _ _ f r d R F) as (ls1 & f1 & F1 & R1).
  exists ls1, (stopped k ch q), f1. by split_and!.
Qed.
Definition rerun (k : sst) : sst :=
  set_running true (set_conns [] (set_next (Some (length (k_chans k))) (set_chans (k_chans k ++ [([], false)]) (set_gos (k_gos k ++ [GListen]) k)))).
Lemma runs_again k f r d : k_running k = false -> k_lock k = None -> k_crash k = None ->
  pstep (Pst k f r d false) (PSockStep SRun) (Pst (rerun k) f r d false).
Proof. intros H1 H2 H3. apply pk_sock; [|done]. by apply sk_run. Qed.

Lemma insert_end {A} (l : list A) n x y : n = length l -> <[n := x]> (l ++ [y]) = l ++ [x].
Proof. intros ->. rewrite <- (Nat.add_0_r (length l)). by rewrite insert_app_r. Qed.
Ltac at_end := simpl; apply list_lookup_middle; simpl; by rewrite ?insert_length.
Lemma file_removed ok ls s i l : uds = true -> prun ok new_path ls s -> stoppable s -> k_gos (p_sock s) !! i = Some (GWait l) ->
  exists ls1 s', Forall pstop ls1 /\
    prun anything s (ls1 ++ [PSockStep SAcceptErr; PSockStep SGo; PSockStep SRun; PClear; PListen; PSockStep SGo; PSockStep SGo; PLeave]) s' /\
    up (p_sock s') /\ p_file s' = None /\ exists l', newest s' = Some (GWait l') /\ k_socks (p_sock s') !! l' = Some true.
Proof.
  intros Hu H Hs Hi. pose proof (fits_reach _ _ _ H) as F. destruct (stops _ _ _ H Hs) as (ls1 & k1 & f1 & F1 & R1 & K1).
  destruct s as [k f r d ft]. simpl in *. destruct K1 as (Kr & Kl & Kc & Kg & Kli & Ks).
  assert (d i = false) as Hd. { destruct (d i) eqn:E; [|done]. apply (f_left _ F) in E. simpl in E. congruence. }
  pose proof (lookup_lt_Some _ _ _ Hi) as Hlt.
  destruct (r (length (k_gos k))) eqn:Er; [apply (f_ready _ F) in Er; simpl in Er; lia|].
  destruct k1 as [rn cn chs nx sk li lk gs us md cl hd cr]. simpl in *. subst rn lk cr gs li sk. clear F H Hs.
  eexists ls1, _. split_and!; [done| | | |].
  { eapply prun_app; [exact R1|].
    eapply prun_cons; [done|apply pk_sock; [by eapply (sk_accept_err _ _ _ _ i)|done]|].
    eapply prun_cons; [done|apply pk_sock; [eapply (sk_go_stop_idle _ _ _ _ i); [done| |done|done]; by apply list_lookup_insert|done]|].
    eapply prun_cons; [done|by apply runs_again|].
    eapply prun_cons; [done|apply (pk_clear _ _ _ _ _ (length (k_gos k))); [done|done|at_end|done]|].
    eapply prun_cons; [done|apply (pk_listen _ _ _ _ _ (length (k_gos k))); [done|at_end|by rewrite fn_lookup_insert|]|].
    { unfold can_listen. by rewrite Hu. }
    simpl. unfold go; simpl. rewrite insert_end by (by rewrite !insert_length).
    set (gs := <[i := GDone]> _). assert (length gs = length (k_gos k)) as Hgs by (unfold gs; by rewrite !insert_length).
    assert (gs !! i = Some GDone) as Hgi by (unfold gs; apply list_lookup_insert; by rewrite insert_length).
    set (sk := match k_listener k with Some _ => _ | None => _ end).
    eapply prun_cons; [done|apply pk_sock; [eapply (sk_store _ _ _ _ (length gs)); [done|at_end]|done]|].
    unfold go; simpl. rewrite insert_end by done.
    eapply prun_cons; [done|apply pk_sock; [eapply (sk_eval _ _ _ _ (length gs)); [done|at_end|done]|done]|].
    unfold go; simpl. rewrite insert_end by done.
    apply prun_one; [done|]. apply (pk_leave _ _ _ _ _ i); [done|done| |done]. simpl. by apply app_keep. }
  { done. }
  { done. }
  eexists. split; [unfold newest; simpl; by rewrite last_snoc|]. simpl. by apply list_lookup_middle.
Qed.
Lemma listener_replaced ok ls s i l : uds = true -> prun ok new_path ls s -> stoppable s -> k_gos (p_sock s) !! i = Some (GStore l) ->
  exists ls1 s' l', Forall pstop ls1 /\
    prun anything s (ls1 ++ [PSockStep SRun; PClear; PListen; PSockStep SGo; PSockStep SGo; PSockStep SGo]) s' /\
    up (p_sock s') /\ newest s' = Some (GWait l) /\ leads uds s' l' /\ l' <> l /\ forall j, k_gos (p_sock s') !! j <> Some (GWait l').
Proof.
  intros Hu H Hs Hi. pose proof (fits_reach _ _ _ H) as F. destruct (stops _ _ _ H Hs) as (ls1 & k1 & f1 & F1 & R1 & K1).
  destruct s as [k f r d ft]. simpl in *. destruct K1 as (Kr & Kl & Kc & Kg & Kli & Ks).
  pose proof (lookup_lt_Some _ _ _ Hi) as Hlt.
  destruct (r (length (k_gos k))) eqn:Er; [apply (f_ready _ F) in Er; simpl in Er; lia|].
  pose proof (f_store _ F i l Hi) as (Hll & _). pose proof (f_wait _ F) as Fw. simpl in Hll, Fw.
  destruct k1 as [rn cn chs nx sk li lk gs us md cl hd cr]. simpl in *.
  assert (length sk = length (k_socks k)) as Hsk by (subst sk; destruct (k_listener k); by rewrite ?insert_length). clear Ks.
  subst rn lk cr gs li. clear F H Hs.
  eexists ls1, _, (length sk). split_and!; [done| | | | | |].
  { eapply prun_app; [exact R1|].
    eapply prun_cons; [done|by apply runs_again|].
    eapply prun_cons; [done|apply (pk_clear _ _ _ _ _ (length (k_gos k))); [done|done|at_end|done]|].
    eapply prun_cons; [done|apply (pk_listen _ _ _ _ _ (length (k_gos k))); [done|at_end|by rewrite fn_lookup_insert|]|].
    { unfold can_listen. by rewrite Hu. }
    unfold go; simpl. rewrite insert_end by done.
    eapply prun_cons; [done|apply pk_sock; [eapply (sk_store _ _ _ _ (length (k_gos k))); [done|at_end]|done]|].
    unfold go; simpl. rewrite insert_end by done.
    eapply prun_cons; [done|apply pk_sock; [eapply (sk_store _ _ _ _ i l); [done|simpl; by apply app_keep]|done]|].
    unfold go; simpl. rewrite insert_app_l by done.
    apply prun_one; [done|]. apply pk_sock; [eapply (sk_eval _ _ _ _ (length (k_gos k))); [done|at_end|done]|done]. }
  { done. }
  { unfold newest; simpl. rewrite insert_end by (by rewrite insert_length). by rewrite last_snoc. }
  { split; simpl; [by apply list_lookup_middle|]. by rewrite Hu. }
  { lia. }
  { intros j. simpl. rewrite insert_end by (by rewrite insert_length). intros [[Hj _]|[_ [= Hj]]]%snoc_look; [|lia].
    apply list_lookup_insert_Some in Hj as [(_ & ? & _)|[_ Hj]]; [done|]. apply Fw in Hj. lia. }
Qed.
Lemma fatal_tcp ok ls s i l : uds = false -> prun ok new_path ls s -> stoppable s -> k_gos (p_sock s) !! i = Some (GStore l) ->
  exists ls1 s', Forall pstop ls1 /\ prun anything s (ls1 ++ [PSockStep SRun; PFatal]) s' /\ p_fatal s' = true.
Proof.
  intros Hu H Hs Hi. pose proof (fits_reach _ _ _ H) as F. destruct (stops _ _ _ H Hs) as (ls1 & k1 & f1 & F1 & R1 & K1).
  destruct s as [k f r d ft]. simpl in *. destruct K1 as (Kr & Kl & Kc & Kg & Kli & Ks).
  pose proof (f_store _ F i l Hi) as (_ & Hl & Hne). simpl in *.
  assert (k_socks k1 !! l = Some true) as Ho. { rewrite Ks. destruct (k_listener k) as [l0|]; [|done]. rewrite list_lookup_insert_ne; congruence. }
  eexists ls1, _. split_and!; [done| |].
  { eapply prun_app; [exact R1|]. eapply prun_cons; [done|by apply runs_again|]. apply prun_one; [done|].
    apply (pk_fatal _ _ _ _ _ (length (k_gos k1))); [done|at_end|by rewrite Hu|]. unfold can_listen. rewrite Hu. intros Hx. by apply (Hx l). }
  done.
Qed.
Lemma fatal_unix ok ls s i : uds = true -> prun ok new_path ls s -> stoppable s -> k_gos (p_sock s) !! i = Some GListen ->
  exists ls1 ls2 s', Forall (fun l => l = PClear) ls1 /\ Forall pstop ls2 /\
    prun anything s (ls1 ++ ls2 ++ [PSockStep SRun; PClear; PListen; PFatal]) s' /\ p_fatal s' = true.
Proof.
  intros Hu H Hs Hi.
  assert (exists ls1 f0 r0, Forall (fun l => l = PClear) ls1 /\ r0 i = true /\ prun anything s ls1 (Pst (p_sock s) f0 r0 (p_left s) false)) as (ls1 & f0 & r0 & F0 & Hr0 & R0).
  { destruct Hs as (Hup & _ & Hf). destruct s as [k f r d ft]. simpl in *. subst ft. destruct (r i) eqn:E.
    - exists [], f, r. split_and!; try done. constructor.
    - exists [PClear], None, (<[i := true]> r). split_and!; [by repeat constructor|by rewrite fn_lookup_insert|].
      apply prun_one; [done|]. apply pk_clear; try done. by destruct Hup. }
  apply prun_any in H. pose proof (prun_app _ _ _ _ _ _ H R0) as H0.
  pose proof (fits_reach _ _ _ H0) as F.
  destruct (stops _ _ _ H0) as (ls2 & k1 & f1 & F1 & R1 & K1); [by destruct Hs as (? & ? & _)|].
  simpl in *. destruct K1 as (Kr & Kl & Kc & Kg & Kli & Ks). pose proof (lookup_lt_Some _ _ _ Hi) as Hlt. set (k := p_sock s) in *.
  destruct (r0 (length (k_gos k))) eqn:Er; [apply (f_ready _ F) in Er; simpl in Er; lia|].
  assert (i <> length (k_gos k)) as Hne by lia.
  eexists ls1, ls2, _. split_and!; [done|done| |].
  { eapply prun_app; [exact R0|]. eapply prun_app; [exact R1|]. eapply prun_cons; [done|by apply runs_again|].
    eapply prun_cons; [done|apply (pk_clear _ _ _ _ _ (length (k_gos k))); [done|done| |done]|].
    { simpl. rewrite Kg. at_end. }
    eapply prun_cons; [done|apply (pk_listen _ _ _ _ _ i); [done| | |]|].
    { simpl. rewrite Kg. by apply app_keep. }
    { intros _. by rewrite fn_lookup_insert_ne. }
    { unfold can_listen. by rewrite Hu. }
    apply prun_one; [done|]. apply (pk_fatal _ _ _ _ _ (length (k_gos k))); [done| | |].
    { simpl. rewrite Kg, insert_app_l by done. at_end. }
    { intros _. by rewrite fn_lookup_insert. }
    { unfold can_listen. by rewrite Hu. } }
  done.
Qed.
End path.

Lemma path_crash_ends uds ok s ls s' : p_fatal s = true \/ k_crash (p_sock s) <> None -> prun uds ok s ls s' -> ls = [] /\ s' = s.
Proof.
  intros Hc. induction 1 as [|ls s1 l s2 _ [-> ->] _ Hs]; [done|]. exfalso.
  destruct Hs; cbn [p_fatal p_sock] in Hc; destruct Hc as [Hc|Hc]; try done. by destruct H.
Qed.
