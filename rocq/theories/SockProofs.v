(** * Proofs about the socket transports *)
From Verif Require Import GoBase SockModel SockSpec.

Section transport.
Context (uds server : bool) (maxretry : Z).
Notation kstep := (kstep uds server maxretry).
Notation krun := (krun uds server maxretry).
Notation kreach := (kreach uds server maxretry).

Lemma krun_app s ls1 s1 ls2 s2 : krun s ls1 s1 -> krun s1 ls2 s2 -> krun s (ls1 ++ ls2) s2.
Proof.
  intros H1 H2. induction H2 as [|ls s3 l s4 H2 IH Hs]; [by rewrite app_nil_r|].
  rewrite app_assoc. econstructor; done.
Qed.
Lemma krun_one s l s' : kstep s l s' -> krun s [l] s'.
Proof. intros H. change [l] with ([] ++ [l]). econstructor; [constructor|done]. Qed.
Lemma krun_cons s l s1 ls s2 : kstep s l s1 -> krun s1 ls s2 -> krun s (l :: ls) s2.
Proof. intros H1 H2. change (l :: ls) with ([l] ++ ls). eapply krun_app; [by apply krun_one|done]. Qed.

(** ** Stop closes an open channel *)
Definition open_next (s : sst) : Prop := exists ch q, k_next s = Some ch /\ k_chans s !! ch = Some (q, false).
Lemma open_keep s s' ch0 q0 q1 b : open_next s -> k_next s' = k_next s ->
  k_chans s !! ch0 = Some (q0, b) -> k_chans s' = <[ch0 := (q1, b)]> (k_chans s) -> open_next s'.
Proof.
  intros (ch & q & H1 & H2) Hn H0 E. unfold open_next. rewrite Hn, E. exists ch. destruct (decide (ch0 = ch)) as [->|].
  - rewrite H0 in H2. injection H2 as -> ->. exists q1. split; [done|]. apply list_lookup_insert. by eapply lookup_lt_Some.
  - exists q. by rewrite list_lookup_insert_ne.
Qed.
Definition inv1 (s : sst) : Prop :=
  (k_lock s <> None -> k_running s = true) /\
  (k_running s = true -> (forall w, k_lock s <> Some (PDrop, w)) -> open_next s).
Lemma inv1_reach s : kreach s -> inv1 s.
Proof.
  intros [ls H]. induction H as [|ls s1 l s2 H IH Hst]; [done|]. destruct IH as [I1 I2].
  inversion Hst; subst; unfold inv1; simpl in *; try done.
  - split; [done|]. intros _ _. exists (length (k_chans s1)), []. simpl. split; [done|]. by apply list_lookup_middle.
  - split; [done|]. intros _ _. by apply I2; [|rewrite H1].
  - split; [done|]. intros _ _. by apply I2; [|rewrite H2].
  - split; [intros _; apply I1; by rewrite H1|]. intros Hr _. by apply I2; [|rewrite H1].
  - split; [intros _; apply I1; by rewrite H1|]. intros Hr _. by apply I2; [|rewrite H1].
  - split; [intros _; apply I1; by rewrite H1|]. intros Hr _. by apply I2; [|rewrite H1].
  - split; [intros _; apply I1; by rewrite H1|]. intros Hr Hw. by destruct (Hw w).
  - split; [done|]. intros Hr Hw. eapply (open_keep s1); [by apply I2|done|done|done].
  - split; [done|]. intros Hr Hw. eapply (open_keep s1); [by apply I2|done|done|done].
Qed.
Lemma never_closes_closed s : kreach s -> k_crash s <> Some CrClose.
Proof.
  intros [ls H]. induction H as [|ls s1 l s2 H IH Hst]; [done|].
  assert (inv1 s1) as [I1 I2] by (apply inv1_reach; by exists ls).
  inversion Hst; subst; simpl in *; try done. exfalso.
  destruct I2 as (ch & q & E1 & E2); [apply I1; by rewrite H1|by rewrite H1|]. by apply (H2 ch q).
Qed.
(** The Unix transport never closes a nil connection. *)
Lemma save_nil conns r : uds = true -> None ∉ conns -> None ∉ save uds conns r.
Proof.
  unfold save. intros Hu H. destruct (decide (r = None /\ uds = true)) as [|Hd]; [done|]. case_decide; [done|]. rewrite elem_of_app, elem_of_list_singleton.
  intros [|<-]; [done|]. by destruct Hd.
Qed.
Lemma uds_no_nil s : uds = true -> kreach s -> None ∉ k_conns s /\ k_crash s <> Some CrNilConn.
Proof.
  intros Hu [ls H]. revert Hu. induction H as [|ls s1 l s2 H IH Hst]; intros Hu; [split; [by intros ?%elem_of_nil|done]|].
  specialize (IH Hu). revert Hu. destruct IH as [I1 I2]. inversion Hst; subst; intros Hu; simpl in *; try done.
  - split; [apply not_elem_of_nil|done].
  - split; [by apply save_nil|done].
Qed.

(** ** Without Stop *)
Lemma runs_app ls l : runs (ls ++ [l]) = runs ls + runs [l].
Proof. unfold runs. by rewrite List.filter_app, app_length. Qed.
Lemma dials_app ls l : dials (ls ++ [l]) = dials ls + dials [l].
Proof. unfold dials. by rewrite List.filter_app, app_length. Qed.
Definition idle (s : sst) : Prop := s = new_sock.
Definition maxn : nat := Z.to_nat maxretry.
(** One goroutine, what it has done. *)
Definition progress (s : sst) (d : nat) (g : gpc) : Prop := server = false ->
  match g with
  | GDial n => n = d /\ n <= maxn /\ k_made s = 0
  | GHave _ | GSend _ _ => k_made s = 1 /\ 1 <= d <= maxn
  | GStop => k_made s = 0 /\ d = maxn
  | GDone => (k_made s = 1 /\ 1 <= d <= maxn) \/ (k_made s = 0 /\ d = maxn /\ k_running s = false)
  | _ => False
  end.
Inductive shape : gpc -> option (stoppc * option nat) -> bool -> bool -> option nat -> Prop :=
| sh_work g li : g <> GStop -> g <> GDone -> (server = true -> g = GListen \/ (exists l, g = GStore l) \/ li <> None) -> (forall ch c, g = GSend ch c -> ch = 0) ->
    shape g None true false li
| sh_stop li : shape GStop None true false li
| sh_in p li : shape GStop (Some (p, Some 0)) true (match p with PDrop => true | _ => false end) li
| sh_out li : shape GDone None false true li
| sh_done li : shape GDone None true false li.
Definition solo (s : sst) (d : nat) : Prop := exists g q b,
  k_gos s = [g] /\ k_chans s = [(q, b)] /\ k_next s = Some 0 /\
  shape g (k_lock s) (k_running s) b (k_listener s) /\
  (k_running s = true -> None ∉ k_conns s) /\ (UGot None ∈ k_users s -> b = true) /\ progress s d g.
Lemma single {A} (x y : A) i : [x] !! i = Some y -> i = 0 /\ x = y.
Proof. destruct i as [|[]]; simpl; [|done..]. by intros [= ->]. Qed.
Lemma user_got (us : list upc) j u r : UGot r ∈ <[j := u]> us -> u = UGot r \/ UGot r ∈ us.
Proof.
  intros [i Hi]%elem_of_list_lookup. destruct (decide (j = i)) as [->|Hne].
  - left. assert (i < length us) as Hl. { apply lookup_lt_Some in Hi. by rewrite insert_length in Hi. }
    rewrite list_lookup_insert in Hi by done. by injection Hi.
  - right. rewrite list_lookup_insert_ne in Hi by done. by eapply elem_of_list_lookup_2.
Qed.
Ltac mk g' q' b' := split; [done|]; exists g', q', b';
  unfold go, user; simpl; repeat match goal with E : k_gos _ = [_] |- _ => rewrite E | E : k_chans _ = [_] |- _ => rewrite E end; simpl; split_and!; try done.
Ltac work W3 := apply sh_work; [done|done|
  let E := fresh in intros E; first [right; left; by eexists | right; right; done |
    destruct (W3 E) as [?|[[? ?]|?]]; [done|done|by right; right]] | try done; try (by intros ? ? [=])].
Lemma solo_run ls s : krun new_sock ls s -> runs ls <= 1 -> SStop ∉ ls ->
  k_crash s = None /\ ((idle s /\ runs ls = 0 /\ dials ls = 0) \/ (runs ls = 1 /\ solo s (dials ls))).
Proof.
  intros H. induction H as [|ls s1 l s2 H IH Hst]; [by split; [|left]|].
  rewrite runs_app, dials_app, not_elem_of_app, not_elem_of_cons. intros Hr (Hs1 & Hs2 & _).
  destruct IH as [Hc [(Hi & Hr0 & Hd0)|(Hr1 & Hsolo)]]; [lia|done| |].
  { rewrite Hi in *. inversion Hst; subst; simpl in *; try done; [|by apply elem_of_nil in H1].
    split; [done|]. right. rewrite Hr0, Hd0. split; [done|].
    exists (if server then GListen else GDial 0), [], false. simpl. split_and!; try done.
    - apply sh_work; [by destruct server|by destruct server| |by destruct server]. intros Hsv. rewrite Hsv. by left.
    - intros. apply not_elem_of_nil.
    - by intros ?%elem_of_nil.
    - unfold progress. simpl. intros Hsv. rewrite Hsv. split_and!; [done|lia|done]. }
  destruct Hsolo as (g & q & b & Eg & Ec & En & Hsh & Hcn & Hu & Hp).
  assert (forall l, (forall b, l <> SDial b) -> dials [l] = 0) as Hdz.
  { intros l0 Hl0. unfold dials. simpl. destruct l0; try done. by destruct (Hl0 ok). }
  enough (k_crash s2 = None /\ solo s2 (dials ls + dials [l])) as [G1 G2].
  { split; [done|]. right. split; [|done]. lia. }
  destruct s1 as [rn cn chs nx sk li lk gs us md cl hd cr]. simpl in *. subst.
  inversion Hst; subst; simpl in *; subst; try done; clear Hst;
    repeat match goal with Hg : [_] !! _ = Some _ |- _ => apply single in Hg as [-> ?] end; subst;
    try (rewrite Hdz by done; rewrite Nat.add_0_r); simplify_eq.
  - exfalso. unfold runs at 2 in Hr. simpl in Hr. lia.
  - exfalso. unfold runs at 2 in Hr. simpl in Hr. lia.
  - inversion Hsh; subst; [done|]. mk GStop q false. apply (sh_in PSock).
  - inversion Hsh.
  - inversion Hsh; subst. mk GStop q false. apply (sh_in PClose).
  - inversion Hsh; subst. mk GStop q false. apply (sh_in PNil).
  - inversion Hsh; subst. mk GStop q false. apply (sh_in PClose).
  - inversion Hsh; subst. mk GStop q0 true. apply (sh_in PDrop).
  - exfalso. inversion Hsh; subst. by apply (H2 0 q).
  - inversion Hsh; subst. mk GDone q true; [apply sh_out|].
    unfold progress in *. simpl. intros Hsv. specialize (Hp Hsv). right. destruct Hp. done.
  - exfalso. inversion Hsh; subst. by apply Hcn.
  - inversion Hsh as [? ? W1 W2 W3 W4| | | |]; subst.
    mk (GStore (length sk)) q false; try work W3; try (intros Hsv; by specialize (Hp Hsv)).
  - inversion Hsh as [? ? W1 W2 W3 W4| | | |]; subst.
    mk GAccept q false; try work W3; try (intros Hsv; by specialize (Hp Hsv)).
  - inversion Hsh as [? ? W1 W2 W3 W4| | | |]; subst.
    mk (GWait l0) q false; try work W3; try (intros Hsv; by specialize (Hp Hsv)).
  - exfalso. inversion Hsh as [? ? W1 W2 W3 W4| | | |]; subst.
    assert (server = true) as Hsv. { destruct (Bool.bool_dec server true) as [|Hf]; [done|]. apply not_true_is_false in Hf. by specialize (Hp Hf). }
    destruct (W3 Hsv) as [?|[[? ?]|?]]; done.
  - inversion Hsh as [? ? W1 W2 W3 W4| | | |]; subst.
    mk (GHave md) q false; try work W3; try (intros Hsv; by specialize (Hp Hsv)).
  - inversion Hsh as [? ? W1 W2 W3 W4| | | |]; subst.
    mk GStop q false; try apply sh_stop; try (intros Hsv; by specialize (Hp Hsv)).
  - inversion Hsh as [? ? W1 W2 W3 W4| | | |]; subst.
    mk (GSend 0 c) q false. work W3.
  - inversion Hsh as [? ? W1 W2 W3 W4| | | |]; subst.
    mk (if server then GAccept else GDone) (q0 ++ [c]) false.
    + destruct (Bool.bool_dec server true) as [Hsv|Hf%not_true_is_false].
      * rewrite Hsv. constructor; try done. intros _. right. right. destruct (W3 Hsv) as [?|[[? ?]|?]]; done.
      * rewrite Hf. apply sh_done.
    + intros Hsv. specialize (Hp Hsv). rewrite Hsv. simpl. by left.
  - exfalso. inversion Hsh.
  - inversion Hsh as [? ? W1 W2 W3 W4| | | |]; subst.
    mk (GHave md) q false; [work W3|]. intros Hsv. specialize (Hp Hsv). simpl in *.
    destruct Hp as (-> & Hp2 & ->). split; [done|]. unfold dials at 2 4. simpl. unfold maxn in *. lia.
  - inversion Hsh as [? ? W1 W2 W3 W4| | | |]; subst.
    mk (GDial (S n)) q false; [work W3|]. intros Hsv. specialize (Hp Hsv). simpl in *.
    destruct Hp as (-> & Hp2 & ->). unfold dials at 3. simpl. unfold maxn in *. lia.
  - inversion Hsh as [? ? W1 W2 W3 W4| | | |]; subst.
    mk GStop q false; [apply sh_stop|]. intros Hsv. specialize (Hp Hsv). simpl in *.
    destruct Hp as (-> & Hp2 & ->). unfold maxn in *. lia.
  - mk g q b. rewrite elem_of_app, elem_of_list_singleton. naive_solver.
  - mk g q0 b0. intros [?|?]%user_got; [done|by apply Hu].
  - mk g (@nil nat) true.
  - mk g q b.
    + intros Hrun. rewrite Hrun in Hsh. specialize (Hcn Hrun). assert (b = false) as Hbf by (by inversion Hsh).
      unfold save. repeat case_decide; try done. rewrite elem_of_app, elem_of_list_singleton. intros [|<-]; [done|].
      rewrite Hbf in Hu. enough (false = true) by done. apply Hu. by eapply elem_of_list_lookup_2.
    + intros [?|?]%user_got; [done|by apply Hu].
  - mk g q b.
Qed.
Lemma never_crashes ls s : krun new_sock ls s -> runs ls <= 1 -> SStop ∉ ls -> k_crash s = None.
Proof. intros H1 H2 H3. by destruct (solo_run _ _ H1 H2 H3). Qed.
(** ** Stop, uninterrupted *)
Definition stopped (s : sst) (ch : nat) (q : list nat) : sst :=
  Sst false (k_conns s) (<[ch := (q, true)]> (k_chans s)) (k_next s)
      (match k_listener s with Some l => <[l := false]> (k_socks s) | None => k_socks s end) None None
      (k_gos s) (k_users s) (k_made s) (k_closed s ++ omap id (k_conns s)) (k_handed s) None.
(** ... up to closing the connections. *)
Definition halfway (s : sst) (w : option nat) (ch : nat) (q : list nat) : sst :=
  Sst true (k_conns s) (<[ch := (q, true)]> (k_chans s)) (k_next s)
      (match k_listener s with Some l => <[l := false]> (k_socks s) | None => k_socks s end) None (Some (PDrop, w))
      (k_gos s) (k_users s) (k_made s) (k_closed s) (k_handed s) None.
Lemma kstep_eq s l s1 s2 : kstep s l s1 -> s1 = s2 -> kstep s l s2.
Proof. by intros H <-. Qed.
Lemma inner_run s w ch q : k_crash s = None -> k_lock s = Some (PSock, w) -> k_running s = true -> k_next s = Some ch ->
  k_chans s !! ch = Some (q, false) -> exists ls, Forall (fun l => l = SInner) ls /\ krun s ls (halfway s w ch q).
Proof.
  intros Hc Hl Hr Hn Hq. destruct s as [rn cn chs nx sk li lk gs us md cl hd cr]. simpl in *. subst.
  destruct li as [l|].
  - exists [SInner; SInner; SInner]. split; [by repeat constructor|].
    eapply krun_cons; [by eapply sk_sock|]. eapply krun_cons; [by eapply sk_nil|]. apply krun_one. eapply kstep_eq; [by eapply sk_close|done].
  - exists [SInner; SInner]. split; [by repeat constructor|].
    eapply krun_cons; [by eapply sk_sock_none|]. apply krun_one. eapply kstep_eq; [by eapply sk_close|done].
Qed.
Lemma half_run s ch q : up s -> k_next s = Some ch -> k_chans s !! ch = Some (q, false) ->
  exists ls, Forall stop_label ls /\ krun s ls (halfway s None ch q).
Proof.
  intros (Hc & Hl & Hr) Hn Hq. destruct (inner_run (set_lock (Some (PSock, None)) s) None ch q) as (ls & F & R); [done..|].
  exists (SStop :: ls). split.
  - constructor; [by left|]. eapply Forall_impl; [done|]. intros l ->. by right.
  - eapply krun_cons; [by apply sk_stop|exact R].
Qed.
Lemma stop_run s ch q : up s -> k_next s = Some ch -> k_chans s !! ch = Some (q, false) -> None ∉ k_conns s ->
  exists ls, Forall stop_label ls /\ krun s ls (stopped s ch q).
Proof.
  intros Hu Hn Hq Hnil. destruct (half_run s ch q Hu Hn Hq) as (ls & F & R). exists (ls ++ [SInner]). split.
  - apply Forall_app. split; [done|]. constructor; [by right|done].
  - eapply krun_app; [exact R|]. apply krun_one. by eapply (sk_drop _ _ _ (halfway s None ch q) None).
Qed.

(** ** Crashes *)
Lemma send_crashes s i ch c q : up s -> k_gos s !! i = Some (GSend ch c) -> k_next s = Some ch ->
  k_chans s !! ch = Some (q, false) ->
  exists ls s', Forall stop_label ls /\ krun s (ls ++ [SGo]) s' /\ k_crash s' = Some CrSend.
Proof.
  intros Hu Hg Hn Hq. destruct (half_run s ch q Hu Hn Hq) as (ls & F & R).
  exists ls. eexists. split_and!; [done| |].
  - eapply krun_app; [exact R|]. apply krun_one. eapply (sk_send_crash _ _ _ (halfway s None ch q) i ch c q); [done|done|].
    simpl. apply list_lookup_insert. by eapply lookup_lt_Some.
  - done.
Qed.
Lemma accept_crashes s i : up s -> kreach s -> k_gos s !! i = Some GAccept ->
  exists ls s', Forall stop_label ls /\ krun s (ls ++ [SGo]) s' /\ k_crash s' = Some CrListener.
Proof.
  intros Hu Hr Hg. destruct (inv1_reach _ Hr) as [_ I]. destruct Hu as (Hc & Hl & Hrun).
  destruct I as (ch & q & Hn & Hq); [done|by rewrite Hl|].
  destruct (half_run s ch q) as (ls & F & R); [done..|].
  exists ls. eexists. split_and!; [done| |].
  - eapply krun_app; [exact R|]. apply krun_one. by eapply (sk_eval_crash _ _ _ (halfway s None ch q) i).
  - done.
Qed.
(** A nil connection (TCP): NextConnection waits, Stop, Run, Stop. *)
Lemma nil_crashes s ch : uds = false -> up s -> k_next s = Some ch -> k_chans s !! ch = Some ([], false) -> None ∉ k_conns s ->
  exists ls1 ls2 s', Forall stop_label ls1 /\ Forall stop_label ls2 /\
    krun s (SCall :: ls1 ++ [SReceive; SRun; SReturn] ++ ls2) s' /\ k_crash s' = Some CrNilConn.
Proof.
  intros Hu (Hc & Hl & Hr) Hn Hq Hnil.
  set (s1 := set_users (k_users s ++ [URecv ch]) s).
  destruct (stop_run s1 ch []) as (ls1 & F1 & R1); [done..|].
  set (s2 := stopped s1 ch []) in *.
  set (j := length (k_users s)).
  assert (k_users s2 !! j = Some (URecv ch)) as Hj by (by apply list_lookup_middle).
  set (s3 := user j (UGot None) s2).
  assert (kstep s2 SReceive s3) as T3.
  { eapply sk_receive_nil; [done|exact Hj|]. simpl. apply list_lookup_insert. by eapply lookup_lt_Some. }
  set (s4 := set_running true (set_conns [] (set_next (Some (length (k_chans s3))) (set_chans (k_chans s3 ++ [([], false)])
         (set_gos (k_gos s3 ++ [if server then GListen else GDial 0]) s3))))).
  assert (kstep s3 SRun s4) as T4 by (by apply sk_run).
  set (s5 := user j (UDone None) (set_conns (save uds (k_conns s4) None) (set_handed (k_handed s4 ++ option_list None) s4))).
  assert (kstep s4 SReturn s5) as T5.
  { eapply (sk_return _ _ _ s4 j None); [done| |done]. simpl. apply list_lookup_insert. by eapply lookup_lt_Some. }
  assert (k_conns s5 = [None]) as E5.
  { simpl. unfold save. rewrite decide_False; [|intros [_ E]; congruence]. rewrite decide_False by apply not_elem_of_nil. done. }
  destruct (half_run s5 (length (k_chans s3)) []) as (ls2 & F2 & R2); [done|done| |].
  { simpl. by apply list_lookup_middle. }
  exists ls1, (ls2 ++ [SInner]). eexists. split_and!; [done| | |].
  - apply Forall_app. split; [done|]. constructor; [by right|done].
  - eapply krun_cons; [by apply (sk_call _ _ _ s ch)|]. eapply krun_app; [exact R1|].
    eapply krun_cons; [exact T3|]. eapply krun_cons; [exact T4|]. eapply krun_cons; [exact T5|].
    eapply krun_app; [exact R2|]. apply krun_one. eapply (sk_drop_crash _ _ _ (halfway s5 None _ []) None); [done|done|].
    simpl. simpl in E5. rewrite E5. left.
  - done.
Qed.
(** Stop directly after Run, and a connection is made. *)
Lemma first_state : kstep new_sock SRun (Sst true [] [([], false)] (Some 0) [] None None
  [if server then GListen else GDial 0] [] 0 [] [] None).
Proof. pose proof (sk_run uds server maxretry new_sock) as G. by apply G. Qed.
Lemma stopped_at_once_crashes : (server = false -> (0 < maxretry)%Z) ->
  exists ls1 ls2 s', Forall stop_label ls1 /\ SStop ∉ ls2 /\ krun new_sock (SRun :: ls1 ++ ls2) s' /\ k_crash s' = Some CrSend.
Proof.
  intros Hm. set (s0 := Sst true [] [([], false)] (Some 0) [] None None [if server then GListen else GDial 0] [] 0 [] [] None).
  destruct (stop_run s0 0 []) as (ls1 & F1 & R1); [done|done|done|apply not_elem_of_nil|].
  exists ls1.
  assert (exists ls2 s', SStop ∉ ls2 /\ krun (stopped s0 0 []) ls2 s' /\ k_crash s' = Some CrSend) as (ls2 & s' & N2 & R2 & C2).
  { unfold stopped, s0. simpl. destruct (Bool.bool_dec server true) as [Hsv|Hsv%not_true_is_false].
    - exists [SGo; SGo; SGo; SIncoming; SGo; SGo]. replace (if server then GListen else GDial 0) with GListen by (by rewrite Hsv).
      eexists. split_and!; [rewrite !not_elem_of_cons; split_and!; try done; apply not_elem_of_nil| |].
      + eapply krun_cons; [by apply (sk_listen _ _ _ _ 0)|]. cbn. eapply krun_cons; [by apply (sk_store _ _ _ _ 0 0)|]. cbn.
        eapply krun_cons; [by apply (sk_eval _ _ _ _ 0 0)|]. cbn. eapply krun_cons; [by apply (sk_incoming _ _ _ _ 0 0)|]. cbn.
        eapply krun_cons; [by apply (sk_have _ _ _ _ 0 0 0)|]. cbn. apply krun_one. by eapply (sk_send_crash _ _ _ _ 0 0 0).
      + done.
    - exists [SDial true; SGo; SGo]. replace (if server then GListen else GDial 0) with (GDial 0) by (by rewrite Hsv).
      eexists. split_and!; [rewrite !not_elem_of_cons; split_and!; try done; apply not_elem_of_nil| |].
      + eapply krun_cons; [apply (sk_dial_ok _ _ _ _ 0 0); [done|done|by apply Hm]|]. cbn.
        eapply krun_cons; [by apply (sk_have _ _ _ _ 0 0 0)|]. cbn. apply krun_one. by eapply (sk_send_crash _ _ _ _ 0 0 0).
      + done. }
  exists ls2, s'. split_and!; [done|done| |done].
  eapply krun_cons; [apply first_state|]. by eapply krun_app.
Qed.

(** ** Connections left open *)
Lemma left_open s ch c q : up s -> k_next s = Some ch -> k_chans s !! ch = Some (c :: q, false) -> None ∉ k_conns s ->
  c ∉ k_closed s -> Some c ∉ k_conns s ->
  exists ls s', Forall stop_label ls /\ krun s (ls ++ [SCall; SReceive; SReturn]) s' /\
    k_running s' = false /\ k_gos s' = k_gos s /\ c ∈ k_handed s' /\ c ∉ k_closed s'.
Proof.
  intros Hu Hn Hq Hnil Hc1 Hc2. destruct (stop_run s ch (c :: q) Hu Hn Hq Hnil) as (ls & F & R).
  set (s1 := stopped s ch (c :: q)) in *.
  set (s2 := set_users (k_users s1 ++ [URecv ch]) s1).
  set (j := length (k_users s)).
  assert (k_users s2 !! j = Some (URecv ch)) as Hj by (by apply list_lookup_middle).
  set (s3 := user j (UGot (Some c)) (set_chans (<[ch := (q, true)]> (k_chans s2)) s2)).
  assert (kstep s2 SReceive s3) as T3.
  { eapply (sk_receive _ _ _ s2 j ch c q true); [done|exact Hj|]. simpl. apply list_lookup_insert. by eapply lookup_lt_Some. }
  exists ls. eexists. split_and!; [done| | | | |].
  - eapply krun_app; [exact R|]. eapply krun_cons; [by apply (sk_call _ _ _ s1 ch)|]. eapply krun_cons; [exact T3|].
    apply krun_one. eapply (sk_return _ _ _ s3 j (Some c)); [done| |done]. simpl. apply list_lookup_insert. by eapply lookup_lt_Some.
  - done.
  - done.
  - simpl. apply elem_of_app. right. left.
  - simpl. rewrite not_elem_of_app. split; [done|]. rewrite elem_of_list_omap. intros (x & Hx & Ex). unfold id in Ex. by subst.
Qed.
Lemma saved ls s : krun new_sock ls s -> runs ls <= 1 ->
  (runs ls = 0 -> idle s) /\
  (runs ls = 1 -> (exists q b, k_chans s = [(q, b)]) /\ k_next s = Some 0 /\ forall c, c ∈ k_handed s -> Some c ∈ k_conns s).
Proof.
  induction 1 as [|ls s1 l s2 H IH Hst]; [done|]. rewrite runs_app. intros Hr.
  destruct IH as [I0 I1]; [lia|]. destruct (decide (runs ls = 0)) as [E0|E0].
  { specialize (I0 E0). rewrite E0 in *. rewrite I0 in *. inversion Hst; subst; simpl in *; try done.
    - split; [done|]. intros _. split_and!; [by do 2 eexists|done|]. by intros c ?%elem_of_nil.
    - exfalso. by apply elem_of_nil in H1. }
  assert (runs ls = 1) as E1 by lia. destruct (I1 E1) as ((q & b & Ec) & En & Ha). split; [lia|]. intros Hx.
  assert (runs [l] = 0) as Hl by lia.
  inversion Hst; subst; simpl in *; try done; try (rewrite Ec; split_and!; [by do 2 eexists|done|done]);
    try (split_and!; [by do 2 eexists|done|done]).
  - rewrite Ec in *. apply single in H3 as [-> [= -> ->]]. split_and!; [by do 2 eexists|done|done].
  - rewrite Ec in *. apply single in H2 as [-> [= -> ->]]. split_and!; [by do 2 eexists|done|done].
  - rewrite Ec in *. apply single in H2 as [-> [= -> ->]]. split_and!; [by do 2 eexists|done|done].
  - split_and!; [by do 2 eexists|done|]. intros c [Hc|Hc]%elem_of_app.
    + apply Ha in Hc. unfold save. repeat case_decide; try done. apply elem_of_app. by left.
    + destruct r as [r|]; simpl in Hc; [|by apply elem_of_nil in Hc]. apply elem_of_list_singleton in Hc as ->.
      unfold save. repeat case_decide; try done; [naive_solver|]. apply elem_of_app. right. left.
Qed.
Definition shut (s : sst) : Prop :=
  k_lock s = None /\ k_running s = false /\ (forall ch q b, k_chans s !! ch = Some (q, b) -> q = [] /\ b = true) /\
  (forall j c, k_users s !! j <> Some (UGot (Some c))) /\ (forall c, c ∈ k_handed s -> c ∈ k_closed s).
Lemma user_lookup (us : list upc) j u i u' : <[j := u]> us !! i = Some u' -> u = u' \/ us !! i = Some u'.
Proof.
  intros Hi. destruct (decide (j = i)) as [->|Hne].
  - left. assert (i < length us) as Hl. { apply lookup_lt_Some in Hi. by rewrite insert_length in Hi. }
    rewrite list_lookup_insert in Hi by done. by injection Hi.
  - right. by rewrite list_lookup_insert_ne in Hi.
Qed.
Lemma shut_step s l s' : shut s -> kstep s l s' -> l <> SRun -> shut s'.
Proof.
  intros (S1 & S2 & S3 & S4 & S5) Hst Hl. inversion Hst; subst; unfold shut; simpl in *; try done; try congruence.
  - by destruct (S3 _ _ _ H1).
  - split_and!; try done. intros j c Hj. apply lookup_app_Some in Hj as [Hj|[_ Hj]]; [by eapply S4|]. by apply single in Hj as [_ ?].
  - by destruct (S3 _ _ _ H1).
  - split_and!; try done. intros i c Hi. apply user_lookup in Hi as [|Hi]; [done|]. by eapply S4.
  - destruct r as [r|]; [by apply S4 in H0|]. split_and!; try done.
    + intros i c Hi. apply user_lookup in Hi as [|Hi]; [done|]. by eapply S4.
    + intros c. simpl. rewrite app_nil_r. apply S5.
  - split_and!; try done. intros c0 Hc0. apply elem_of_app. left. by apply S5.
Qed.
Definition closing (s : sst) : Prop :=
  (exists b, k_chans s = [([], b)] /\ (forall w, k_lock s = Some (PDrop, w) -> b = true) /\ (k_running s = false -> b = true)) /\
  k_next s = Some 0 /\ (forall j c, k_users s !! j <> Some (UGot (Some c))) /\
  (forall c, c ∈ k_handed s -> Some c ∈ k_conns s) /\
  (k_running s = false -> k_lock s = None /\ forall c, c ∈ k_handed s -> c ∈ k_closed s).
Lemma closing_step s l s' : closing s -> kstep s l s' -> stop_label l -> closing s'.
Proof.
  intros ((b & C0 & C1 & C2) & C3 & C4 & C5 & C6) Hst Hl. inversion Hst; subst; try (by destruct Hl); unfold closing; simpl in *; try done.
  - split_and!; try done; [by exists b|]. intros Hr. congruence.
  - split_and!; try done. by exists b.
  - split_and!; try done; [exists b; split_and!; try done|]. intros Hr. destruct (C6 Hr). congruence.
  - split_and!; try done; [exists b; split_and!; try done|]. intros Hr. destruct (C6 Hr). congruence.
  - split_and!; try done; [exists b; split_and!; try done|]. intros Hr. destruct (C6 Hr). congruence.
  - rewrite C0 in *. apply single in H2 as [-> [= -> ->]]. split_and!; try done; [by exists true|]. intros Hr. destruct (C6 Hr). congruence.
  - split_and!; try done. by exists b.
  - split_and!; try done.
    + exists b. split_and!; try done. intros _. by eapply C1.
    + intros _. split; [done|]. intros c Hc. apply elem_of_app. right. apply elem_of_list_omap. exists (Some c).
      split; [by apply C5|done].
  - split_and!; try done. by exists b.
Qed.
Lemma settled_closes ls s ls1 s1 ls2 s2 : krun new_sock ls s -> runs ls <= 1 -> up s -> settled s ->
  krun s ls1 s1 -> Forall stop_label ls1 -> k_running s1 = false -> krun s1 ls2 s2 -> SRun ∉ ls2 ->
  forall c, c ∈ k_handed s2 -> c ∈ k_closed s2.
Proof.
  intros H Hr (U1 & U2 & U3) (Z1 & Z2 & Z3 & Z4) H1 F1 Hd H2 N2.
  assert (closing s1) as C.
  { destruct (saved _ _ H Hr) as [S0 S1]. destruct (decide (runs ls = 0)) as [E|E].
    { specialize (S0 E). rewrite S0 in U3. done. }
    destruct (S1 ltac:(lia)) as ((q & b & Ec) & En & Ha). clear Hd H2.
    induction H1 as [|ls1 s1 l s2' H1 IH Hst].
    - split_and!; try done; [|congruence]. exists b. split_and!; [|congruence|congruence].
      rewrite Ec. do 2 f_equal. by apply (Z1 0 q b); rewrite Ec.
    - apply Forall_app in F1 as [F1 F2]. apply Forall_inv in F2. eapply closing_step; [by apply IH|done|done]. }
  assert (shut s1) as Sh.
  { destruct C as ((b & C0 & C1 & C2) & C3 & C4 & C5 & C6). destruct (C6 Hd) as [Hl Hc].
    split_and!; try done. intros ch q b' Hx. rewrite C0 in Hx. apply single in Hx as [_ [= <- <-]]. split; [done|by apply C2]. }
  assert (shut s2) as (_ & _ & _ & _ & G); [|done].
  induction H2 as [|ls2 s3 l s4 H2 IH Hst]; [done|]. rewrite not_elem_of_app, not_elem_of_cons in N2.
  destruct N2 as [N2 [N3 _]]. eapply shut_step; [by apply IH|done|congruence].
Qed.

(** ** Run after Stop *)
Lemma restart_stops s i l ch q : server = true -> up s -> k_next s = Some ch -> k_chans s !! ch = Some (q, false) -> None ∉ k_conns s ->
  k_gos s !! i = Some (GWait l) ->
  exists ls1 ls2 s', Forall stop_label ls1 /\ SStop ∉ ls2 /\ SRun ∉ ls2 /\
    krun s (ls1 ++ SRun :: ls2) s' /\ k_running s' = false /\ k_crash s' = None /\ last (k_gos s') = Some GListen.
Proof.
  intros Hsv Hu Hn Hq Hnil Hg. destruct (stop_run s ch q Hu Hn Hq Hnil) as (ls1 & F1 & R1).
  set (s1 := stopped s ch q) in *.
  set (s2 := set_running true (set_conns [] (set_next (Some (length (k_chans s1))) (set_chans (k_chans s1 ++ [([], false)])
         (set_gos (k_gos s1 ++ [if server then GListen else GDial 0]) s1))))).
  assert (kstep s1 SRun s2) as T2 by (by apply sk_run).
  assert (i < length (k_gos s)) as Hi by (by eapply lookup_lt_Some).
  set (s3 := go i GStop s2).
  assert (kstep s2 SAcceptErr s3) as T3.
  { eapply (sk_accept_err _ _ _ s2 i l); [done|]. simpl. by apply lookup_app_l_Some. }
  set (s4 := set_lock (Some (PSock, Some i)) s3).
  assert (kstep s3 SGo s4) as T4.
  { apply (sk_go_stop _ _ _ s3 i); [done| |done|done]. simpl. apply list_lookup_insert. rewrite app_length. simpl. lia. }
  destruct (inner_run s4 (Some i) (length (k_chans s1)) []) as (ls2 & F2 & R2); [done|done|done|done| |].
  { simpl. by apply list_lookup_middle. }
  exists ls1, (SAcceptErr :: SGo :: ls2 ++ [SInner]). eexists.
  assert (forall l0, l0 ∈ ls2 -> l0 = SInner) as Hls2. { intros l0 Hin. rewrite Forall_forall in F2. by apply F2. }
  split_and!; [done| | | | | |].
  - rewrite !not_elem_of_cons, not_elem_of_app, elem_of_list_singleton. split_and!; try done. by intros ?%Hls2.
  - rewrite !not_elem_of_cons, not_elem_of_app, elem_of_list_singleton. split_and!; try done. by intros ?%Hls2.
  - eapply krun_app; [exact R1|]. eapply krun_cons; [exact T2|]. eapply krun_cons; [exact T3|]. eapply krun_cons; [exact T4|].
    eapply krun_app; [exact R2|]. apply krun_one. apply (sk_drop _ _ _ (halfway s4 (Some i) _ []) (Some i)); [done|done|].
    simpl. apply not_elem_of_nil.
  - done.
  - done.
  - simpl. rewrite !insert_app_l by (rewrite ?insert_length; done). rewrite last_snoc. by rewrite Hsv.
Qed.
Definition restarted (s : sst) (g0 : nat) : Prop :=
  k_crash s = None /\ k_lock s = None /\ k_running s = true /\
  (exists ch q, k_next s = Some ch /\ k_chans s !! ch = Some (q, false)) /\
  (forall i g, k_gos s !! i = Some g -> i <> g0 -> g = GDone) /\
  exists g, k_gos s !! g0 = Some g /\ g <> GStop /\ (forall ch c, g = GSend ch c -> k_next s = Some ch) /\
    (forall n, g = GDial n -> n = 0) /\
    (server = true -> g = GListen \/ (exists l, g = GStore l) \/ k_listener s <> None) /\
    match g with GDial _ => server = false | GListen | GStore _ | GAccept | GWait _ => server = true | _ => True end.
Lemma gos_other (gs : list gpc) g0 g' i g : (forall i g, gs !! i = Some g -> i <> g0 -> g = GDone) ->
  <[g0 := g']> gs !! i = Some g -> i <> g0 -> g = GDone.
Proof. intros H Hi Hne. rewrite list_lookup_insert_ne in Hi by done. by eapply H. Qed.
Lemma restarted_step s l s' g0 : (server = false -> (0 < maxretry)%Z) -> restarted s g0 -> kstep s l s' ->
  l <> SStop -> l <> SAcceptErr -> l <> SDial false -> restarted s' g0.
Proof.
  intros Hm (A1 & A2 & A3 & A4 & A5 & g & B0 & B1 & B2 & B3 & B4 & B5) Hst L1 L2 L3.
  assert (g0 < length (k_gos s)) as Hlt by (by eapply lookup_lt_Some).
  assert (forall i g', k_gos s !! i = Some g' -> g' <> GDone -> i = g0 /\ g' = g) as Hone.
  { intros i g' Hi Hne. destruct (decide (i = g0)) as [->|Hn]; [split; [done|congruence]|]. exfalso. apply Hne. by eapply A5. }
  destruct A4 as (nx & q & N1 & N2).
  inversion Hst; subst; simpl in *; try done; try congruence;
    try match goal with Hg : k_gos s !! ?i = Some ?x |- _ => destruct (Hone _ _ Hg ltac:(done)) as [-> <-] end; try done;
    unfold restarted, go, user; simpl.
  all: try (split_and!; try done; [by exists nx, q|by exists g]).
  all: try (split_and!; try done; [by exists nx, q|intros i0 g1; by apply gos_other|]; eexists; (split; [by apply list_lookup_insert|]);
    split_and!; try done; try (by intros ? ? [=]); try (intros Hsv; destruct (B4 Hsv) as [?|[[? ?]|?]]; try done; right; right; done); done).
  - split_and!; try done; [by exists nx, q|intros i0 g1; by apply gos_other|]. eexists. split; [by apply list_lookup_insert|].
    split_and!; try done. intros _. right. left. by eexists.
  - exfalso. by destruct (B4 B5) as [?|[[? ?]|?]].
  - split_and!; try done; [by exists nx, q|intros i0 g1; by apply gos_other|]. eexists. split; [by apply list_lookup_insert|].
    split_and!; try done; [intros ? ? [= <- <-]; done|]. intros Hsv. destruct (B4 Hsv) as [?|[[? ?]|?]]; try done. by right; right.
  - split_and!; try done; [|intros i0 g1; by apply gos_other|].
    + rewrite (B2 ch c eq_refl). exists ch. eexists. split; [done|]. apply list_lookup_insert. by eapply lookup_lt_Some.
    + eexists. split; [by apply list_lookup_insert|].
      destruct (Bool.bool_dec server true) as [E|E%not_true_is_false]; rewrite E in B4 |- *; split_and!; try done.
      intros _. destruct (B4 eq_refl) as [?|[[? ?]|?]]; try done. by right; right.
  - exfalso. rewrite (B2 ch c eq_refl) in N1. injection N1 as <-. congruence.
  - exfalso. specialize (Hm B5). rewrite (B3 n eq_refl) in *. simpl in *. lia.
  - split_and!; try done; [|by exists g]. destruct (decide (ch = nx)) as [->|Hne].
    + exists nx, q0. split; [done|]. rewrite list_lookup_insert by (by eapply lookup_lt_Some). congruence.
    + exists nx, q. split; [done|]. by rewrite list_lookup_insert_ne.
Qed.
Lemma restart_runs s ls s' : (server = false -> (0 < maxretry)%Z) ->
  k_crash s = None -> k_lock s = None -> k_running s = false -> (forall i g, k_gos s !! i = Some g -> g = GDone) ->
  krun s (SRun :: ls) s' -> SStop ∉ ls -> SAcceptErr ∉ ls -> SDial false ∉ ls ->
  k_running s' = true /\ k_crash s' = None.
Proof.
  intros Hm Hc Hl Hr Hg H N1 N2 N3.
  assert (forall ls0 s'', krun s ls0 s'' -> forall ls', ls0 = SRun :: ls' -> SStop ∉ ls' -> SAcceptErr ∉ ls' -> SDial false ∉ ls' ->
    restarted s'' (length (k_gos s))) as G.
  { clear ls s' H N1 N2 N3. induction 1 as [|ls0 s1 l s2 H IH Hst]; [done|]. intros ls' E N1 N2 N3.
    destruct ls0 as [|l0 ls0].
    - injection E as -> <-. inversion H; [|by destruct ls]. subst.
      inversion Hst; subst; [|congruence]. unfold restarted. simpl. split_and!; try done.
      + do 2 eexists. split; [done|]. by apply list_lookup_middle.
      + intros i g Hi Hne. apply lookup_app_Some in Hi as [Hi|[Hi1 Hi2]]; [by eapply Hg|].
        apply single in Hi2 as [Hi2 _]. lia.
      + eexists. split; [by apply list_lookup_middle|].
        destruct (Bool.bool_dec server true) as [Es|Es%not_true_is_false]; rewrite Es; split_and!; try done; try (by intros ? [=]); by left.
    - injection E as -> <-. rewrite not_elem_of_app, elem_of_list_singleton in N1, N2, N3.
      destruct N1, N2, N3. eapply restarted_step; [done|by eapply IH|done|congruence..]. }
  destruct (G _ _ H ls eq_refl N1 N2 N3) as (A1 & A2 & A3 & _). done.
Qed.

(** ** Counting *)
Fixpoint sumw {A} (w : A -> nat) (l : list A) : nat := match l with [] => 0 | x :: l' => w x + sumw w l' end.
Lemma sumw_app {A} (w : A -> nat) l1 l2 : sumw w (l1 ++ l2) = sumw w l1 + sumw w l2.
Proof. induction l1; simpl; lia. Qed.
Lemma sumw_insert {A} (w : A -> nat) l i x y : l !! i = Some x -> sumw w (<[i := y]> l) + w x = sumw w l + w y.
Proof.
  revert i. induction l as [|z l IH]; intros [|i] H; simpl in *; try done.
  - injection H as ->. lia.
  - specialize (IH _ H). lia.
Qed.
Lemma sumw_finish (w : gpc -> nat) o gs : w GDone = 0 -> sumw w (finish o gs) <= sumw w gs.
Proof.
  intros H. destruct o as [i|]; simpl; [|done]. destruct (gs !! i) as [g|] eqn:E.
  - pose proof (sumw_insert w gs i g GDone E). lia.
  - rewrite list_insert_ge; [done|]. by apply lookup_ge_None.
Qed.
Lemma finish_length o gs : length (finish o gs) = length gs.
Proof. destruct o; [apply insert_length|done]. Qed.
Definition left_dials (g : gpc) : nat := match g with GDial n => Z.to_nat maxretry - n | _ => 0 end.
Definition dialling (g : gpc) : nat := match g with GDial _ => 1 | _ => 0 end.
Ltac sw w := repeat match goal with Hg : k_gos ?s !! ?i = Some ?g |- context [sumw w (<[?i := ?y]> (k_gos ?s))] =>
  generalize (sumw_insert w (k_gos s) i g y Hg); simpl; generalize (sumw w (<[i := y]> (k_gos s))); intros end.
Lemma dial_bound ls s : krun new_sock ls s ->
  length (k_gos s) <= runs ls /\ dials ls + sumw left_dials (k_gos s) <= length (k_gos s) * Z.to_nat maxretry.
Proof.
  induction 1 as [|ls s1 l s2 H [I1 I2] Hst]; [done|]. rewrite runs_app, dials_app.
  assert (runs [l] = match l with SRun => 1 | _ => 0 end /\ dials [l] = match l with SDial _ => 1 | _ => 0 end) as [-> ->] by (by destruct l).
  inversion Hst; subst; unfold go, user; simpl; rewrite ?insert_length, ?finish_length; try (split; lia).
  all: try (split; [lia|]; sw left_dials; lia).
  - rewrite app_length, sumw_app. simpl. split; [lia|].
    destruct (Bool.bool_dec server true) as [E|E%not_true_is_false]; rewrite E; simpl; lia.
  - split; [lia|]. pose proof (sumw_finish left_dials w (k_gos s1) eq_refl). lia.
  - split; [lia|]. assert (left_dials (if server then GAccept else GDone) = 0) as E by (by destruct server). sw left_dials. lia.
Qed.
Lemma dials_at_most ls s : krun new_sock ls s -> dials ls <= runs ls * Z.to_nat maxretry.
Proof. intros H. destruct (dial_bound _ _ H) as [H1 H2]. nia. Qed.
Lemma made_bound ls s : server = false -> krun new_sock ls s ->
  (forall i g, k_gos s !! i = Some g -> match g with GListen | GStore _ | GAccept | GWait _ => False | _ => True end) /\
  k_made s + sumw dialling (k_gos s) <= length (k_gos s).
Proof.
  intros Hsv. induction 1 as [|ls s1 l s2 H [I1 I2] Hst]; [done|]. revert Hsv.
  inversion Hst; subst; unfold go, user; simpl; intros Hsv; rewrite ?insert_length, ?finish_length; try done;
    try match goal with Hg : k_gos s1 !! _ = Some _ |- _ => pose proof (I1 _ _ Hg) as Hk; simpl in Hk end; try done.
  all: try (split; [intros i0 g0 Hi; destruct (decide (i0 = i)) as [->|Hne];
      [rewrite list_lookup_insert in Hi by (by eapply lookup_lt_Some); injection Hi as <-; done|];
      rewrite list_lookup_insert_ne in Hi by done; by eapply I1|]; sw dialling; lia).
  - split.
    + intros i g Hi. apply lookup_app_Some in Hi as [Hi|[_ Hi]]; [by eapply I1|]. apply single in Hi as [_ <-]. by rewrite Hsv.
    + rewrite app_length, sumw_app, Hsv. simpl. lia.
  - split.
    + intros i g Hi. destruct w as [j|]; simpl in Hi; [|by eapply I1]. destruct (decide (i = j)) as [->|Hne].
      * assert (j < length (k_gos s1)). { apply lookup_lt_Some in Hi. by rewrite insert_length in Hi. }
        rewrite list_lookup_insert in Hi by done. by injection Hi as <-.
      * rewrite list_lookup_insert_ne in Hi by done. by eapply I1.
    + pose proof (sumw_finish dialling w (k_gos s1) eq_refl). lia.
  - rewrite Hsv. split; [intros i0 g0 Hi; destruct (decide (i0 = i)) as [->|Hne];
      [rewrite list_lookup_insert in Hi by (by eapply lookup_lt_Some); injection Hi as <-; done|];
      rewrite list_lookup_insert_ne in Hi by done; by eapply I1|]. sw dialling. lia.
Qed.
Lemma made_at_most ls s : server = false -> krun new_sock ls s -> k_made s <= runs ls.
Proof. intros Hsv H. destruct (made_bound _ _ Hsv H) as [_ H2]. destruct (dial_bound _ _ H) as [H1 _]. lia. Qed.

(** ** One Run of a client, any number of Stops *)
Definition client (ls : list slab) (s : sst) (g : gpc) : Prop :=
  match g with
  | GDial n => dials ls = n /\ n <= maxn /\ k_made s = 0
  | GHave _ | GSend _ _ => k_made s = 1 /\ 1 <= dials ls <= maxn
  | GStop => k_made s = 0 /\ dials ls = maxn
  | GDone => (k_made s = 1 /\ 1 <= dials ls <= maxn) \/ (k_made s = 0 /\ dials ls = maxn /\ k_running s = false)
  | _ => False
  end.
Lemma client_run ls s : server = false -> krun new_sock ls s -> runs ls <= 1 ->
  (runs ls = 0 -> idle s /\ dials ls = 0) /\
  (runs ls = 1 -> exists g, k_gos s = [g] /\ client ls s g /\ forall p i, k_lock s = Some (p, Some i) -> g = GStop /\ i = 0).
Proof.
  intros Hsv. induction 1 as [|ls s1 l s2 H IH Hst]; [done|]. rewrite runs_app. intros Hr.
  destruct IH as [I0 I1]; [lia|]. revert Hsv. unfold client. rewrite dials_app. destruct (decide (runs ls = 0)) as [E0|E0].
  { destruct (I0 E0) as [Hi Hd]. rewrite E0, Hd in *. rewrite Hi in *. clear I1. inversion Hst; subst; simpl in *; try done; intros Hsv.
    - split; [done|]. intros _. eexists. split; [done|]. rewrite Hsv. split; [|done]. split_and!; [done|lia|done].
    - exfalso. by apply elem_of_nil in H1. }
  assert (runs ls = 1) as E1 by lia. destruct (I1 E1) as (g & Eg & Hg & Hl). clear I0 I1.
  assert (runs [l] = 0 -> l <> SRun) as Hnr by (by intros ? ->). 
  assert (dials [l] = match l with SDial _ => 1 | _ => 0 end) as Hdl by (by destruct l). rewrite Hdl. clear Hdl.
  inversion Hst; subst; unfold go, user; simpl in *; intros Hsv; (split; [lia|]); intros Hx; try (exfalso; apply Hnr; [lia|done]);
    rewrite ?Nat.add_0_r; try (by exists g).
  all: rewrite Eg in *; try match goal with Hgo : [_] !! ?i = Some _ |- _ => apply single in Hgo as [-> ->] end; simpl in Hg; try done.
  - exists GStop. split_and!; try done; try apply Hg. by intros p i [= _ <-].
  - exists GDone. split_and!; try done. { right. destruct Hg. done. } intros p i Hp. congruence.
  - exists g. split_and!; try done. intros p i [= _ ->]. by eapply Hl.
  - exists g. split_and!; try done. intros p i [= _ ->]. by eapply Hl.
  - exists g. split_and!; try done. intros p i [= _ ->]. by eapply Hl.
  - exists g. split_and!; try done. intros p i [= _ ->]. by eapply Hl.
  - destruct w as [i|].
    + destruct (Hl _ _ H1) as [-> ->]. simpl in *. exists GDone. split_and!; try done. right. by destruct Hg.
    + simpl. exists g. split_and!; try done. destruct g; try done. destruct Hg as [|(? & ? & ?)]; [by left|by right].
  - exists (GSend ch c). split_and!; try apply Hg; [done|]. intros p i Hp. by destruct (Hl _ _ Hp).
  - rewrite Hsv. exists GDone. split_and!; try done; [by left|]. intros p i Hp. by destruct (Hl _ _ Hp).
  - eexists. split; [done|]. destruct Hg as (-> & Hn & ->). split; [split; [done|unfold maxn in *; lia]|].
    intros p i Hp. by destruct (Hl _ _ Hp).
  - eexists. split; [done|]. destruct Hg as (-> & Hn & ->). split; [split_and!; [lia|unfold maxn in *; lia|done]|].
    intros p i Hp. by destruct (Hl _ _ Hp).
  - eexists. split; [done|]. destruct Hg as (Hd & Hn & ->). split; [split; [done|unfold maxn in *; lia]|].
    intros p i Hp. by destruct (Hl _ _ Hp).
Qed.
Lemma client_outcome ls s : server = false -> krun new_sock ls s -> runs ls <= 1 -> k_gos s = [GDone] ->
  (k_made s = 1 /\ 1 <= dials ls <= Z.to_nat maxretry) \/
  (k_made s = 0 /\ dials ls = Z.to_nat maxretry /\ k_running s = false).
Proof.
  intros Hsv H Hr Hg. destruct (client_run _ _ Hsv H Hr) as [C0 C1]. destruct (decide (runs ls = 0)) as [E|E].
  - destruct (C0 E) as [Hi _]. by rewrite Hi in Hg.
  - destruct (C1 ltac:(lia)) as (g & Eg & Hc & _). rewrite Hg in Eg. injection Eg as <-. done.
Qed.
(** ** Nothing is handed out twice *)
Definition eqn (c d : nat) : nat := if decide (c = d) then 1 else 0.
Definition cnt (c : nat) (l : list nat) : nat := sumw (eqn c) l.
Definition in_chan (c : nat) (x : list nat * bool) : nat := cnt c x.1.
Definition in_go (c : nat) (g : gpc) : nat := match g with GHave d | GSend _ d => eqn c d | _ => 0 end.
Definition in_user (c : nat) (u : upc) : nat := match u with UGot (Some d) => eqn c d | _ => 0 end.
Definition total (c : nat) (s : sst) : nat :=
  cnt c (k_handed s) + sumw (in_chan c) (k_chans s) + sumw (in_go c) (k_gos s) + sumw (in_user c) (k_users s).
Lemma cnt_one l : (forall c, cnt c l <= 1) -> NoDup l.
Proof.
  induction l as [|x l IH]; intros H; [constructor|]. constructor.
  - intros Hin. specialize (H x). unfold cnt in H. simpl in H. unfold eqn in H at 1. rewrite decide_True in H by done.
    assert (1 <= sumw (eqn x) l); [|lia]. clear H IH. induction Hin as [x l|x y l Hin IH]; simpl; unfold eqn at 1; [rewrite decide_True by done|]; lia.
  - apply IH. intros c. specialize (H c). unfold cnt in *. simpl in H. lia.
Qed.
Lemma cnt_in c l : c ∈ l -> 1 <= cnt c l.
Proof. unfold cnt. induction 1 as [c l|c y l Hin IH]; simpl; unfold eqn at 1; [rewrite decide_True by done|]; lia. Qed.
Ltac sx w l := repeat match goal with Hg : l !! ?i = Some ?g |- context [sumw w (<[?i := ?y]> l)] =>
  generalize (sumw_insert w l i g y Hg); simpl; generalize (sumw w (<[i := y]> l)); intros end.
Lemma total_step c s l s' : kstep s l s' ->
  total c s' <= total c s + (k_made s' - k_made s) * eqn c (k_made s) /\ k_made s <= k_made s' <= S (k_made s).
Proof.
  intros Hst. inversion Hst; subst; unfold total, go, user; simpl; try lia.
  all: try (split; [|lia]; sx (in_go c) (k_gos s); sx (in_user c) (k_users s); sx (in_chan c) (k_chans s); unfold in_chan in *; simpl in *; lia).
  - rewrite !sumw_app. simpl. change (in_chan c ([], false)) with 0. assert (in_go c (if server then GListen else GDial 0) = 0) as -> by (by destruct server). lia.
  - pose proof (sumw_finish (in_go c) w (k_gos s) eq_refl). lia.
  - assert (in_go c (if server then GAccept else GDone) = 0) as E by (by destruct server).
    split; [|lia]. sx (in_go c) (k_gos s). sx (in_chan c) (k_chans s). unfold in_chan in *; simpl in *. unfold cnt in *. rewrite sumw_app in *. simpl in *. lia.
  - rewrite sumw_app. simpl. lia.
  - split; [|lia]. pose proof (sumw_insert (in_chan c) _ _ _ (q, b) H1) as E1. pose proof (sumw_insert (in_user c) _ _ _ (UGot (Some c0)) H0) as E2.
    unfold in_chan, cnt in *. simpl in *. lia.
  - unfold cnt at 1. rewrite sumw_app. fold (cnt c (k_handed s)). split; [|lia]. sx (in_user c) (k_users s). destruct r; simpl in *; lia.
Qed.
Lemma total_run ls s : krun new_sock ls s -> forall c, total c s <= if decide (c < k_made s) then 1 else 0.
Proof.
  induction 1 as [|ls s1 l s2 H IH Hst]; intros c; [unfold total; simpl; lia|].
  specialize (IH c). destruct (total_step c _ _ _ Hst) as [T1 T2]. unfold eqn in T1. repeat case_decide; lia || nia.
Qed.
Lemma handed_at_most ls s : server = false -> krun new_sock ls s -> length (k_handed s) <= runs ls.
Proof.
  intros Hsv H. etrans; [|by eapply made_at_most]. pose proof (total_run _ _ H) as T. unfold total in T.
  rewrite <-(seq_length (k_made s) 0). apply submseteq_length. apply NoDup_submseteq.
  - apply cnt_one. intros c. specialize (T c). case_decide; lia.
  - intros c Hc%cnt_in. specialize (T c). apply elem_of_seq. case_decide; lia.
Qed.
Lemma handed_once ls s : krun new_sock ls s -> NoDup (k_handed s) /\ forall c, c ∈ k_handed s -> c < k_made s.
Proof.
  intros H. pose proof (total_run _ _ H) as T. unfold total in T. split.
  - apply cnt_one. intros c. specialize (T c). case_decide; lia.
  - intros c Hc%cnt_in. specialize (T c). case_decide; lia.
Qed.
End transport.

(** ** After a crash *)
Lemma crash_ends uds server maxretry s ls s' : k_crash s <> None -> krun uds server maxretry s ls s' -> ls = [] /\ s' = s.
Proof. intros Hc H. induction H as [|ls s1 l s2 H [-> ->] Hst]; [done|]. exfalso. destruct Hst; done. Qed.
