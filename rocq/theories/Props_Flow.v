(** * Asking ahead of the answers (C78), asking each other (C79) *)
From Verif Require Import FlowSpec FlowFacts.
From Coq Require Import Lia.

(** C78.  A user in one goroutine who is never further ahead of the answers than
    there are places between the endpoints (2053 and those of the connection):
    every execution ends, after at most 12 steps per question, and it ends with
    the program finished; the answers come in the order of the questions. *)
Theorem C78_ahead_partial k1 k2 p tr s :
  1 <= k1 -> 1 <= k2 -> takes_answers p -> at_most_ahead (2053 + k1 + k2) p ->
  cruns k1 k2 (new_ask k1 k2 [p]) tr s ->
  length tr <= 12 * length (asked p) /\
  (cstuck k1 k2 s -> cdone s) /\
  c_got s = Answer <$> take (length (c_got s)) (asked p) /\
  (cdone s -> length (c_got s) = takes p).
Proof.
  intros H1 H2 Ht Hm H. rewrite <- places_eq in Hm. destruct (ask_got k1 k2 H1 H2 p tr s H) as [G1 G2].
  split_and!; [exact (ask_bounded k1 k2 H1 H2 p tr s H)|exact (ask_done k1 k2 H1 H2 p tr s Ht Hm H)|done|done].
Qed.

(** One who is further ahead at any point: every execution ends all the same,
    and in none of them the program is finished. *)
Theorem C78_too_far_ahead_refuted k1 k2 p tr s :
  1 <= k1 -> 1 <= k2 -> ~ at_most_ahead (2053 + k1 + k2) p ->
  cruns k1 k2 (new_ask k1 k2 [p]) tr s ->
  length tr <= 12 * length (asked p) /\ ~ cdone s.
Proof.
  intros H1 H2 Hm H. rewrite <- places_eq in Hm.
  split; [exact (ask_bounded k1 k2 H1 H2 p tr s H)|exact (ask_blocked k1 k2 H1 H2 p tr s Hm H)].
Qed.

(** One who takes the answers in a goroutine of its own may ask as much as it
    wants. *)
Theorem C78_own_goroutine_partial k1 k2 ms tr s :
  1 <= k1 -> 1 <= k2 ->
  cruns k1 k2 (new_ask k1 k2 [UAsk <$> ms; replicate (length ms) UTake]) tr s ->
  length tr <= 12 * length ms /\
  c_got s = Answer <$> take (length (c_got s)) ms /\
  (cstuck k1 k2 s -> cdone s /\ c_got s = Answer <$> ms).
Proof. intros H1 H2 H. exact (two_goroutines k1 k2 H1 H2 ms tr s H). Qed.

(** C79.  Two users whose listeners answer each other's questions: if one of
    them asks nothing, or both together ask fewer questions than there are
    places (2054 and those of the connection), every execution ends with all of
    them answered, in order. *)
Theorem C79_few_questions_partial k n tr s :
  (forall b, 1 <= k b) ->
  n true = [] \/ n false = [] \/ length (n true) + length (n false) < 2054 + k true + k false ->
  gruns k (new_peers k n) tr s ->
  length tr <= 13 * (length (n true) + length (n false)) /\
  (forall b, exists rest, n b = g_got s b ++ rest) /\
  (gstuck k s -> gdone n s).
Proof.
  intros Hk Hn H. rewrite <- gplaces_eq in Hn.
  split_and!; [exact (peers_bounded k n tr s H)|intros b; exact (peers_got k n tr s b H)|
               exact (peers_done k Hk n tr s Hn H)].
Qed.

(** In all other cases there is an execution after which nothing happens any
    more, for good, with questions unanswered. *)
Theorem C79_all_blocked_refuted k n :
  (forall b, 1 <= k b) ->
  n true <> [] -> n false <> [] -> 2054 + k true + k false <= length (n true) + length (n false) ->
  exists tr s, gruns k (new_peers k n) tr s /\ gstuck k s /\ ~ gdone n s.
Proof. intros Hk Ht Hf Hl. rewrite <- gplaces_eq in Hl. exact (peers_blocked k Hk n Ht Hf Hl). Qed.

(** ** Examples *)
Lemma cruns_cons k1 k2 s l s1 tr s2 : cstep k1 k2 s l s1 -> cruns k1 k2 s1 tr s2 -> cruns k1 k2 s (l :: tr) s2.
Proof.
  intros H1 H2. induction H2 as [|tr s' l' s'' _ IH Hs].
  - apply (cr_snoc k1 k2 s [] s l s1); [constructor|done].
  - change (l :: tr ++ [l']) with ((l :: tr) ++ [l']). eapply cr_snoc; [exact IH|exact Hs].
Qed.
Ltac go_put := eexists _, _; split_and!; [reflexivity|reflexivity|cbn [length]; lia|reflexivity].
Ltac go_move := eapply lm_move; [reflexivity|reflexivity|reflexivity|cbn [length]; lia].
Ltac go_take := eexists _; split; [reflexivity|reflexivity].

(** Three questions before the first answer is taken. *)
Definition ex_prog : list uop := [UAsk 1; UAsk 2; UAsk 3; UTake; UAsk 4; UTake; UTake; UTake].
Example C78_example : takes_answers ex_prog /\ at_most_ahead (2053 + 1 + 1) ex_prog.
Proof.
  split; intros p1 p2 E; repeat (destruct p1 as [|? p1]; [vm_compute; congruence|cbn in E; injection E as <- E]);
    (destruct p1 as [|? p1]; [vm_compute; congruence|done]).
Qed.
(** One question and its way through all places. *)
Example C78_example_run :
  exists s, cruns 1 1 (new_ask 1 1 [[UAsk 7; UTake]])
              [CAsk 0; CReq 0; CReq 1; CReq 2; CReq 3; CReq 4; CListen; CAns 0; CAns 1; CAns 2; CAns 3; CTake 0] s /\
            cdone s /\ c_got s = [Answer 7].
Proof.
  eexists. split; [|].
  - unfold new_ask, nothing, caps_listener, caps_channel. cbn [fmap list_fmap].
    eapply cruns_cons; [eapply ck_ask; [reflexivity|go_put]|cbn].
    do 5 (eapply cruns_cons; [eapply ck_req; go_move|cbn]).
    eapply cruns_cons; [eapply ck_listen; [go_take|go_put]|cbn].
    do 4 (eapply cruns_cons; [eapply ck_ans; go_move|cbn]).
    eapply cruns_cons; [eapply ck_take; [reflexivity|go_take]|cbn].
    constructor.
  - split; [repeat constructor|reflexivity].
Qed.
(** Too far ahead: all the questions first. *)
Example C78_example_far : ~ at_most_ahead (2053 + 1 + 1) ((UAsk <$> seq 0 2100) ++ replicate 2100 UTake).
Proof.
  intros H. pose proof (H _ _ eq_refl) as F. revert F. unfold ahead.
  rewrite asked_all, takes_asks, seq_length. lia.
Qed.
(** Peers: few questions, and enough to block. *)
Definition ex_k : bool -> nat := fun _ => 1.
Definition ex_few : bool -> list nat := fun b => if b then [1; 2] else [3].
Definition ex_many : bool -> list nat := fun b => if b then [1] else seq 0 2060.
Example C79_example :
  (forall b, 1 <= ex_k b) /\ length (ex_few true) + length (ex_few false) < 2054 + ex_k true + ex_k false /\
  exists tr s, gruns ex_k (new_peers ex_k ex_few) tr s /\ length tr = 2.
Proof.
  split_and!; [intros b; unfold ex_k; lia|unfold ex_few, ex_k; cbn [length]; lia|].
  eexists [GAsk true; GMove true 0], _. split; [|done].
  eapply (gr_snoc _ _ [GAsk true]); [eapply (gr_snoc _ _ []); [constructor|]|].
  - eapply gk_ask; [reflexivity|]. eexists _, _. split_and!; [reflexivity|reflexivity|cbn [length]; lia|reflexivity].
  - apply gk_move. eapply lm_move; [reflexivity|reflexivity|reflexivity|cbn [length]; lia].
Qed.
Example C79_example_many :
  ex_many true <> [] /\ ex_many false <> [] /\
  2054 + ex_k true + ex_k false <= length (ex_many true) + length (ex_many false).
Proof. split_and!; [done|done|]. unfold ex_many. rewrite seq_length. cbn [length]. unfold ex_k. lia. Qed.

Print Assumptions C78_ahead_partial.
Print Assumptions C78_too_far_ahead_refuted.
Print Assumptions C78_own_goroutine_partial.
Print Assumptions C79_few_questions_partial.
Print Assumptions C79_all_blocked_refuted.
