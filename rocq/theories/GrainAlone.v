(** * More proofs about goroutines inside the processors: one of them alone *)
From Verif Require Import GoBase UBufModel FrameModel StackModel StackSpec StackProofs NetModel NetSpec SwapModel SwapSpec GrainModel GrainSpec.

Lemma grun_app N ok s ls s1 ms s2 : grun N ok s ls s1 -> grun N ok s1 ms s2 -> grun N ok s (ls ++ ms) s2.
Proof. intros H1 H2. induction H2 as [|ms s2 l s3 _ IH Hok Hs]; [by rewrite app_nil_r|]. rewrite app_assoc. by eapply gr_snoc. Qed.
Lemma grun_cons N (ok : gst -> glab -> Prop) s l s1 ls s2 : ok s l -> gstep N s l s1 -> grun N ok s1 ls s2 -> grun N ok s (l :: ls) s2.
Proof. intros H1 H2 H3. apply (grun_app N ok s [l] s1 ls s2); [|done]. apply (gr_snoc N ok s [] s l s1); [constructor|done|done]. Qed.
Lemma grun_first N ok s l ls s2 : grun N ok s (l :: ls) s2 -> exists s1, ok s l /\ gstep N s l s1 /\ grun N ok s1 ls s2.
Proof.
  remember (l :: ls) as ms eqn:E. intros H. revert l ls E. induction H as [|ms s1 l' s2 H IH Hok Hs]; intros l ls E; [done|].
  destruct ms as [|m ms]; simpl in E; injection E as -> <-.
  - inversion H; subst; [|by destruct ls]. exists s2. split; [done|]. split; [done|constructor].
  - destruct (IH _ _ eq_refl) as (s0 & H1 & H2 & H3). exists s0. split; [done|]. split; [done|]. by eapply gr_snoc.
Qed.

(** A processor's OnUpperData itself shows nothing outside. *)
Lemma inc_tx_out s i : s_out (inc_tx s i) = s_out s.
Proof. unfold inc_tx, set_ps. by destruct (s_ps s !! i) as [[]|]. Qed.
Lemma on_upper_quiet E i en k x s x' s' (D := fun x s => Some (Done x s)) :
  on_upper E i en D D D k x s = Some (Done x' s') -> s_out s' = s_out s.
Proof.
  unfold on_upper, codec_write, by_reference, with_buf, head_ignore, D. intros H.
  destruct k; simpl in H; repeat first
    [ match type of H with Some (Done _ _) = _ => injection H as <- <-; rewrite ?inc_tx_out; reflexivity end
    | discriminate H
    | match type of H with context [match ?c with _ => _ end] => destruct c eqn:? end ].
Qed.
Lemma calls_quiet E i x s x' s' : calls_lower E i x s x' s' -> s_out s' = s_out s.
Proof. intros (p & _ & H). apply (on_upper_quiet E i (p_enable p) (p_kind p) x (visit s i Down x) x' s'). apply H. Qed.
Lemma back_quiet E i x s x' s' : comes_back E i x s x' s' -> s_out s' = s_out s.
Proof. intros (p & _ & H). apply (on_upper_quiet E i (p_enable p) (p_kind p) x (visit s i Down x) x' s'). apply H. Qed.

(** ** One goroutine alone *)
Lemma alone_from N n s e l s' p cx : ends_with e l -> g_at s e = Some (p, cx) -> grun N any_step s (replicate n (GHop e) ++ [l]) s' ->
  let t := g_net s in
  exists (f0 : nat) (x' : ctx) (outs : list out), (forall f : nat, f0 <= f -> exec f (na (now N (g_on s))) Down (Some p) cx (n_a (g_net s)) = Some (Done x' (n_a (g_net s')))) /\ s_out (n_a (g_net s')) = s_out (n_a (g_net s)) ++ outs /\ g_on s' = g_on s /\ g_net s' = Nst (n_tx t) (<[e := None]> (n_hand t)) (n_a (g_net s')) (n_wire t ++ concat (written (nca N) outs)) (n_b t) (n_up t) (n_rx t) (n_seen t)
      (n_writes t ++ written (nca N) outs) (n_got t).
Proof.
  intros Hl. revert s p cx. induction n as [|n IH]; intros s p cx Hat H; simpl in H; apply grun_first in H as (s1 & _ & Hs & H).
  - inversion H as [|ms ? ? ? _ _ _ E]; subst; [|by destruct ms]. destruct Hl as [-> | ->].
    + inversion Hs as [| | | |tx hd a w b up rx sn ws g at_ on e0 x x' a' outs Hat' Hlow Ho|]; subst. simpl in *. rewrite Hat in Hat'. injection Hat' as -> ->.
      exists 1, x', outs. split; [|done]. intros [|f] Hf; [lia|]. simpl. by rewrite Hlow.
    + inversion Hs as [| | |tx hd a w b up rx sn ws g at_ on e0 i x x' a' Hat' Hb| |]; subst. simpl in *. rewrite Hat in Hat'. injection Hat' as -> ->.
      pose proof (back_quiet _ _ _ _ _ _ Hb) as Ho. destruct Hb as (pr & Hpr & Hb).
      exists 1, x', []. split; [|split; [by rewrite app_nil_r|]]; [|by rewrite !app_nil_r].
      intros [|f] Hf; [lia|]. simpl in Hpr |- *. rewrite Hpr. apply Hb.
  - inversion Hs as [| |tx hd a w b up rx sn ws g at_ on e0 i x x' a' q Hat' Hc Hq| | |]; subst. simpl in *. rewrite Hat in Hat'. injection Hat' as -> ->.
    pose proof (calls_quiet _ _ _ _ _ _ Hc) as Ho. destruct Hc as (pr & Hpr & Hc).
    edestruct (IH (Gst (Nst tx hd a' w b up rx sn ws g) (<[e:=Some (q, x')]> at_) on) q x') as (f0 & x2 & outs & H1 & H2 & H3 & H4).
    { simpl. by rewrite fn_lookup_insert. }
    { exact H. }
    simpl in *. exists (S f0), x2, outs. split; [|split; [congruence|done]].
    intros [|f] Hf; [lia|]. simpl in Hpr |- *. rewrite Hpr, Hc, Hq. apply H1. lia.
Qed.
Lemma alone N n s e l s' : ends_with e l -> grun N any_step s (GTake e :: replicate n (GHop e) ++ [l]) s' ->
  exists m, nstep (now N (g_on s)) (g_net s) (NTake e) m /\ nstep (now N (g_on s)) m (NPass e) (g_net s') /\ g_on s' = g_on s.
Proof.
  intros Hl H. apply grun_first in H as (s1 & _ & Hs & H).
  inversion Hs as [|tx hd a w b up rx sn ws g at_ on e0 x q p Hh Htx Hp| | | |]; subst.
  eexists. split; [by apply nk_take|].
  edestruct alone_from as (f0 & x' & outs & H1 & H2 & H3 & H4); [exact Hl| |exact H|].
  { simpl. by rewrite fn_lookup_insert. }
  simpl in *. split; [|done]. rewrite H4. eapply (nk_pass (now N on)); [by rewrite fn_lookup_insert|]. split; [|exact H2].
  exists f0, x'. intros f Hf. unfold send. simpl. rewrite Hp. by apply H1.
Qed.
