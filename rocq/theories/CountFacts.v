(** Adding up what a function from names to lists holds, when all but finitely many of the lists are empty. *)
From stdpp Require Import list numbers sets functions.
From Coq Require Import Lia.

Section total.
Context {K : Type} `{EqDecision K}.

Definition amount {X} (f : K -> list X) (n : nat) : Prop :=
  exists ks, NoDup ks /\ (forall k, k ∉ ks -> f k = []) /\ sum_list_with (fun k => length (f k)) ks = n.
Lemma sum_ext {A} (f g : A -> nat) l : (forall x, x ∈ l -> f x = g x) -> sum_list_with f l = sum_list_with g l.
Proof. induction l as [|x l IH]; intros H; [done|]. simpl. rewrite H by left. rewrite IH; [done|]. intros y Hy. apply H. by right. Qed.
Lemma sum_plus {A} (f g : A -> nat) l : sum_list_with (fun x => f x + g x) l = sum_list_with f l + sum_list_with g l.
Proof. induction l as [|x l IH]; [done|]. simpl. lia. Qed.
Lemma sum_one (k : K) (c : nat) ks : NoDup ks -> k ∈ ks -> sum_list_with (fun x => if decide (x = k) then c else 0) ks = c.
Proof.
  intros Hn Hk. induction ks as [|y ks IH]; [by apply elem_of_nil in Hk|]. apply stdpp.list.NoDup_cons in Hn as [Hy Hn]. simpl.
  destruct (decide (y = k)) as [->|Hne].
  - assert (sum_list_with (fun x => if decide (x = k) then c else 0) ks = 0) as ->; [|lia].
    clear IH Hn Hk. induction ks as [|z ks IH]; [done|]. simpl. rewrite decide_False by (intros ->; apply Hy; left).
    apply IH. intros H. apply Hy. by right.
  - rewrite IH; [done|done|]. apply elem_of_cons in Hk as [->|Hk]; [done|done].
Qed.
Lemma amount_nil {X} : amount (fun _ => @nil X) 0.
Proof. exists []. split; [constructor|]. done. Qed.
Lemma amount_ext {X} (f g : K -> list X) n : amount f n -> (forall k, g k = f k) -> amount g n.
Proof. intros (ks & H1 & H2 & H3) E. exists ks. split; [done|]. split; [intros k Hk; rewrite E; auto|]. rewrite <- H3. apply sum_ext. intros k _. by rewrite E. Qed.
(** The names may be chosen to contain any given ones. *)
Lemma amount_with {X} (f : K -> list X) n (es : list K) : amount f n ->
  exists ks, NoDup ks /\ (forall k, k ∉ ks -> f k = []) /\ sum_list_with (fun k => length (f k)) ks = n /\ forall k, k ∈ es -> k ∈ ks.
Proof.
  intros H. induction es as [|e es (ks & H1 & H2 & H3 & H4)].
  - destruct H as (ks & H1 & H2 & H3). exists ks. split_and!; try done. intros k Hk. by apply elem_of_nil in Hk.
  - destruct (decide (e ∈ ks)) as [He|He].
    + exists ks. split_and!; try done. intros k Hk. apply elem_of_cons in Hk as [->|Hk]; auto.
    + exists (e :: ks). split_and!.
      * by constructor.
      * intros k Hk. apply H2. intros Hk'. apply Hk. by right.
      * simpl. by rewrite (H2 e He).
      * intros k Hk. apply elem_of_cons in Hk as [->|Hk]; [left|right; auto].
Qed.
Lemma amount_more {X} (f g : K -> list X) n k c : amount f n -> (forall k', k' <> k -> g k' = f k') -> length (g k) = length (f k) + c -> amount g (n + c).
Proof.
  intros H E Hk. destruct (amount_with f n [k] H) as (ks & H1 & H2 & H3 & H4). exists ks. split; [done|]. split.
  - intros k' Hk'. rewrite E; [auto|]. intros ->. apply Hk', H4. left.
  - rewrite <- H3. rewrite <- (sum_one k c ks H1 (H4 k ltac:(left))), <- sum_plus. apply sum_ext.
    intros x _. case_decide as D; [subst; lia|]. rewrite E by done. lia.
Qed.
Lemma amount_less {X} (f g : K -> list X) n k c : amount f n -> (forall k', k' <> k -> g k' = f k') -> length (f k) = length (g k) + c -> exists m, amount g m /\ n = m + c.
Proof.
  intros H E Hk. destruct (amount_with f n [k] H) as (ks & H1 & H2 & H3 & H4).
  exists (sum_list_with (fun k => length (g k)) ks). split.
  - exists ks. split; [done|]. split; [|done]. intros k' Hk'. rewrite E; [auto|]. intros ->. apply Hk', H4. left.
  - rewrite <- H3. rewrite <- (sum_one k c ks H1 (H4 k ltac:(left))), <- sum_plus. apply sum_ext.
    intros x _. case_decide as D; [subst; lia|]. rewrite E by done. lia.
Qed.

(** Those of a list with a given name. *)
Definition named {M} (k : K) (l : list (K * M)) : list M := omap (fun p => if decide (fst p = k) then Some (snd p) else None) l.
Lemma named_sum {M} (l : list (K * M)) ks : NoDup ks -> (forall p, p ∈ l -> fst p ∈ ks) -> sum_list_with (fun k => length (named k l)) ks = length l.
Proof.
  intros Hn. induction l as [|[k m] l IH]; intros H.
  - simpl. clear. induction ks; simpl; lia.
  - rewrite <- (sum_ext (fun x => (if decide (x = k) then 1 else 0) + length (named x l))).
    + rewrite sum_plus, (sum_one k 1) by (try done; apply (H (k, m)); left). rewrite IH; [done|]. intros p Hp. apply H. by right.
    + intros x _. unfold named. simpl. destruct (decide (x = k)) as [->|Hne]; [by rewrite decide_True|by rewrite decide_False].
Qed.
(** If for every name what is in [A], in [f] and in [U] is as much as there is in [P], then so in all. *)
Lemma counted {M M' X} (A U : list (K * M)) (P : list (K * M')) (f : K -> list X) n : amount f n ->
  (forall k, length (named k A) + length (f k) + length (named k U) = length (named k P)) -> length A + n + length U = length P.
Proof.
  intros H E. destruct (amount_with f n ((fst <$> A) ++ (fst <$> U) ++ (fst <$> P)) H) as (ks & H1 & H2 & <- & H4).
  rewrite <- (named_sum A ks), <- (named_sum U ks), <- (named_sum P ks); try done.
  - rewrite <- !sum_plus. apply sum_ext. intros k _. apply E.
  - intros p Hp. apply H4, elem_of_app. right. apply elem_of_app. right. by apply elem_of_list_fmap_1.
  - intros p Hp. apply H4, elem_of_app. right. apply elem_of_app. left. by apply elem_of_list_fmap_1.
  - intros p Hp. apply H4, elem_of_app. left. by apply elem_of_list_fmap_1.
Qed.
End total.
