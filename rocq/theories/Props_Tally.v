(** * Theorems about a listener that counts connections (property C85)

    Only statements: every proof is one lemma.  [yrun ok s ls s']: the goroutines
    of the connections run, in any order in which [ok] holds of every step. *)
From Verif Require Import GoBase ConnModel ConnSpec TallyModel TallySpec TallyProofs.

(** ** C85 *)

(** If events are published one after the other, the count is the number of connections announced and not ended less the number of writes that failed; so if none failed the program ends only when no connection is left. *)
Theorem C85_one_at_a_time_partial ls s : yrun one_at_a_time new_tally ls s ->
  (y_busy s = [] -> y_conn s = (Z.of_nat (living (y_t s)) - Z.of_nat (write_failures ls))%Z) /\
  (y_exit s = true -> living (y_t s) = write_failures ls).
Proof. exact (tally_exact ls s). Qed.
Print Assumptions C85_one_at_a_time_partial.

(** Any number of connections can come, and the count follows; *)
Theorem C85_counts_partial n : exists ls cs lg, yrun one_at_a_time new_tally ls (Yst (Tst cs [] lg) (Z.of_nat n) [] false) /\
  living (Tst cs [] lg) = n /\ forall c p, cs !! c = Some p -> p = (PReading, false).
Proof. exact (counts_up n). Qed.
Print Assumptions C85_counts_partial.

(** and the program can end when the last one is closed. *)
Theorem C85_ends_partial t c b : t_conns t !! c = Some (PReading, b) ->
  exists ls s', yrun one_at_a_time (Yst t 1 [] false) ls s' /\ y_exit s' = true /\ t_conns (y_t s') !! c = Some (PEnded, true).
Proof. exact (ends_last t c b). Qed.
Print Assumptions C85_ends_partial.

(** But a connection is counted out twice if a write on it fails: with a count of two, the program ends although the other connection is as it was. *)
Theorem C85_failed_write_refuted t c b w c' p' : c <> c' -> t_conns t !! c = Some (PReading, b) -> t_writers t !! w = Some (c, WWriting) -> t_conns t !! c' = Some p' ->
  exists ls s', yrun one_at_a_time (Yst t 2 [] false) ls s' /\ y_exit s' = true /\ t_conns (y_t s') !! c' = Some p'.
Proof. exact (counted_twice t c b w c' p'). Qed.
Print Assumptions C85_failed_write_refuted.

(** And two connections announced by different goroutines can be counted once, *)
Theorem C85_counted_once_refuted t n c c' b b' : c <> c' -> t_conns t !! c = Some (PTaken, b) -> t_conns t !! c' = Some (PTaken, b') ->
  exists ls s', yrun any_order (Yst t n [] false) ls s' /\ y_busy s' = [] /\ y_exit s' = false /\ y_conn s' = (n + 1)%Z /\
    t_conns (y_t s') !! c = Some (PReading, b) /\ t_conns (y_t s') !! c' = Some (PReading, b').
Proof. exact (counted_once t n c c' b b'). Qed.
Print Assumptions C85_counted_once_refuted.

(** so that the program ends when the first of them is closed. *)
Theorem C85_overlap_refuted t c c' b b' : c <> c' -> t_conns t !! c = Some (PTaken, b) -> t_conns t !! c' = Some (PTaken, b') ->
  exists ls s', yrun any_order (Yst t 0 [] false) ls s' /\ y_exit s' = true /\ t_conns (y_t s') !! c' = Some (PReading, b').
Proof. exact (counted_once_ends t c c' b b'). Qed.
Print Assumptions C85_overlap_refuted.

(** Two connections announced, a write on connection 0 under way, reached one event after the other; then connection 1 ends. *)
Tactic Notation "ys" open_constr(t) := eapply yrun_cons; [done|eapply t; try done|]; cbn.
Definition count_in (c : nat) : list ylab := [YBegin (TNew c); YLoad 0; YStore 0; YEnd 0 (TNew c)].
Definition opening : list ylab := [YOther TNext; YOther TNext] ++ count_in 0 ++ count_in 1 ++ [YOther (TWrite 0)].
Definition ex_conns : tst := Tst [(PReading, false); (PReading, false)] [(0, WWriting)] [EvNew 0; EvNew 1].
Lemma opening_run : yrun one_at_a_time new_tally opening (Yst ex_conns 2 [] false).
Proof.
  unfold opening, count_in. cbn. ys yk_other; [by apply tk_next|]. ys yk_other; [by apply tk_next|].
  ys yk_begin; [by eapply tk_new|apply not_elem_of_nil|]. ys (yk_load _ _ _ 0). ys (yk_store _ _ _ 0). ys (yk_end _ _ _ _ 0); [by eapply tk_new|].
  ys yk_begin; [by eapply (tk_new _ _ _ 1)|apply not_elem_of_nil|]. ys (yk_load _ _ _ 0). ys (yk_store _ _ _ 0). ys (yk_end _ _ _ _ 0); [by eapply (tk_new _ _ _ 1)|].
  apply yrun_one; [done|]. apply yk_other; [done|]. apply tk_write. by left.
Qed.
Example C85_example : yrun one_at_a_time new_tally opening (Yst ex_conns 2 [] false) /\ living ex_conns = 2 /\ write_failures opening = 0 /\
  t_conns ex_conns !! 0 = Some (PReading, false) /\ t_writers ex_conns !! 0 = Some (0, WWriting) /\ t_conns ex_conns !! 1 = Some (PReading, false).
Proof. split; [apply opening_run|]. by vm_compute. Qed.
Example C85_example_overlap : exists t, yrun any_order new_tally [YOther TNext; YOther TNext] (Yst t 0 [] false) /\
  t_conns t !! 0 = Some (PTaken, false) /\ t_conns t !! 1 = Some (PTaken, false).
Proof.
  eexists. split; [ys yk_other; [by apply tk_next|]; apply yrun_one; [done|]; apply yk_other; [done|by apply tk_next]|]. by vm_compute.
Qed.
