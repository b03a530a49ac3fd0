(** * Vocabulary for the speed test *)
From Verif Require Export SpeedModel.

Inductive spruns (okc oks : bool) (k1 k2 : nat) (s : spst) : list splab -> spst -> Prop :=
| sr_nil : spruns okc oks k1 k2 s [] s
| sr_snoc tr s1 l s2 : spruns okc oks k1 k2 s tr s1 -> spstep okc oks k1 k2 s1 l s2 -> spruns okc oks k1 k2 s (tr ++ [l]) s2.
(** How often something happened. *)
Definition times (l : splab) (tr : list splab) : nat := length (List.filter (fun x => bool_decide (x = l)) tr).
(** A uint64 counter that was increased [n] times. *)
Definition wrapped (n : nat) : Z := (Z.of_nat n mod 2^64)%Z.
