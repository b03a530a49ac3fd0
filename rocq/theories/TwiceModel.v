(** * Several stacks built from the same processor instances

    What Run writes into the [upper], [lower] and [ustack] fields of processors
    that other stacks may have too.  Within one stack see StackModel's
    [build_links]; here the decks of different stacks are told apart.
    Simplifications: two Runs do not overlap; what the processors do with a
    message is not part of it, only whom they call. *)
From Verif Require Import GoBase.

(** The upper and lower deck of stack [k], or a processor instance. *)
Inductive tpid := TUpper (k : nat) | TLower (k : nat) | TProc (i : nat).
Global Instance tpid_eq_dec : EqDecision tpid.
Proof. solve_decision. Defined.

(** proc_base.go:10-19: the fields [upper], [lower] and [ustack] of everything
    there is; [None] is nil. *)
Record fields := Fields { t_upper : tpid -> option tpid; t_lower : tpid -> option tpid; t_stack : nat -> option nat }.
(** proc_base.go SetUpper, SetLower, SetUStack *)
Definition tset_upper (F : fields) (p q : tpid) : fields :=
  Fields (fun x => if decide (x = p) then Some q else t_upper F x) (t_lower F) (t_stack F).
Definition tset_lower (F : fields) (p q : tpid) : fields :=
  Fields (t_upper F) (fun x => if decide (x = p) then Some q else t_lower F x) (t_stack F).
Definition tset_stack (F : fields) (i k : nat) : fields :=
  Fields (t_upper F) (t_lower F) (fun j => if decide (j = i) then Some k else t_stack F j).

(** ustack_default.go:133-136 *)
Fixpoint tlink_pairs (ids : list nat) (F : fields) : fields :=
  match ids with
  | i :: ((j :: _) as rest) =>
      tlink_pairs rest (tset_upper (tset_lower F (TProc i) (TProc j)) (TProc j) (TProc i))
  | _ => F
  end.

(** ustack_default.go:120-145 build of stack [k] with the appended instances
    [ids]: fresh decks, the links, then SetUStack of every processor. *)
Definition tbuild (k : nat) (ids : list nat) (F : fields) : fields :=
  let linked :=
    match ids with
    | [] => tset_upper (tset_lower F (TUpper k) (TLower k)) (TLower k) (TUpper k)
    | i :: _ =>
        let n := List.last ids i in
        let F' := tlink_pairs ids (tset_upper (tset_lower F (TUpper k) (TProc i)) (TProc i) (TUpper k)) in
        tset_upper (tset_lower F' (TProc n) (TLower k)) (TLower k) (TProc n)
    end in
  foldl (fun F i => tset_stack F i k) linked ids.

(** The Runs of several stacks, one after the other. *)
Definition tbuilds (stacks : list (nat * list nat)) (F : fields) : fields :=
  foldl (fun F s => tbuild (fst s) (snd s) F) F stacks.
