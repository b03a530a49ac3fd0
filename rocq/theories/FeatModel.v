(** * Features of a stack (feature.go, feat_base.go, ustack_default.go:173-192, 309-345)

    A feature is an object with a name, the place its setters return to
    ([f_where]) and the stack it was given.  What a user's own feature does when
    it is run or told an event is not modelled: the calls are only recorded, in
    [f_started] (calls of Run) and [f_told] (calls of OnEvent).  Options of
    features are [set_option]/[get_option] of MgmtModel. *)
From Verif Require Import GoBase.

Record fobj := Fobj { f_name : nat; f_where : nat; f_stack : bool (* a stack was set *) }.

(** Whoever a stack calls. *)
Inductive party := PListener (l : nat) | PEnd (e : nat) | PUpper | PFeat (o : nat) | PProc (p : nat) | PLower.
(** Events: the one of AddEndPoint (ustack_default.go:203-207) and all others. *)
Inductive fevent := FAdded (e : nat) | FOther (k : nat).

(** The fields of DefaultUStack that matter here (ustack_default.go:75-108). *)
Record fstack := Fstack {
  f_objs : list fobj;
  f_feats : list nat;       (* features *)
  f_ends : list nat;        (* endpoints *)
  f_procs : list nat;       (* processors *)
  f_listeners : list nat;
  f_decks : bool;           (* upperDeck and lowerDeck are not nil *)
  f_started : list party;
  f_told : list (fevent * party) }.
Definition new_fstack : fstack := Fstack [] [] [] [] [] false [] [].

Inductive fop :=
| FNewBase (n : nat) | FNewOwn (n : nat)
| FSetName (o n : nat) | FSetStack (o : nat)
| FAdd (o : nat) | FEndpoint (e : nat) | FAppend (p : nat) | FListen (l : nat)
| FPublish (ev : fevent) | FRun.

(** ustack_default.go:309-326 PublishEvent *)
Definition publish_to (s : fstack) : list party :=
  (PListener <$> f_listeners s) ++ (PEnd <$> f_ends s) ++ (if f_decks s then [PUpper] else []) ++
  (PProc <$> f_procs s) ++ (if f_decks s then [PLower] else []).
Definition publish (ev : fevent) (s : fstack) : fstack :=
  Fstack (f_objs s) (f_feats s) (f_ends s) (f_procs s) (f_listeners s) (f_decks s) (f_started s)
    (f_told s ++ ((fun p => (ev, p)) <$> publish_to s)).

Definition with_objs (s : fstack) (os : list fobj) : fstack :=
  Fstack os (f_feats s) (f_ends s) (f_procs s) (f_listeners s) (f_decks s) (f_started s) (f_told s).

Definition fstep (s : fstack) (c : fop) : fstack :=
  match c with
  | FNewBase n =>
      (* feat_base.go:15-30: [where] is the address of the local variable, the copy returned is another object *)
      let b := Fobj n (length (f_objs s)) false in with_objs s (f_objs s ++ [b; b])
  | FNewOwn n =>
      (* a user's feature whose setters return itself *)
      with_objs s (f_objs s ++ [Fobj n (length (f_objs s)) false])
  | FSetName o n =>                             (* feat_base.go:32-36 *)
      match f_objs s !! o with
      | Some b => with_objs s (<[o := Fobj n (f_where b) (f_stack b)]> (f_objs s))
      | None => s
      end
  | FSetStack o =>                              (* feat_base.go:57-61 *)
      match f_objs s !! o with
      | Some b => with_objs s (<[o := Fobj (f_name b) (f_where b) true]> (f_objs s))
      | None => s
      end
  | FAdd o =>                                   (* ustack_default.go:173-177 *)
      Fstack (f_objs s) (f_feats s ++ [o]) (f_ends s) (f_procs s) (f_listeners s) (f_decks s) (f_started s) (f_told s)
  | FEndpoint e =>                              (* ustack_default.go:194-211 *)
      if bool_decide (e ∈ f_ends s) then s
      else let s1 := publish (FAdded e) s in
        Fstack (f_objs s1) (f_feats s1) (f_ends s1 ++ [e]) (f_procs s1) (f_listeners s1) (f_decks s1) (f_started s1) (f_told s1)
  | FAppend p =>                                (* ustack_default.go:240-244 *)
      Fstack (f_objs s) (f_feats s) (f_ends s) (f_procs s ++ [p]) (f_listeners s) (f_decks s) (f_started s) (f_told s)
  | FListen l =>                                (* ustack_default.go:303-307 *)
      Fstack (f_objs s) (f_feats s) (f_ends s) (f_procs s) (f_listeners s ++ [l]) (f_decks s) (f_started s) (f_told s)
  | FPublish ev => publish ev s
  | FRun =>                                     (* ustack_default.go:328-345; build (120-147) touches no feature *)
      Fstack (f_objs s) (f_feats s) (f_ends s) (f_procs s) (f_listeners s) true
        (f_started s ++ (PFeat <$> f_feats s) ++ [PUpper] ++ (PProc <$> f_procs s) ++ [PLower]) (f_told s)
  end.
(** The object that a constructor or setter returns. *)
Definition returned (s : fstack) (c : fop) : option nat :=
  match c with
  | FNewBase _ => Some (length (f_objs s) + 1)
  | FNewOwn _ => Some (length (f_objs s))
  | FSetName o _ | FSetStack o => f_where <$> f_objs s !! o
  | _ => None
  end.
Definition frun (cs : list fop) (s : fstack) : fstack := fold_left fstep cs s.

(** ustack_default.go:179-187 GetFeature *)
Fixpoint find_feature (os : list fobj) (fs : list nat) (n : nat) : option nat :=
  match fs with
  | [] => None
  | o :: fs' => match os !! o with
                | Some b => if f_name b =? n then Some o else find_feature os fs' n
                | None => find_feature os fs' n
                end
  end.
Definition get_feature (s : fstack) (n : nat) : option nat := find_feature (f_objs s) (f_feats s) n.
