(** * What stacks without a frame decoder make of several messages in one Read (C96)

    Runs of NetModel. *)
From Verif Require Import GoBase UBufModel FrameModel FrameSpec StackModel StackSpec NetModel NetSpec.

(** The decoder of codec [k] gives an error for the bytes [l]. *)
Definition unread (k : kind) (l : list byte) : Prop :=
  match k with
  | KJson _ unmarshal => unmarshal l = None
  | KGob _ d =>
      forall b, v_rd b <= v_wr b -> v_wr b <= v_cap b -> v_res b <= v_cap b -> blen (v_st b) = v_cap b ->
        readable b = l -> exists b', d b = Ok None b'
  | KGeneric _ (Some d) =>
      forall b, v_rd b <= v_wr b -> v_wr b <= v_cap b -> v_res b <= v_cap b -> blen (v_st b) = v_cap b ->
        readable b = l -> exists m b', d b = Ok (m, true) b'
  | KGeneric _ None => True
  | _ => False
  end.
(** What codec [k] makes of [l]. *)
Definition makes (k : kind) (l : list byte) (o : option msg) : Prop :=
  match o with Some m => decodes k l m | None => unread k l end.
(** The decoder never panics, and only the bytes decide what it returns. *)
Definition decided (k : kind) : Prop := forall l, l <> [] -> exists o, makes k l o.

(** A mail with its sender and its encoding, its session and what is written for it. *)
Definition slip : Type := (nat * mail) * list byte.
Definition slip_for (N : net) (t : slip) : Z := dest_of (nsess N (fst (fst t))) (ml_dest (snd (fst t))).
Definition slip_wire (N : net) (ps : list proc) (t : slip) : list byte := wire_of (slip_for N t) ps (snd t).
(** The slips [g], written one behind the other, below the headers of the first. *)
Definition glued (N : net) (ps : list proc) (g : list slip) : list byte :=
  match g with [] => [] | t :: g => snd t ++ concat (slip_wire N ps <$> g) end.
(** What is heard at session [z] if [os] is made of the groups [gs]: a group
    goes where its first slip was to go. *)
Definition came (N : net) (z : Z) (gs : list (list slip)) (os : list (option msg)) : list msg :=
  omap (fun go => match fst go with t :: _ => if decide (slip_for N t = z) then snd go else None | [] => None end) (zip gs os).
(** How many bytes the Reads returned. *)
Definition reads_of (ls : list nlab) : list nat := omap (fun l => match l with NRead n => Some n | _ => None end) ls.

(** The processors [ps] add nothing to a message, and what bytes it is. *)
Definition bare (ps : list proc) : Prop := forall z l, wire_of z ps l = l.
Definition bytes_in (m : msg) : list byte := match m with MBytes l | MStr l => l | _ => [] end.
