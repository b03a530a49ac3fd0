(** * What goroutines inside the processors at the same time should do *)
From Verif Require Import GoBase UBufModel FrameModel FrameSpec StackModel StackSpec NetModel NetSpec SwapModel SwapSpec GrainModel.

Inductive grun (N : net) (ok : gst -> glab -> Prop) (s : gst) : list glab -> gst -> Prop :=
| gr_nil : grun N ok s [] s
| gr_snoc ls s1 l s2 : grun N ok s ls s1 -> ok s1 l -> gstep N s1 l s2 -> grun N ok s (ls ++ [l]) s2.

(** Seen from outside the processors: a message passes when it is written. *)
Definition seen_as (l : glab) : option wlab :=
  match l with
  | GNet l => Some (WNet l)
  | GTake e => Some (WNet (NTake e))
  | GHop _ => None
  | GBack e | GWrite e => Some (WNet (NPass e))
  | GSet d i b => Some (WSet d i b)
  end.
Definition outside (ls : list glab) : list wlab := omap seen_as ls.
(** Everything but what the sending processors keep. *)
Definition same_outside (s t : nst) : Prop :=
  n_tx s = n_tx t /\ n_hand s = n_hand t /\ n_wire s = n_wire t /\ n_b s = n_b t /\ n_up s = n_up t /\
  n_rx s = n_rx t /\ n_seen s = n_seen t /\ n_writes s = n_writes t /\ n_got s = n_got t.

(** Only switches that the peer does not notice are used; a Read ends where a
    Write ended. *)
Definition gently (L : layout) (N : net) (s : gst) (l : glab) : Prop :=
  match l with
  | GSet d i _ => unseen_at N d i
  | GNet l => whole_read (framed (below (nb N) (lo_b L) (lo_above_b L))) (g_net s) l
  | _ => True
  end.
(** A step of the goroutines and the connection. *)
Definition at_work (l : glab) : Prop := match l with GNet l => inner l | GSet _ _ _ => False | _ => True end.
(** The steps that are no calls of SetEnable. *)
Definition not_set (l : glab) : bool := match l with GSet _ _ _ => false | _ => true end.
Definition any_step (s : gst) (l : glab) : Prop := True.
(** The call of endpoint [e]'s goroutine ends. *)
Definition ends_with (e : nat) (l : glab) : Prop := l = GWrite e \/ l = GBack e.

(** What can be told from the labels of a run: the switches of the sender now,
    and for each endpoint those that its message met, in the order of the
    processors it has passed. *)
Record watch := Watch { wa_on : nat -> bool; wa_met : nat -> list bool }.
Definition watch_step (L : layout) (w : watch) (l : glab) : watch :=
  match l with
  | GSet SideA i b => Watch (<[i := b]> (wa_on w)) (wa_met w)
  | GTake e => Watch (wa_on w) (<[e := []]> (wa_met w))
  | GHop e => Watch (wa_on w)
      (<[e := wa_met w e ++ [match lo_a L !! length (wa_met w e) with Some i => wa_on w i | None => false end]]> (wa_met w))
  | _ => w
  end.
Definition watched (L : layout) (N : net) (ls : list glab) : watch :=
  foldl (watch_step L) (Watch (as_made (na N)) (fun _ => [])) ls.
(** The processors below the codec, with the switches the message of [e] met. *)
Definition as_met (L : layout) (N : net) (e : nat) (ls : list glab) : list proc :=
  zip_with (fun p b => Proc (p_kind p) b) (below (na N) (lo_a L) (lo_above_a L))
    (drop (S (lo_above_a L)) (wa_met (watched L N ls) e)).
(** At the sender only processors below the codec are switched, of kinds that
    send messages on in either case. *)
Definition lower_switches (L : layout) (N : net) (s : gst) (l : glab) : Prop :=
  match l with
  | GSet SideA i _ => i ∈ drop (S (lo_above_a L)) (lo_a L) /\
      forall p b, e_procs (na N) !! i = Some p -> sends_on (Proc (p_kind p) b) = true
  | _ => True
  end.
(** The message of [e] the codec makes the bytes [l] of, which fit. *)
Definition encoded (L : layout) (N : net) (x : mail) (l : list byte) : Prop :=
  encodes (lo_codec L) (ml_msg x) l /\ l <> [] /\ (Z.of_nat (length l) <= e_mtu (na N) - e_overhead (na N))%Z.
(** One message, taken by endpoint [e]; the processor [i], at place [n], is
    switched off when the message is before it, and on again when it is past. *)
Definition between_labels (L : layout) (e : nat) (x : mail) (i n : nat) : list glab :=
  [GNet (NPut e x); GTake e] ++ replicate n (GHop e) ++ [GSet SideA i false; GHop e; GSet SideA i true] ++
  replicate (length (lo_a L) - S n) (GHop e) ++ [GWrite e].
