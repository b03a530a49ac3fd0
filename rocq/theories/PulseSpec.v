(** * What two peers with heartbeats should do *)
From Verif Require Import GoBase BeatModel BeatSpec PulseModel.

(** Bounds, in nanoseconds: the sending peer's goroutine starts at most [g_start]
    after the supervising peer's registration of the connection and wakes up at
    most [g_send] late; a heartbeat is registered at most [g_net] after it was
    sent, if the connection is still open; the checking goroutine wakes up at most [g_wake] late; a check takes at
    most [g_check]. *)
Record lag := Lag { g_start : Z; g_send : Z; g_net : Z; g_wake : Z; g_check : Z }.
Definition lag_ok (g : lag) : Prop :=
  (0 <= g_start g /\ 0 <= g_send g /\ 0 <= g_net g /\ 0 <= g_wake g /\ 0 <= g_check g)%Z.

(** Nothing is later than the bounds allow. *)
Definition timely (g : lag) (c : nat) (s : pul) : Prop :=
  let now := b_now (u_b s) in
  match u_peer s with
  | PWait => forall t, b_mon (u_b s) c = Some t -> (now <= t + g_start g)%Z
  | PRun due => (now <= due + g_send g)%Z
  | PDead => True
  end /\
  (forall t, (t ∈ u_wire s /\ b_closed (u_b s) c = false) \/ u_hand s = Some t -> (now <= t + g_net g)%Z) /\
  (b_chk (u_b s) = CIdle -> now <= u_cdue s + g_wake g)%Z /\
  (b_chk (u_b s) <> CIdle -> now <= u_cstart s + g_check g)%Z.

(** Executions in which nothing is ever late. *)
Inductive purun (T G : Z) (sh : bool) (c : nat) (g : lag) : list plab -> pul -> Prop :=
| pur_nil : purun T G sh c g [] new_pulse
| pur_snoc ls s l s' : purun T G sh c g ls s -> pstep T G sh c s l s' -> timely g c s' ->
    purun T G sh c g (ls ++ [l]) s'.

(** What the supervising peer did. *)
Definition beat_of (l : plab) : option blab := match l with PB l => Some l | _ => None end.
Definition side (ls : list plab) : list blab := omap beat_of ls.
(** The time. *)
Definition ptime (ls : list plab) : Z := clock (side ls).

(** The longest a silent connection stays unreported after its last sign of
    life. *)
Definition notice (T : Z) (g : lag) : Z := (nsec T + second + g_wake g + 2 * g_check g)%Z.

(** The last sign of life of [c] was followed by a report. *)
Definition reported (c : nat) (ls : list blab) : bool :=
  fold_left (fun r l => if sign c l then false else match l with BLost d => Nat.eqb d c || r | _ => r end) ls false.
