(** * Two peers with Heartbeat processors (proc_heartbeat.go)

    One connection [c] between a peer that sends heartbeats and a peer that
    supervises them, with a common clock.  The supervising peer is the one of
    BeatModel with all its other connections and listeners; of the sending peer
    only the heartbeat goroutine of this connection matters.
    - The goroutine (146-168) sends at once and again whenever its sleep of
      IntervalInSecond seconds (167) is over; the send itself is one transition.
    - The transport keeps order and loses nothing while the sending peer lives;
      when it dies (crash, power, network) any tail of what is under way is lost.
    - The checking goroutine (193-198) checks at once and again whenever its
      sleep of one second is over.
    - How late goroutines wake up and how long messages and checks take is not
      bounded here but in PulseSpec ([timely]). *)
From Verif Require Export GoBase BeatModel.

Inductive peer := PWait | PRun (due : Z) | PDead.
Record pul := Pul {
  u_b : bst;                 (* the supervising peer *)
  u_peer : peer;             (* the goroutine of the sending peer, and the end of its sleep *)
  u_wire : list Z;           (* heartbeats under way, by the time they were sent *)
  u_hand : option Z;         (* the one that is read and not yet registered *)
  u_cdue : Z;                (* end of the sleep of the checking goroutine, 196 *)
  u_cstart : Z }.            (* start of the present check *)
Definition new_pulse : pul := Pul new_beat PWait [] None 0 0.

Inductive plab :=
| PB (l : blab)              (* a transition of the supervising peer *)
| PStart                     (* OnEvent of the sending peer, 139-146 *)
| PSend                      (* 154-163 *)
| PDie.

(** Transitions of the supervising peer that do not involve the parts added here. *)
Definition plain (c : nat) (l : blab) : bool :=
  match l with
  | BArrive c' | BBeat c' => negb (Nat.eqb c' c)
  | BCheck _ | BDone => false
  | _ => true
  end.

Inductive pstep (T G : Z) (sh : bool) (c : nat) : pul -> plab -> pul -> Prop :=
| pu_plain b b' l p w h cd cs : plain c l = true -> bstep T sh b l b' ->
    pstep T G sh c (Pul b p w h cd cs) (PB l) (Pul b' p w h cd cs)
| pu_arrive b b' p t w cd cs : bstep T sh b (BArrive c) b' ->
    pstep T G sh c (Pul b p (t :: w) None cd cs) (PB (BArrive c)) (Pul b' p w (Some t) cd cs)
| pu_beat b b' p w t cd cs : bstep T sh b (BBeat c) b' ->
    pstep T G sh c (Pul b p w (Some t) cd cs) (PB (BBeat c)) (Pul b' p w None cd cs)
| pu_check b b' todo p w h cd cs : (cd <= b_now b)%Z -> bstep T sh b (BCheck todo) b' ->
    pstep T G sh c (Pul b p w h cd cs) (PB (BCheck todo)) (Pul b' p w h cd (b_now b))
| pu_done b b' p w h cd cs : bstep T sh b BDone b' ->
    pstep T G sh c (Pul b p w h cd cs) (PB BDone) (Pul b' p w h (b_now b + second)%Z cs)
| pu_start b w h cd cs :
    pstep T G sh c (Pul b PWait w h cd cs) PStart (Pul b (PRun (b_now b)) w h cd cs)
| pu_send b due w h cd cs : (due <= b_now b)%Z ->
    pstep T G sh c (Pul b (PRun due) w h cd cs) PSend (Pul b (PRun (b_now b + G * second)%Z) (w ++ [b_now b]) h cd cs)
| pu_die b p w w' h cd cs :
    pstep T G sh c (Pul b p (w ++ w') h cd cs) PDie (Pul b PDead w h cd cs).
