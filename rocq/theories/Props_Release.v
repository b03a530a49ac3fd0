(** * C98: what Stop of a reference transport does behind its isRunning test *)
(** No execution of the code gets there, since nothing ever sets isRunning (C50_stop_nothing_refuted).
    These theorems are therefore about arbitrary states, not reachable ones: they say what
    tran_reference.go 272-286 would do if Run set the flag. *)
From Verif Require Import GoBase RefModel RefSpec RefProofs RefRest.

(** Stop closes the connection and gives up one share; the channel stays for the others. *)
Theorem C98_shared_partial (addr : nat -> nat) (server : nat -> bool) (size : nat -> Z) s t c ch b x : r_crash s = false -> r_mutex s = None -> r_pc s t = RIdle -> r_running s t = true ->
  r_conn s t = Some c -> r_conns s !! c = Some (t, ch, b) -> r_map s (addr t) = Some ch -> r_chans s !! ch = Some x -> rc_refs x <> 1%Z ->
  (exists s', rstep addr server size s (RStop t) s') /\ forall s', rstep addr server size s (RStop t) s' ->
    r_crash s' = false /\ r_mutex s' = None /\ r_pc s' = r_pc s /\ r_running s' = r_running s /\ r_conn s' = r_conn s /\ r_next s' = r_next s /\
    r_conns s' = <[c := (t, ch, true)]> (r_conns s) /\ r_map s' = r_map s /\ r_pend s' = r_pend s /\ r_wait s' = r_wait s /\
    r_chans s' = <[ch := Rchan (rc_cap x) (rc_refs x - 1) (rc_closed x) (rc_buf x)]> (r_chans s).
Proof. exact (stop_shared addr server size s t c ch b x). Qed.
Print Assumptions C98_shared_partial.

(** The last Stop on an address closes the channel and forgets it, and no other address's. *)
Theorem C98_last_partial (addr : nat -> nat) (server : nat -> bool) (size : nat -> Z) s t c ch b x : r_crash s = false -> r_mutex s = None -> r_pc s t = RIdle -> r_running s t = true ->
  r_conn s t = Some c -> r_conns s !! c = Some (t, ch, b) -> r_map s (addr t) = Some ch -> r_chans s !! ch = Some x -> rc_refs x = 1%Z ->
  (exists s', rstep addr server size s (RStop t) s') /\ forall s', rstep addr server size s (RStop t) s' ->
    r_crash s' = rc_closed x /\ r_mutex s' = None /\ r_pc s' = r_pc s /\ r_running s' = r_running s /\ r_conn s' = r_conn s /\ r_next s' = r_next s /\
    r_conns s' = <[c := (t, ch, true)]> (r_conns s) /\ r_map s' (addr t) = None /\ (forall a, a <> addr t -> r_map s' a = r_map s a) /\
    r_pend s' = r_pend s /\ r_wait s' = r_wait s /\
    r_chans s' = <[ch := Rchan (rc_cap x) 0 true (rc_buf x)]> (r_chans s).
Proof. exact (stop_last addr server size s t c ch b x). Qed.
Print Assumptions C98_last_partial.

(** With no channel on the address it only closes the connection. *)
Theorem C98_unknown_partial (addr : nat -> nat) (server : nat -> bool) (size : nat -> Z) s t c ch b : r_crash s = false -> r_mutex s = None -> r_pc s t = RIdle -> r_running s t = true ->
  r_conn s t = Some c -> r_conns s !! c = Some (t, ch, b) -> r_map s (addr t) = None ->
  (exists s', rstep addr server size s (RStop t) s') /\ forall s', rstep addr server size s (RStop t) s' ->
    r_crash s' = false /\ r_conns s' = <[c := (t, ch, true)]> (r_conns s) /\ r_map s' = r_map s /\ r_chans s' = r_chans s /\ r_running s' = r_running s.
Proof. exact (stop_unknown addr server size s t c ch b). Qed.
Print Assumptions C98_unknown_partial.

(** Run of a transport that counts as running changes nothing. *)
Theorem C98_run_partial (addr : nat -> nat) (server : nat -> bool) (size : nat -> Z) s t : r_crash s = false -> r_pc s t = RIdle -> r_running s t = true ->
  (exists s', rstep addr server size s (RRun t) s') /\ forall s', rstep addr server size s (RRun t) s' -> s' = s.
Proof. exact (run_running addr server size s t). Qed.
Print Assumptions C98_run_partial.

(** Stop waits for the transport's own lock and, once it has closed the connection, for the global one. *)
Theorem C98_waits_partial (addr : nat -> nat) (server : nat -> bool) (size : nat -> Z) s t s' : rstep addr server size s (RStop t) s' -> r_running s t = true -> r_pc s t = RIdle /\ (r_conn s t = None \/ r_mutex s = None).
Proof. exact (stop_waits addr server size s t s'). Qed.
Print Assumptions C98_waits_partial.

(** Stop before NextConnection panics. *)
Theorem C98_early_refuted (addr : nat -> nat) (server : nat -> bool) (size : nat -> Z) s t : r_crash s = false -> r_pc s t = RIdle -> r_running s t = true -> r_conn s t = None ->
  (exists s', rstep addr server size s (RStop t) s') /\ forall s', rstep addr server size s (RStop t) s' -> r_crash s' = true.
Proof. exact (stop_early addr server size s t). Qed.
Print Assumptions C98_early_refuted.

(** Stop leaves isRunning set, so a second Stop takes the share of somebody else. A SetReference in
    progress on the other connection then panics ... *)
Theorem C98_twice_panics_refuted (addr : nat -> nat) (server : nat -> bool) (size : nat -> Z) s t c ch b x k c2 t2 b2 p : r_crash s = false -> r_mutex s = None -> r_pc s t = RIdle -> r_running s t = true ->
  r_conn s t = Some c -> r_conns s !! c = Some (t, ch, b) -> r_map s (addr t) = Some ch -> r_chans s !! ch = Some x ->
  rc_refs x = 2%Z -> rc_closed x = false -> c2 <> c -> r_conns s !! c2 = Some (t2, ch, b2) -> r_pend s k = Some (c2, p) ->
  exists s', rrun addr server size s [RStop t; RStop t; RSent k t2 c2 p] s' /\ r_crash s' = true.
Proof. exact (twice_panics addr server size s t c ch b x k c2 t2 b2 p). Qed.
Print Assumptions C98_twice_panics_refuted.

(** ... and a GetReference returns nil and no error. *)
Theorem C98_twice_nil_refuted (addr : nat -> nat) (server : nat -> bool) (size : nat -> Z) s t c ch b x j c2 t2 b2 : r_crash s = false -> r_mutex s = None -> r_pc s t = RIdle -> r_running s t = true ->
  r_conn s t = Some c -> r_conns s !! c = Some (t, ch, b) -> r_map s (addr t) = Some ch -> r_chans s !! ch = Some x ->
  rc_refs x = 2%Z -> rc_closed x = false -> c2 <> c -> r_conns s !! c2 = Some (t2, ch, b2) -> r_wait s j = Some c2 -> rc_buf x (server t2) = [] ->
  exists s', rrun addr server size s [RStop t; RStop t; RGotNil j t2 c2] s' /\ r_wait s' j = None /\ r_crash s' = false.
Proof. exact (twice_nil addr server size s t c ch b x j c2 t2 b2). Qed.
Print Assumptions C98_twice_nil_refuted.

(** A closed channel, and only a closed one, makes senders panic and, once it is empty, receivers get nil; nothing is handed over on it. *)
Theorem C98_closed_channel_partial (addr : nat -> nat) (server : nat -> bool) (size : nat -> Z) s k t c p j s' ch b x : r_conns s !! c = Some (t, ch, b) -> r_chans s !! ch = Some x ->
  (rstep addr server size s (RSent k t c p) s' -> r_crash s' = rc_closed x) /\
  (rstep addr server size s (RGotNil j t c) s' -> rc_closed x = true /\ rc_buf x (server t) = []) /\
  (forall t' c', rstep addr server size s (RHand k t c p j t' c') s' -> rc_closed x = false /\ rc_buf x (negb (server t)) = []).
Proof. exact (closed_channel addr server size s k t c p j s' ch b x). Qed.
Print Assumptions C98_closed_channel_partial.

(** Two transports on one address, both running; goroutine 5 sends and 7 waits on the second's connection. *)
Definition two_up (refs : Z) : rst :=
  Rst (fun _ => []) (fun t => if decide (t = 0) then Some 0 else if decide (t = 1) then Some 1 else None) (fun t => bool_decide (t < 3)) (fun _ => RIdle) None
    (fun a => if decide (a = 0) then Some 0 else None) [Rchan 1 refs false (fun b => if b then [30] else [])] [(0, 0, false); (1, 0, false)]
    (fun k => if decide (k = 5) then Some (1, 40) else None) (fun k => if decide (k = 7) then Some 1 else None) false.
Example C98_example refs : r_crash (two_up refs) = false /\ r_mutex (two_up refs) = None /\ r_pc (two_up refs) 0 = RIdle /\ r_running (two_up refs) 0 = true /\
  r_conn (two_up refs) 0 = Some 0 /\ r_conns (two_up refs) !! 0 = Some (0, 0, false) /\ r_conns (two_up refs) !! 1 = Some (1, 0, false) /\
  r_map (two_up refs) ((fun _ => 0) 0) = Some 0 /\ r_map (two_up refs) ((fun _ => 9) 0) = None /\
  r_chans (two_up refs) !! 0 = Some (Rchan 1 refs false (fun b => if b then [30] else [])) /\
  r_pend (two_up refs) 5 = Some (1, 40) /\ r_wait (two_up refs) 7 = Some 1 /\ r_running (two_up refs) 2 = true /\ r_conn (two_up refs) 2 = None.
Proof. done. Qed.
