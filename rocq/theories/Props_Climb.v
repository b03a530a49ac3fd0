(** * Theorems about the goroutines of a stack inside the processors at the same time (property C105)

    Only statements: every proof is one lemma.  [urun E (new_climb a) ls s]: any
    number of goroutines - of connections that read any bytes or objects, of
    endpoints that send any messages, of processors that send messages of their
    own - call the processors, one call a step, in any order. *)
From Verif Require Import GoBase UBufModel FrameModel StackModel StackSpec ClimbModel ClimbSpec ClimbProofs ClimbRest Props_Stack.
From stdpp Require Import list numbers.

(** ** C105 *)

(** Through processors that keep nothing, what a goroutine's jobs show - messages handed to endpoints, bytes and objects written, heartbeats noted - is what they show with no other goroutine around, one after the other: whatever the others do, and in whatever order the goroutines are scheduled. *)
Theorem C105_same_as_alone_partial E a ls s c : memoryless E -> urun E (new_climb a) ls s -> u_dead s = false -> u_at s c = None ->
  exists outss, Forall2 (alone_shows E) (jobs_of c ls) outss /\ shown_by c s = concat outss.
Proof. exact (same_as_alone E a ls s c). Qed.
Print Assumptions C105_same_as_alone_partial.

(** So it is the same in every two runs in which the goroutine does the same jobs, from whatever states. *)
Theorem C105_no_difference_partial E a ls s a' ls' s' c : memoryless E -> urun E (new_climb a) ls s -> urun E (new_climb a') ls' s' ->
  u_dead s = false -> u_dead s' = false -> u_at s c = None -> u_at s' c = None -> jobs_of c ls = jobs_of c ls' -> shown_by c s = shown_by c s'.
Proof. exact (no_difference E a ls s a' ls' s' c). Qed.
Print Assumptions C105_no_difference_partial.

(** At any time, also in a call or after a crash: only the last job may have shown nothing. *)
Theorem C105_inside_partial E a ls s c : memoryless E -> urun E (new_climb a) ls s ->
  exists rs outss, (jobs_of c ls = rs \/ exists j, jobs_of c ls = rs ++ [j]) /\ Forall2 (alone_shows E) rs outss /\ shown_by c s = concat outss.
Proof. exact (same_inside E a ls s c). Qed.
Print Assumptions C105_inside_partial.

(** If every chunk that goroutine [g] reads from [c] is a whole message, the endpoints get exactly these messages from it, in order. *)
Theorem C105_messages_partial E ids pre k ps g c a ls s arr :
  wired E ids (pre ++ Proc k true :: ps) -> memoryless E ->
  Forall (fun p => passes_message p = true) pre -> Forall (fun p => carries p = true) ps ->
  e_isref E c = false -> (e_mtu E < 2^32)%Z ->
  Forall (fun y => decodes k (StackSpec.le_bytes y) (le_msg y) /\ StackSpec.le_bytes y <> [] /\
    (Z.of_nat (length (wire_of (le_sess y) ps (StackSpec.le_bytes y))) <= e_mtu E)%Z) arr ->
  urun E (new_climb a) ls s -> u_dead s = false -> u_at s g = None ->
  jobs_of g ls = (fun y => JRead c (wire_of (le_sess y) ps (StackSpec.le_bytes y))) <$> arr ->
  shown_by g s = concat ((fun y => shown E (rx_session ps (le_sess y)) (Some c) (le_msg y)) <$> arr).
Proof. exact (whole_chunks E ids pre k ps g c a ls s arr). Qed.
Print Assumptions C105_messages_partial.

(** And the messages that endpoint goroutine [g] sends over [c] are written whole, in order, whatever is received meanwhile. *)
Theorem C105_sends_partial E ids pre k ps g c a ls s (sent : list (Z * option Z * msg * list byte)) :
  wired E ids (pre ++ Proc k true :: ps) -> memoryless E ->
  Forall (fun p => passes_message p = true) pre -> Forall (fun p => sends_on p = true) ps ->
  e_isref E c = false -> (e_mtu E < 2^32)%Z ->
  Forall (fun y => encodes k y.1.2 y.2 /\ y.2 <> [] /\ (Z.of_nat (length y.2) <= e_mtu E - e_overhead E)%Z) sent ->
  urun E (new_climb a) ls s -> u_dead s = false -> u_at s g = None ->
  jobs_of g ls = (fun y => JSend y.1.1.1 y.1.1.2 (Some c) (Some y.1.2)) <$> sent ->
  shown_by g s = concat ((fun y => offered E (s_out a) c (wire_of (dest_of y.1.1.1 y.1.1.2) ps y.2)) <$> sent).
Proof. exact (whole_sends E ids pre k ps g c a ls s sent). Qed.
Print Assumptions C105_sends_partial.

(** Objects that pass by reference: those goroutine [g] gets are handed up, those it sends are handed to the connection, each once and in order. *)
Theorem C105_objects_partial E ids ps g c a ls s (jobs : list job) :
  wired E ids ps -> memoryless E -> Forall (fun p => passes_reference p = true) ps ->
  e_isref E c = true -> (forall m, e_setref E [] c m = false) -> (0%Z ∈ e_sessions E) ->
  Forall (fun j => (exists m, j = JRef c m) \/ (exists z d m, j = JSend z d (Some c) (Some m))) jobs ->
  urun E (new_climb a) ls s -> u_dead s = false -> u_at s g = None -> jobs_of g ls = jobs ->
  shown_by g s = omap (fun j => match j with JRef c m => Some (ODeliver 0 (Some c) m) | JSend _ _ _ (Some m) => Some (ORef c m) | _ => None end) jobs.
Proof. exact (whole_objects E ids ps g c a ls s jobs). Qed.
Print Assumptions C105_objects_partial.

(** Nothing is shown that no goroutine showed. *)
Theorem C105_all_shown_partial E a ls s : memoryless E -> urun E (new_climb a) ls s -> s_out (u_st s) = s_out a ++ (u_log s).*2.
Proof. exact (all_shown E a ls s). Qed.
Print Assumptions C105_all_shown_partial.

(** A goroutine crashes the program only with a job that crashes it alone. *)
Theorem C105_crash_partial E a ls s l s' : memoryless E -> urun E (new_climb a) ls s -> ustep E s l s' -> is_crash l = true ->
  exists rs j, jobs_of (whose l) (ls ++ [l]) = rs ++ [j] /\ alone_crashes E j.
Proof. exact (crash_alone E a ls s l s'). Qed.
Print Assumptions C105_crash_partial.

(** No goroutine ever waits for another one, and without a Loopback each job takes at most that many steps of its goroutine; so it is done after them, whatever the other goroutines do. *)
Theorem C105_goes_on_partial E s c : memoryless E -> u_dead s = false ->
  (u_at s c <> None -> exists l s', whose l = c /\ is_start l = false /\ ustep E s l s') /\
  (u_at s c = None -> forall j, exists l s', ustep E s l s' /\ (l = UStart c j \/ l = UFail c j)).
Proof. exact (fun M H => conj (goes_on E s c M H) (fun Ha j => starts_any E s c j H Ha)). Qed.
Print Assumptions C105_goes_on_partial.
Theorem C105_ends_partial E ids ps a ls s c : wired E ids ps -> Forall (fun p => ~ turns_up p) (e_procs E) -> urun E (new_climb a) ls s ->
  Forall (inside ids) (jobs_of c ls) -> steps_of c ls <= (2 * length ids + 4) * length (jobs_of c ls).
Proof. exact (fun W NT => bounded E ids ps W NT a ls s c). Qed.
Print Assumptions C105_ends_partial.

(** In every state a run reaches, a goroutine's call can be finished by its own steps alone; and from the start any goroutines can all be inside at once. *)
Theorem C105_finish_partial E ids ps a ls s c : wired E ids ps -> memoryless E -> Forall (fun p => ~ turns_up p) (e_procs E) -> urun E (new_climb a) ls s ->
  Forall (inside ids) (jobs_of c ls) ->
  exists ms s', urun E s ms s' /\ Forall (fun l => whose l = c /\ is_start l = false) ms /\ (u_at s' c = None \/ u_dead s' = true).
Proof. exact (finish_alone E ids ps a ls s c). Qed.
Print Assumptions C105_finish_partial.
Theorem C105_all_start_partial E a (cs : list (nat * job)) : NoDup cs.*1 -> Forall (fun y => first_call E y.2 <> None) cs ->
  exists s, urun E (new_climb a) ((fun y => UStart y.1 y.2) <$> cs) s /\ u_dead s = false /\ u_st s = a /\ forall c, u_at s c <> None <-> c ∈ cs.*1.
Proof. exact (all_start E a cs). Qed.
Print Assumptions C105_all_start_partial.

(** What each step needs and changes. *)
Theorem C105_needs_partial E s l s' : ustep E s l s' ->
  u_dead s = false /\ (u_at s (whose l) = None <-> is_start l = true) /\ (forall c, c <> whose l -> u_at s' c = u_at s c) /\
  (u_dead s' = true <-> is_crash l = true) /\ (is_crash l = false -> u_at s' (whose l) = None <-> exists c, l = UEnd c) /\
  (forall c j, l = UStart c j -> u_st s' = u_st s /\ u_log s' = u_log s /\ u_at s' c = first_call E j) /\ (forall c j, l = UFail c j -> first_call E j = None).
Proof. exact (needs E s l s'). Qed.
Print Assumptions C105_needs_partial.

(** A frame decoder keeps bytes: after the beginning of a message that fills its cache on connection 1, the message [y] on connection 2 is lost. *)
Theorem C105_frame_refuted x x' y : let E := ex_env [on KBytes; on (KFrame (Some (OInt 6)))] 64 [0]%Z false in
  exists a1 s1 s2,
    finishes (fun f => receive f E 1 [0; 0; 0; 9; x; x']%Z (started E)) (started E) [] a1 /\
    finishes (fun f => receive f E 2 [0; 0; 0; 1; y]%Z (started E)) (started E) [ODeliver 0 (Some 2) (MBytes [y])] s1 /\
    finishes (fun f => receive f E 2 [0; 0; 0; 1; y]%Z a1) a1 [] s2.
Proof.
  intros E. do 3 eexists. split; [|split]; (eapply (finishes_by _ _ _ _ _ _ _ 9); [vm_compute; reflexivity|vm_compute; reflexivity]).
Qed.
Print Assumptions C105_frame_refuted.
(** A StatCounter keeps a count: what it answers connection 2 tells what arrived on connection 1. *)
Theorem C105_counter_refuted x : let E := ex_env [on KBytes; on KStat] 64 [0]%Z false in
  exists a1 s1 s2,
    finishes (fun f => receive f E 1 [0%Z; x] (started E)) (started E) [ODeliver 0 (Some 1) (MBytes [x])] a1 /\
    finishes (fun f => receive f E 2 [16]%Z (started E)) (started E) [OWire 2 (35%Z :: replicate 16 0%Z ++ [110; 97]%Z)] s1 /\
    finishes (fun f => receive f E 2 [16]%Z a1) a1 [OWire 2 (35%Z :: replicate 15 0%Z ++ [1; 110; 97]%Z)] s2.
Proof.
  intros E. do 3 eexists. split; [|split]; (eapply (finishes_by _ _ _ _ _ _ _ 9); [vm_compute; reflexivity|vm_compute; reflexivity]).
Qed.
Print Assumptions C105_counter_refuted.

(** A stack that keeps nothing; a message on connection 1 and one on connection 2 are inside it together with a heartbeat on connection 3. *)
Definition cl_ps : list proc := [on KSession; on KHeartbeat; off KStat; off KLoadBalancer].
Definition clE : env := ex_env (on KBytes :: cl_ps) 64 [0; 7]%Z false.
Example C105_ex_memoryless : memoryless clE /\ Forall (fun p => ~ turns_up p) (e_procs clE).
Proof. split; [split; [repeat constructor|split; done]|repeat constructor; done]. Qed.
Ltac call_step := eapply urun_cons; [eapply uk_call; [vm_compute; reflexivity|eapply calls_up; [vm_compute; reflexivity|intros; vm_compute; reflexivity]]|].
Ltac end_step := eapply urun_cons; [eapply (uk_end _ _ _ _ _ _ _ _ _ _); [vm_compute; reflexivity|first [eapply ends_proc; [vm_compute; reflexivity|intros; vm_compute; reflexivity]|refine (ends_upper _ _ _)|refine (ends_lower _ _ _)]|vm_compute; reflexivity]|].
Ltac turn_step := eapply urun_cons; [eapply uk_call; [vm_compute; reflexivity|eapply calls_down; [vm_compute; reflexivity|intros; vm_compute; reflexivity]]|].
Ltac read_step := eapply urun_cons; [eapply uk_start; [reflexivity|vm_compute; reflexivity]|].
Example C105_example : exists s, let w l := wire_of 7 cl_ps l in
  urun clE (new_climb (started clE))
    ([UStart 1 (JRead 1 (w [5; 6]%Z)); UStart 2 (JRead 2 (w [8]%Z)); UCall 1; UCall 2; UCall 2; UStart 3 (JRead 3 [0; 0; 131]%Z)] ++
     [UCall 3; UCall 1; UCall 2; UCall 3; UCall 2; UEnd 3; UCall 1; UCall 2; UEnd 2; UCall 1; UCall 1; UEnd 1]) s /\
  u_at s 1 = None /\ u_at s 2 = None /\ u_at s 3 = None /\
  u_log s = [(3, ORefresh 2 3); (2, ODeliver 7 (Some 2) (MBytes [8]%Z)); (1, ODeliver 7 (Some 1) (MBytes [5; 6]%Z))].
Proof.
  eexists. intros w. split.
  { simpl app. do 2 read_step. do 3 call_step. read_step. do 5 call_step. end_step. do 2 call_step. end_step. do 2 call_step. end_step. apply ur_nil. }
  vm_compute. done.
Qed.
(** The hypotheses of the theorem about whole messages hold there. *)
Example C105_ex_messages : let arr := [Letter 7 (MBytes [5; 6]%Z) [5; 6]%Z; Letter 0 (MBytes [8]%Z) [8]%Z] in
  wired clE (seq 0 5) ([] ++ Proc KBytes true :: cl_ps) /\ Forall (fun p => carries p = true) cl_ps /\ (e_mtu clE < 2^32)%Z /\
  Forall (fun y => decodes KBytes (StackSpec.le_bytes y) (le_msg y) /\ StackSpec.le_bytes y <> [] /\
    (Z.of_nat (length (wire_of (le_sess y) cl_ps (StackSpec.le_bytes y))) <= e_mtu clE)%Z) arr.
Proof. split; [apply (ex_wired (on KBytes :: cl_ps))|]. split; [repeat constructor|]. split; [done|]. repeat constructor; done. Qed.
(** An echo: what connection 1 sent is written back to it while connection 2's message passes the same processors; and a chunk that crashes a stack with a filter that is a nil function. *)
Definition ecE : env := ex_env [on KBytes; on KEcho; on KSession] 64 [0; 7]%Z false.
Example C105_example_echo : memoryless ecE /\ exists s,
  urun ecE (new_climb (started ecE))
    [UStart 1 (JRead 1 [0; 0; 0; 7; 5]%Z); UCall 1; UStart 2 (JRead 2 [0; 0; 0; 0; 6; 6]%Z); UCall 1; UCall 2; UCall 1; UCall 2; UCall 2; UEnd 2; UEnd 1] s /\
  u_log s = [(2, OWire 2 [0; 0; 0; 0; 6; 6]%Z); (1, OWire 1 [0; 0; 0; 7; 5]%Z)].
Proof.
  split; [split; [repeat constructor|split; done]|]. eexists. split.
  { read_step. call_step. read_step. turn_step. call_step. turn_step. turn_step. turn_step. end_step. end_step. apply ur_nil. }
  vm_compute. done.
Qed.
Example C105_example_crash : let E := ex_env [on KBytes; on (KFilter [None])] 64 [0]%Z false in memoryless E /\ exists s s',
  urun E (new_climb (started E)) [UStart 1 (JRead 1 [5]%Z); UStart 2 (JRead 2 [6]%Z)] s /\ ustep E s (UCrash 2) s'.
Proof.
  intros E. split; [split; [repeat constructor|split; done]|]. do 2 eexists. split.
  { do 2 read_step. apply ur_nil. }
  eapply uk_crash; [vm_compute; reflexivity|]. eapply ends_proc; [vm_compute; reflexivity|intros; vm_compute; reflexivity].
Qed.
(** An endpoint's message and a heartbeat of the stack's own go down while a message comes up. *)
Example C105_example_both : exists s,
  urun clE (new_climb (started clE))
    ([UStart 1 (JRead 1 (wire_of 7 cl_ps [5]%Z)); UStart 10 (JSend 7 None (Some 1) (Some (MBytes [9]%Z))); UStart 20 (JSelf 2 131%Z 1); UCall 1; UCall 10; UCall 20; UCall 10; UCall 1] ++
     [UCall 20; UCall 10; UEnd 20; UCall 10; UCall 10; UCall 1; UCall 1; UCall 1; UEnd 10; UEnd 1]) s /\
  u_log s = [(20, OWire 1 [0; 0; 131]%Z); (10, OWire 1 [0; 0; 0; 0; 0; 0; 7; 9]%Z); (1, ODeliver 7 (Some 1) (MBytes [5]%Z))] /\
  Forall (inside (seq 0 5)) (jobs_of 20 [UStart 20 (JSelf 2 131%Z 1)]).
Proof.
  eexists. split.
  { simpl app. do 3 read_step. call_step. do 3 turn_step. call_step. do 2 turn_step. end_step. do 2 turn_step. do 3 call_step. end_step. end_step. apply ur_nil. }
  split; [vm_compute; done|]. repeat constructor.
Qed.
(** Its hypotheses for what an endpoint sends. *)
Example C105_ex_sends : Forall (fun p => sends_on p = true) cl_ps /\
  Forall (fun y : Z * option Z * msg * list byte => encodes KBytes y.1.2 y.2 /\ y.2 <> [] /\ (Z.of_nat (length y.2) <= e_mtu clE - e_overhead clE)%Z)
    [(7%Z, None, MBytes [9]%Z, [9]%Z)].
Proof. split; [repeat constructor|]. repeat constructor; done. Qed.
(** Objects of two reference connections, and one that is sent, in the same processors. *)
Definition orE : env := ex_env [on KHeartbeat; off KStat; on KLoadBalancer] 64 [0]%Z true.
Example C105_example_objects : memoryless orE /\ Forall (fun p => passes_reference p = true) (e_procs orE) /\ (0%Z ∈ e_sessions orE) /\ exists s,
  urun orE (new_climb (started orE))
    [UStart 1 (JRef 1 (MStr [5]%Z)); UStart 2 (JRef 2 (MStr [6]%Z)); UStart 3 (JSend 7 None (Some 1) (Some (MStr [8]%Z)));
     UCall 1; UCall 2; UCall 2; UCall 3; UCall 3; UCall 2; UEnd 2; UCall 1; UCall 3; UCall 1; UEnd 3; UEnd 1] s /\
  u_log s = [(2, ODeliver 0 (Some 2) (MStr [6]%Z)); (3, ORef 1 (MStr [8]%Z)); (1, ODeliver 0 (Some 1) (MStr [5]%Z))].
Proof.
  split; [split; [repeat constructor|split; done]|]. split; [repeat constructor|]. split; [apply elem_of_list_here|]. eexists. split.
  { do 3 read_step. do 3 call_step. do 2 turn_step. call_step. end_step. call_step. turn_step. call_step. end_step. end_step. apply ur_nil. }
  vm_compute. done.
Qed.
