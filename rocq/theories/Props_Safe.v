(** * C75: bytes from the network and the life of the program *)
From Verif Require Import GoBase UBufModel UBufSpec FrameModel FrameSpec StackModel StackSpec SafeSpec SafeProofs Props_Stack.

(** ** C75 *)
(** Refuted, for every stack with a frame decoder at the bottom: four zero bytes
    at the front of a chunk end the program before anything is shown. *)
Theorem C75_zero_field_refuted E ids ps cap c x s :
  wired E ids (ps ++ [Proc (KFrame cap) true]) -> legal_mtu E -> e_isref E c = false ->
  chunk E ([0; 0; 0; 0]%Z ++ x) -> ready E (spare_cache (e_mtu E)) s ->
  crashes (fun f => receive f E c ([0; 0; 0; 0]%Z ++ x) s) s [].
Proof. exact (zero_chunk E ids ps cap c x s). Qed.
Print Assumptions C75_zero_field_refuted.

(** Whatever the caches hold, the reception of a chunk ends: normally, or, if
    there is an enabled frame decoder, in a crash. *)
Theorem C75_returns_partial E ids ps c l s :
  wired E ids ps -> Forall sturdy ps -> legal_mtu E -> e_isref E c = false ->
  chunk E l -> ready E any_cache s ->
  (exists outs s', finishes (fun f => receive f E c l s) s outs s' /\ ready E any_cache s') \/
  (existsb framing ps = true /\ exists outs, crashes (fun f => receive f E c l s) s outs).
Proof. exact (receive_returns E ids ps c l s). Qed.
Print Assumptions C75_returns_partial.

(** Without an enabled frame decoder any inputs, in any order, on any
    connections, end normally. *)
Theorem C75_no_decoder_partial E ids ps js s :
  wired E ids ps -> Forall sturdy ps -> Forall (fun p => turns_round p = false) ps -> legal_mtu E ->
  existsb framing ps = false -> Forall (input_ok E ids) js -> ready E any_cache s ->
  exists outs s', finish_all (feed E <$> js) s outs s' /\ ready E any_cache s'.
Proof.
  intros Wd St Tr Hm Hf Hok. apply (feed_any E ids ps (fun _ => True)); try done; [|by apply Forall_true].
  intros c l s0 Hc Hl _ R. destruct (receive_returns E ids ps c l s0) as [H|[H _]]; try done. congruence.
Qed.
Print Assumptions C75_no_decoder_partial.

(** With frame decoders of the default capacity the same holds from Run on, as
    long as no chunk contains four zero bytes in a row. *)
Theorem C75_no_zero_field_partial E ids ps js s :
  wired E ids ps -> Forall sturdy ps -> Forall (fun p => turns_round p = false) ps -> legal_mtu E ->
  default_caches E -> init_st E = Some s -> Forall (input_ok E ids) js -> Forall harmless js ->
  exists outs s', finish_all (feed E <$> js) s outs s' /\ ready E (spare_cache (e_mtu E)) s'.
Proof.
  intros Wd St Tr Hm Hd Hs Hok Hh. eapply (feed_any E ids ps harmless); try done.
  - intros c l s0 Hc Hl Hz R. by apply (receive_clean E ids ps).
  - by eapply init_ready.
Qed.
Print Assumptions C75_no_zero_field_partial.

(** ** Examples *)
Definition ex_dec (b : vbuf) : res vbuf (option msg * bool) :=
  match v_readbyte b with
  | Ok (z, None) b' => Ok (Some (MBytes [z]), false) b'
  | Ok (_, Some _) b' => Ok (None, true) b'
  | Panic b' => Panic b'
  end.
Definition ex_enc (m : msg) (b : vbuf) : res vbuf bool :=
  match m with
  | MBytes l => match v_write l b with Ok (_, e) b' => Ok (match e with Some _ => true | None => false end) b' | Panic b' => Panic b' end
  | _ => Ok true b
  end.
Definition ex_safe : list proc :=
  [on (KGeneric (Some ex_enc) (Some ex_dec)); on (KFilter [Some ex_short]); on KStat; on KSession; on KHeartbeat].
Definition exS : env := ex_env ex_safe 64 [0; 7]%Z false.
Example ex_sturdy : Forall sturdy (ex_safe ++ [on (KFrame None)]).
Proof.
  repeat (apply Forall_cons; split); try done; try (intros _; exact I).
  - intros _. split.
    + intros enc m b [= <-] W. destruct m as [l|l|]; simpl; try by eexists _, _.
      destruct (write_any l b W) as ([n e] & b' & -> & W'). by eexists _, _.
    + intros de b [= <-] W. unfold ex_dec. destruct (readbyte_any b W) as ([z [e|]] & b' & -> & W' & B); by eexists _, _.
  - intros _. simpl. by constructor.
Qed.
(** A request for statistics, rubbish, an empty chunk, a heartbeat of our own, a
    message: everything returns. *)
Definition ex_inputs : list input :=
  [InBytes 3 [131]%Z; InBytes 3 [0; 0; 0; 0; 7; 16]%Z; InBytes 4 [0; 0; 0; 0; 0; 0; 0; 0]%Z; InBytes 4 [];
   InSelf 4 131%Z 3; InSend 7 None 3 (Some (MBytes [1; 2]%Z)); InBytes 3 [255; 1; 2]%Z].
Example C75_example_no_decoder :
  exists outs s', finish_all (feed exS <$> ex_inputs) (started exS) outs s' /\ ready exS any_cache s'.
Proof.
  apply (C75_no_decoder_partial exS (seq 0 5) ex_safe); try done.
  - apply (ex_wired ex_safe).
  - pose proof ex_sturdy as H. rewrite Forall_app in H. apply H.
  - repeat constructor.
  - repeat (apply Forall_cons; split); try done; try (split; [done|]);
      try (split; [repeat constructor; unfold byte_ok; lia|vm_compute; discriminate]). apply elem_of_seq. lia.
  - split; [done|]. intros i cap Hi. do 5 (destruct i as [|i]; [done|]). done.
Qed.
Example C75_example_stat :
  outs_of (receive 20 exS 3 [0; 0; 0; 0; 7; 16]%Z (started exS)) =
    Some [OWire 3 ([0; 0; 0; 0; 7; 35] ++ replicate 16 0 ++ [110; 97])%Z].
Proof. vm_compute. reflexivity. Qed.

Definition exD : env := ex_env (ex_safe ++ [on (KFrame None)]) 64 [0; 7]%Z false.
Definition ex_harmless : list input :=
  [InBytes 3 [0; 0; 0; 1; 131; 0; 0; 0; 9]%Z; InBytes 3 [255; 255; 255; 255]%Z; InBytes 4 [0; 0; 0]%Z; InBytes 4 [0; 0; 0]%Z;
   InSend 7 None 3 (Some (MBytes [1]%Z))].
Example C75_example_no_zero :
  exists outs s', finish_all (feed exD <$> ex_harmless) (started exD) outs s' /\ ready exD (spare_cache 64) s'.
Proof.
  apply (C75_no_zero_field_partial exD (seq 0 6) (ex_safe ++ [on (KFrame None)])); try done.
  - apply (ex_wired (ex_safe ++ [on (KFrame None)])).
  - apply ex_sturdy.
  - repeat constructor.
  - intros i cap en Hi. do 6 (destruct i as [|i]; [by injection Hi|]). done.
  - repeat (apply Forall_cons; split); try done; try (split; [done|]);
      try (split; [repeat constructor; unfold byte_ok; lia|vm_compute; discriminate]).
  - assert (forall l : list byte, length l < 10 ->
      (forall n, n < 10 -> take 4 (drop n l) <> [0; 0; 0; 0]%Z) -> ~ zero_field l) as H.
    { intros l Hl Hn (a & b & ->). rewrite !app_length in Hl. simpl in Hl. apply (Hn (length a)); [lia|].
      by rewrite drop_app. }
    repeat (apply Forall_cons; split); try done; (apply H; [simpl; lia|]; intros n Hn;
      do 10 (destruct n as [|n]; [done|]); lia).
Qed.
Example C75_example_zero :
  crashed (receive 20 exD 3 [0; 0; 0; 0]%Z (started exD)) = true /\
  crashes (fun f => receive f exD 3 ([0; 0; 0; 0]%Z ++ [5]%Z) (started exD)) (started exD) [].
Proof.
  split; [by vm_compute|]. apply (C75_zero_field_refuted exD (seq 0 6) ex_safe None); try done.
  - apply (ex_wired (ex_safe ++ [on (KFrame None)])).
  - split; [repeat constructor; unfold byte_ok; lia|vm_compute; discriminate].
  - split; [done|]. intros i cap Hi. do 5 (destruct i as [|i]; [done|]). destruct i as [|i]; [|done].
    eexists. split; [reflexivity|]. exists 128. split; [|done]. by vm_compute.
Qed.
