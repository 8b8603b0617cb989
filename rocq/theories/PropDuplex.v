(** C95: reading and writing a stream at the same time. *)
From Verif Require Import DuplexProofs.
Local Open Scope Z_scope.

(** C95.  While a read waits for data no write makes progress, however often it is polled and whatever arrives: nothing is sent and no operation is started. *)
Theorem C95_blocked_refuted : forall l t rs t', t_lock t = Some SlRead -> t_slot t SlWrite = None \/ (exists o b, t_slot t SlWrite = Some (Waiting o b)) ->
  Forall (fun a => match a with PollWrite _ _ | Arrive _ => True | _ => False end) l -> acts l t = (rs, t') ->
  Forall2 (fun a r => match a with PollWrite _ _ => r = Pending | _ => True end) l rs /\ t_begun t' = t_begun t /\ w_sent (wd (t_st t')) = w_sent (wd (t_st t)).
Proof. intros l t rs t' HL HW HF H. destruct (writes_pend l t rs t' HF HL HW H) as (H1 & _ & _ & H2 & _ & _ & H3 & _). auto. Qed.
Print Assumptions C95_blocked_refuted.
(** So a client that first reads, then asks, never asks: the read holds the socket until the timer has expired as often as it may; that closes the connection and the write fails.  For every
    connection with nothing under way. *)
Theorem C95_starved_refuted : forall buf d g g' ks s, s_state (sk s) = Connected -> s_pending_data (sk s) = [] -> s_incoming_buffer (sk s) = [] -> s_send_window (sk s) = [] -> s_unsent_queue (sk s) = [] ->
  0 < s_max_retries (sk s) -> w_in (wd s) = [] -> Forall (fun k => k = KTimedOut \/ k = KWouldBlock) ks -> Z.of_nat (length ks) = s_max_retries (sk s) ->
  0 <= s_congestion_timeout (sk s) -> s_congestion_timeout (sk s) * 2 ^ Z.of_nat (length ks) < 2 ^ 64 -> (forall i, w_send (wd s) i = SendOk) ->
  fst (acts [PollRead buf true; PollWrite d g; Arrive (map RxErr ks); PollWrite d g'; PollRead buf true; PollWrite d true] (stream_new s)) =
  [Pending; Pending; Ready (Ok SvUnit); Pending; Ready (Err KTimedOut); Ready (Err KNotConnected)].
Proof.
  intros buf d g g' ks s H1 H2 H3 H4 H5 H6 HI HK HM HT0 HT HX. apply starved; auto; [unfold idle; auto 10| |right; auto].
  eapply Forall_impl; [|exact HK]. intros k [-> | ->]; reflexivity.
Qed.
Print Assumptions C95_starved_refuted.
(** Once the read is over the socket is free, and a write that was waiting returns what the socket returns. *)
Theorem C95_after_partial : forall buf g t r t1 d, poll_read buf g t = (Ready r, t1) -> t_slot t1 SlWrite = None \/ t_slot t1 SlWrite = Some (Waiting (OSendTo d) []) ->
  fst (poll_write d true t1) = match fst (send_to d (t_st t1)) with Ret n => Ready (Ok (SvLen n)) | Fail (Throw k) => Ready (Err k) | Fail (Panic l) => Crash (InSocket l) | Fail _ => Pending end.
Proof. intros buf g t r t1 d H HW. apply write_runs; [eapply read_releases; exact H|exact HW]. Qed.
Print Assumptions C95_after_partial.

(** A connection that meets the hypotheses; and one where the data comes in time. *)
Example C95_example : let s := accepted true 500 10 [] in reachable s /\ s_state (sk s) = Connected /\ s_max_retries (sk s) = 5 /\ s_congestion_timeout (sk s) = 1000 /\
  fst (acts [PollRead [x00; x00] true; PollWrite [x41] true; Arrive (repeat (RxErr KTimedOut) 5); PollWrite [x41] true; PollRead [x00; x00] true; PollWrite [x41] true] (stream_new s)) =
    [Pending; Pending; Ready (Ok SvUnit); Pending; Ready (Err KTimedOut); Ready (Err KNotConnected)] /\
  fst (acts [PollRead [x00; x00] true; PollWrite [x41] true; Arrive [rx_pkt (dgram PData 101 11 499 [x42])]; PollWrite [x41] true; PollRead [x00; x00] true; PollWrite [x41] true] (stream_new s)) =
    [Pending; Pending; Ready (Ok SvUnit); Pending; Ready (Ok (SvRead 1 [x42; x00])); Ready (Ok (SvLen 1))].
Proof. cbv zeta. split; [apply accepted_reachable; vm_compute; reflexivity|]. vm_compute. auto 10. Qed.
