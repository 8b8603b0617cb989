(** C22, C23, C24, C26, C52: what does hold, or fails for every state, of the claims that are false as they stand. *)
From Verif Require Import LostProofs ProvProofs LossProofs StreamOrderProofs.
Require Import Lia.
Local Open Scope Z_scope.

Notation to_server sq pl := (rx_pkt (dgram PData 101 sq 499 pl)).

(** ** C22 *)
(** Whatever is called, every block of bytes handed out is a piece of the payload of one data packet that arrived.
    The connection id of that packet is not constrained: see [C22_foreign_data_refuted]. *)
Theorem C22_provenance_partial : forall ops s d src, reachable s -> s_incoming_buffer (sk s) = [] -> s_pending_data (sk s) = [] ->
  In (Ret (VData d src)) (fst (run_ops ops s)) -> d <> [] ->
  exists e p pre post, In e (w_in (wd s)) /\ delivers e p /\ get_type p = Some PData /\ payload p = Some (pre ++ d ++ post).
Proof. exact run_ops_provenance. Qed.
Print Assumptions C22_provenance_partial.
Notation c22_start := (accepted true 500 10 [rx_pkt (dgram PState 101 11 499 []); to_server 11 [x41; x42; x43]; rx_pkt (dgram PData 777 12 499 [x44])]).
Example C22_provenance_example : reachable c22_start /\ s_incoming_buffer (sk c22_start) = [] /\ s_pending_data (sk c22_start) = [] /\
  fst (run_ops [ORecvFrom 2; ORecvFrom 2; ORecvFrom 2] c22_start) = [Ret (VData [x41; x42] peer); Ret (VData [x43] peer); Ret (VData [x44] peer)].
Proof. split; [apply accepted_reachable; vm_compute; reflexivity|]. vm_compute. auto. Qed.

(** ** C23 *)
(** On an accepted connection that only reads: nothing from a packet that did not arrive on is delivered. *)
Theorem C23_not_delivered_partial : forall a chunks s ns i,
  0 <= a -> a + Z.of_nat (length chunks) + 1 < 65535 -> Forall (fun c => c <> []) chunks ->
  reader_at a s -> all_sends_succeed s ->
  Forall (from_stream a chunks (s_sender_connection_id (sk s)) (s_receiver_connection_id (sk s))) (w_in (wd s)) ->
  Forall (fun n => 0 < n)%nat ns -> (i < length chunks)%nat -> ~ arrived a chunks (w_in (wd s)) i ->
  prefix_of (bytes_read (fst (run_ops (map ORecvFrom ns) s))) (concat (firstn i chunks)).
Proof. exact reader_not_skipped. Qed.
Print Assumptions C23_not_delivered_partial.
Notation c23_script := [to_server 12 [x43]; to_server 14 [x47]; timeout; to_server 11 [x41; x42]].
Example C23_not_delivered_example : reader_at 10 (accepted true 500 10 c23_script) /\ all_sends_succeed (accepted true 500 10 c23_script) /\
  Forall (from_stream 10 [[x41; x42]; [x43]; [x44; x45; x46]; [x47]] (s_sender_connection_id (sk (accepted true 500 10 c23_script))) (s_receiver_connection_id (sk (accepted true 500 10 c23_script)))) c23_script /\
  bytes_read (fst (run_ops (map ORecvFrom [1; 9; 4; 4]%nat) (accepted true 500 10 c23_script))) = [x41; x42; x43].
Proof. split; [vm_compute; auto 10|]. split; [intros i; reflexivity|]. split; [apply events_sound; vm_compute; reflexivity|vm_compute; reflexivity]. Qed.

(** Whatever is called, sent and received besides, with any packets from anyone: as long as no datagram carries the
    number [q], every acknowledgement sent lies in front of [q], across the wrap too.  The reads offer room for a whole packet. *)
Theorem C23_not_acknowledged_partial : forall ops s q, reachable s -> s_state (sk s) <> New -> s_state (sk s) <> SynSent ->
  s_pending_data (sk s) = [] -> s_incoming_buffer (sk s) = [] -> s_send_window (sk s) = [] -> s_unsent_queue (sk s) = [] ->
  0 <= q < 65536 -> q <> s_ack_nr (sk s) ->
  (forall e p, In e (w_in (wd s)) -> delivers e p -> seq_nr p <> q) ->
  Forall (fun o => match o with ORecvFrom n => (1500 <= n)%nat | _ => True end) ops ->
  let s' := snd (run_ops ops s) in
  let before z := (z - s_ack_nr (sk s)) mod 65536 < (q - s_ack_nr (sk s)) mod 65536 in
  before (s_ack_nr (sk s')) /\
  exists new, w_sent (wd s') = w_sent (wd s) ++ new /\ Forall (fun x => before (ack_nr (snd x))) new.
Proof. exact never_acknowledged. Qed.
Print Assumptions C23_not_acknowledged_partial.
Notation c23_lost := (accepted true 500 10 [to_server 11 [x41]; to_server 13 [x43]; to_server 14 [x44]; timeout; to_server 15 [x45]; rx_pkt (dgram PState 101 16 500 [])]).
Example C23_not_acknowledged_example : reachable c23_lost /\ s_state (sk c23_lost) = Connected /\ s_pending_data (sk c23_lost) = [] /\ s_incoming_buffer (sk c23_lost) = [] /\
  s_send_window (sk c23_lost) = [] /\ s_unsent_queue (sk c23_lost) = [] /\ s_ack_nr (sk c23_lost) = 10 /\
  map (fun x => (get_type (snd x), ack_nr (snd x))) (w_sent (wd (snd (run_ops [OSendTo [x58]; OFlush] c23_lost)))) =
    [(Some PState, 10); (Some PData, 10); (Some PState, 11); (Some PState, 11); (Some PState, 11); (Some PData, 10); (Some PState, 11)] /\
  s_ack_nr (sk (snd (run_ops [OSendTo [x58]; OFlush] c23_lost))) = 11.
Proof. split; [apply accepted_reachable; vm_compute; reflexivity|]. vm_compute. auto 10. Qed.

(** ** C24 *)
(** Not just in one run: in every state with an unacknowledged packet and nothing buffered, flush and close throw away the
    next data packet and acknowledge it.  They go on as from a state [s1] that has the packet's number and not its bytes. *)
Theorem C24_every_flush_refuted : forall d src rest p pl s, reachable s ->
  w_in (wd s) = RxDgram d src :: rest -> 0 < s_max_retries (sk s) -> s_send_window (sk s) <> [] -> tx_ok (rx_state s) = true ->
  s_state (sk s) = Connected -> s_pending_data (sk s) = [] -> s_incoming_buffer (sk s) = [] -> s_last_dropped (sk s) <> seq_nr p ->
  packet_try_from (firstn 1520 d) = Some (Ok p) -> get_type p = Some PData -> payload p = Some pl -> own_id (sk s) p ->
  (seq_nr p - s_ack_nr (sk s)) mod 65536 = 1 -> seq_nr p < 65535 ->
  exists s1, flush s = flush s1 /\ close s = close s1 /\ s_pending_data (sk s1) = [] /\ s_incoming_buffer (sk s1) = [] /\ s_ack_nr (sk s1) = seq_nr p /\ w_in (wd s1) = rest /\
    exists r, w_sent (wd s1) = w_sent (wd s) ++ [(src, r)] /\ get_type r = Some PState /\ ack_nr r = seq_nr p.
Proof. exact flush_discards. Qed.
Print Assumptions C24_every_flush_refuted.
(** A packet ahead of the next one is kept: it goes to the reorder buffer. *)
Theorem C24_ahead_partial : forall d src rest p s, reachable s ->
  w_in (wd s) = RxDgram d src :: rest -> 0 < s_max_retries (sk s) -> s_send_window (sk s) <> [] -> tx_ok (rx_state s) = true ->
  s_state (sk s) = Connected -> drained (sk s) -> s_last_dropped (sk s) <> seq_nr p ->
  packet_try_from (firstn 1520 d) = Some (Ok p) -> get_type p = Some PData -> own_id (sk s) p ->
  seq_nr p <> s_ack_nr (sk s) -> (seq_nr p - s_ack_nr (sk s)) mod 65536 <> 1 -> s_ack_nr (sk s) < 65535 ->
  exists s1, flush s = flush s1 /\ close s = close s1 /\ w_in (wd s1) = rest /\ s_ack_nr (sk s1) = s_ack_nr (sk s) /\
    (exists p', In p' (s_incoming_buffer (sk s1)) /\ seq_nr p' = seq_nr p /\ (p' = p \/ In p' (s_incoming_buffer (sk s)))) /\
    (forall p', In p' (s_incoming_buffer (sk s)) -> In p' (s_incoming_buffer (sk s1))).
Proof. exact flush_stores. Qed.
Print Assumptions C24_ahead_partial.
Notation c24_waiting evs := (snd (run_ops [OSendTo [x58]] (accepted true 500 10 evs))).
Lemma c24_reachable evs : fst (run_ops [OSendTo [x58]] (accepted true 500 10 evs)) = [Ret (VLen 1)] -> reachable (c24_waiting evs).
Proof. intros H. apply ran_reachable; [apply accepted_reachable; vm_compute; reflexivity|]. rewrite H. reflexivity. Qed.
Example C24_more_example : let s := c24_waiting [to_server 11 [x41]] in let t := c24_waiting [to_server 12 [x42]; rx_pkt (dgram PState 101 13 500 []); to_server 11 [x41]] in
  reachable s /\ reachable t /\ length (s_send_window (sk s)) = 1%nat /\ length (s_send_window (sk t)) = 1%nat /\ s_max_retries (sk s) = 5 /\ tx_ok (rx_state s) = true /\ tx_ok (rx_state t) = true /\
  s_state (sk s) = Connected /\ s_last_dropped (sk s) = 10 /\ s_ack_nr (sk s) = 10 /\ s_pending_data (sk s) = [] /\ s_incoming_buffer (sk s) = [] /\
  fst (run_ops [OFlush; ORecvFrom 9] s) = [Fail Pend; Fail Pend] /\
  fst (run_ops [OFlush; ORecvFrom 9; ORecvFrom 9] t) = [Ret VUnit; Ret (VData [x41] peer); Ret (VData [x42] peer)].
Proof. cbv zeta. split; [apply c24_reachable; vm_compute; reflexivity|]. split; [apply c24_reachable; vm_compute; reflexivity|]. vm_compute. auto 20. Qed.

(** ** C26 *)
(** On an accepted connection that only reads: when a read reports the end, everything in front of the first packet that
    has not arrived has been delivered.  So it is complete if every packet arrived. *)
Theorem C26_complete_partial : forall a chunks s ns n s1 src s2,
  0 <= a -> a + Z.of_nat (length chunks) + 1 < 65535 -> Forall (fun c => c <> []) chunks ->
  reader_at a s -> all_sends_succeed s ->
  Forall (from_stream a chunks (s_sender_connection_id (sk s)) (s_receiver_connection_id (sk s))) (w_in (wd s)) ->
  ~ duplicated a chunks (w_in (wd s)) -> Forall (fun n => 0 < n)%nat ns -> (0 < n)%nat ->
  existsb panicked (fst (run_ops (map ORecvFrom ns) s)) = false -> s1 = snd (run_ops (map ORecvFrom ns) s) -> recv_from n s1 = (Ret ([], src), s2) ->
  exists es d, w_in (wd s) = es ++ w_in (wd s2) /\ bytes_read (fst (run_ops (map ORecvFrom ns) s)) = concat (firstn d chunks) /\
    (d <= length chunks)%nat /\ (forall j, (j < d)%nat -> arrived a chunks es j) /\ ((d < length chunks)%nat -> ~ arrived a chunks es d).
Proof. exact reader_ended. Qed.
Print Assumptions C26_complete_partial.
Notation c26_script := [to_server 12 [x43]; to_server 11 [x41; x42]; rx_pkt (dgram PFin 101 13 499 [])].
Example C26_complete_example : reader_at 10 (accepted true 500 10 c26_script) /\ all_sends_succeed (accepted true 500 10 c26_script) /\
  Forall (from_stream 10 [[x41; x42]; [x43]] (s_sender_connection_id (sk (accepted true 500 10 c26_script))) (s_receiver_connection_id (sk (accepted true 500 10 c26_script)))) c26_script /\
  ~ duplicated 10 [[x41; x42]; [x43]] c26_script /\
  fst (run_ops (map ORecvFrom [1; 1; 4; 4]%nat) (accepted true 500 10 c26_script)) = [Ret (VData [x41] peer); Ret (VData [x42] peer); Ret (VData [x43] peer); Ret (VData [] peer)].
Proof.
  split; [vm_compute; auto 10|]. split; [intros i; reflexivity|]. split; [apply events_sound; vm_compute; reflexivity|].
  split; [apply distinct_sound; [cbn; lia|vm_compute; reflexivity]|]. vm_compute; reflexivity.
Qed.

(** ** C52 *)
(** In every state after a reset, with a network that takes datagrams and delivers none, close does not return.  With
    nothing unacknowledged it sends a FIN first. *)
Theorem C52_every_close_refuted : forall s, s_state (sk s) = ResetReceived -> w_in (wd s) = [] -> 0 < s_max_retries (sk s) -> tx_ok s = true ->
  exists s', close s = (Fail Pend, s') /\
    match s_send_window (sk s) with
    | [] => s_state (sk s') = FinSent /\ exists r, w_sent (wd s') = w_sent (wd s) ++ [(s_connected_to (sk s), r)] /\ get_type r = Some PFin /\ seq_nr r = u16 (s_seq_nr (sk s))
    | _ => s' = s
    end.
Proof. exact close_reset. Qed.
Print Assumptions C52_every_close_refuted.
Notation c52_start := (snd (run_ops [ORecvFrom 9] (accepted true 500 10 [rx_pkt (dgram PReset 101 11 499 [])]))).
Example C52_every_close_example : reachable c52_start /\ s_state (sk c52_start) = ResetReceived /\ w_in (wd c52_start) = [] /\ s_max_retries (sk c52_start) = 5 /\ tx_ok c52_start = true /\ s_send_window (sk c52_start) = [].
Proof. split; [apply ran_reachable; [apply accepted_reachable; vm_compute; reflexivity|vm_compute; reflexivity]|]. vm_compute. auto. Qed.
