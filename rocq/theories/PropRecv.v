(** C21 - C29 and C53. *)
From Verif Require Import RecvProofs Samples.
Require Import Lia.
Local Open Scope Z_scope.

(** C21.  The server below (SYN had number 10) delivers packets 11 and 12, then receives 11 once more.  Packet
    13, which follows, is never delivered: the old copy blocks the front of the reorder buffer. *)
Notation c21_events := [rx_pkt (dgram PData 101 11 0 [x41]); rx_pkt (dgram PData 101 12 0 [x42]); rx_pkt (dgram PData 101 11 0 [x41]);
  rx_pkt (dgram PData 101 13 0 [x43]); rx_pkt (dgram PData 101 14 0 [x44])].
Theorem C21_duplicate_refuted :
  reachable (accepted true 500 10 c21_events) /\
  fst (run_ops [ORecvFrom 9; ORecvFrom 9; ORecvFrom 9] (accepted true 500 10 c21_events)) =
    [Ret (VData [x41] peer); Ret (VData [x42] peer); Fail Pend] /\
  map (fun p => (seq_nr p, payload p)) (s_incoming_buffer (sk (snd (run_ops [ORecvFrom 9; ORecvFrom 9; ORecvFrom 9] (accepted true 500 10 c21_events))))) =
    [(11, Some [x41]); (13, Some [x43]); (14, Some [x44])] /\
  (* without the duplicate: *)
  fst (run_ops [ORecvFrom 9; ORecvFrom 9; ORecvFrom 9; ORecvFrom 9] (accepted true 500 10 [rx_pkt (dgram PData 101 11 0 [x41]); rx_pkt (dgram PData 101 12 0 [x42]);
    rx_pkt (dgram PData 101 13 0 [x43]); rx_pkt (dgram PData 101 14 0 [x44])])) =
    [Ret (VData [x41] peer); Ret (VData [x42] peer); Ret (VData [x43] peer); Ret (VData [x44] peer)].
Proof. split; [apply accepted_reachable; vm_compute; reflexivity|]. vm_compute. auto. Qed.
Print Assumptions C21_duplicate_refuted.
(** A copy of the packet delivered last only triggers an acknowledgement: delivery goes on as if it had not arrived. *)
Theorem C21_last_delivered_partial : forall n b src p s, reachable s -> packet_try_from b = Some (Ok p) -> get_type p = Some PData ->
  own_id (sk s) p -> s_state (sk s) = Connected -> seq_nr p = s_last_dropped (sk s) ->
  (seq_nr p - s_ack_nr (sk s)) mod 65536 <> 1 -> s_ack_nr (sk s) < 65535 -> tx_ok s = true ->
  exists d k' s' r, flush_incoming_buffer n s = (Ret d, mkSt k' (wd s)) /\ process_datagram recv n b src s = (Ret (d, src), s') /\
    s_pending_data (sk s') = s_pending_data k' /\ s_incoming_buffer (sk s') = s_incoming_buffer k' /\
    s_ack_nr (sk s') = s_ack_nr k' /\ s_last_dropped (sk s') = s_last_dropped k' /\ s_state (sk s') = Connected /\
    w_sent (wd s') = w_sent (wd s) ++ [(src, r)] /\ get_type r = Some PState /\ ack_nr r = s_ack_nr (sk s).
Proof.
  intros n b src p s HR HP HT HO HS HL HA H1 HX. pose proof (reachable_buffer s HR) as HB. pose proof (r_ack _ (reachable_ranges s HR)).
  destruct (duplicate_recv recv n b src p s HP HT HO HS HL HA ltac:(lia) HX HB) as (s' & r & H2). eexists. eexists. exists s', r.
  split; [apply flush_run; [right; left; lia|lia|exact HB]|exact H2].
Qed.
Print Assumptions C21_last_delivered_partial.
Notation c21_state := (snd (run_ops [ORecvFrom 9; ORecvFrom 9] (accepted true 500 10 [rx_pkt (dgram PData 101 11 0 [x41]); rx_pkt (dgram PData 101 12 0 [x42])]))).
Example C21_example : reachable c21_state /\ s_last_dropped (sk c21_state) = 12 /\ s_ack_nr (sk c21_state) = 12 /\ tx_ok c21_state = true /\
  fst (process_datagram recv 9 (dgram PData 101 12 0 [x42]) peer c21_state) = Ret ([], peer).
Proof. split; [reach|]. vm_compute. auto. Qed.

(** C22. *)
Theorem C22_foreign_data_refuted : exists s p, reachable s /\ s_state (sk s) = Connected /\ ~ own_id (sk s) p /\ get_type p = Some PData /\
  w_in (wd s) = [RxDgram p peer] /\ payload p = Some [x41] /\ fst (recv_from 9 s) = Ret ([x41], peer) /\
  map (fun x => get_type (snd x)) (w_sent (wd (snd (recv_from 9 s)))) = [Some PState; Some PReset].
Proof.
  exists (accepted true 500 10 [rx_pkt (dgram PData 999 11 0 [x41])]), (dgram PData 999 11 0 [x41]).
  split; [apply accepted_reachable; vm_compute; reflexivity|]. unfold own_id. vm_compute. repeat split. intros [H|H]; discriminate.
Qed.
Print Assumptions C22_foreign_data_refuted.
(** Packets of other types from another connection deliver nothing (see C29). *)

(** C23.  A real handshake: the server answers the client's SYN, then sends two data packets.  The first one
    is lost; the client delivers the second one and acknowledges it. *)
Notation c23_syn := (snd (last (w_sent (wd (snd (connect (Ok [peer]) (Ok tt) (mkSt blank (sample_world true 300 [])))))) (peer, []))).
Notation c23_server := (snd (run_ops [OSendTo [x58]; OSendTo [x59]]
  (snd (accept (RxDgram c23_syn peer) (Ok local) (Ok tt) (mkSt blank (sample_world true 500 [])))))).
Notation c23_sent i := (snd (nth i (w_sent (wd c23_server)) (peer, []))).
Notation c23_client := (snd (connect (Ok [peer]) (Ok tt) (mkSt blank (sample_world true 300 [RxDgram (c23_sent 0) peer; RxDgram (c23_sent 2) peer])))).
Theorem C23_lost_packet_refuted :
  fst (accept (RxDgram c23_syn peer) (Ok local) (Ok tt) (mkSt blank (sample_world true 500 []))) = Ret peer /\
  fst (run_ops [OSendTo [x58]; OSendTo [x59]] (snd (accept (RxDgram c23_syn peer) (Ok local) (Ok tt) (mkSt blank (sample_world true 500 []))))) = [Ret (VLen 1); Ret (VLen 1)] /\
  map (fun x => (get_type (snd x), seq_nr (snd x), payload (snd x))) (w_sent (wd c23_server)) =
    [(Some PState, 500, Some []); (Some PData, 500, Some [x58]); (Some PData, 501, Some [x59])] /\
  fst (connect (Ok [peer]) (Ok tt) (mkSt blank (sample_world true 300 [RxDgram (c23_sent 0) peer; RxDgram (c23_sent 2) peer]))) = Ret tt /\
  fst (recv_from 9 c23_client) = Ret ([x59], peer) /\
  map (fun x => (get_type (snd x), ack_nr (snd x))) (skipn 1 (w_sent (wd (snd (recv_from 9 c23_client))))) = [(Some PState, 501)].
Proof. vm_compute. auto 10. Qed.
Print Assumptions C23_lost_packet_refuted.
Lemma c23_reachable : reachable c23_client /\ reachable c23_server.
Proof.
  split.
  - match goal with |- reachable (snd ?x) => destruct x as [o s] eqn:E; assert (EO : o = fst (o, s)) by reflexivity; rewrite <- E in EO end.
    cbn [snd]. eapply (rc_connect (Ok [peer]) (Ok tt)); [|rewrite <- (eq_trans EO (proj1 (proj2 (proj2 (proj2 C23_lost_packet_refuted))))); exact E]. reflexivity.
  - apply ran_reachable; [|vm_compute; reflexivity].
    match goal with |- reachable (snd ?x) => destruct x as [o s] eqn:E; assert (EO : o = fst (o, s)) by reflexivity; rewrite <- E in EO end.
    cbn [snd]. eapply rc_accept; [|rewrite <- (eq_trans EO (proj1 C23_lost_packet_refuted)); exact E]. reflexivity.
Qed.

(** C24.  Packet 11 arrives while the application waits in [flush]: it is acknowledged and never delivered. *)
Notation c24_start := (accepted true 500 10 [rx_pkt (dgram PData 101 11 499 [x42]); rx_pkt (dgram PState 101 12 500 []); rx_pkt (dgram PData 101 12 500 [x43])]).
Theorem C24_data_during_flush_refuted :
  reachable c24_start /\
  fst (run_ops [OSendTo [x41]; OFlush; ORecvFrom 9; ORecvFrom 9] c24_start) = [Ret (VLen 1); Ret VUnit; Ret (VData [x43] peer); Fail Pend] /\
  map (fun x => (get_type (snd x), ack_nr (snd x))) (skipn 1 (w_sent (wd (snd (run_ops [OSendTo [x41]; OFlush] c24_start))))) =
    [(Some PData, 10); (Some PState, 11)].
Proof. split; [apply accepted_reachable; vm_compute; reflexivity|]. vm_compute. auto. Qed.
Print Assumptions C24_data_during_flush_refuted.

(** C25. *)
Theorem C25_end_of_stream : forall n s, reachable s -> s_state (sk s) = Closed -> no_wrap_panic s -> no_empty_packet (sk s) -> (0 < n)%nat ->
  (available (sk s) = [] /\ recv_from n s = (Ret ([], s_connected_to (sk s)), s)) \/
  (exists d k', recv_from n s = (Ret (d, s_connected_to (sk s)), mkSt k' (wd s)) /\ d <> [] /\ (length d <= n)%nat /\ available (sk s) = d ++ available k').
Proof.
  intros n s HR HS HN HE Hn. pose proof (reachable_buffer s HR) as HB. pose proof (r_ack _ (reachable_ranges s HR)) as HA.
  destruct (available (sk s)) as [|b0 a] eqn:EV.
  - left. split; [reflexivity|]. apply closed_drained; auto; [lia|]. now apply unavailable_drained.
  - right. rewrite <- EV. destruct (read_one s n HB ltac:(lia) HN Hn ltac:(congruence)) as (d & k' & H1 & H2 & H3 & H4 & _). exists d, k'. auto.
Qed.
Print Assumptions C25_end_of_stream.
(** Reading until nothing is left, then once more: all the buffered bytes in order, then end of stream with the
    socket and its world unchanged (so every further read gives the same). *)
Theorem C25_drain : forall ns n s, reachable s -> s_state (sk s) = Closed -> no_wrap_panic s -> no_empty_packet (sk s) -> Forall (fun m => 0 < m)%nat ns ->
  (length (available (sk s)) <= length ns)%nat ->
  exists m ds s', reads s (firstn m ns) ds s' /\ wd s' = wd s /\ concat ds = available (sk s) /\ recv_from n s' = (Ret ([], s_connected_to (sk s')), s').
Proof. exact drain_closed. Qed.
Print Assumptions C25_drain.
Theorem C25_fin_processed : forall p src s, reachable s -> get_type p = Some PFin -> own_id (sk s) p -> s_state (sk s) = Connected \/ s_state (sk s) = FinSent ->
  s_ack_nr (acked_sk p (sk s)) < 65535 \/ w_chk (wd s) = false \/ s_incoming_buffer (sk s) = [] ->
  exists r s', handle_packet recv p src s = (Ret (Some r), s') /\ s_state (sk s') = Closed /\ get_type r = Some PState /\
    s_pending_data (sk s') = s_pending_data (sk s) /\ s_incoming_buffer (sk s') = s_incoming_buffer (sk s) /\
    s_last_dropped (sk s') = s_last_dropped (sk s) /\ s_ack_nr (sk s') = s_ack_nr (acked_sk p (sk s)) /\ ack_nr r = s_ack_nr (sk s').
Proof. intros p src s HR HT HO HS HA. apply fin_closes; auto. exact (r_ack _ (reachable_ranges s HR)). Qed.
Print Assumptions C25_fin_processed.
(** Packets 11 and 12 and the FIN have arrived, one byte has been read. *)
Notation c25_state := (snd (run_ops [ORecvFrom 1; OSendTo [x50]; OFlush] (accepted true 500 10 [rx_pkt (dgram PData 101 12 0 [x42]); rx_pkt (dgram PData 101 13 0 [x44]); rx_pkt (dgram PData 101 11 0 [x40; x41]);
  rx_pkt (dgram PFin 101 14 0 []); RxCancel]))).
Example C25_example : reachable c25_state /\ s_state (sk c25_state) = Closed /\ no_empty_packet (sk c25_state) /\ available (sk c25_state) = [x42; x44] /\
  fst (run_ops [ORecvFrom 5; ORecvFrom 5; ORecvFrom 5; ORecvFrom 5] c25_state) = [Ret (VData [x42] peer); Ret (VData [x44] peer); Ret (VData [] peer); Ret (VData [] peer)].
Proof. split; [reach|]. split; [vm_compute; reflexivity|]. split; [unfold no_empty_packet; vm_compute; repeat constructor; discriminate|]. vm_compute. auto. Qed.

(** C26.  Packet 11 is lost; the FIN (number 12) ends the stream all the same. *)
Notation c26_start := (accepted true 500 10 [rx_pkt (dgram PFin 101 12 0 [])]).
Theorem C26_early_end_refuted : reachable c26_start /\
  fst (run_ops [ORecvFrom 9; ORecvFrom 9] c26_start) = [Ret (VData [] peer); Ret (VData [] peer)] /\
  s_ack_nr (sk (snd (run_ops [ORecvFrom 9] c26_start))) = 10.
Proof. split; [apply accepted_reachable; vm_compute; reflexivity|]. vm_compute. auto. Qed.
Print Assumptions C26_early_end_refuted.

(** C27. *)
Theorem C27_reset : forall n d src p rest s, reachable s -> w_in (wd s) = RxDgram d src :: rest -> 0 < s_max_retries (sk s) ->
  packet_try_from (firstn 1520 d) = Some (Ok p) -> get_type p = Some PReset -> own_id (sk s) p ->
  s_state (sk s) = Connected \/ s_state (sk s) = FinSent -> no_wrap_panic s -> drained (sk s) ->
  exists s', recv_from n s = (Fail (Throw KConnectionReset), s') /\ s_state (sk s') = ResetReceived /\
    s_pending_data (sk s') = s_pending_data (sk s) /\ s_incoming_buffer (sk s') = s_incoming_buffer (sk s) /\
    w_sent (wd s') = w_sent (wd s) /\ w_in (wd s') = rest.
Proof.
  intros n d src p rest s HR HI HM HP HT HO HS HN HD. pose proof (reachable_buffer s HR) as HB. pose proof (r_ack _ (reachable_ranges s HR)) as HA.
  destruct (reset_recv n d src p rest s HI HM HP HT ltac:(destruct HS; congruence) HO) as (s' & E & H1 & H2 & H3 & _ & _ & H4 & H5). exists s'.
  split; [apply recv_from_fails; auto; [lia|destruct HS; congruence..]|auto].
Qed.
Print Assumptions C27_reset.
(** Also inside [flush], [send_to] and [close]: every wait for a datagram goes through [recv]. *)
Theorem C27_reset_any_call : forall n d src p rest s, reachable s -> w_in (wd s) = RxDgram d src :: rest -> 0 < s_max_retries (sk s) ->
  packet_try_from (firstn 1520 d) = Some (Ok p) -> get_type p = Some PReset -> own_id (sk s) p -> s_state (sk s) <> SynSent ->
  exists s', recv n s = (Fail (Throw KConnectionReset), s') /\ s_state (sk s') = ResetReceived /\
    s_pending_data (sk s') = s_pending_data (sk s) /\ s_incoming_buffer (sk s') = s_incoming_buffer (sk s).
Proof.
  intros n d src p rest s HR HI HM HP HT HO HS. destruct (reset_recv n d src p rest s HI HM HP HT HS HO) as (s' & E & H1 & H2 & H3 & _). exists s'. auto.
Qed.
Print Assumptions C27_reset_any_call.
Theorem C27_after_reset : forall n s, reachable s -> s_state (sk s) = ResetReceived -> no_wrap_panic s -> no_empty_packet (sk s) -> (0 < n)%nat ->
  (available (sk s) = [] /\ recv_from n s = (Fail (Throw KConnectionReset), s)) \/
  (exists d k', recv_from n s = (Ret (d, s_connected_to (sk s)), mkSt k' (wd s)) /\ d <> [] /\ (length d <= n)%nat /\ available (sk s) = d ++ available k').
Proof.
  intros n s HR HS HN HE Hn. pose proof (reachable_buffer s HR) as HB. pose proof (r_ack _ (reachable_ranges s HR)) as HA.
  destruct (available (sk s)) as [|b0 a] eqn:EV.
  - left. split; [reflexivity|]. apply reset_drained; auto; [lia|]. now apply unavailable_drained.
  - right. rewrite <- EV. destruct (read_one s n HB ltac:(lia) HN Hn ltac:(congruence)) as (d & k' & H1 & H2 & H3 & H4 & _). exists d, k'. auto.
Qed.
Print Assumptions C27_after_reset.
Notation c27_start := (accepted true 500 10 [rx_pkt (dgram PReset 101 40 0 [])]).
Example C27_example : reachable c27_start /\ drained (sk c27_start) /\ own_id (sk c27_start) (dgram PReset 101 40 0 []) /\ s_state (sk c27_start) = Connected /\
  fst (run_ops [ORecvFrom 9; ORecvFrom 9] c27_start) = [Fail (Throw KConnectionReset); Fail (Throw KConnectionReset)].
Proof. split; [apply accepted_reachable; vm_compute; reflexivity|]. unfold own_id. vm_compute. auto 10. Qed.

(** C28. *)
Theorem C28_undecodable : forall n d src rest s, w_in (wd s) = RxDgram d src :: rest -> 0 < s_max_retries (sk s) ->
  (forall p, packet_try_from (firstn 1520 d) <> Some (Ok p)) ->
  recv n s = (Ret ([], s_connected_to (sk s)), mkSt (sk s) (sw_in rest (wd s))).
Proof.
  intros n d src rest s HI HM HU. rewrite (recv_first n d src rest s HI HM), process_junk by exact HU. unfold rx_state. rewrite HI. reflexivity.
Qed.
Print Assumptions C28_undecodable.
Example C28_example : let s := accepted true 500 10 [RxDgram (repeat x51 40) peer; rx_pkt (dgram PData 101 11 0 [x41])] in
  packet_try_from (repeat x51 40) = Some (Err (InvalidPacketType 5)) /\ 0 < s_max_retries (sk s) /\
  fst (recv_from 9 s) = Ret ([x41], peer).
Proof. vm_compute. auto. Qed.

(** C29. *)
Theorem C29_foreign_refuted : exists s p, reachable s /\ s_state (sk s) = Connected /\ ~ own_id (sk s) p /\ get_type p = Some PState /\
  w_in (wd s) = [RxDgram p peer] /\ s_ack_nr (sk s) = 10 /\ s_ack_nr (sk (snd (recv 9 s))) = 11.
Proof.
  exists (accepted true 500 10 [rx_pkt (dgram PState 999 11 0 [])]), (dgram PState 999 11 0 []).
  split; [apply accepted_reachable; vm_compute; reflexivity|]. unfold own_id. vm_compute. repeat split. intros [H|H]; discriminate.
Qed.
Print Assumptions C29_foreign_refuted.
(** True for packets that carry no data and whose number is not the next expected one. *)
Theorem C29_foreign_partial : forall n d src p ty rest s, reachable s -> w_in (wd s) = RxDgram d src :: rest -> 0 < s_max_retries (sk s) ->
  packet_try_from (firstn 1520 d) = Some (Ok p) -> get_type p = Some ty ->
  ty <> PSyn -> ty <> PData -> s_state (sk s) <> SynSent -> ~ own_id (sk s) p -> (seq_nr p - s_ack_nr (sk s)) mod 65536 <> 1 ->
  tx_ok s = true -> no_wrap_panic s -> drained (sk s) ->
  exists s' r, recv n s = (Ret ([], src), s') /\ sk s' = sk s /\ w_in (wd s') = rest /\ w_sent (wd s') = w_sent (wd s) ++ [(src, r)] /\ get_type r = Some PReset.
Proof.
  intros n d src p ty rest s HR HI HM HP HT HY HD HS HO HA HX HN HDr. pose proof (reachable_buffer s HR) as HB. pose proof (r_ack _ (reachable_ranges s HR)) as H0.
  destruct (foreign_recv n d src p ty rest s HI HM HP HT HY HD HS HO HA HX HN ltac:(lia) HB HDr) as (s' & H1 & H2 & H3 & H4).
  exists s'. eexists. split; [exact H1|]. split; [exact H2|]. split; [exact H3|]. split; [exact H4|]. unfold reply_to. rewrite set_wnd_wire, get_type_wire. reflexivity.
Qed.
Print Assumptions C29_foreign_partial.
Example C29_example : let s := accepted true 500 10 [rx_pkt (dgram PFin 999 40 0 [])] in let p := dgram PFin 999 40 0 [] in
  reachable s /\ ~ own_id (sk s) p /\ drained (sk s) /\ tx_ok s = true /\ (seq_nr p - s_ack_nr (sk s)) mod 65536 = 30 /\
  sk (snd (recv 9 s)) = sk s /\ map (fun x => get_type (snd x)) (w_sent (wd (snd (recv 9 s)))) = [Some PState; Some PReset].
Proof. cbv zeta. split; [apply accepted_reachable; vm_compute; reflexivity|]. split; [intros [H|H]; revert H; vm_compute; discriminate|]. vm_compute. auto 10. Qed.

(** C53. *)
Theorem C53_peer_addr : forall s,
  (s_state (sk s) = Connected \/ s_state (sk s) = FinSent -> peer_addr s = (Ret (s_connected_to (sk s)), s)) /\
  (s_state (sk s) <> Connected -> s_state (sk s) <> FinSent -> peer_addr s = (Fail (Throw KNotConnected), s)).
Proof.
  intros s. unfold peer_addr, bind, get_sk. destruct (s_state (sk s)); split; intros; try reflexivity; try congruence; try (destruct H; discriminate).
Qed.
Print Assumptions C53_peer_addr.
Example C53_example : fst (run_ops [OPeerAddr; ORecvFrom 9; OPeerAddr] c26_start) = [Ret (VAddr peer); Ret (VData [] peer); Fail (Throw KNotConnected)].
Proof. vm_compute. reflexivity. Qed.
