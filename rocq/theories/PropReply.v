(** C74-C79. *)
From Verif Require Import MonoProofs TermProofs ReplyProofs Samples.
Require Import Lia.
Local Open Scope Z_scope.
Notation unopened r evs := (mkSt blank (sample_world true r evs)).

(** C74.  A byte of packet 11 is pending when the old packet 5 arrives: finishing the reading of 11 acknowledges 5. *)
Notation c74_start := (accepted true 500 10 [rx_pkt (dgram PData 101 11 500 [x41; x42]); rx_pkt (dgram PData 101 5 500 [x43]); rx_pkt (dgram PState 101 12 500 [])]).
Notation c74_before := (snd (run_ops [ORecvFrom 1; OSendTo [x44]] c74_start)).
Notation c74_after := (snd (run_ops [ORecvFrom 1; OSendTo [x44]; OFlush] c74_start)).
Theorem C74_backwards_refuted : reachable c74_before /\ reachable c74_after /\ s_ack_nr (sk c74_before) = 11 /\ s_ack_nr (sk c74_after) = 5.
Proof. split; [reach|]. split; [reach|]. vm_compute. auto. Qed.
Print Assumptions C74_backwards_refuted.
(** Readers whose buffers hold a packet: the number only moves forward, by at most one per read and two per datagram. *)
Theorem C74_forward_partial : forall ops s, reachable s -> s_pending_data (sk s) = [] -> s_incoming_buffer (sk s) = [] -> s_state (sk s) <> New -> s_state (sk s) <> SynSent ->
  Forall (fun o => match o with ORecvFrom n => (1500 <= n)%nat | _ => True end) ops -> Forall not_panic (fst (run_ops ops s)) ->
  exists i, 0 <= i <= Z.of_nat (length (filter (fun o => match o with ORecvFrom _ => true | _ => false end) ops)) +
      2 * (Z.of_nat (length (w_in (wd s))) - Z.of_nat (length (w_in (wd (snd (run_ops ops s)))))) /\
    s_ack_nr (sk (snd (run_ops ops s))) = (s_ack_nr (sk s) + i) mod 65536.
Proof.
  intros ops s HR H1 H2 H3 H4 HF HN. destruct (fwd_run_ops ops HF s) as (_ & _ & i & H5 & H6); [constructor; [exact H1|rewrite H2; constructor|auto]|].
  exists i. split.
  - replace (Z.of_nat (length (filter _ ops))) with (all_reads ops); [exact H5|]. clear. induction ops as [|o ops IH]; [reflexivity|]. cbn [all_reads fold_right filter]. fold (all_reads ops).
    rewrite IH. destruct o; cbn [MonoProofs.reads length]; lia.
  - rewrite <- H6. symmetry. apply Z.mod_small. apply (r_ack _ (reachable_ranges _ (run_ops_reachable ops s HR HN))).
Qed.
Print Assumptions C74_forward_partial.
Notation c74_good := (accepted false 500 65534 [rx_pkt (dgram PData 101 65535 500 [x41]); rx_pkt (dgram PData 101 1 500 [x43]); rx_pkt (dgram PData 101 0 500 [x42]); rx_pkt (dgram PData 101 5 500 [x42])]).
Example C74_example : reachable c74_good /\ s_ack_nr (sk c74_good) = 65534 /\ s_pending_data (sk c74_good) = [] /\ s_incoming_buffer (sk c74_good) = [] /\ s_state (sk c74_good) = Connected /\
  s_ack_nr (sk (snd (run_ops [ORecvFrom 2000; ORecvFrom 1600; ORecvFrom 1500] c74_good))) = 1.
Proof. split; [apply accepted_reachable; vm_compute; reflexivity|]. vm_compute. auto 20. Qed.

(** C75.  The reply due to a packet: [due_reply state type]. *)
Definition due_reply (state : sstate) (ty : ptype) : option ptype :=
  match ty, state with
  | PData, Connected => Some PState
  | PData, FinSent => Some PFin
  | PFin, (Connected | FinSent | Closed) => Some PState
  | PSyn, (Connected | FinSent | Closed | ResetReceived) => Some PReset
  | _, _ => None
  end.
Theorem C75_answered : forall n d src p ty rest t s, reachable s -> w_in (wd s) = RxDgram d src :: rest -> 0 < s_max_retries (sk s) ->
  packet_try_from (firstn 1520 d) = Some (Ok p) -> get_type p = Some ty -> own_id (sk s) p \/ ty = PSyn -> due_reply (s_state (sk s)) ty = Some t -> tx_ok s = true ->
  (forall l, fst (recv n s) <> Fail (Panic l)) ->
  exists r, w_sent (wd (snd (recv n s))) = w_sent (wd s) ++ [(src, r)] /\ w_in (wd (snd (recv n s))) = rest /\
    get_type r = Some t /\ connection_id r = s_sender_connection_id (sk s) /\ seq_nr r = s_seq_nr (sk s) /\ wnd_size r = 1048576 /\
    ack_nr r = (if (seq_nr p - s_ack_nr (sk s)) mod 65536 =? 1 then seq_nr p else s_ack_nr (sk s)).
Proof.
  intros n d src p ty rest t s HR HI HM HP HT HO HD HX HN. destruct (recv_answers n d src p ty rest t s HR HI HM HP HT HO HD HX HN) as (r & E1 & (A1 & A2 & A3 & A4 & A5) & E2).
  exists r. unfold next_ack in A4. repeat (split; [assumption|]). assumption.
Qed.
Print Assumptions C75_answered.
(** State packets, and resets, of the connection get no reply. *)
Theorem C75_no_reply : forall p ty src s r s', get_type p = Some ty -> ty = PState \/ ty = PReset -> own_id (sk s) p \/ s_state (sk s) = SynSent ->
  handle_packet recv p src s <> (Ret (Some r), s').
Proof. intros p ty src s r s' HT HY HO E. pose proof (no_reply recv p ty src s HT HY HO) as H. unfold wp in H. rewrite E in H. now apply (H r). Qed.
Print Assumptions C75_no_reply.
Notation c75_start := (accepted true 500 10 [rx_pkt (dgram PData 101 11 500 [x41]); rx_pkt (dgram PData 101 13 500 [x43]); rx_pkt (dgram PData 101 12 500 [x42]); rx_pkt (dgram PFin 101 14 500 []); rx_pkt (dgram PFin 101 14 500 [])]).
Notation c75_sent s := (map (fun x => (fst x, get_type (snd x), (connection_id (snd x), seq_nr (snd x), ack_nr (snd x)))) (w_sent (wd s))).
Notation c75_end := (snd (run_ops [ORecvFrom 9; ORecvFrom 9; ORecvFrom 9; ORecvFrom 9] c75_start)).
Example C75_example : reachable c75_start /\ s_state (sk c75_start) = Connected /\ tx_ok c75_start = true /\ own_id (sk c75_start) (dgram PData 101 11 500 [x41]) /\
  c75_sent c75_end = [(peer, Some PState, (100, 500, 10)); (peer, Some PState, (100, 500, 11)); (peer, Some PState, (100, 500, 11)); (peer, Some PState, (100, 500, 12)); (peer, Some PState, (100, 500, 14))] /\
  s_state (sk c75_end) = Closed /\ c75_sent (snd (recv 9 c75_end)) = c75_sent c75_end ++ [(peer, Some PState, (100, 500, 14))].
Proof. split; [apply accepted_reachable; vm_compute; reflexivity|]. vm_compute. repeat split; auto. Qed.

(** C76.  A reset that does not belong to the connection is answered by a reset, so two sockets can exchange resets forever. *)
Notation c76_state := (accepted true 500 10 [rx_pkt (dgram PReset 555 77 3 [])]).
Theorem C76_reset_answered_refuted : exists s p, reachable s /\ w_in (wd s) = [rx_pkt p] /\ get_type p = Some PReset /\
  exists r, w_sent (wd (snd (recv 9 s))) = w_sent (wd s) ++ [(peer, r)] /\ get_type r = Some PReset.
Proof.
  exists c76_state, (dgram PReset 555 77 3 []). split; [apply accepted_reachable; vm_compute; reflexivity|]. split; [reflexivity|]. split; [reflexivity|].
  exists (snd (last (w_sent (wd (snd (recv 9 c76_state)))) (peer, []))). vm_compute. auto.
Qed.
Print Assumptions C76_reset_answered_refuted.
(** Two sockets that keep answering each other: each reset carries the other's unknown id. *)
Theorem C76_loop_refuted : let s1 := accepted true 500 10 [rx_pkt (dgram PReset 555 77 3 [])] in
  let r1 := snd (last (w_sent (wd (snd (recv 9 s1)))) (peer, [])) in
  let s2 := connected true 40 [rx_pkt r1] in
  let r2 := snd (last (w_sent (wd (snd (recv 9 s2)))) (peer, [])) in
  let s3 := mkSt (sk (snd (recv 9 s1))) (sw_in [rx_pkt r2] (wd (snd (recv 9 s1)))) in
  get_type r1 = Some PReset /\ get_type r2 = Some PReset /\ get_type (snd (last (w_sent (wd (snd (recv 9 s3)))) (peer, []))) = Some PReset.
Proof. vm_compute. auto. Qed.
Print Assumptions C76_loop_refuted.
Theorem C76_own_reset_partial : forall n d src p rest s, w_in (wd s) = RxDgram d src :: rest -> 0 < s_max_retries (sk s) ->
  packet_try_from (firstn 1520 d) = Some (Ok p) -> get_type p = Some PReset -> own_id (sk s) p -> s_state (sk s) <> SynSent ->
  w_sent (wd (snd (recv n s))) = w_sent (wd s) /\ fst (recv n s) = Fail (Throw KConnectionReset).
Proof.
  intros n d src p rest s HI HM HP HT HO HS. destruct (reset_recv n d src p rest s HI HM HP HT HS HO) as (s' & E & _ & _ & _ & _ & _ & H4 & _). rewrite E. auto.
Qed.
Print Assumptions C76_own_reset_partial.
Example C76_example : let s := accepted true 500 10 [rx_pkt (dgram PReset 101 77 3 [])] in reachable s /\ own_id (sk s) (dgram PReset 101 77 3 []) /\
  s_state (sk s) = Connected /\ fst (recv 9 s) = Fail (Throw KConnectionReset) /\ length (w_sent (wd (snd (recv 9 s)))) = 1%nat.
Proof. cbv zeta. split; [apply accepted_reachable; vm_compute; reflexivity|]. vm_compute. auto. Qed.

(** C77.  The error occurs while a lost packet waits for the window to be sent again, and is dropped. *)
Notation c77_events := [timeout; rx_pkt (dgram PState 101 10 499 []); rx_pkt (dgram PState 101 10 499 []); rx_pkt (dgram PState 101 10 499 []); RxErr (KMisc 5); rx_pkt (dgram PState 101 10 501 [])].
Notation c77_sent := (snd (run_ops [OSendTo (repeat x41 2760)] (accepted true 500 10 c77_events))).
Theorem C77_swallowed_refuted : reachable c77_sent /\ In (RxErr (KMisc 5)) (w_in (wd c77_sent)) /\ fst (flush c77_sent) = Ret tt /\ w_in (wd (snd (flush c77_sent))) = [].
Proof. split; [reach|]. vm_compute. auto 20. Qed.
Print Assumptions C77_swallowed_refuted.
Theorem C77_any_call_partial : forall n k rest s, w_in (wd s) = RxErr k :: rest -> k <> KWouldBlock -> k <> KTimedOut -> 0 < s_max_retries (sk s) ->
  recv n s = (Fail (Throw k), mkSt (sk s) (sw_in rest (wd s))).
Proof.
  intros n k rest s HI H1 H2 HM. rewrite (recv_error n k rest s HI); [|destruct k; try reflexivity; contradiction|exact HM]. unfold rx_state. now rewrite HI.
Qed.
Print Assumptions C77_any_call_partial.
Theorem C77_read_partial : forall n k rest s, reachable s -> w_in (wd s) = RxErr k :: rest -> k <> KWouldBlock -> k <> KTimedOut -> 0 < s_max_retries (sk s) ->
  no_wrap_panic s -> drained (sk s) -> s_state (sk s) <> Closed -> s_state (sk s) <> ResetReceived ->
  recv_from n s = (Fail (Throw k), mkSt (sk s) (sw_in rest (wd s))).
Proof.
  intros n k rest s HR HI H1 H2 HM HN HD HC HX. pose proof (reachable_buffer s HR) as HB. pose proof (r_ack _ (reachable_ranges s HR)) as HA.
  apply recv_from_fails; auto; [lia|]. now apply C77_any_call_partial.
Qed.
Print Assumptions C77_read_partial.
Theorem C77_flush_partial : forall k rest s, w_in (wd s) = RxErr k :: rest -> k <> KWouldBlock -> k <> KTimedOut -> 0 < s_max_retries (sk s) -> s_send_window (sk s) <> [] ->
  flush s = (Fail (Throw k), mkSt (sk s) (sw_in rest (wd s))).
Proof.
  intros k rest s HI H1 H2 HM HW. rewrite flush_eq. rewrite HI. cbn [length loop]. unfold bind at 1, flush_body at 1, bind at 1, get_sk at 1.
  destruct (s_send_window (sk s)) as [|q l]; [congruence|]. cbn [is_nil]. unfold bind at 1. rewrite (C77_any_call_partial _ k rest s) by assumption. reflexivity.
Qed.
Print Assumptions C77_flush_partial.
Example C77_example : let s := accepted true 500 10 [RxErr (KMisc 5)] in reachable s /\ drained (sk s) /\ s_state (sk s) = Connected /\ s_max_retries (sk s) = 5 /\
  fst (recv_from 9 s) = Fail (Throw (KMisc 5)).
Proof. cbv zeta. split; [apply accepted_reachable; vm_compute; reflexivity|]. split; [vm_compute; auto|]. vm_compute. auto. Qed.

(** C78.  A bound socket can send before a SYN gives it its ids. *)
Notation c78_bound evs := (mkSt (fresh_socket (sequential_identifiers 500) local) (sw_rtick 1 (sample_world true 500 evs))).
Notation c78_end := (snd (run_ops [OSendTo [x41]; OFlush] (c78_bound [rx_pkt (dgram PSyn 100 10 0 []); timeout; RxCancel]))).
Lemma c78_bound_reachable evs : reachable (c78_bound evs).
Proof. apply (rc_input (c78_bound [])). eapply (rc_bind (Ok [local]) (Ok tt) (mkSt blank (sample_world true 500 []))); reflexivity. Qed.
Theorem C78_bound_refuted : reachable c78_end /\ s_sender_connection_id (sk c78_end) = 100 /\
  map (fun x => (get_type (snd x), connection_id (snd x))) (w_sent (wd c78_end)) = [(Some PData, 501); (Some PState, 100); (Some PData, 501)].
Proof. split; [apply ran_reachable; [apply c78_bound_reachable|vm_compute; reflexivity]|]. vm_compute. auto. Qed.
Print Assumptions C78_bound_refuted.
(** Once opened, with nothing sent before: everything carries the sender's id, and data goes to the peer only. *)
Theorem C78_ids_partial : forall ops s, reachable s -> s_state (sk s) <> New -> s_state (sk s) <> SynSent -> s_send_window (sk s) = [] -> s_unsent_queue (sk s) = [] ->
  Forall not_panic (fst (run_ops ops s)) -> exists new, w_sent (wd (snd (run_ops ops s))) = w_sent (wd s) ++ new /\
    s_sender_connection_id (sk (snd (run_ops ops s))) = s_sender_connection_id (sk s) /\ s_connected_to (sk (snd (run_ops ops s))) = s_connected_to (sk s) /\
    forall dest p, In (dest, p) new -> connection_id p = s_sender_connection_id (sk s) /\ (get_type p = Some PData -> dest = s_connected_to (sk s)).
Proof.
  intros ops s HR H1 H2 H3 H4 HN. destruct (run_ops_conn ops (s_sender_connection_id (sk s)) (s_connected_to (sk s)) (w_sent (wd s)) s) as (_ & E1 & E2 & new & E3 & E4); try assumption.
  - exact (r_scid _ (reachable_ranges s HR)).
  - split; [auto|]. split; [reflexivity|]. split; [reflexivity|]. exists []. rewrite app_nil_r. auto.
  - rewrite H3. constructor.
  - rewrite H4. constructor.
  - exists new. repeat (split; [assumption|]). intros dest p HI. rewrite Forall_forall in E4. exact (E4 _ HI).
Qed.
Print Assumptions C78_ids_partial.
Notation c78_start := (accepted true 500 10 [rx_pkt (dgram PData 101 11 500 [x41]); RxDgram (dgram PData 101 12 500 [x42]) (V4 99); timeout; RxDgram (dgram PState 101 13 500 []) (V4 99)]).
Example C78_example : reachable c78_start /\ s_state (sk c78_start) = Connected /\ s_send_window (sk c78_start) = [] /\ s_unsent_queue (sk c78_start) = [] /\
  map (fun x => (fst x, get_type (snd x), connection_id (snd x))) (w_sent (wd (snd (run_ops [OSendTo [x41]; ORecvFrom 9; ORecvFrom 9; OFlush] c78_start)))) =
  [(peer, Some PState, 100); (peer, Some PData, 100); (peer, Some PState, 100); (V4 99, Some PState, 100); (peer, Some PData, 100)].
Proof. split; [apply accepted_reachable; vm_compute; reflexivity|]. vm_compute. auto. Qed.

(** C79. *)
Theorem C79_failed_connect : forall other bound s o s', s_state (sk s) = New -> connect other bound s = (Fail o, s') -> (forall l, o <> Panic l) ->
  (s_state (sk s') = New \/ s_state (sk s') = SynSent) /\ drop_socket s' = (Ret tt, s').
Proof.
  intros other bound s o s' HS HE HN. pose proof (connect_outcome other bound s (or_introl HS)) as H. unfold wp in H. rewrite HE in H. cbn [fst snd] in H.
  assert (HU : unopen s') by (destruct o; try exact H; now destruct (HN line)). split; [exact HU|].
  unfold drop_socket, ignore_result, close, bind, get_sk. destruct HU as [-> | ->]; reflexivity.
Qed.
Print Assumptions C79_failed_connect.
Example C79_example : let r := connect (Ok [peer]) (Ok tt) (unopened 300 [timeout; timeout; timeout; timeout; timeout]) in
  fst r = Fail (Throw KOther) /\ s_state (sk (snd r)) = SynSent /\ length (w_sent (wd (snd r))) = 5%nat.
Proof. vm_compute. auto. Qed.
