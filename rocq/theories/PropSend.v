(** C30, C31, C33 (histories), C34-C37, C42-C44. *)
From Verif Require Import SendProofs Samples.
Require Import Lia.
Local Open Scope Z_scope.

Notation three_in_flight evs := (let s := snd (run_ops [OSendTo [x41]; OSendTo [x42]; OSendTo [x43; x44]] (accepted true 500 10 [])) in mkSt (sk s) (sw_in evs (wd s))).
Lemma three_reachable evs : reachable (three_in_flight evs).
Proof. cbv zeta. apply rc_input. reach. Qed.
Notation ack n := (rx_pkt (dgram PState 101 11 n [])).
Notation types_seqs s := (map (fun x => (get_type (snd x), seq_nr (snd x))) (w_sent (wd s))).

(** C30. *)
Theorem C30_splits : forall d s, reachable s -> s_state (sk s) <> Closed -> exists cs ps,
  concat cs = d /\ (forall c, In c cs -> (1 <= length c <= 1380)%nat) /\
  numbered (s_sender_connection_id (sk s)) (s_ack_nr (sk s)) (s_seq_nr (sk s)) cs ps /\
  send_to d s = (send ;;; ret (Z.of_nat (length d))) (mkSt (ss_seq_nr ((s_seq_nr (sk s) + Z.of_nat (length ps)) mod 65536)
    (ss_unsent_queue (s_unsent_queue (sk s) ++ ps) (sk s))) (wd s)).
Proof.
  intros d s HR HS. destruct (send_to_splits d s (reachable_ranges s HR) HS) as (ps & H1 & H2 & _). exists (chunks 1380 d), ps.
  split; [apply chunks_concat; lia|]. split; [intros c Hc; apply chunks_sizes in Hc; lia|]. auto.
Qed.
Print Assumptions C30_splits.
Theorem C30_reports_length : forall d s n s', send_to d s = (Ret n, s') -> n = Z.of_nat (length d).
Proof.
  intros d s n s' H. unfold send_to, bind, get_sk, upd_sk in H. destruct (sstate_eqb _ _); [discriminate|]. match type of H with context [send ?t] => destruct (send t) as [[[]|e] u] end; [|discriminate]. now injection H as <- _.
Qed.
Print Assumptions C30_reports_length.
Notation c30_end := (run_ops [OSendTo (repeat x41 1381)] (accepted true 32768 10 [])).
Example C30_example : reachable (accepted true 32768 10 []) /\ fst c30_end = [Ret (VLen 1381)] /\
  map (fun p => (seq_nr p, payload p)) (s_send_window (sk (snd c30_end))) = [(32768, Some (repeat x41 1380)); (32769, Some [x41])].
Proof. split; [apply accepted_reachable; vm_compute; reflexivity|]. vm_compute. auto 20. Qed.

(** C31. *)
Theorem C31_closed : forall d s, s_state (sk s) = Closed -> send_to d s = (Fail (Throw KNotConnected), s).
Proof. intros d s H. unfold send_to, bind, get_sk. rewrite H. reflexivity. Qed.
Print Assumptions C31_closed.
Notation c31_end := (run_ops [ORecvFrom 9; OSendTo [x41]] (accepted true 500 10 [rx_pkt (dgram PFin 101 11 0 [])])).
Example C31_example : s_state (sk (snd c31_end)) = Closed /\ fst c31_end = [Ret (VData [] peer); Fail (Throw KNotConnected)].
Proof. vm_compute. auto 20. Qed.

(** C33, for whole calls: packets leave the window only as a prefix ended by a packet whose number is
    acknowledged by a State packet among the datagrams still to be received. *)
Theorem C33_only_acknowledged : forall o s v s', reachable s -> run_op o s = (v, s') -> (forall l, v <> Fail (Panic l)) ->
  clos_refl_trans _ (window_change (acked_in (w_in (wd s)))) (s_send_window (sk s)) (s_send_window (sk s')).
Proof. exact run_op_window_in. Qed.
Print Assumptions C33_only_acknowledged.
Example C33_history_example : let s := three_in_flight [ack 501] in reachable s /\ map seq_nr (s_send_window (sk s)) = [500; 501; 502] /\
  acked_in (w_in (wd s)) 501 /\ map seq_nr (s_send_window (sk (snd (run_op OFlush s)))) = [502].
Proof.
  cbv zeta. split; [apply three_reachable|]. split; [vm_compute; reflexivity|]. split; [|vm_compute; reflexivity].
  exists (dgram PState 101 11 501 []), peer, (dgram PState 101 11 501 []). split; [now left|]. vm_compute. auto.
Qed.

(** C34.  Every in-flight packet, or a later one (acknowledgements are cumulative), was acknowledged. *)
Theorem C34_flush : forall s s', reachable s -> flush s = (Ret tt, s') -> s_send_window (sk s') = [] /\
  forall w1 p w2, s_send_window (sk s) = w1 ++ p :: w2 -> exists q, In q (p :: w2) /\ acked_in (w_in (wd s)) (seq_nr q).
Proof. intros s s' HR H. destruct (flush_acked s s' HR H) as (H1 & _ & H2). auto. Qed.
Print Assumptions C34_flush.
Theorem C34_close : forall s s', reachable s -> s_state (sk s) <> New -> s_state (sk s) <> SynSent -> s_state (sk s) <> Closed -> close s = (Ret tt, s') ->
  forall w1 p w2, s_send_window (sk s) = w1 ++ p :: w2 -> exists q, In q (p :: w2) /\ acked_in (w_in (wd s)) (seq_nr q).
Proof.
  intros s s' HR H1 H2 H3 H. destruct (flush s) as [[[]|e] t] eqn:E; [now destruct (flush_acked s t HR E) as (_ & _ & H')|].
  exfalso. unfold close, bind at 1, get_sk at 1 in H. destruct (s_state (sk s)); try congruence; unfold bind at 1 in H; rewrite E in H; discriminate.
Qed.
Print Assumptions C34_close.
Theorem C34_nothing : forall s, s_send_window (sk s) = [] -> flush s = (Ret tt, s).
Proof. intros s H. unfold flush, bind at 1, event_fuel. cbn [loop]. unfold bind at 1, bind at 1, get_sk. rewrite H. reflexivity. Qed.
Print Assumptions C34_nothing.
Example C34_example : reachable (three_in_flight [ack 500; timeout; ack 502]) /\ fst (run_ops [OFlush; OFlush] (three_in_flight [ack 500; timeout; ack 502])) = [Ret VUnit; Ret VUnit] /\
  fst (run_op OFlush (three_in_flight [ack 500; timeout; ack 501])) = Fail Pend.
Proof. split; [apply three_reachable|]. vm_compute. auto 20. Qed.

(** C35. *)
Theorem C35_resends_oldest : forall p rest s, s_send_window (sk s) = p :: rest -> 0 <= s_congestion_timeout (sk s) < 2 ^ 63 -> tx_ok s = true ->
  exists s' t, handle_receive_timeout s = (Ret tt, s') /\
    w_sent (wd s') = w_sent (wd s) ++ [(s_connected_to (sk s), set_timestamp t p)] /\
    s_send_window (sk s') = set_timestamp t p :: rest /\
    s_cwnd (sk s') = 1400 /\ s_congestion_timeout (sk s') = 2 * s_congestion_timeout (sk s).
Proof.
  intros p rest s HW HT HX. destruct (timeout_resends p rest s HW ltac:(unfold timer_fits; lia) HX) as (s' & E & K & L & _).
  exists s', (clock_now s). rewrite K. auto.
Qed.
Print Assumptions C35_resends_oldest.
Theorem C35_resends_fin : forall s, s_send_window (sk s) = [] -> s_state (sk s) = FinSent -> 0 <= s_congestion_timeout (sk s) < 2 ^ 63 -> tx_ok s = true ->
  exists s' t, handle_receive_timeout s = (Ret tt, s') /\ s_send_window (sk s') = [] /\ s_state (sk s') = FinSent /\
    w_sent (wd s') = w_sent (wd s) ++ [(s_connected_to (sk s), wire (mkHdr PFin (s_sender_connection_id (sk s)) t 0 0 (s_seq_nr (sk s)) (s_ack_nr (sk s))) [] [])].
Proof.
  intros s HW HS HT HX. destruct (timeout_fin s HW HS ltac:(unfold timer_fits; lia) HX) as (s' & E & K & L & _). exists s', (clock_now s). rewrite K. auto.
Qed.
Print Assumptions C35_resends_fin.
Theorem C35_acknowledges : forall s, s_send_window (sk s) = [] -> s_state (sk s) <> FinSent -> s_state (sk s) <> New -> 0 <= s_congestion_timeout (sk s) < 2 ^ 63 ->
  (forall i, w_send (wd s) i = SendOk) -> ranges (sk s) ->
  exists s' q1 q2 q3, handle_receive_timeout s = (Ret tt, s') /\ w_sent (wd s') = w_sent (wd s) ++ [(s_connected_to (sk s), q1); (s_connected_to (sk s), q2); (s_connected_to (sk s), q3)] /\
    forall q, In q [q1; q2; q3] -> get_type q = Some PState /\ ack_nr q = s_ack_nr (sk s) /\ connection_id q = s_sender_connection_id (sk s) /\ extensions q = Some [] /\ payload q = Some [].
Proof.
  intros s HW HF HN HT HX HR. destruct (timeout_acks s HW HF HN ltac:(unfold timer_fits; lia) HX) as (s' & t1 & t2 & t3 & E & K & _ & L & _).
  exists s', (ack_packet (sk s) t1), (ack_packet (sk s) t2), (ack_packet (sk s) t3). split; [exact E|]. split; [exact L|]. destruct HR.
  intros q [<-|[<-|[<-|[]]]]; unfold ack_packet; rewrite get_type_wire, ack_wire, cid_wire, extensions_wire, payload_wire by constructor; cbn [h_type h_ack h_cid]; rewrite !u16_small by lia; auto 10.
Qed.
Print Assumptions C35_acknowledges.
Theorem C35_unconnected : forall s, s_send_window (sk s) = [] -> s_state (sk s) = New -> 0 <= s_congestion_timeout (sk s) < 2 ^ 63 ->
  exists s', handle_receive_timeout s = (Ret tt, s') /\ wd s' = wd s.
Proof. intros s HW HS HT. rewrite timeout_new by (auto; unfold timer_fits; lia). eexists. split; reflexivity. Qed.
Print Assumptions C35_unconnected.
(** In each case the socket changes only in this: the window is one packet, the timer is twice as long, and the packet that was resent has the time of the resending. *)
Theorem C35_changes : forall s, 0 <= s_congestion_timeout (sk s) < 2 ^ 63 -> (forall i, w_send (wd s) i = SendOk) -> exists s', handle_receive_timeout s = (Ret tt, s') /\ w_in (wd s') = w_in (wd s) /\
  sk s' = ss_cwnd 1400 (ss_congestion_timeout (2 * s_congestion_timeout (sk s)) (ss_send_window
    (match s_send_window (sk s) with [] => [] | p :: rest => set_timestamp (micros_of_clock (w_clock (wd s) (w_tick (wd s)))) p :: rest end) (sk s))).
Proof.
  intros s HT HX. assert (HF : timer_fits s) by (unfold timer_fits; lia). pose proof (all_sent_ok s HX) as HX'.
  destruct (s_send_window (sk s)) as [|p rest] eqn:EW.
  - assert (EB : backed_off (sk s) = ss_cwnd 1400 (ss_congestion_timeout (2 * s_congestion_timeout (sk s)) (ss_send_window [] (sk s)))) by (unfold backed_off; destruct (sk s); cbn in *; subst; reflexivity). rewrite <- EB.
    destruct (sstate_eqb (s_state (sk s)) New) eqn:EN.
    { apply state_eqb_true in EN. exists (mkSt (backed_off (sk s)) (wd s)). rewrite timeout_new by auto. repeat split; reflexivity. }
    destruct (sstate_eqb (s_state (sk s)) FinSent) eqn:ES.
    + apply state_eqb_true in ES. destruct (timeout_fin s EW ES HF HX') as (s' & E & K & _ & L). exists s'. auto.
    + destruct (timeout_acks s EW) as (s' & t1 & t2 & t3 & E & K & _ & _ & L); [intros H; rewrite H in ES; discriminate|intros H; rewrite H in EN; discriminate|exact HF|exact HX|]. exists s'. auto.
  - destruct (timeout_resends p rest s EW HF HX') as (s' & E & K & _ & L). exists s'. split; [exact E|]. split; [exact L|]. rewrite K. unfold backed_off. destruct (sk s); reflexivity.
Qed.
Print Assumptions C35_changes.
(** A timeout while waiting runs exactly this. *)
Theorem C35_while_waiting : forall n s k s', w_in (wd s) = [RxErr k] -> k = KTimedOut \/ k = KWouldBlock -> 1 < s_max_retries (sk s) ->
  handle_receive_timeout (mkSt (sk s) (sw_in [] (wd s))) = (Ret tt, s') -> s_max_retries (sk s') = s_max_retries (sk s) -> w_in (wd s') = [] ->
  recv n s = (Fail Pend, s').
Proof.
  intros n s k s' HI HK HM HH HR HI'. unfold recv, bind at 1, event_fuel. rewrite HI. change (recv_fuel _ n) with (recv_body (recv_fuel 1) n) at 1.
  unfold recv_body, bind at 1. rewrite wait_datagram_eq, HI. cbn [length loop]. unfold bind at 1, wait_body at 1, bind at 1, get_sk at 1. replace (s_max_retries (sk s) <=? 0) with false by lia.
  unfold bind at 1, udp_recv. rewrite HI. replace (is_timeout k) with true by (destruct HK; subst; reflexivity). unfold bind at 1. rewrite HH. unfold ret at 1.
  unfold bind at 1, wait_body at 1, bind at 1, get_sk at 1. replace (s_max_retries (sk s') <=? 0 + 1) with false by lia. unfold bind, udp_recv. rewrite HI'. reflexivity.
Qed.
Print Assumptions C35_while_waiting.
Example C35_example : types_seqs (snd (run_op OFlush (three_in_flight [timeout]))) = types_seqs (three_in_flight []) ++ [(Some PData, 500)] /\
  types_seqs (snd (run_op (ORecvFrom 9) (accepted true 500 10 [timeout]))) = [(Some PState, 500); (Some PState, 500); (Some PState, 500); (Some PState, 500)] /\
  types_seqs (snd (run_op OClose (accepted true 500 10 [timeout]))) = [(Some PState, 500); (Some PFin, 500); (Some PFin, 500)].
Proof. vm_compute. auto 20. Qed.

(** C36.  [timer_ok s n]: doubling the timer [n] times does not overflow (or the build does not check). *)
Theorem C36_gives_up : forall n ks rest s, Forall (fun k => k = KTimedOut \/ k = KWouldBlock) ks -> w_in (wd s) = map RxErr ks ++ rest ->
  (forall i, w_send (wd s) i = SendOk) -> timer_ok s (length ks) -> Z.of_nat (length ks) = s_max_retries (sk s) ->
  exists s', recv n s = (Fail (Throw KTimedOut), s') /\ s_state (sk s') = Closed /\ w_in (wd s') = rest.
Proof.
  intros n ks rest s HK HI HA HT HM. destruct (wait_gives_up ks rest s) as (s' & E & H1 & H2); auto.
  - eapply Forall_impl; [|exact HK]. intros k [ -> | -> ]; reflexivity.
  - exists s'. split; [|auto]. unfold recv, bind at 1, event_fuel. change (recv_fuel (S ?x) n) with (recv_body (recv_fuel x) n). unfold recv_body, bind. rewrite E. reflexivity.
Qed.
Print Assumptions C36_gives_up.
Theorem C36_read_gives_up : forall n ks rest s, reachable s -> Forall (fun k => k = KTimedOut \/ k = KWouldBlock) ks -> w_in (wd s) = map RxErr ks ++ rest ->
  (forall i, w_send (wd s) i = SendOk) -> timer_ok s (length ks) -> Z.of_nat (length ks) = s_max_retries (sk s) ->
  drained (sk s) -> no_wrap_panic s -> s_state (sk s) <> Closed -> s_state (sk s) <> ResetReceived ->
  exists s', recv_from n s = (Fail (Throw KTimedOut), s') /\ s_state (sk s') = Closed /\ w_in (wd s') = rest.
Proof.
  intros n ks rest s HR HK HI HA HT HM HD HN H1 H2. destruct (C36_gives_up n ks rest s HK HI HA HT HM) as (s' & E & H3 & H4). exists s'. split; [|auto].
  pose proof (r_ack _ (reachable_ranges s HR)). apply recv_from_fails; auto; [lia|now apply reachable_buffer].
Qed.
Print Assumptions C36_read_gives_up.
Theorem C36_flush_gives_up : forall ks rest s, Forall (fun k => k = KTimedOut \/ k = KWouldBlock) ks -> w_in (wd s) = map RxErr ks ++ rest ->
  (forall i, w_send (wd s) i = SendOk) -> timer_ok s (length ks) -> Z.of_nat (length ks) = s_max_retries (sk s) -> s_send_window (sk s) <> [] ->
  exists s', flush s = (Fail (Throw KTimedOut), s') /\ s_state (sk s') = Closed /\ w_in (wd s') = rest.
Proof.
  intros ks rest s HK HI HA HT HM HW. destruct (C36_gives_up BUF_SIZE ks rest s HK HI HA HT HM) as (s' & E & H3 & H4). exists s'. split; [|auto].
  unfold flush, bind at 1, event_fuel. cbn [loop]. unfold bind at 1, bind at 1, get_sk. destruct (s_send_window (sk s)) as [|q w]; [congruence|]. cbn [is_nil]. unfold bind at 1. rewrite E. reflexivity.
Qed.
Print Assumptions C36_flush_gives_up.
(** Fewer timeouts: the call goes on waiting, or processes the datagram that comes next. *)
Theorem C36_goes_on : forall n ks rest s, Forall (fun k => k = KTimedOut \/ k = KWouldBlock) ks -> w_in (wd s) = map RxErr ks ++ rest ->
  (forall i, w_send (wd s) i = SendOk) -> timer_ok s (length ks) -> Z.of_nat (length ks) < s_max_retries (sk s) ->
  (rest = [] -> exists s', recv n s = (Fail Pend, s') /\ s_state (sk s') = s_state (sk s)) /\
  (forall d src more, rest = RxDgram d src :: more -> exists s1 f, recv n s = process_datagram (recv_fuel f) n (firstn 1520 d) src s1 /\ s_state (sk s1) = s_state (sk s) /\ w_in (wd s1) = more).
Proof.
  intros n ks rest s HK HI HA HT HM. destruct (wait_goes_on ks rest s) as (H1 & H2); auto.
  { eapply Forall_impl; [|exact HK]. intros k [ -> | -> ]; reflexivity. }
  unfold recv, bind at 1, event_fuel. split.
  - intros E. destruct (H1 E) as (s' & E1 & F & _). exists s'. split; [|exact F]. change (recv_fuel (S ?x) n) with (recv_body (recv_fuel x) n). unfold recv_body, bind. rewrite E1. reflexivity.
  - intros d src more E. destruct (H2 d src more E) as (s1 & E1 & (F & _) & R & _). exists s1, (length (w_in (wd s))). split; [|auto]. unfold bind at 1. change (recv_fuel (S ?x) n) with (recv_body (recv_fuel x) n). unfold recv_body, bind at 1. rewrite E1. reflexivity.
Qed.
Print Assumptions C36_goes_on.
Notation c36_four := (three_in_flight [timeout; timeout; timeout; timeout; ack 502]).
Notation c36_five := (three_in_flight [timeout; timeout; timeout; timeout; timeout; ack 502]).
Example C36_example : s_max_retries (sk c36_four) = 5 /\ timer_ok c36_five 5 /\ fst (run_op OFlush c36_four) = Ret VUnit /\ fst (run_op OFlush c36_five) = Fail (Throw KTimedOut) /\
  s_state (sk (snd (run_op OFlush c36_five))) = Closed /\ fst (run_op (ORecvFrom 9) (accepted true 500 10 (repeat timeout 5))) = Fail (Throw KTimedOut).
Proof. split; [vm_compute; reflexivity|]. split; [right; vm_compute; split; [discriminate|reflexivity]|]. vm_compute. auto 20. Qed.

(** C37. *)
Theorem C37_closed_gate_refuted : exists s, reachable s /\ w_in (wd s) = [ack 499; ack 499; ack 499] /\ map seq_nr (s_send_window (sk s)) = [500; 501] /\
  (let s' := snd (run_op OFlush s) in w_in (wd s') = [] /\ w_sent (wd s') = w_sent (wd s) /\ s_last_acked (sk s') = 499 /\ s_duplicate_ack_count (sk s') = 3).
Proof.
  exists (let s := snd (run_ops [OSendTo (repeat x41 2760)] (accepted true 500 10 [])) in mkSt (sk s) (sw_in [ack 499; ack 499; ack 499] (wd s))).
  split; [cbv zeta; apply rc_input; reach|]. vm_compute. auto 20.
Qed.
Print Assumptions C37_closed_gate_refuted.
(** With fewer bytes in flight than the gate of [send_packet] allows (C42): *)
Theorem C37_third_partial : forall p exts w1 q w2 s, extensions p = Some exts -> no_sack exts ->
  s_last_acked (sk s) = ack_nr p -> s_duplicate_ack_count (sk s) = 2 -> ~ In (ack_nr p) (map seq_nr (s_send_window (sk s))) -> (w_chk (wd s) = true -> ack_nr p < 65535) ->
  s_send_window (sk s) = w1 ++ q :: w2 -> seq_nr q = (ack_nr p + 1) mod 65536 -> ~ In (seq_nr q) (map seq_nr w1) ->
  s_curr_window (sk s) < Z.max 2800 (Z.min (s_cwnd (sk s)) (s_remote_wnd_size (sk s))) -> tx_ok s = true ->
  exists s' t d, handle_state_packet recv p s = (Ret tt, s') /\
    w_sent (wd s') = w_sent (wd s) ++ [(s_connected_to (sk s), set_timestamp_difference d (set_timestamp t q))] /\
    s_cwnd (sk s') = Z.max (s_cwnd (sk s) / 2) 2800 /\ s_duplicate_ack_count (sk s') = 3 /\ s_send_window (sk s') = s_send_window (sk s).
Proof.
  intros p exts w1 q w2 s HE HN H1 H2 H3 H4 HW HQ HI HG HX. change ((ack_nr p + 1) mod 65536) with (u16 (ack_nr p + 1)) in HQ.
  destruct (third_dup_resends recv p exts w1 q w2 s HE HN) as (s' & E & K & L & _); auto.
  - unfold third_dup. repeat split; auto. rewrite HW. now destruct w1.
  - now rewrite <- HQ.
  - exists s'. eexists. eexists. split; [exact E|]. split; [exact L|]. rewrite K. repeat split.
Qed.
Print Assumptions C37_third_partial.
Theorem C37_absent : forall p exts s, extensions p = Some exts -> no_sack exts ->
  s_last_acked (sk s) = ack_nr p -> s_duplicate_ack_count (sk s) = 2 -> s_send_window (sk s) <> [] -> ~ In (ack_nr p) (map seq_nr (s_send_window (sk s))) -> (w_chk (wd s) = true -> ack_nr p < 65535) ->
  ~ In ((ack_nr p + 1) mod 65536) (map seq_nr (s_send_window (sk s))) ->
  exists s', handle_state_packet recv p s = (Ret tt, s') /\ wd s' = wd s /\ s_cwnd (sk s') = Z.max (s_cwnd (sk s) / 2) 2800 /\ s_send_window (sk s') = s_send_window (sk s).
Proof.
  intros p exts s HE HN H1 H2 H3 H4 H5 H6. eexists. split; [apply (third_dup_nothing recv p exts s HE HN); [unfold third_dup; auto|exact H6]|]. repeat split.
Qed.
Print Assumptions C37_absent.
(** Only the third. *)
Theorem C37_not_third : forall p exts s s', extensions p = Some exts -> no_sack exts ->
  ~ (s_last_acked (sk s) = ack_nr p /\ s_duplicate_ack_count (sk s) = 2) -> 0 <= s_duplicate_ack_count (sk s) < 2 ^ 32 -> handle_state_packet recv p s = (Ret tt, s') -> w_sent (wd s') = w_sent (wd s).
Proof.
  intros p exts s s' HE HN HD HR H. eapply plain_ack; eauto. right. unfold dup_after. destruct (ack_nr p =? s_last_acked (sk s)) eqn:E; [|lia].
  rewrite u32_eq. assert (s_duplicate_ack_count (sk s) <> 2) by (intros E2; apply HD; split; [lia|exact E2]). intros HM.
  assert (s_duplicate_ack_count (sk s) = 4294967295 \/ s_duplicate_ack_count (sk s) + 1 < 4294967296) as [E1|E1] by lia; [rewrite E1 in HM; discriminate|rewrite Z.mod_small in HM; lia].
Qed.
Print Assumptions C37_not_third.
Example C37_example : let log n := types_seqs (snd (run_op OFlush (three_in_flight (repeat (ack 499) n)))) in
  log 2%nat = types_seqs (three_in_flight []) /\ log 3%nat = types_seqs (three_in_flight []) ++ [(Some PData, 500)] /\ log 6%nat = log 3%nat.
Proof. vm_compute. auto 20. Qed.

(** C42. *)
Theorem C42_gate : forall p s p' s', send_packet recv p s = (Ret p', s') -> exists t,
  (s_curr_window (sk t) < Z.max 2800 (Z.min (s_cwnd (sk s)) (s_remote_wnd_size (sk s))) \/
   exists t', t = ticked t' /\ 500000 <= clock_now t' - clock_now s) /\
  ((p' = p /\ s' = t) \/ (w_sent (wd s') = w_sent (wd t) ++ [(s_connected_to (sk t), p')] /\ sk s' = sk t)).
Proof.
  intros p s p' s' H. destruct (send_packet_gate _ _ _ _ _ H) as (t & HG & HT). exists t. split; [exact HG|].
  destruct (transmit_cases _ _ _ _ HT) as [(_ & -> & ->)|(_ & _ & K & E)]; auto.
Qed.
Print Assumptions C42_gate.
Theorem C42_waits : forall p s, Z.max 2800 (Z.min (s_cwnd (sk s)) (s_remote_wnd_size (sk s))) <= s_curr_window (sk s) ->
  clock_now (ticked s) - clock_now s < 500000 -> 0 < s_max_retries (sk s) -> w_in (wd s) = [] ->
  exists s', send_packet recv p s = (Fail Pend, s') /\ sk s' = sk s /\ w_sent (wd s') = w_sent (wd s).
Proof. intros p s H1 H2 H3 H4. eexists. split; [apply send_packet_waits; auto|]. split; reflexivity. Qed.
Print Assumptions C42_waits.
(** The third segment waits until the first is acknowledged. *)
Notation c42_start evs := (accepted true 500 10 evs).
Example C42_example : let r evs := run_ops [OSendTo (repeat x41 2761)] (c42_start evs) in
  fst (r []) = [Fail Pend] /\ types_seqs (snd (r [])) = [(Some PState, 500); (Some PData, 500); (Some PData, 501)] /\
  fst (r [ack 500]) = [Ret (VLen 2761)] /\ types_seqs (snd (r [ack 500])) = [(Some PState, 500); (Some PData, 500); (Some PData, 501); (Some PData, 502)].
Proof. vm_compute. auto 20. Qed.

(** C43. *)
Theorem C43_skipped_refuted : exists s, reachable s /\ s_state (sk s) = Connected /\ w_in (wd s) = [] /\
  fst (send_to [x41] s) = Ret 1 /\ w_sent (wd (snd (send_to [x41] s))) = w_sent (wd s).
Proof.
  exists (accepted true 40000 10 []). split; [apply accepted_reachable; vm_compute; reflexivity|]. vm_compute. auto.
Qed.
Print Assumptions C43_skipped_refuted.
(** Each packet of a successful [send_to] has been put on the wire, unless the socket holds (or receives) an
    acknowledgement number that counts as being ahead of the packet's number. *)
Theorem C43_sent_partial : forall d s n s', reachable s -> s_unsent_queue (sk s) = [] -> send_to d s = (Ret n, s') -> exists cs ps,
  concat cs = d /\ numbered (s_sender_connection_id (sk s)) (s_ack_nr (sk s)) (s_seq_nr (sk s)) cs ps /\
  forall p, In p ps -> (exists dest q, copy_of p q /\ In (dest, q) (w_sent (wd s'))) \/
    (exists a, (a = s_last_acked (sk s) \/ acked_in (w_in (wd s)) a) /\ (a - seq_nr p) mod 65536 < (seq_nr p - a) mod 65536).
Proof.
  intros d s n s' HR HU H. destruct (send_to_sent d s n s' HR HU H) as (ps & H1 & H2). exists (chunks 1380 d), ps. split; [apply chunks_concat; lia|]. auto.
Qed.
Print Assumptions C43_sent_partial.
Example C43_example : reachable (accepted true 500 10 []) /\ s_unsent_queue (sk (accepted true 500 10 [])) = [] /\ s_last_acked (sk (accepted true 500 10 [])) = 0 /\
  fst (send_to [x41] (accepted true 500 10 [])) = Ret 1 /\ types_seqs (snd (send_to [x41] (accepted true 500 10 []))) = [(Some PState, 500); (Some PData, 500)].
Proof. split; [apply accepted_reachable; vm_compute; reflexivity|]. vm_compute. auto 20. Qed.

(** C44. *)
(** A connection whose second UDP send (the first after the handshake) fails. *)
Definition flaky (r : sendres) : st := snd (accept (RxDgram (dgram PSyn 100 10 0 []) peer) (Ok local) (Ok tt)
  (mkSt blank (mkWorld [] 0 (fun n => 1600000000000000 + 1000 * Z.of_nat n) 0 (fun _ => 500) 0 (fun n => match n with O => SendOk | S _ => r end) [] true))).
Lemma flaky_reachable r : reachable (flaky r).
Proof. unfold flaky. destruct (accept _ _ _ _) as [o s] eqn:E. assert (o = Ret peer) as ->. { change o with (fst (o, s)). rewrite <- E. vm_compute. reflexivity. } eapply rc_accept; [|exact E]. reflexivity. Qed.
Theorem C44_lost_refuted : exists s, reachable s /\ s_state (sk s) = Connected /\
  (let s' := snd (send_to [x41] s) in fst (send_to [x41] s) = Fail (Throw (KMisc 13)) /\ s_unsent_queue (sk s') = [] /\ s_send_window (sk s') = [] /\ s_seq_nr (sk s') = s_seq_nr (sk s) + 1).
Proof. exists (flaky (SendErr (KMisc 13))). split; [apply flaky_reachable|]. vm_compute. auto 20. Qed.
Print Assumptions C44_lost_refuted.
Theorem C44_cancelled_refuted : exists s, reachable s /\ s_state (sk s) = Connected /\
  (let s' := snd (send_to [x41] s) in fst (send_to [x41] s) = Fail Pend /\ s_unsent_queue (sk s') = [] /\ s_send_window (sk s') = [] /\ s_seq_nr (sk s') = s_seq_nr (sk s) + 1).
Proof. exists (flaky SendDrop). split; [apply flaky_reachable|]. vm_compute. auto 20. Qed.
Print Assumptions C44_cancelled_refuted.
(** At most one packet is lost: all others move one by one from the queue to the window. *)
Theorem C44_one_lost_partial : forall d s o s', reachable s -> s_state (sk s) <> Closed -> send_to d s = (o, s') -> (forall l, o <> Fail (Panic l)) -> exists cs ps,
  concat cs = d /\ numbered (s_sender_connection_id (sk s)) (s_ack_nr (sk s)) (s_seq_nr (sk s)) cs ps /\
  let acked := acked_in (w_in (wd s)) in let start := (s_unsent_queue (sk s) ++ ps, s_send_window (sk s)) in
  match o with
  | Ret _ => clos_refl_trans _ (moves acked) start ([], s_send_window (sk s')) /\ s_unsent_queue (sk s') = []
  | Fail _ => exists p w, clos_refl_trans _ (moves acked) start (p :: s_unsent_queue (sk s'), w) /\ clos_refl_trans _ (keeps acked) w (s_send_window (sk s'))
  end.
Proof.
  intros d s o s' HR HS H HN. destruct (send_to_moves d s o s' HR HS H HN) as (ps & H1 & H2). exists (chunks 1380 d), ps. split; [apply chunks_concat; lia|]. auto.
Qed.
Print Assumptions C44_one_lost_partial.
Example C44_example : let r := run_ops [OSendTo (repeat x41 2761)] (accepted true 500 10 [RxCancel]) in fst r = [Fail Pend] /\ s_unsent_queue (sk (snd r)) = [] /\
  map seq_nr (s_send_window (sk (snd r))) = [500; 501] /\ s_seq_nr (sk (snd r)) = 503.
Proof. vm_compute. auto 20. Qed.
