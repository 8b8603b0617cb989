(** More of C37, C40 and C80, for every state; C109. *)
From Verif Require Import GateProofs PropCong PropSend PropDelay Samples.
Require Import Lia.
Local Open Scope Z_scope.

(** C37.  Whenever the packets in flight fill the window, the third duplicate acknowledgement retransmits nothing: the socket waits for room, which only the acknowledgement of the
    lost packet would make (or the 500 ms of the gate); the congestion window is not halved either until then. *)
Theorem C37_every_refuted : forall p exts w1 q w2 s, extensions p = Some exts -> no_sack exts ->
  s_last_acked (sk s) = ack_nr p -> s_duplicate_ack_count (sk s) = 2 -> ~ In (ack_nr p) (map seq_nr (s_send_window (sk s))) -> (w_chk (wd s) = true -> ack_nr p < 65535) ->
  s_send_window (sk s) = w1 ++ q :: w2 -> seq_nr q = (ack_nr p + 1) mod 65536 -> ~ In (seq_nr q) (map seq_nr w1) ->
  Z.max 2800 (Z.min (s_cwnd (sk s)) (s_remote_wnd_size (sk s))) <= s_curr_window (sk s) ->
  micros_of_clock (w_clock (wd s) (S (w_tick (wd s)))) - micros_of_clock (w_clock (wd s) (w_tick (wd s))) < 500000 -> w_in (wd s) = [] -> 0 < s_max_retries (sk s) ->
  exists s', handle_state_packet recv p s = (Fail Pend, s') /\ w_sent (wd s') = w_sent (wd s) /\ s_cwnd (sk s') = s_cwnd (sk s).
Proof.
  intros p exts w1 q w2 s HE HN H1 H2 H3 H4 HW HQ HI HG HC HE0 HM. change ((ack_nr p + 1) mod 65536) with (u16 (ack_nr p + 1)) in HQ.
  eapply (third_dup_waits p exts w1 q w2 s HE HN); auto; [unfold third_dup; repeat split; auto; rewrite HW; now destruct w1|now rewrite <- HQ].
Qed.
Print Assumptions C37_every_refuted.
Notation c37_full := (snd (run_ops [ORecvFrom 9] (let s := snd (run_ops [OSendTo (repeat x41 2760)] (accepted true 500 10 [])) in mkSt (sk s) (sw_in [rx_pkt (dgram PState 101 11 499 []); rx_pkt (dgram PState 101 11 499 [])] (wd s))))).
Example C37_every_example : let s := c37_full in s_last_acked (sk s) = 499 /\ s_duplicate_ack_count (sk s) = 2 /\ map seq_nr (s_send_window (sk s)) = [500; 501] /\ s_curr_window (sk s) = 2800 /\
  Z.max 2800 (Z.min (s_cwnd (sk s)) (s_remote_wnd_size (sk s))) = 2800 /\ w_in (wd s) = [] /\ s_max_retries (sk s) = 5 /\
  micros_of_clock (w_clock (wd s) (S (w_tick (wd s)))) - micros_of_clock (w_clock (wd s) (w_tick (wd s))) < 500000.
Proof. vm_compute. auto 20. Qed.

(** C40.  Any number of timeouts in a row, fewer than the socket gives up after: each doubles the timer, without a limit. *)
Theorem C40_every_refuted : forall n ks s, Forall (fun k => k = KTimedOut \/ k = KWouldBlock) ks -> w_in (wd s) = map RxErr ks -> (forall i, w_send (wd s) i = SendOk) -> 0 <= s_congestion_timeout (sk s) ->
  s_congestion_timeout (sk s) * 2 ^ Z.of_nat (length ks) <= 2 ^ 63 -> Z.of_nat (length ks) < s_max_retries (sk s) ->
  exists s', recv n s = (Fail Pend, s') /\ s_congestion_timeout (sk s') = s_congestion_timeout (sk s) * 2 ^ Z.of_nat (length ks).
Proof. exact recv_doubles. Qed.
Print Assumptions C40_every_refuted.
Example C40_every_example : let s := snd (run_ops [OSetRetries 60] (accepted true 500 10 (repeat timeout 50))) in s_congestion_timeout (sk s) = 1000 /\ length (w_in (wd s)) = 50%nat /\ s_max_retries (sk s) = 60 /\
  1000 * 2 ^ 50 <= 2 ^ 63 /\ s_congestion_timeout (sk (snd (recv 9 s))) = 1125899906842624000.
Proof. vm_compute. repeat split; auto; discriminate. Qed.

(** C80.  Whatever is in the window of current delays: every sample at its front that is older than a tenth of the round-trip time goes. *)
Theorem C80_every_refuted : forall i s s' old rest, process_ack i s = (Ret tt, s') -> s_current_delays (sk s) = old ++ rest -> Forall (fun x => 100 * s_rtt (sk s) < clock_now s - fst x) old ->
  exists d kept dropped, rest = dropped ++ kept /\ s_current_delays (sk s') = kept ++ [(clock_now s, d)].
Proof.
  intros i s s' old rest H E HO. destruct (C80_tenth_partial i s s' H) as (d & dropped & kept & E1 & E2 & HD & HK). exists d, kept.
  revert dropped E1 HD. rewrite E. clear E. induction HO as [|x old Hx HO IH]; intros dropped E1 HD; [eauto|]. cbn [app] in E1. destruct dropped as [|y dropped]; cbn [app] in E1.
  - destruct kept as [|z kept]; [discriminate|]. injection E1 as <- E1. lia.
  - injection E1 as <- E1. inversion HD; subst. eapply IH; eassumption.
Qed.
Print Assumptions C80_every_refuted.
Example C80_every_example : s_rtt (sk state80) = 100 /\ s_current_delays (sk state80) = [(1800000, 800000)] ++ [] /\ 100 * s_rtt (sk state80) < clock_now state80 - 1800000 <= 1000 * s_rtt (sk state80) /\
  fst (process_ack 0 state80) = Ret tt.
Proof. vm_compute. repeat split; auto; discriminate. Qed.

(** C109.  A packet that is sent again carries the acknowledgement number of the call that created it, whatever was received since.
    After a timeout: *)
Theorem C109_timeout_refuted : forall p rest s, reachable s -> s_send_window (sk s) = p :: rest -> 0 <= s_congestion_timeout (sk s) < 2 ^ 63 -> tx_ok s = true ->
  exists s' r, handle_receive_timeout s = (Ret tt, s') /\ w_sent (wd s') = w_sent (wd s) ++ [(s_connected_to (sk s), r)] /\ seq_nr r = seq_nr p /\ ack_nr r = ack_nr p.
Proof.
  intros p rest s HR HW HT HX. destruct (C35_resends_oldest p rest s HW HT HX) as (s' & t & E & L & _). exists s', (set_timestamp t p).
  assert (HP : W0 p) by (apply (in_flight_W0 p s HR); rewrite HW; now left). repeat (split; [assumption|]). split; [|apply (restamped_ack p t 0 HP)].
  destruct HP as (h & pl & -> & _). rewrite set_ts_wire, !seq_wire. reflexivity.
Qed.
Print Assumptions C109_timeout_refuted.
(** After three duplicate acknowledgements: *)
Theorem C109_fast_refuted : forall p exts w1 q w2 s, reachable s -> extensions p = Some exts -> no_sack exts ->
  s_last_acked (sk s) = ack_nr p -> s_duplicate_ack_count (sk s) = 2 -> ~ In (ack_nr p) (map seq_nr (s_send_window (sk s))) -> (w_chk (wd s) = true -> ack_nr p < 65535) ->
  s_send_window (sk s) = w1 ++ q :: w2 -> seq_nr q = (ack_nr p + 1) mod 65536 -> ~ In (seq_nr q) (map seq_nr w1) ->
  s_curr_window (sk s) < Z.max 2800 (Z.min (s_cwnd (sk s)) (s_remote_wnd_size (sk s))) -> tx_ok s = true ->
  exists s' r, handle_state_packet recv p s = (Ret tt, s') /\ w_sent (wd s') = w_sent (wd s) ++ [(s_connected_to (sk s), r)] /\ ack_nr r = ack_nr q.
Proof.
  intros p exts w1 q w2 s HR HE HN H1 H2 H3 H4 HW HQ HI HG HX. destruct (C37_third_partial p exts w1 q w2 s HE HN H1 H2 H3 H4 HW HQ HI HG HX) as (s' & t & d & E & L & _).
  eexists. eexists. split; [exact E|]. split; [exact L|]. apply restamped_ack. apply (in_flight_W0 q s HR). rewrite HW. apply in_or_app. right. now left.
Qed.
Print Assumptions C109_fast_refuted.
(** Packet 500 was sent when 10 had been received; 11 and 12 arrive and are acknowledged and read; sent again after a timeout it still says 10. *)
Notation c109_state evs := (snd (run_ops [OSendTo [x41]; ORecvFrom 9; ORecvFrom 9] (accepted true 500 10 (rx_pkt (dgram PData 101 11 499 [x61]) :: rx_pkt (dgram PData 101 12 499 [x62]) :: evs)))).
Example C109_example : reachable (c109_state [timeout]) /\ s_ack_nr (sk (c109_state [timeout])) = 12 /\ map seq_nr (s_send_window (sk (c109_state [timeout]))) = [500] /\
  map (fun x => (get_type (snd x), seq_nr (snd x), ack_nr (snd x))) (w_sent (wd (snd (run_op OFlush (c109_state [timeout]))))) =
    [(Some PState, 500, 10); (Some PData, 500, 10); (Some PState, 501, 11); (Some PState, 501, 12); (Some PData, 500, 10)].
Proof. split; [reach|]. vm_compute. auto. Qed.
(** What holds: packets that carry no data are built when they are sent.  The closing FIN and the packets of a timeout without data in flight: *)
Theorem C109_built_partial : forall s, reachable s -> s_send_window (sk s) = [] -> s_state (sk s) <> New -> 0 <= s_congestion_timeout (sk s) < 2 ^ 63 -> (forall i, w_send (wd s) i = SendOk) ->
  exists s' qs, handle_receive_timeout s = (Ret tt, s') /\ w_sent (wd s') = w_sent (wd s) ++ map (pair (s_connected_to (sk s))) qs /\ qs <> [] /\ Forall (fun q => ack_nr q = s_ack_nr (sk s)) qs.
Proof.
  intros s HR HW HN HT HX. pose proof (reachable_ranges s HR) as NR. assert (HS : s_state (sk s) = FinSent \/ s_state (sk s) <> FinSent) by (destruct (s_state (sk s)); auto; right; discriminate). destruct HS as [ES|ES].
  { destruct (C35_resends_fin s HW ES HT (all_sent_ok s HX)) as (s' & t & E & _ & _ & L). exists s'. eexists [_]. split; [exact E|]. split; [exact L|]. split; [discriminate|].
      constructor; [|constructor]. rewrite ack_wire. cbn [h_ack]. apply u16_small. exact (r_ack _ NR). }
  destruct (C35_acknowledges s HW ES HN HT HX NR) as (s' & q1 & q2 & q3 & E & L & HQ). exists s', [q1; q2; q3]. split; [exact E|]. split; [exact L|]. split; [discriminate|]. repeat constructor; apply HQ; cbn; auto.
Qed.
Print Assumptions C109_built_partial.
