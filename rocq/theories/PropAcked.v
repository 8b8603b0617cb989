(** More of C11, C36 and C81: the calls run, and whole packets do what the single steps do. *)
From Verif Require Import AckedProofs PropWindow PropDelay PropSend UtilProofs Samples.
Require Import ZifyBool Lia.
Local Open Scope Z_scope.

(** C11.  Binding succeeds when an address resolves and the UDP socket can be bound; the receiver's id is the random draw, except for the largest one. *)
Theorem C11_total : forall a l s0, exists s, bind_socket (Ok (a :: l)) (Ok tt) s0 = (Ret tt, s) /\ s_connected_to (sk s) = a /\ s_state (sk s) = New /\
  s_receiver_connection_id (sk s) = Z.min (u16 (w_rand (wd s0) (w_rtick (wd s0)))) 65534 /\ s_sender_connection_id (sk s) = s_receiver_connection_id (sk s) + 1.
Proof.
  intros a l s0. pose proof (u16_range (w_rand (wd s0) (w_rtick (wd s0)))). unfold bind_socket, take_address, from_raw_parts, random_u16, bind at 1, ret at 1, bind at 1, try_, ret at 1, bind at 1, upd_sk.
  eexists. split; [reflexivity|]. sproj. split; [reflexivity|]. split; [reflexivity|]. cbn [fresh_socket s_receiver_connection_id s_sender_connection_id].
  unfold sequential_identifiers. change (2 ^ 16) with 65536. destruct (_ <? 65536) eqn:E; cbn [fst snd]; lia.
Qed.
Print Assumptions C11_total.
Example C11_total_example : s_receiver_connection_id (sk (snd (bind_socket (Ok [local]) (Ok tt) (mkSt blank (sample_world true 77 []))))) = 77.
Proof. vm_compute. reflexivity. Qed.

(** C36.  Closing with nothing in flight: the FIN goes out, and after that many timeouts the call gives up. *)
Theorem C36_close_gives_up : forall ks rest s, Forall (fun k => k = KTimedOut \/ k = KWouldBlock) ks -> w_in (wd s) = map RxErr ks ++ rest ->
  (forall i, w_send (wd s) i = SendOk) -> timer_ok s (length ks) -> Z.of_nat (length ks) = s_max_retries (sk s) -> s_state (sk s) = Connected -> s_send_window (sk s) = [] ->
  exists s' f later, close s = (Fail (Throw KTimedOut), s') /\ s_state (sk s') = Closed /\ w_in (wd s') = rest /\
    w_sent (wd s') = w_sent (wd s) ++ (s_connected_to (sk s), f) :: later /\ get_type f = Some PFin.
Proof.
  intros ks rest s HK HI HA HT HM ES EW. destruct (close_waits ks rest s HK HI HA HT HM ES EW) as (s' & later & E & H1 & H2 & H3). exists s', (fin_of s), later.
  repeat (split; [assumption|]). unfold fin_of. rewrite get_type_wire. reflexivity.
Qed.
Print Assumptions C36_close_gives_up.
(** With packets in flight the call gives up while it waits for their acknowledgement. *)
Theorem C36_close_unacknowledged : forall ks rest s, Forall (fun k => k = KTimedOut \/ k = KWouldBlock) ks -> w_in (wd s) = map RxErr ks ++ rest ->
  (forall i, w_send (wd s) i = SendOk) -> timer_ok s (length ks) -> Z.of_nat (length ks) = s_max_retries (sk s) -> s_state (sk s) = Connected -> s_send_window (sk s) <> [] ->
  exists s', close s = (Fail (Throw KTimedOut), s') /\ s_state (sk s') = Closed /\ w_in (wd s') = rest.
Proof. exact close_flush_waits. Qed.
Print Assumptions C36_close_unacknowledged.
Notation c36_silent := (accepted true 500 10 (repeat timeout 5)).
Example C36_close_example : s_max_retries (sk c36_silent) = 5 /\ s_state (sk c36_silent) = Connected /\ s_send_window (sk c36_silent) = [] /\ timer_ok c36_silent 5 /\
  fst (run_op OClose c36_silent) = Fail (Throw KTimedOut) /\ s_state (sk (snd (run_op OClose c36_silent))) = Closed /\
  types_seqs (snd (run_op OClose c36_silent)) = (Some PState, 500) :: repeat (Some PFin, 500) 6 /\
  fst (run_op OClose (three_in_flight (repeat timeout 5))) = Fail (Throw KTimedOut).
Proof. split; [vm_compute; reflexivity|]. split; [vm_compute; reflexivity|]. split; [vm_compute; reflexivity|]. split; [right; vm_compute; split; [discriminate|reflexivity]|]. vm_compute. auto 20. Qed.

(** C81.  The sample is taken whenever a packet in flight is acknowledged (below 4 GiB in flight). *)
Theorem C81_runs : forall i p s, reachable s -> nth_error (s_send_window (sk s)) i = Some p -> 0 <= s_curr_window (sk s) < 4294960000 -> exists s', process_ack i s = (Ret tt, s').
Proof. intros i p s HR HN HC. destruct (process_ack_runs i p s (reachable_ok s HR) HN HC) as (s' & E & _). now exists s'. Qed.
Print Assumptions C81_runs.
(** A whole State packet, read by [recv]: it acknowledges packet [q], not reported before; [w1] was sent earlier, [w2] later.
    The clock is read for the third time when the sample is taken. *)
Theorem C81_packet : forall n d src rest r exts w1 q w2 s, reachable s -> s_state (sk s) = Connected -> s_pending_data (sk s) = [] -> s_incoming_buffer (sk s) = [] -> 0 < s_max_retries (sk s) ->
  w_in (wd s) = RxDgram d src :: rest -> packet_try_from (firstn 1520 d) = Some (Ok r) -> get_type r = Some PState -> connection_id r = s_receiver_connection_id (sk s) ->
  extensions r = Some exts -> (forall e, In e exts -> is_sack (ext_ty e) = false) -> s_send_window (sk s) = w1 ++ q :: w2 -> sum_len (s_send_window (sk s)) < 4294960000 ->
  seq_nr q = ack_nr r -> (forall x, In x w1 -> seq_nr x <> ack_nr r) -> s_last_acked (sk s) <> ack_nr r ->
  exists s', recv n s = (Ret ([], src), s') /\ w_in (wd s') = rest /\ w_sent (wd s') = w_sent (wd s) /\ s_state (sk s') = Connected /\
  s_send_window (sk s') = w2 /\ s_last_acked (sk s') = ack_nr r /\ s_duplicate_ack_count (sk s') = 1 /\ s_last_acked_timestamp (sk s') = micros_of_clock (w_clock (wd s) (1 + w_tick (wd s))) /\
  let now := micros_of_clock (w_clock (wd s) (2 + w_tick (wd s))) in let d := now - timestamp q in
  (exists older, s_current_delays (sk s') = older ++ [(now, d)]) /\
  ((s_base_delays (sk s) = [] \/ 60000000 < now - s_last_rollover (sk s)) -> s_last_rollover (sk s') = now /\ exists kept, s_base_delays (sk s') = kept ++ [d]) /\
  (forall old last, s_base_delays (sk s) = old ++ [last] -> now - s_last_rollover (sk s) <= 60000000 ->
     s_last_rollover (sk s') = s_last_rollover (sk s) /\ s_base_delays (sk s') = old ++ [Z.min last d]) /\
  let r := (d - queuing s') mod 2 ^ 32 / 1000 in
  s_rtt (sk s') = s_rtt (sk s) + (r - s_rtt (sk s)) ÷ 8 /\
  s_rtt_variance (sk s') = s_rtt_variance (sk s) + (Z.abs (s_rtt (sk s) - r) - s_rtt_variance (sk s)) ÷ 4 /\
  s_congestion_timeout (sk s') = Z.min (Z.max (s_rtt (sk s') + 4 * s_rtt_variance (sk s')) 500) 60000.
Proof.
  intros n d src rest r exts w1 q w2 s HR ES EP EB HM EI EV ET EC HE HN EW HL EQ HF HA.
  destruct (ack_read n d src rest r exts w1 q w2 s HR ES EP EB HM EI EV ET EC HE) as (t1 & t2 & s' & S1 & C1 & E & S' & I' & L' & K1 & K2 & K3 & K4 & ER); auto; [now apply Forall_forall|].
  exists s'. split; [exact ER|]. split; [exact I'|]. split; [exact L'|]. split; [exact K1|]. split; [rewrite S'; reflexivity|]. split; [exact K2|]. split; [exact K3|]. split; [exact K4|].
  destruct (process_ack_recorded _ _ _ E) as (p & HP & HB & HO & HD & HT). cbv zeta in HB, HO, HD, HT. rewrite C1 in HB, HO, HD, HT. change (clock_now (ticked (ticked s))) with (micros_of_clock (w_clock (wd s) (2 + w_tick (wd s)))) in *.
  set (now := micros_of_clock _) in *. cbv zeta.
  assert (F : s_send_window (sk t1) = s_send_window (sk s) /\ s_base_delays (sk t1) = s_base_delays (sk s) /\ s_last_rollover (sk t1) = s_last_rollover (sk s) /\ s_rtt (sk t1) = s_rtt (sk s) /\ s_rtt_variance (sk t1) = s_rtt_variance (sk s)).
  { rewrite S1. sproj. rewrite (acked_other s_send_window), (acked_other s_base_delays), (acked_other s_last_rollover), (acked_other s_rtt), (acked_other s_rtt_variance) by reflexivity. auto 10. }
  destruct F as (F1 & F2 & F3 & F4 & F5). rewrite F1, EW, nth_error_app2, Nat.sub_diag in HP by lia. cbn [nth_error] in HP. injection HP as <-.
  assert (G : queuing s' = measured (sk t2)) by (rewrite queuing_measured, S'; reflexivity). rewrite <- G in HT. set (x := (now - timestamp q - queuing s') mod 2 ^ 32 / 1000) in *.
  assert (Hx : 0 <= x <= 4294967). { pose proof (Z.mod_pos_bound (now - timestamp q - queuing s') (2 ^ 32) eq_refl) as HMod. change (2 ^ 32) with 4294967296 in *. unfold x. split; [apply Z.div_pos; lia|]. apply Z.lt_succ_r, Z.div_lt_upper_bound; lia. }
  destruct (reachable_ranges s HR). pose proof (rto_values x (sk t1) Hx ltac:(rewrite F4; exact r_rtt) ltac:(rewrite F5; exact r_var)) as (E1 & E2 & E3 & _). cbv zeta in E3. destruct HT as (M1 & M2 & M3).
  pose proof (base_update (now - timestamp q) now (sk t1) ltac:(rewrite F2; exact (reachable_base s HR))) as (_ & HB1 & HB2). unfold ts_sub in HB1, HB2. rewrite F2, F3 in HB1, HB2.
  rewrite S'. sproj. rewrite M3, E3, M1, M2, HB, HO, E1, E2, F4, F5.
  split; [eexists; exact HD|]. split; [|auto]. intros HN1. destruct (HB1 HN1) as (-> & kept & _ & _ & -> & _). split; [reflexivity|]. now exists kept.
Qed.
Print Assumptions C81_packet.
(** Packet 500 is sent at 1 s and acknowledged at 1.8 s: the sample of 800 ms counts for one eighth; packet 501 stays in flight. *)
Notation state81 := (snd (run_ops [OSendTo [x41]; OSendTo [x42]] (clocked clock80 [rx_pkt (dgram PState 101 11 500 [])]))).
Example C81_packet_example : reachable state81 /\ s_state (sk state81) = Connected /\ map seq_nr (s_send_window (sk state81)) = [500; 501] /\ s_last_acked (sk state81) = 0 /\
  let s' := snd (recv 10 state81) in map seq_nr (s_send_window (sk s')) = [501] /\ s_current_delays (sk s') = [(1800000, 800000)] /\ s_rtt (sk s') = 100 /\ s_rtt_variance (sk s') = 200 /\ s_congestion_timeout (sk s') = 900.
Proof. split; [apply clocked_reachable; vm_compute; reflexivity|]. vm_compute. auto 20. Qed.
