(** C96 to C99: rules of BEP 29 and RFC 6817 about delays and windows. *)
From Verif Require Import BepProofs SelectiveProofs BurstProofs PropPacket PropWindow PropDelay Samples.
Require Import ZifyBool ZifyNat ZifyN.
Local Open Scope Z_scope.

(** C96.  The delay the peer reports (the field [timestamp_difference]) is never looked at: whatever it says, in whatever state, a packet other than data is handled with the same results,
    the same answers and the same state after it.  (The delays the congestion control works with are those of [C81_sample]: the time from sending a packet to its acknowledgement.) *)
Theorem C96_refuted : forall n p d src rest s1 s2, packet_try_from p = Some (Ok p) -> get_type p <> Some PData -> (length p <= 1520)%nat -> 0 < s_max_retries (sk s1) ->
  sk s2 = sk s1 -> w_in (wd s1) = RxDgram p src :: rest -> wd s2 = sw_in (RxDgram (set_timestamp_difference d p) src :: rest) (wd s1) -> recv n s2 = recv n s1.
Proof.
  intros n p d src rest s1 s2 HV HT HL HM HS HI HW. assert (HI2 : w_in (wd s2) = RxDgram (set_timestamp_difference d p) src :: rest) by (rewrite HW; reflexivity).
  rewrite (recv_first n _ src rest s1 HI HM). rewrite (recv_first n _ src rest s2 HI2) by (rewrite HS; exact HM).
  assert (EL : length (set_timestamp_difference d p) = length p).
  { destruct (parse_inv _ _ HV) as (_ & h & exts & pl & _ & _ & ->). rewrite set_tsd_wire, !wire_length. reflexivity. }
  rewrite !firstn_all2 by (rewrite ?EL; exact HL). rewrite report_ignored by assumption. f_equal; [rewrite HI, HI2; reflexivity|]. unfold rx_state. rewrite HS, HW. cbn. rewrite HI. reflexivity.
Qed.
Print Assumptions C96_refuted.

(** C97.  When the oldest packet was sent again on a timeout at time [clock_now s], its acknowledgement gives a round-trip sample that counts from then, whenever it was sent first. *)
Theorem C97_refuted : forall p rest s s1 s2 s3, s_send_window (sk s) = p :: rest -> (20 <= length p)%nat -> 0 <= s_congestion_timeout (sk s) < 2 ^ 63 -> tx_ok s = true ->
  handle_receive_timeout s = (Ret tt, s1) -> reachable s2 -> s_send_window (sk s2) = s_send_window (sk s1) -> process_ack 0 s2 = (Ret tt, s3) ->
  let d := clock_now s2 - clock_now s in let r := (d - queuing s3) mod 2 ^ 32 / 1000 in
  (exists older, s_current_delays (sk s3) = older ++ [(clock_now s2, d)]) /\ s_rtt (sk s3) = s_rtt (sk s2) + (r - s_rtt (sk s2)) ÷ 8.
Proof.
  intros p rest s s1 s2 s3 HW HP HT HX H1 HR HS H3. destruct (timeout_resends p rest s HW ltac:(unfold timer_fits; lia) HX) as (s' & E & K & _). rewrite E in H1. injection H1 as <-.
  destruct (C81_sample 0 s2 s3 HR H3) as (q & EQ & HC). cbv zeta in *. rewrite HS, K in EQ. cbn in EQ. injection EQ as <-.
  assert (ET : timestamp (set_timestamp (clock_now s) p) = clock_now s).
  { destruct (C04_set_timestamp p (clock_now s) HP) as (_ & HV & _). unfold header_view in HV. injection HV as _ HV _ _ _ _. rewrite HV, u32_eq. apply Z.mod_small. exact (clock_range s). }
  rewrite ET in HC. destruct HC as (H4 & _ & _ & H5 & _). auto.
Qed.
Print Assumptions C97_refuted.

(** A client with one packet in flight, an acknowledgement of it that reports a delay of [d], and the time on the clock, 1 ms per look. *)
Definition report (d : Z) : packet := wire (mkHdr PState 300 77 d 1048576 500 2) [] [].
Definition asking (evs : list rx) : st := let s := snd (run_ops [OSendTo [x41]] (connected true 500 [])) in mkSt (sk s) (sw_in evs (wd s)).
Example C96_example : reachable (asking [RxDgram (report 0) peer]) /\ packet_try_from (report 0) = Some (Ok (report 0)) /\ get_type (report 0) = Some PState /\
  set_timestamp_difference 3000000 (report 0) = report 3000000 /\ (length (s_send_window (sk (asking []))), length (s_send_window (sk (snd (recv 9 (asking [RxDgram (report 3000000) peer])))))) = (1, 0)%nat /\
  s_current_delays (sk (snd (recv 9 (asking [RxDgram (report 3000000) peer])))) = s_current_delays (sk (snd (recv 9 (asking [RxDgram (report 0) peer])))).
Proof. split; [unfold asking; cbv zeta; apply rc_input, ran_reachable; [apply connected_reachable|]; vm_compute; reflexivity|]. vm_compute. auto 10. Qed.
(** The packet is sent; the first timeout makes the client send it again; the acknowledgement that then arrives is counted from there. *)
Example C97_example : let s := asking [RxErr KTimedOut] in let s1 := snd (run_ops [OFlush] s) in let s2 := mkSt (sk s1) (sw_in [RxDgram (report 0) peer] (wd s1)) in let s3 := snd (run_ops [OFlush] s2) in
  reachable s3 /\ map timestamp (s_send_window (sk s)) <> map timestamp (s_send_window (sk s1)) /\
  map (fun x => fst x - snd x) (s_current_delays (sk s3)) = map timestamp (s_send_window (sk s1)).
Proof.
  cbv zeta. split; [|vm_compute; split; [congruence|reflexivity]]. apply ran_reachable; [|vm_compute; reflexivity]. apply rc_input, ran_reachable; [|vm_compute; reflexivity].
  unfold asking. cbv zeta. apply rc_input, ran_reachable; [apply connected_reachable|]; vm_compute; reflexivity.
Qed.

(** C98.  Two selective acknowledgements that report the same loss halve the window twice, at the same moment. *)
Theorem C98_refuted : forall p d s s1 s2, extensions p = Some [mkExt ESack d] -> (length d < 256)%nat -> 0 <= ack_nr p -> ack_nr p + 2 + 8 * zlen d <= 65536 -> (3 <= set_bits d)%nat ->
  ~ In (ack_nr p) (map seq_nr (s_send_window (sk s))) -> s_curr_window (sk s) < 2800 -> s_curr_window (sk s1) < 2800 -> all_sent s -> all_sent s1 ->
  handle_state_packet recv p s = (Ret tt, s1) -> handle_state_packet recv p s1 = (Ret tt, s2) ->
  s_send_window (sk s1) = s_send_window (sk s) /\ s_cwnd (sk s1) = Z.max (s_cwnd (sk s) / 2) 2800 /\ s_cwnd (sk s2) = Z.max (s_cwnd (sk s1) / 2) 2800.
Proof.
  intros p d s s1 s2 HE HL H0 HB HS HN HC HC1 HX HX1 E1 E2.
  assert (HR : forall w, is_nil (to_resend (ack_nr p) d w) = false) by (intros w; unfold to_resend; destruct (Nat.leb_spec 3 (set_bits d)); [reflexivity|lia]).
  destruct (selective_run recv p d s s1 HE HL H0 HB (or_introl HC) HX E1) as (W1 & _ & c1 & F1 & K1). rewrite HR, Bool.orb_true_r, (F1 HN) in K1.
  assert (EW : s_send_window (sk s1) = s_send_window (sk s)).
  { rewrite W1. unfold forget. pose proof (position_spec (fun q => seq_nr q =? ack_nr p) (s_send_window (sk s))) as HP. destruct (position _ _) as [i|]; [|reflexivity].
    destruct HP as (a & x & b & E & _ & F & _). elim HN. rewrite E, map_app. apply in_or_app. right. left. lia. }
  destruct (selective_run recv p d s1 s2 HE HL H0 HB (or_introl HC1) HX1 E2) as (_ & _ & c2 & F2 & K2). rewrite HR, Bool.orb_true_r, F2 in K2 by (rewrite EW; exact HN). auto.
Qed.
Print Assumptions C98_refuted.

(** C99.  A packet is sent although the peer's window is 0 ... *)
Theorem C99_zero_refuted : forall d s, (0 < length d <= 1380)%nat -> s_state (sk s) <> Closed -> s_unsent_queue (sk s) = [] -> 0 <= s_curr_window (sk s) < 2800 ->
  s_remote_wnd_size (sk s) = 0 -> 0 <= s_seq_nr (sk s) < 65536 -> (s_seq_nr (sk s) - s_last_acked (sk s)) mod 65536 <= (s_last_acked (sk s) - s_seq_nr (sk s)) mod 65536 -> (forall i, w_send (wd s) i = SendOk) ->
  exists s' p, send_to d s = (Ret (zlen d), s') /\ w_sent (wd s') = w_sent (wd s) ++ [(s_connected_to (sk s), p)] /\ payload p = Some d /\ s_curr_window (sk s') = s_curr_window (sk s) + 20 + zlen d.
Proof.
  intros d s Hd HC HU HW HR HQ HA HX. destruct (send_open d s Hd HC HU HW HQ) as (s' & p & E & EP & K & L & _); [rewrite !u16_eq; exact HA|exact HX|].
  exists s', p. split; [exact E|]. split; [exact L|]. rewrite K, EP. unfold data_packet. split; [apply payload_wire; constructor|].
  unfold after_push. sproj. unfold packet_len, zlen. rewrite wire_length. cbn [length wire_exts]. lia.
Qed.
Print Assumptions C99_zero_refuted.
(** ... and although as much is in flight as the windows allow, when the clock is seen to move on by 500 ms. *)
Theorem C99_patience_refuted : forall p s, Z.max 2800 (Z.min (s_cwnd (sk s)) (s_remote_wnd_size (sk s))) <= s_curr_window (sk s) -> 500000 <= clock_now (ticked s) - clock_now s ->
  (seq_nr p - s_last_acked (sk s)) mod 65536 <= (s_last_acked (sk s) - seq_nr p) mod 65536 -> (forall i, w_send (wd s) i = SendOk) ->
  exists s' p', send_packet recv p s = (Ret p', s') /\ w_sent (wd s') = w_sent (wd s) ++ [(s_connected_to (sk s), p')] /\ sk s' = sk s.
Proof.
  intros p s HL HC HA HX. rewrite send_packet_split. unfold bind. rewrite gate_impatient by assumption.
  destruct (transmit_sends p (ticked (ticked s))) as (s' & E & K & (L & _) & _); [unfold ahead; rewrite !u16_eq; cbn; lia|apply all_sent_ok; exact HX|].
  rewrite E. eexists. eexists. split; [reflexivity|]. split; [exact L|exact K].
Qed.
Print Assumptions C99_patience_refuted.

(** Examples for C98 and C99: a client whose window has grown, with four packets in flight, of which the first is lost. *)
Definition ackp (n : Z) : rx := RxDgram (wire (mkHdr PState 300 77 0 1048576 500 n) [] []) peer.
Definition grown : st := snd (run_ops [OSendTo (repeat x41 (22 * 1380)); OSendTo [x41]; OSendTo [x42]; OSendTo [x43]] (connected true 500 (map (fun n => ackp (Z.of_nat n)) (seq 2 16 ++ [22%nat])))).
Definition hole : packet := wire (mkHdr PState 300 77 0 1048576 500 22) [(x01, [x07; x00; x00; x00])] [].
Lemma grown_reachable : reachable grown.
Proof. unfold grown. apply ran_reachable; [apply connected_reachable|]; vm_compute; reflexivity. Qed.
Example C98_example : reachable grown /\ extensions hole = Some [mkExt ESack [x07; x00; x00; x00]] /\ ack_nr hole = 22 /\ set_bits [x07; x00; x00; x00] = 3%nat /\ map seq_nr (s_send_window (sk grown)) = [23; 24; 25; 26] /\
  (let '(o1, s1) := handle_state_packet recv hole grown in let '(o2, s2) := handle_state_packet recv hole s1 in
   o1 = Ret tt /\ o2 = Ret tt /\ (s_curr_window (sk grown), s_curr_window (sk s1)) = (1463, 1463) /\ (s_cwnd (sk grown), s_cwnd (sk s1), s_cwnd (sk s2)) = (9091, 4545, 2800)) /\
  all_sent grown /\ all_sent (snd (handle_state_packet recv hole grown)).
Proof. split; [exact grown_reachable|]. vm_compute. repeat split. Qed.
(** A peer that said its window is 0, and is sent more all the same. *)
Definition shut : st := snd (run_ops [OSendTo [x41]; ORecvFrom 1] (connected true 500 [RxDgram (wire (mkHdr PState 300 77 0 0 500 2) [] []) peer; RxDgram (wire (mkHdr PData 300 77 0 0 501 2) [] [x41]) peer])).
Example C99_zero_example : reachable shut /\ (s_remote_wnd_size (sk shut), s_curr_window (sk shut), s_seq_nr (sk shut), s_last_acked (sk shut)) = (0, 0, 3, 2) /\ s_state (sk shut) = Connected /\
  (let '(o, s') := send_to (repeat x42 1380) shut in o = Ret 1380 /\ s_curr_window (sk s') = 1400).
Proof. split; [unfold shut; apply ran_reachable; [apply connected_reachable|]; vm_compute; reflexivity|]. vm_compute. auto. Qed.
(** The same peer and a clock that moves by a second between two looks: the third packet leaves with 2800 bytes in flight. *)
Definition hasty : st := let s0 := mkSt blank (mkWorld [rx_pkt (dgram PState 300 500 1 [])] 0 (fun n => 1000000 * Z.of_nat n) 0 (fun _ => 300) 0 (fun _ => SendOk) [] true) in
  snd (run_ops [OSendTo (repeat x41 2760)] (snd (connect (Ok [peer]) (Ok tt) s0))).
Example C99_patience_example : reachable hasty /\ Z.max 2800 (Z.min (s_cwnd (sk hasty)) (s_remote_wnd_size (sk hasty))) = 2800 /\ s_curr_window (sk hasty) = 2800 /\ clock_now (ticked hasty) - clock_now hasty = 1000000 /\
  (let '(o, s') := send_to [x42] hasty in o = Ret 1 /\ s_curr_window (sk s') = 2821 /\ length (w_sent (wd s')) = S (length (w_sent (wd hasty)))).
Proof.
  split; [|vm_compute; auto 10]. unfold hasty. cbv zeta. apply ran_reachable; [|vm_compute; reflexivity]. destruct (connect _ _ _) as [[[]|] s] eqn:E; [|vm_compute in E; discriminate].
  cbn [snd]. eapply rc_connect; [|exact E]. reflexivity.
Qed.
