(** C32, C33, C38, C39, C40, C41, C50. *)
From Verif Require Import CongProofs Samples.
Require Import Lia.
Local Open Scope Z_scope.

(** An accepted connection (own packets start at 500) with three packets of 1, 1 and 2 bytes in flight. *)
Notation three_in_flight evs := (let s := snd (run_ops [OSendTo [x41]; OSendTo [x42]; OSendTo [x43; x44]] (accepted true 500 10 [])) in mkSt (sk s) (sw_in evs (wd s))).
Lemma three_reachable evs : reachable (three_in_flight evs).
Proof. cbv zeta. apply rc_input. reach. Qed.

(** C32. *)
Theorem C32_in_flight : forall s, reachable s -> s_curr_window (sk s) = sum_len (s_send_window (sk s)) mod 2 ^ 32.
Proof. intros s H. rewrite (reachable_inflight s H). apply u32_eq. Qed.
Print Assumptions C32_in_flight.
(** Forgetting acknowledged packets never underflows the counter. *)
Theorem C32_no_underflow : forall s, reachable s -> sum_len (s_send_window (sk s)) < 2 ^ 32 ->
  exists s', advance_send_window s = (Ret tt, s') /\ s_curr_window (sk s') = sum_len (s_send_window (sk s')).
Proof. intros s H HS. rewrite (advance_window_exact s H HS). eexists. split; reflexivity. Qed.
Print Assumptions C32_no_underflow.
Example C32_example : reachable (three_in_flight []) /\ s_curr_window (sk (three_in_flight [])) = 64 /\
  sum_len (s_send_window (sk (three_in_flight []))) = 64 /\
  map seq_nr (s_send_window (sk (three_in_flight []))) = [500; 501; 502].
Proof. split; [apply three_reachable|]. vm_compute. auto. Qed.

(** C33.  A State packet without selective ack that is not the third repetition of its number: *)
Theorem C33_acknowledge : forall p exts s s', extensions p = Some exts -> no_sack exts ->
  (s_send_window (sk s) = [] \/ dup_after (ack_nr p) (sk s) <> 3) -> handle_state_packet recv p s = (Ret tt, s') ->
  (forall w1 q w2, s_send_window (sk s) = w1 ++ q :: w2 -> seq_nr q = ack_nr p -> ~ In (ack_nr p) (map seq_nr w1) -> s_send_window (sk s') = w2) /\
  (~ In (ack_nr p) (map seq_nr (s_send_window (sk s))) -> s_send_window (sk s') = s_send_window (sk s)) /\
  w_sent (wd s') = w_sent (wd s).
Proof.
  intros p exts s s' HE HN HD H. destruct (plain_ack recv p exts s s' HE HN HD H) as (H1 & H2 & _). rewrite H1, H2. unfold forget.
  pose proof (position_spec (fun q => seq_nr q =? ack_nr p) (s_send_window (sk s))) as HP. split; [|split; [|reflexivity]].
  - intros w1 q w2 E Hq HNI. rewrite E in *. rewrite position_app; [apply skipn_past|lia|]. intros y Hy. destruct (seq_nr y =? ack_nr p) eqn:EY; [|reflexivity]. elim HNI. apply in_map_iff. exists y. split; [lia|exact Hy].
  - intros HNI. destruct (position _ _) as [i|]; [|reflexivity]. destruct HP as (a & x & b & E & _ & Hx & _). elim HNI. rewrite E, map_app. apply in_or_app. right. left. lia.
Qed.
Print Assumptions C33_acknowledge.
Example C33_example : let w ack := map seq_nr (s_send_window (sk (snd (handle_state_packet recv (dgram PState 101 11 ack []) (three_in_flight []))))) in
  w 501 = [502] /\ w 502 = [] /\ w 777 = [500; 501; 502] /\
  fst (handle_state_packet recv (dgram PState 101 11 501 []) (three_in_flight [])) = Ret tt /\
  extensions (dgram PState 101 11 501 []) = Some [] /\ dup_after 501 (sk (three_in_flight [])) = 1.
Proof. vm_compute. auto 10. Qed.

(** C38. *)
Theorem C38_window_floor : forall s, reachable s -> 1400 <= s_cwnd (sk s) < 2 ^ 32.
Proof. intros s H. exact (r_cwnd _ (reachable_ranges s H)). Qed.
Print Assumptions C38_window_floor.
Theorem C38_window_after_ack : forall i s s', reachable s -> process_ack i s = (Ret tt, s') ->
  2800 <= s_cwnd (sk s') <= Z.max 2800 (s_curr_window (sk s') + 1400).
Proof.
  intros i s s' HR H. pose proof (r_curr _ (reachable_ranges s HR)). destruct (process_ack_cwnd i s s' H) as (H1 & _ & (off & b & ->) & _). rewrite H1.
  assert (u32 (s_curr_window (sk s) + 1400) <= s_curr_window (sk s) + 1400) by (rewrite u32_eq; apply Z.mod_le; lia). lia.
Qed.
Print Assumptions C38_window_after_ack.
Example C38_example : let r := process_ack 1 (three_in_flight []) in
  fst r = Ret tt /\ s_curr_window (sk (snd r)) = 64 /\ s_cwnd (sk (snd r)) = 2800.
Proof. vm_compute. auto. Qed.

(** C39. *)
Theorem C39_estimates : forall s, reachable s -> 0 <= s_rtt (sk s) <= 4294967 /\ 0 <= s_rtt_variance (sk s) <= 4294967.
Proof. intros s H. destruct (reachable_ranges s H). auto. Qed.
Print Assumptions C39_estimates.
(** One sample of [d] ms: no overflow in any profile, and the timeout is the clamped estimate. *)
Theorem C39_update : forall d s, reachable s -> 0 <= d <= 4294967 ->
  exists s', update_congestion_timeout d s = (Ret tt, s') /\ 500 <= s_congestion_timeout (sk s') <= 60000 /\
    s_rtt (sk s') = s_rtt (sk s) + (d - s_rtt (sk s)) ÷ 8 /\
    s_rtt_variance (sk s') = s_rtt_variance (sk s) + (Z.abs (s_rtt (sk s) - d) - s_rtt_variance (sk s)) ÷ 4 /\
    s_congestion_timeout (sk s') = Z.min (Z.max (s_rtt (sk s') + 4 * s_rtt_variance (sk s')) 500) 60000.
Proof.
  intros d s HR Hd. destruct (reachable_ranges s HR). rewrite timeout_update_exact by assumption. eexists. split; [reflexivity|]. sproj.
  pose proof (rto_values d (sk s) Hd r_rtt r_var) as (E1 & E2 & E3 & _). cbv zeta in E3. repeat split; auto; rewrite E3; lia.
Qed.
Print Assumptions C39_update.
(** Every acknowledgement of an in-flight packet passes such a sample. *)
Theorem C39_after_ack : forall i s s', reachable s -> process_ack i s = (Ret tt, s') ->
  500 <= s_congestion_timeout (sk s') <= 60000 /\ 0 <= s_rtt (sk s') <= 4294967 /\ 0 <= s_rtt_variance (sk s') <= 4294967.
Proof. intros i s s' HR H. destruct (reachable_ranges s HR). now apply (process_ack_cwnd i s s' H). Qed.
Print Assumptions C39_after_ack.
Example C39_example : let r := update_congestion_timeout 800 (three_in_flight []) in
  fst r = Ret tt /\ s_rtt (sk (snd r)) = 100 /\ s_rtt_variance (sk (snd r)) = 200 /\ s_congestion_timeout (sk (snd r)) = 900.
Proof. vm_compute. auto. Qed.

(** C40.  Three timeouts, a data packet, three timeouts, ...: every timeout doubles the value. *)
Notation c40_state := (snd (run_ops [ORecvFrom 10; ORecvFrom 10]
  (accepted true 500 10 [timeout; timeout; timeout; timeout; rx_pkt (dgram PData 101 11 0 [x41]); timeout; timeout; timeout; rx_pkt (dgram PData 101 12 0 [x42])]))).
Theorem C40_timeout_bound_refuted : exists s, reachable s /\ s_congestion_timeout (sk s) > 60000.
Proof. exists c40_state. split; [reach|]. vm_compute. reflexivity. Qed.
Print Assumptions C40_timeout_bound_refuted.
(** Each step keeps the value, doubles it (a timeout), or puts it between 500 ms and 60 s (an acknowledgement). *)
Theorem C40_timeout_partial : forall o s v s', reachable s -> run_op o s = (v, s') -> (forall l, v <> Fail (Panic l)) ->
  clos_refl_trans _ (fun a b => b = (2 * a) mod 2 ^ 64 \/ 500 <= b <= 60000) (s_congestion_timeout (sk s)) (s_congestion_timeout (sk s')).
Proof. exact run_op_timeout. Qed.
Print Assumptions C40_timeout_partial.
Example C40_example : s_congestion_timeout (sk c40_state) = 128000 /\
  s_congestion_timeout (sk (snd (run_ops [ORecvFrom 10] (accepted true 500 10 [timeout; rx_pkt (dgram PData 101 11 0 [x41])])))) = 2000.
Proof. vm_compute. auto. Qed.

(** C41. *)
Theorem C41_bounded : forall s, reachable s -> (length (s_base_delays (sk s)) <= 10)%nat.
Proof. intros s H. apply (reachable_base s H). Qed.
Print Assumptions C41_bounded.
(** A sample either opens a new minute (dropping the oldest entry when there are ten) or is folded by minimum
    into the last entry. *)
Theorem C41_sample : forall d now s, reachable s -> exists s', update_base_delay d now s = (Ret tt, s') /\
  (1 <= length (s_base_delays (sk s')) <= 10)%nat /\
  ((s_base_delays (sk s) = [] \/ 60000000 < now - s_last_rollover (sk s)) ->
     s_last_rollover (sk s') = now /\ exists kept dropped, s_base_delays (sk s) = dropped ++ kept /\ s_base_delays (sk s') = kept ++ [d] /\
     (length dropped = if (length (s_base_delays (sk s)) =? 10)%nat then 1 else 0)%nat) /\
  (forall old last, s_base_delays (sk s) = old ++ [last] -> now - s_last_rollover (sk s) <= 60000000 ->
     s_last_rollover (sk s') = s_last_rollover (sk s) /\ s_base_delays (sk s') = old ++ [Z.min last d]).
Proof. intros d now s HR. eexists. split; [reflexivity|]. sproj. apply base_update, (reachable_base s HR). Qed.
Print Assumptions C41_sample.
Example C41_example : let u d now s := snd (update_base_delay d now s) in let b s := (s_base_delays (sk s), s_last_rollover (sk s)) in
  b (u 50 1000 (three_in_flight [])) = ([50], 1000) /\
  b (u 30 2000 (u 50 1000 (three_in_flight []))) = ([30], 1000) /\
  b (u 40 90000000 (u 30 2000 (u 50 1000 (three_in_flight [])))) = ([30; 40], 90000000).
Proof. vm_compute. auto. Qed.

(** C50.  [transition] (CongProofs/Inv): New -> Connected (SYN), SynSent -> Connected (SYN acknowledged),
    any -> Closed (retries exhausted; FIN), any but SynSent -> ResetReceived, any open one -> FinSent (close). *)
Theorem C50_life_cycle : forall o s v s', reachable s -> run_op o s = (v, s') -> (forall l, v <> Fail (Panic l)) ->
  clos_refl_trans _ transition (s_state (sk s)) (s_state (sk s')).
Proof. intros o s v s' HR H HN. apply osteps_transition. eapply run_op_steps; eauto. Qed.
Print Assumptions C50_life_cycle.
Theorem C50_never_back : forall ops s s' rs, reachable s -> run_ops ops s = (rs, s') -> existsb panicked rs = false ->
  (s_state (sk s') = Connected -> s_state (sk s) = Connected \/ s_state (sk s) = New \/ s_state (sk s) = SynSent) /\
  (s_state (sk s') = New -> s_state (sk s) = New) /\ (s_state (sk s') = SynSent -> s_state (sk s) = SynSent).
Proof.
  intros ops. induction ops as [|o ops IH]; intros s s' rs HR H HN; cbn [run_ops] in H.
  - injection H as <- <-. auto.
  - destruct (run_op o s) as [v s1] eqn:E. assert (HP : panicked v = false -> transition_star (s_state (sk s)) (s_state (sk s1)) /\ reachable s1).
    { intros HV. split; [apply osteps_transition; eapply run_op_steps; eauto using not_panicked|]. eapply rc_op; eauto using not_panicked. }
    assert (HK : (let (rs', s'') := run_ops ops s1 in (v :: rs', s'')) = (rs, s') -> panicked v = false ->
      (s_state (sk s') = Connected -> s_state (sk s) = Connected \/ s_state (sk s) = New \/ s_state (sk s) = SynSent) /\
      (s_state (sk s') = New -> s_state (sk s) = New) /\ (s_state (sk s') = SynSent -> s_state (sk s) = SynSent)).
    { clear H. intros H HV. destruct (run_ops ops s1) as [rs' s''] eqn:E2. injection H as <- <-. cbn [existsb] in HN. apply orb_false_elim in HN as [_ HN].
      destruct (HP HV) as [HT HR1]. destruct (IH s1 s'' rs' HR1 E2 HN) as (A1 & A2 & A3). destruct (transition_back _ _ HT) as (B1 & B2 & B3).
      split; [|split]; auto. intros HC. destruct (A1 HC) as [X|[X|X]]; auto. }
    destruct v as [x|[k|l| |]]; try (apply HK; [exact H|reflexivity]). injection H as <- <-. discriminate.
Qed.
Print Assumptions C50_never_back.
Example C50_example : let s1 := accepted true 500 10 [rx_pkt (dgram PFin 101 11 0 []); rx_pkt (dgram PSyn 55 1 0 [])] in
  let s2 := snd (run_ops [ORecvFrom 10] s1) in
  s_state (sk s1) = Connected /\ s_state (sk s2) = Closed /\ s_state (sk (snd (run_ops [ORecvFrom 10; OSendTo [x41]; OFlush; ORecvFrom 1] s2))) = Closed.
Proof. vm_compute. auto. Qed.
