(** C112: how far one acknowledgement moves the round-trip estimate. *)
From Verif Require Import DelayProofs CwndProofs UtilProofs PropWindow PropDelay PropSteady Samples.
Require Import Lia ZifyBool ZifyNat.
Local Open Scope Z_scope.

(** C112.  While the clock is steady and the queuing delay at most the delay of the acknowledged packet, the estimate does not exceed
    both its old value and this delay (in milliseconds), nor fall below both its old value and the delay without the queuing delay. *)
Theorem C112_bounded_partial : forall i s s' p, reachable s -> process_ack i s = (Ret tt, s') -> steady s' -> nth_error (s_send_window (sk s)) i = Some p ->
  let d := clock_now s - timestamp p in queuing s' <= d < 2 ^ 32 ->
  Z.min (s_rtt (sk s)) ((d - queuing s') / 1000) <= s_rtt (sk s') <= Z.max (s_rtt (sk s)) (d / 1000).
Proof.
  intros i s s' p HR H HS EP d HQ. destruct (C81_sample i s s' HR H) as (p' & EP' & HX). rewrite EP in EP'. injection EP' as <-. cbv zeta in HX. fold d in HX. destruct HX as (_ & _ & _ & E & _).
  pose proof (ack_queuing i s s' HR H (steady_forward s' HS)) as HB. change (filtered_current_delay (sk s') - min_base_delay (sk s')) with (measured (sk s')) in HB. rewrite <- queuing_measured in HB.
  rewrite Z.mod_small in E by lia. rewrite E. set (r := (d - queuing s') / 1000). assert (Hr : r <= d / 1000) by (apply Z.div_le_mono; lia). clearbody r. clear - Hr.
  set (o := s_rtt (sk s)) in *. clearbody o. destruct (Z.leb_spec 0 (r - o)).
  - rewrite Z.quot_div_nonneg by lia. pose proof (Z.div_pos (r - o) 8 ltac:(lia) ltac:(lia)). pose proof (Z.div_le_upper_bound (r - o) 8 (r - o) ltac:(lia) ltac:(lia)). lia.
  - replace (r - o) with (- (o - r)) by lia. rewrite Z.quot_opp_l by lia. rewrite Z.quot_div_nonneg by lia.
    pose proof (Z.div_pos (o - r) 8 ltac:(lia) ltac:(lia)). pose proof (Z.div_le_upper_bound (o - r) 8 (o - r) ltac:(lia) ltac:(lia)). lia.
Qed.
Print Assumptions C112_bounded_partial.

(** A connection whose clock shows [clk n] at reading [n]. *)
Definition clocked (clk : nat -> Z) (evs : list rx) : st :=
  let s := snd (accept (RxDgram (dgram PSyn 100 10 0 []) peer) (Ok local) (Ok tt) (mkSt blank (mkWorld [] 0 clk 0 (fun _ => 500) 0 (fun _ => SendOk) [] true))) in
  mkSt (sk s) (sw_in evs (wd s)).
Lemma clocked_reachable clk evs ops :
  fst (accept (RxDgram (dgram PSyn 100 10 0 []) peer) (Ok local) (Ok tt) (mkSt blank (mkWorld [] 0 clk 0 (fun _ => 500) 0 (fun _ => SendOk) [] true))) = Ret peer ->
  existsb panicked (fst (run_ops ops (clocked clk evs))) = false ->
  reachable (snd (run_ops ops (clocked clk evs))) /\ w_clock (wd (snd (run_ops ops (clocked clk evs)))) = clk.
Proof.
  intros H HP. rewrite ops_clock. split.
  - apply ran_reachable; [|exact HP]. unfold clocked. cbv zeta. apply rc_input. destruct (accept _ _ _ _) as [o s] eqn:E. cbn [fst snd] in *. subst o. eapply rc_accept; [|exact E]. reflexivity.
  - unfold clocked. cbv zeta. destruct (accept _ _ _ _) as [o s] eqn:E. cbn [fst] in H. subst o. apply accept_clock in E. exact E.
Qed.
(** 10 microseconds per reading, and three pauses: of 800, 700 and 100 ms. *)
Definition pauses (n : nat) : Z := 1000000 + 10 * Z.of_nat n + (if (4 <=? n)%nat then 800000 else 0) + (if (11 <=? n)%nat then 700000 else 0) + (if (13 <=? n)%nat then 100000 else 0).
Lemma pauses_steady s : w_clock (wd s) = pauses -> (w_tick (wd s) < 1000)%nat -> steady s.
Proof.
  intros E HT i j Hi Hj. rewrite E. assert (HM : forall n, (n <= j)%nat -> Z.abs (pauses n) mod 2 ^ 32 = pauses n).
  { intros n Hn. unfold pauses. change (2 ^ 32) with 4294967296. destruct (4 <=? n)%nat, (11 <=? n)%nat, (13 <=? n)%nat; rewrite Z.abs_eq, Z.mod_small; lia. }
  rewrite !HM by lia. unfold pauses. destruct (Nat.leb_spec 4 i), (Nat.leb_spec 11 i), (Nat.leb_spec 13 i), (Nat.leb_spec 4 j), (Nat.leb_spec 11 j), (Nat.leb_spec 13 j); lia.
Qed.
(** Three packets; the first is acknowledged after 800 ms.  The other two are sent 700 ms apart, and their acknowledgements arrive together 100 ms later. *)
Notation sent3 := [OSendTo [x41]; ORecvFrom 10; OSendTo [x41]; OSendTo [x41]; ORecvFrom 10].
Notation before := (snd (run_ops sent3 (clocked pauses [rx_pkt (dgram PState 101 11 500 []); data 11; rx_pkt (dgram PState 101 12 501 []); data 12]))).
Notation burst := (snd (run_ops sent3 (clocked pauses [rx_pkt (dgram PState 101 11 500 []); data 11; rx_pkt (dgram PState 101 12 501 []); rx_pkt (dgram PState 101 12 502 []); data 12]))).
(** The last acknowledgement comes after 100 ms, the average is still near 570 ms: the round-trip sample is negative, and taken for about 2^32 microseconds. *)
Theorem C112_refuted : exists i s s' p, reachable s /\ process_ack i s = (Ret tt, s') /\ steady s' /\ nth_error (s_send_window (sk s)) i = Some p /\
  clock_now s - timestamp p = 100060 /\ queuing s' = 466893 /\ s_rtt (sk s) = 187 /\ s_rtt (sk s') = 536988 /\ s_congestion_timeout (sk s) = 1487 /\ s_congestion_timeout (sk s') = 60000.
Proof.
  exists 0%nat, before, (snd (process_ack 0 before)), (hd [] (s_send_window (sk before))).
  destruct (clocked_reachable pauses [rx_pkt (dgram PState 101 11 500 []); data 11; rx_pkt (dgram PState 101 12 501 []); data 12] sent3) as [H1 H2]; [vm_compute; reflexivity|vm_compute; reflexivity|].
  split; [exact H1|]. split; [assert (E : fst (process_ack 0 before) = Ret tt) by (vm_compute; reflexivity); rewrite <- E; apply surjective_pairing|].
  split; [apply pauses_steady; [rewrite ack_clock; exact H2|vm_compute; lia]|]. vm_compute. auto 10.
Qed.
Print Assumptions C112_refuted.
(** The same through the calls of the crate: no delay was above 801 ms, the estimate is 537 s and the timeout a minute. *)
Theorem C112_burst_refuted : exists s, reachable s /\ steady s /\ s_current_delays (sk s) = [(2600150, 800050); (2600180, 100060)] /\ s_rtt (sk s) = 536988 /\ s_congestion_timeout (sk s) = 60000.
Proof.
  exists burst.
  destruct (clocked_reachable pauses [rx_pkt (dgram PState 101 11 500 []); data 11; rx_pkt (dgram PState 101 12 501 []); rx_pkt (dgram PState 101 12 502 []); data 12] sent3) as [H1 H2]; [vm_compute; reflexivity|vm_compute; reflexivity|].
  split; [exact H1|]. split; [apply pauses_steady; [exact H2|vm_compute; lia]|]. vm_compute. auto.
Qed.
Print Assumptions C112_burst_refuted.
Example C112_example : let p := hd [] (s_send_window (sk after_timeout)) in nth_error (s_send_window (sk after_timeout)) 0 = Some p /\ clock_now after_timeout - timestamp p = 1400000 /\
  queuing acked = 800000 /\ s_rtt (sk after_timeout) = 75 /\ s_rtt (sk acked) = 140.
Proof. vm_compute. auto 10. Qed.
