(** C45. *)
From Verif Require Import CwndProofs Samples.
Require Import Lia.
Local Open Scope Z_scope.

(** The queuing delay measured by an acknowledgement: the filtered current delay minus the least base delay, after
    the new sample has been recorded. *)
Definition queuing (s : st) : Z := filtered_current_delay (sk s) - fold_right Z.min (hd 0 (s_base_delays (sk s))) (s_base_delays (sk s)).
Lemma fold_min l : forall a, fold_left Z.min l a = fold_right Z.min a l.
Proof.
  intros a. rewrite <- fold_left_rev_right. induction l as [|x l IH] using rev_ind; [reflexivity|]. rewrite rev_app_distr. cbn [rev app fold_right].
  rewrite IH, fold_right_app. cbn [fold_right]. clear IH. induction l as [|y l IH]; cbn [fold_right]; lia.
Qed.
Lemma queuing_measured s : queuing s = measured (sk s).
Proof.
  unfold queuing, measured, min_base_delay. f_equal. destruct (s_base_delays (sk s)) as [|d l]; [reflexivity|]. cbn [hd fold_right]. rewrite fold_min.
  clear. assert (H : fold_right Z.min d l <= d) by (induction l; cbn [fold_right]; lia). lia.
Qed.

(** C45.  At most the target: not below the old window, except as far as the cap (bytes in flight plus one segment)
    demands. *)
Theorem C45_not_below_partial : forall i s s', reachable s -> process_ack i s = (Ret tt, s') ->
  queuing s' mod 2 ^ 32 <= 100000 -> s_curr_window (sk s) + 1400 < 2 ^ 32 ->
  Z.min (s_cwnd (sk s)) (s_curr_window (sk s) + 1400) <= s_cwnd (sk s').
Proof.
  intros i s s' HR H Hq HC. destruct (reachable_ranges s HR). destruct (process_ack_window i s s' H) as (q & EQ & _ & ->).
  rewrite queuing_measured, <- u32_eq in Hq. rewrite <- EQ in Hq. pose proof (u32_range (sum_len (firstn (i + 1) (s_send_window (sk s))))) as HB.
  pose proof (grown_up q _ (s_cwnd (sk s)) Hq HB ltac:(lia)). rewrite (u32_small (_ + 1400)) by (change (2 ^ 32) with 4294967296 in HC; lia). lia.
Qed.
Print Assumptions C45_not_below_partial.
(** Above the target: no growth, except up to the floor of two segments. *)
Theorem C45_not_above_partial : forall i s s', reachable s -> process_ack i s = (Ret tt, s') ->
  100000 < queuing s' mod 2 ^ 32 -> s_cwnd (sk s') <= Z.max (s_cwnd (sk s)) 2800.
Proof.
  intros i s s' HR H Hq. destruct (reachable_ranges s HR). destruct (process_ack_window i s s' H) as (q & EQ & _ & ->).
  rewrite queuing_measured, <- u32_eq in Hq. rewrite <- EQ in Hq. pose proof (u32_range (sum_len (firstn (i + 1) (s_send_window (sk s))))) as HB.
  pose proof (grown_down q _ (s_cwnd (sk s)) Hq HB ltac:(lia)). lia.
Qed.
Print Assumptions C45_not_above_partial.
(** The window computation by itself, for every window, delay and size. *)
Theorem C45_formula : forall q bytes cwnd, 0 <= q < 2 ^ 32 -> 0 <= bytes < 2 ^ 32 -> 0 < cwnd < 2 ^ 32 ->
  (q <= 100000 -> cwnd <= grown_cwnd (off_target_of q) bytes cwnd) /\ (100000 < q -> grown_cwnd (off_target_of q) bytes cwnd <= cwnd).
Proof.
  intros q bytes cwnd Hq Hb Hc. assert (E : u32 q = q) by (apply u32_small; exact Hq).
  split; intros H; [apply grown_up|apply grown_down]; auto; rewrite E; exact H.
Qed.
Print Assumptions C45_formula.

(** An accepted connection whose clock starts at [t0] and advances [step] microseconds per reading. *)
Definition slow_accepted (step t0 : Z) (evs : list rx) : st :=
  let s := snd (accept (RxDgram (dgram PSyn 100 10 0 []) peer) (Ok local) (Ok tt)
                  (mkSt blank (mkWorld [] 0 (fun n => t0 + step * Z.of_nat n) 0 (fun _ => 500) 0 (fun _ => SendOk) [] true))) in
  mkSt (sk s) (sw_in evs (wd s)).
Lemma slow_reachable step t0 evs ops :
  fst (accept (RxDgram (dgram PSyn 100 10 0 []) peer) (Ok local) (Ok tt)
    (mkSt blank (mkWorld [] 0 (fun n => t0 + step * Z.of_nat n) 0 (fun _ => 500) 0 (fun _ => SendOk) [] true))) = Ret peer ->
  existsb panicked (fst (run_ops ops (slow_accepted step t0 evs))) = false -> reachable (snd (run_ops ops (slow_accepted step t0 evs))).
Proof.
  intros H HP. apply ran_reachable; [|exact HP]. unfold slow_accepted. cbv zeta. apply rc_input. destruct (accept _ _ _ _) as [o s] eqn:E. cbn [fst snd] in *. subst o.
  eapply rc_accept; [|exact E]. reflexivity.
Qed.
Notation data n := (rx_pkt (dgram PData 101 n 500 [x41])).
(** After a timeout the window is one segment, and an acknowledgement with a queuing delay of 800 ms doubles it. *)
Notation after_timeout := (snd (run_ops [OSendTo [x41]; ORecvFrom 10; OSendTo [x42]; ORecvFrom 10; ORecvFrom 10; ORecvFrom 10]
  (slow_accepted 200000 1600000000000000 [rx_pkt (dgram PState 101 11 500 []); data 11; timeout; data 12; data 13; data 14]))).
Theorem C45_floor_refuted : exists i s s', reachable s /\ process_ack i s = (Ret tt, s') /\ queuing s' = 800000 /\ s_cwnd (sk s) = 1400 /\ s_cwnd (sk s') = 2800.
Proof.
  exists 0%nat, after_timeout, (snd (process_ack 0 after_timeout)).
  split; [apply slow_reachable; vm_compute; reflexivity|].
  split; [assert (E : fst (process_ack 0 after_timeout) = Ret tt) by (vm_compute; reflexivity); rewrite <- E; apply surjective_pairing|].
  vm_compute. auto.
Qed.
Print Assumptions C45_floor_refuted.
(** After the 32-bit clock wrapped during a round trip, the base delay is about minus 2^32; then a queuing delay of
    2^32 microseconds is taken for none and the window grows well above the floor. *)
Notation after_wrap := (snd (run_ops [OSendTo [x41]; ORecvFrom 10; OSendTo (repeat x42 1300); OSendTo (repeat x42 1300); ORecvFrom 10]
  (slow_accepted 20000 (2 ^ 32 - 100000) [rx_pkt (dgram PState 101 11 500 []); data 11; data 12]))).
Theorem C45_large_delay_refuted : exists i s s', reachable s /\ process_ack i s = (Ret tt, s') /\ queuing s' = 4294967296 /\ s_cwnd (sk s) = 2800 /\ s_cwnd (sk s') = 4040.
Proof.
  exists 1%nat, after_wrap, (snd (process_ack 1 after_wrap)).
  split; [apply slow_reachable; vm_compute; reflexivity|].
  split; [assert (E : fst (process_ack 1 after_wrap) = Ret tt) by (vm_compute; reflexivity); rewrite <- E; apply surjective_pairing|].
  vm_compute. auto.
Qed.
Print Assumptions C45_large_delay_refuted.
(** Both regimes from one connection: 160 ms of queuing shrinks the window; none grows it. *)
Example C45_example : grown_cwnd (off_target_of 0) 2640 2800 = 4120 /\ grown_cwnd (off_target_of 99999) 2640 2800 = 2800 /\
  grown_cwnd (off_target_of 160000) 2640 2800 = 2008 /\ grown_cwnd (off_target_of 4294967295) 1400 60000 = 0 /\
  s_curr_window (sk after_wrap) = 2640 /\ queuing (snd (process_ack 1 after_wrap)) mod 2 ^ 32 = 0 /\
  queuing (snd (process_ack 0 after_timeout)) mod 2 ^ 32 = 800000.
Proof. vm_compute. auto 10. Qed.
