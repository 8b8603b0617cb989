(** C110, C111: the delay measurements stay meaningful as long as the 32-bit clock does not run backwards.  Also C45 for such clocks. *)
From Verif Require Import DelayProofs CwndProofs UtilProofs PropWindow Samples.
Require Import Lia.
Local Open Scope Z_scope.

(** The readings made so far, reduced to 32 bits, do not run backwards: the clock was neither set back nor did it wrap (every 71.6 minutes). *)
Definition steady (s : st) : Prop :=
  forall i j, (i <= j)%nat -> (j < w_tick (wd s))%nat -> Z.abs (w_clock (wd s) i) mod 2 ^ 32 <= Z.abs (w_clock (wd s) j) mod 2 ^ 32.
Lemma steady_forward s : steady s -> forward s. Proof. intros H i j H1 H2. unfold rd. rewrite !micros_spec. now apply H. Qed.

(** C110.  The moving average, computed with binary64 arithmetic and truncated, lies between the least and the greatest sample. *)
Theorem C110_range : forall lo hi samples, 0 <= lo -> hi < 2 ^ 32 -> samples <> [] -> (forall d, In d samples -> lo <= d <= hi) -> lo <= f_to_i64 (ewma samples f_0_333) <= hi.
Proof. intros lo hi samples H1 H2 H3 H4. apply ewma_range; auto. now apply Forall_forall. Qed.
Print Assumptions C110_range.
(** In every reachable state, for the samples kept there. *)
Theorem C110_reachable : forall s, reachable s -> steady s -> s_current_delays (sk s) <> [] ->
  exists lo hi, In lo (map snd (s_current_delays (sk s))) /\ In hi (map snd (s_current_delays (sk s))) /\ lo <= filtered_current_delay (sk s) <= hi.
Proof. intros s HR HF. exact (filtered_between s HR (steady_forward s HF)). Qed.
Print Assumptions C110_reachable.

(** C111.  The queuing delay is never negative and its conversion to 32 bits exact. *)
Theorem C111_queuing : forall s, reachable s -> steady s -> 0 <= queuing s < 2 ^ 32.
Proof. intros s HR HF. rewrite queuing_measured. exact (queuing_exact s HR (steady_forward s HF)). Qed.
Print Assumptions C111_queuing.
(** Every sample of the current delay is at least some base delay, and the number of base delays is at most ten. *)
Theorem C111_base : forall s, reachable s -> steady s ->
  (forall t d, In (t, d) (s_current_delays (sk s)) -> 0 <= d < 2 ^ 32 /\ exists b, In b (s_base_delays (sk s)) /\ 0 <= b <= d) /\ (length (s_base_delays (sk s)) <= 10)%nat.
Proof. intros s HR HF. exact (samples_covered s HR (steady_forward s HF)). Qed.
Print Assumptions C111_base.
(** The smoothed round-trip time stays within 0 and 2^32 / 1000 ms. *)
Theorem C111_rtt : forall s, reachable s -> steady s -> 0 <= s_rtt (sk s) <= 4294967.
Proof. intros s HR HF. exact (rtt_range s HR (steady_forward s HF)). Qed.
Print Assumptions C111_rtt.
(** Without the condition on the clock this is false: after the 32-bit clock wrapped during a round trip. *)
Notation wrapped := (snd (run_ops [OSendTo [x41]; ORecvFrom 10; OSendTo (repeat x42 1300); OSendTo (repeat x42 1300); ORecvFrom 10; ORecvFrom 10]
  (slow_accepted 20000 (2 ^ 32 - 100000) [rx_pkt (dgram PState 101 11 500 []); data 11; data 12; rx_pkt (dgram PState 101 12 502 []); data 13]))).
Example C111_wrapped : reachable wrapped /\ queuing wrapped = 2 ^ 32 + 40000 /\ queuing wrapped mod 2 ^ 32 = 40000 /\ s_base_delays (sk wrapped) = [-4294907296].
Proof. split; [apply slow_reachable; vm_compute; reflexivity|]. vm_compute. auto. Qed.

(** C45.  While the clock is steady, the window follows the measured delay itself, not its low 32 bits. *)
Theorem C45_steady_not_below_partial : forall i s s', reachable s -> process_ack i s = (Ret tt, s') -> steady s' ->
  queuing s' <= 100000 -> s_curr_window (sk s) + 1400 < 2 ^ 32 -> Z.min (s_cwnd (sk s)) (s_curr_window (sk s) + 1400) <= s_cwnd (sk s').
Proof.
  intros i s s' HR H HS Hq HC. eapply C45_not_below_partial; try eassumption. pose proof (ack_queuing i s s' HR H (steady_forward s' HS)) as HB.
  rewrite queuing_measured in *. rewrite Z.mod_small by exact HB. exact Hq.
Qed.
Print Assumptions C45_steady_not_below_partial.
Theorem C45_steady_not_above_partial : forall i s s', reachable s -> process_ack i s = (Ret tt, s') -> steady s' ->
  100000 < queuing s' -> s_cwnd (sk s') <= Z.max (s_cwnd (sk s)) 2800.
Proof.
  intros i s s' HR H HS Hq. eapply C45_not_above_partial; try eassumption. pose proof (ack_queuing i s s' HR H (steady_forward s' HS)) as HB.
  rewrite queuing_measured in *. rewrite Z.mod_small by exact HB. exact Hq.
Qed.
Print Assumptions C45_steady_not_above_partial.

(** A connection with a steady clock, 800 ms of queuing delay. *)
Lemma slow_steady step t0 s : w_clock (wd s) = (fun n => t0 + step * Z.of_nat n) -> 0 <= step -> 0 <= t0 -> t0 mod 2 ^ 32 + step * Z.of_nat (w_tick (wd s)) < 2 ^ 32 -> steady s.
Proof.
  intros E H1 H2 H3 i j Hi Hj. rewrite E.
  assert (HM : forall n, (n <= j)%nat -> Z.abs (t0 + step * Z.of_nat n) mod 2 ^ 32 = t0 mod 2 ^ 32 + step * Z.of_nat n).
  { intros n Hn. rewrite Z.abs_eq by nia. rewrite <- Zplus_mod_idemp_l. apply Z.mod_small. pose proof (Z.mod_pos_bound t0 (2 ^ 32) ltac:(reflexivity)). nia. }
  rewrite !HM by lia. nia.
Qed.
Lemma ops_clock ops : forall s, w_clock (wd (snd (run_ops ops s))) = w_clock (wd s).
Proof.
  induction ops as [|o ops IH]; intros s; cbn [run_ops]; [reflexivity|]. pose proof (envfix_run_op o s) as [HE _]. destruct (run_op o s) as [r s1]. cbn [snd] in HE. rewrite <- HE.
  destruct r as [v|[k|l| |]]; try exact HE; try (rewrite <- (IH s1); destruct (run_ops ops s1); reflexivity). reflexivity.
Qed.
Lemma slow_clock step t0 evs : fst (accept (RxDgram (dgram PSyn 100 10 0 []) peer) (Ok local) (Ok tt)
    (mkSt blank (mkWorld [] 0 (fun n => t0 + step * Z.of_nat n) 0 (fun _ => 500) 0 (fun _ => SendOk) [] true))) = Ret peer ->
  w_clock (wd (slow_accepted step t0 evs)) = fun n => t0 + step * Z.of_nat n.
Proof.
  intros H. unfold slow_accepted. cbv zeta. destruct (accept _ _ _ _) as [o s] eqn:E. cbn [fst] in H. subst o. apply accept_clock in E. exact E.
Qed.
Lemma ack_clock i s : w_clock (wd (snd (process_ack i s))) = w_clock (wd s). Proof. apply envfix_process_ack. Qed.
Notation acked := (snd (process_ack 0 after_timeout)).
Example C111_example : reachable after_timeout /\ process_ack 0 after_timeout = (Ret tt, acked) /\ steady after_timeout /\ steady acked /\
  queuing after_timeout = 0 /\ queuing acked = 800000 /\ s_base_delays (sk acked) = [600000] /\ s_current_delays (sk acked) = [(131788416, 1400000)] /\ s_rtt (sk acked) = 140.
Proof.
  split; [apply slow_reachable; vm_compute; reflexivity|]. split; [assert (E : fst (process_ack 0 after_timeout) = Ret tt) by (vm_compute; reflexivity); rewrite <- E; apply surjective_pairing|].
  split; [|split; [|vm_compute; auto 10]]; (apply (slow_steady 200000 1600000000000000); [|discriminate|discriminate|vm_compute; reflexivity]).
  - rewrite ops_clock. apply slow_clock. vm_compute. reflexivity.
  - rewrite ack_clock, ops_clock. apply slow_clock. vm_compute. reflexivity.
Qed.
Example C110_example : f_to_i64 (ewma [100; 200; 150; 4294967295] f_0_333) = 1430224201 /\ f_to_i64 (ewma [7; 7; 7; 7; 7] f_0_333) = 7.
Proof. vm_compute. auto. Qed.
