(** C80-C82. *)
From Verif Require Import GrowthProofs PropWindow Samples.
Require Import Lia.
Local Open Scope Z_scope.

(** An accepted connection with a given clock. *)
Definition clocked (clk : nat -> Z) (evs : list rx) : st :=
  let s := snd (accept (RxDgram (dgram PSyn 100 10 0 []) peer) (Ok local) (Ok tt)
                  (mkSt blank (mkWorld [] 0 clk 0 (fun _ => 500) 0 (fun _ => SendOk) [] true))) in
  mkSt (sk s) (sw_in evs (wd s)).
Lemma clocked_reachable clk evs ops :
  fst (accept (RxDgram (dgram PSyn 100 10 0 []) peer) (Ok local) (Ok tt) (mkSt blank (mkWorld [] 0 clk 0 (fun _ => 500) 0 (fun _ => SendOk) [] true))) = Ret peer ->
  existsb panicked (fst (run_ops ops (clocked clk evs))) = false -> reachable (snd (run_ops ops (clocked clk evs))).
Proof.
  intros H HP. apply ran_reachable; [|exact HP]. unfold clocked. cbv zeta. apply rc_input. destruct (accept _ _ _ _) as [o s] eqn:E. cbn [fst snd] in *. subst o.
  eapply rc_accept; [|exact E]. reflexivity.
Qed.
(** Two packets are sent at 1 s; the first is acknowledged at 1.8 s, the second at 1.85 s. *)
Definition clock80 (n : nat) : Z := if (n <? 6)%nat then 1000000 else if (n <? 11)%nat then 1800000 else 1850000.
Notation state80 := (snd (run_ops [OSendTo [x41]; OSendTo [x42]; ORecvFrom 10] (clocked clock80 [rx_pkt (dgram PState 101 11 500 []); data 11]))).

(** C80.  A sample taken 50 ms ago is thrown away although the round-trip time is 100 ms. *)
Theorem C80_dropped_refuted : exists i s s' t d, reachable s /\ process_ack i s = (Ret tt, s') /\
  In (t, d) (s_current_delays (sk s)) /\ clock_now s - t <= 1000 * s_rtt (sk s) /\ ~ In (t, d) (s_current_delays (sk s')).
Proof.
  exists 0%nat, state80, (snd (process_ack 0 state80)), 1800000, 800000.
  split; [apply clocked_reachable; vm_compute; reflexivity|].
  split; [assert (E : fst (process_ack 0 state80) = Ret tt) by (vm_compute; reflexivity); rewrite <- E; apply surjective_pairing|].
  split; [vm_compute; auto|]. split; [vm_compute; discriminate|]. vm_compute. intros [H|[]]. discriminate.
Qed.
Print Assumptions C80_dropped_refuted.
(** What holds: the limit is a tenth of the round-trip time ([s_rtt] is in ms, the clock in µs). *)
Theorem C80_tenth_partial : forall i s s', process_ack i s = (Ret tt, s') -> exists d dropped kept,
  s_current_delays (sk s) = dropped ++ kept /\ s_current_delays (sk s') = kept ++ [(clock_now s, d)] /\
  Forall (fun x => 100 * s_rtt (sk s) < clock_now s - fst x) dropped /\
  match kept with [] => True | x :: _ => clock_now s - fst x <= 100 * s_rtt (sk s) end.
Proof.
  intros i s s' H. destruct (process_ack_recorded i s s' H) as (p & _ & _ & _ & EC & _). destruct (drop_old_split (clock_now s) (s_rtt (sk s) * 100) (s_current_delays (sk s))) as (dropped & kept & E1 & E2 & H1 & H2).
  exists (clock_now s - timestamp p), dropped, kept. rewrite EC, E2, (Z.mul_comm 100). auto.
Qed.
Print Assumptions C80_tenth_partial.
Example C80_example : s_rtt (sk state80) = 100 /\ s_current_delays (sk state80) = [(1800000, 800000)] /\
  s_current_delays (sk (snd (process_ack 0 state80))) = [(1850000, 850000)].
Proof. vm_compute. auto. Qed.

(** C81.  The delay of packet [p] goes to both histories; the round-trip sample is the delay without the queuing delay. *)
Theorem C81_sample : forall i s s', reachable s -> process_ack i s = (Ret tt, s') -> exists p, nth_error (s_send_window (sk s)) i = Some p /\
  let now := clock_now s in let d := now - timestamp p in
  (exists older, s_current_delays (sk s') = older ++ [(now, d)]) /\
  ((s_base_delays (sk s) = [] \/ 60000000 < now - s_last_rollover (sk s)) -> s_last_rollover (sk s') = now /\ exists kept, s_base_delays (sk s') = kept ++ [d]) /\
  (forall old last, s_base_delays (sk s) = old ++ [last] -> now - s_last_rollover (sk s) <= 60000000 ->
     s_last_rollover (sk s') = s_last_rollover (sk s) /\ s_base_delays (sk s') = old ++ [Z.min last d]) /\
  let r := (d - queuing s') mod 2 ^ 32 / 1000 in
  s_rtt (sk s') = s_rtt (sk s) + (r - s_rtt (sk s)) ÷ 8 /\
  s_rtt_variance (sk s') = s_rtt_variance (sk s) + (Z.abs (s_rtt (sk s) - r) - s_rtt_variance (sk s)) ÷ 4 /\
  s_congestion_timeout (sk s') = Z.min (Z.max (s_rtt (sk s') + 4 * s_rtt_variance (sk s')) 500) 60000.
Proof.
  intros i s s' HR H. destruct (process_ack_recorded i s s' H) as (p & EP & EB & ER & EC & EM). destruct (reachable_ranges s HR). exists p. split; [exact EP|]. cbv zeta in *.
  rewrite <- queuing_measured in EM. set (r := (clock_now s - timestamp p - queuing s') mod 2 ^ 32 / 1000) in *.
  assert (Hr : 0 <= r <= 4294967). { pose proof (Z.mod_pos_bound (clock_now s - timestamp p - queuing s') (2 ^ 32) eq_refl) as HM. change (2 ^ 32) with 4294967296 in *. unfold r. split; [apply Z.div_pos; lia|]. apply Z.lt_succ_r, Z.div_lt_upper_bound; lia. }
  pose proof (rto_values r (sk s) Hr r_rtt r_var) as (E1 & E2 & E3 & _). cbv zeta in E3. destruct EM as (M1 & M2 & M3). rewrite M3, E3, M1, M2.
  pose proof (base_update (clock_now s - timestamp p) (clock_now s) (sk s) (reachable_base s HR)) as (_ & HB1 & HB2). unfold ts_sub in HB1, HB2. rewrite EB, ER.
  split; [eexists; exact EC|]. split; [|auto]. intros HN. destruct (HB1 HN) as (-> & kept & _ & _ & -> & _). split; [reflexivity|]. now exists kept.
Qed.
Print Assumptions C81_sample.
Example C81_example : let s' := snd (process_ack 0 state80) in map timestamp (s_send_window (sk state80)) = [1000000] /\ clock_now state80 = 1850000 /\
  queuing s' = 50000 /\ s_rtt (sk state80) = 100 /\ s_rtt (sk s') = 187 /\ s_base_delays (sk s') = [800000].
Proof. vm_compute. auto 10. Qed.

(** C82.  [F]: the old window plus (target - delay) / target * bytes * segment / window, rounded down. *)
Theorem C82_within_a_byte : forall i s s', reachable s -> process_ack i s = (Ret tt, s') -> s_curr_window (sk s) + 1400 < 2 ^ 32 ->
  let q := queuing s' mod 2 ^ 32 in
  let bytes := fold_right Z.add 0 (map (fun p => Z.of_nat (length p)) (firstn (i + 1) (s_send_window (sk s)))) mod 2 ^ 32 in
  let F := s_cwnd (sk s) + (100000 - q) * bytes * 1400 / (100000 * s_cwnd (sk s)) in
  exists g, F - 1 <= g <= F + 1 /\ s_cwnd (sk s') = Z.max (Z.min g (s_curr_window (sk s) + 1400)) 2800.
Proof.
  intros i s s' HR H HC q bytes F. destruct (reachable_ranges s HR). destruct (process_ack_window i s s' H) as (q' & EQ & _ & ->).
  assert (Eq : u32 q' = q) by (unfold q; rewrite queuing_measured, EQ; reflexivity).
  assert (Eb : u32 (sum_len (firstn (i + 1) (s_send_window (sk s)))) = bytes).
  { unfold bytes. rewrite u32_eq. change 4294967296 with (2 ^ 32). f_equal. clear. induction (firstn _ _) as [|p l IH]; [reflexivity|]. rewrite StepProofs.sum_len_cons, IH. reflexivity. }
  rewrite Eb. destruct (grown_close q' bytes (s_cwnd (sk s))) as (g & Hg & ->); [apply Z.mod_pos_bound; reflexivity|exact r_cwnd|].
  rewrite Eq in Hg. exists g. split; [exact Hg|]. rewrite (u32_small (_ + 1400)) by (change (2 ^ 32) with 4294967296 in HC; lia). change (2 ^ 32) with 4294967296 in *. lia.
Qed.
Print Assumptions C82_within_a_byte.
(** The computation by itself: for every delay, size and window it is the exact value rounded down, give or take one. *)
Theorem C82_formula : forall q bytes cwnd, 0 <= q < 2 ^ 32 -> 0 <= bytes < 2 ^ 32 -> 1400 <= cwnd < 2 ^ 32 ->
  exists g, Z.abs (g - (cwnd + (100000 - q) * bytes * 1400 / (100000 * cwnd))) <= 1 /\ grown_cwnd (off_target_of q) bytes cwnd = Z.max 0 (Z.min (2 ^ 32 - 1) g).
Proof.
  intros q bytes cwnd Hq Hb Hc. destruct (grown_close q bytes cwnd Hb Hc) as (g & Hg & E). exists g. split; [|exact E].
  rewrite (u32_small q Hq) in Hg. unfold TARGET, MSS in Hg. lia.
Qed.
Print Assumptions C82_formula.
Example C82_example : grown_cwnd (off_target_of 60000) 2000 30000 = 30037 /\ 30000 + (100000 - 60000) * 2000 * 1400 / (100000 * 30000) = 30037 /\
  grown_cwnd (off_target_of 1000000) 2000 30000 = 29160 /\ 30000 + (100000 - 1000000) * 2000 * 1400 / (100000 * 30000) = 29160 /\
  s_cwnd (sk state80) = 2800 /\ s_cwnd (sk (snd (process_ack 0 state80))) = 2800.
Proof. vm_compute. auto 10. Qed.
