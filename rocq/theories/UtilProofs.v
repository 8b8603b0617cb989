(** Lemmas for C11-C14. *)
From Verif Require Export Inv.
Require Import ZifyBool ZifyNat ZifyN.
Local Open Scope Z_scope.
Ltac Zify.zify_post_hook ::= Z.div_mod_to_equations.

Lemma bind_ids resolved bound s0 s : bind_socket resolved bound s0 = (Ret tt, s) ->
  0 <= s_receiver_connection_id (sk s) < 65536 /\ 0 <= s_sender_connection_id (sk s) < 65536 /\
  s_sender_connection_id (sk s) = s_receiver_connection_id (sk s) + 1.
Proof.
  intros H. apply bind_socket_spec in H as (a & rest & _ & _ & ->). sproj. cbn [fresh_socket s_receiver_connection_id s_sender_connection_id].
  apply seq_ids_range, u16_range.
Qed.
Lemma u64_eq z : u64 z = z mod 18446744073709551616. Proof. reflexivity. Qed.
Lemma micros_spec t : micros_of_clock t = Z.abs t mod 2 ^ 32.
Proof.
  unfold micros_of_clock. cbv zeta. rewrite !u32_eq, !u64_eq. change (2 ^ 32) with 4294967296.
  set (d := Z.abs t). assert (0 <= d) by (unfold d; lia). clearbody d.
  assert (E : forall a, (a mod 18446744073709551616) mod 4294967296 = a mod 4294967296).
  { intros a. rewrite <- Znumtheory.Zmod_div_mod; try lia. exists 4294967296. reflexivity. }
  rewrite E. rewrite Zplus_mod_idemp_l.
  rewrite <- Zplus_mod_idemp_l. rewrite <- (E (_ * _)). rewrite Zmult_mod_idemp_l, E, Zplus_mod_idemp_l.
  f_equal. rewrite (Z.div_mod d 1000000) at 3 by lia. lia.
Qed.
Lemma abs_diff_abs a b : abs_diff a b = Z.abs (a - b).
Proof. unfold abs_diff, ts_sub. destruct (b <? a) eqn:E; lia. Qed.
Lemma reply_stamps orig t s r s' : prepare_reply orig t s = (Ret r, s') ->
  timestamp r = clock_now s /\ timestamp_difference r = Z.abs (clock_now s - timestamp orig).
Proof.
  intros H. pose proof (prepare_reply_wire orig t s) as HW. unfold wp in HW. rewrite H in HW. cbn [fst snd] in HW.
  destruct HW as (_ & tsd & [= ->] & ->). rewrite ts_wire, tsd_wire. cbn [h_ts h_tsd].
  pose proof (micros_range (w_clock (wd s) (w_tick (wd s)))) as R1. change (2 ^ 32) with 4294967296 in R1. fold (clock_now s) in R1.
  pose proof (timestamp_range orig) as R2. change (2 ^ 32) with 4294967296 in R2.
  rewrite abs_diff_abs, !u32_eq. split; lia.
Qed.
(** The delay sample recorded for an acknowledged packet is the difference of the two stamps. *)
Lemma process_ack_sample i s s' : process_ack i s = (Ret tt, s') -> exists p old, nth_error (s_send_window (sk s)) i = Some p /\
  s_current_delays (sk s') = old ++ [(clock_now s, clock_now s - timestamp p)].
Proof.
  intros H. assert (HW : wp (process_ack i) (fun o s' => match o with Ret _ => exists p old, nth_error (s_send_window (sk s)) i = Some p /\
    s_current_delays (sk s') = old ++ [(clock_now s, clock_now s - timestamp p)] | _ => True end) s); [|unfold wp in HW; rewrite H in HW; exact HW].
  clear H s'. unfold process_ack. do 2 wstep. cbv zeta. do 3 wstep. apply wp_unwrap; [|intros; exact I]. intros p Hp. cbv zeta. sproj_in Hp.
  unfold update_base_delay, update_current_delay. do 4 wstep. sproj. unfold queuing_delay. do 3 wstep. wstep; [intros; exact I|intros _].
  unfold update_congestion_window. do 3 wstep. cbv zeta. do 2 wstep. wstep. wstep; [intros; exact I|intros _]. wstep. sproj. do 3 wstep. wstep; [intros; exact I|intros _].
  wstep. wstep; [intros; exact I|intros _]. unfold update_congestion_timeout. do 2 wstep.
  do 4 (wstep; wstep; [intros; exact I|intros _]). do 2 wstep. do 2 (wstep; wstep; [intros; exact I|intros _]). do 2 wstep.
  do 2 (wstep; wstep; [intros; exact I|intros _]). wstep. sproj. exists p. eexists. split; [exact Hp|]. unfold current_delay_socket. sproj. reflexivity.
Qed.
