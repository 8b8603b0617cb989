(** Property theorems C11-C14. *)
From Verif Require Import UtilProofs Samples.
Local Open Scope Z_scope.

(** C11.  A new socket's two ids are 16-bit and consecutive, whatever the random draw. *)
Theorem C11_ids_consecutive : forall resolved bound s0 s, bind_socket resolved bound s0 = (Ret tt, s) ->
  0 <= s_receiver_connection_id (sk s) < 65536 /\ 0 <= s_sender_connection_id (sk s) < 65536 /\
  s_sender_connection_id (sk s) = s_receiver_connection_id (sk s) + 1.
Proof. exact bind_ids. Qed.
Print Assumptions C11_ids_consecutive.
(** The largest draw does not overflow. *)
Example C11_example : let s := snd (bind_socket (Ok [local]) (Ok tt) (mkSt blank (sample_world true 65535 []))) in
  fst (bind_socket (Ok [local]) (Ok tt) (mkSt blank (sample_world true 65535 []))) = Ret tt /\
  s_receiver_connection_id (sk s) = 65534 /\ s_sender_connection_id (sk s) = 65535.
Proof. vm_compute. auto. Qed.

(** C12.  [t]: microseconds since the epoch. *)
Theorem C12_wire_clock : forall t, 0 <= t -> micros_of_clock t = t mod 2 ^ 32.
Proof. intros t H. rewrite micros_spec, Z.abs_eq by exact H. reflexivity. Qed.
Print Assumptions C12_wire_clock.
(** The stamps written in a reply: the clock at that moment, and its distance to the original's stamp. *)
Theorem C12_reply_stamps : forall orig t s r s', prepare_reply orig t s = (Ret r, s') ->
  timestamp r = micros_of_clock (w_clock (wd s) (w_tick (wd s))) /\
  timestamp_difference r = Z.abs (timestamp r - timestamp orig).
Proof. intros orig t s r s' H. destruct (reply_stamps _ _ _ _ _ H) as [H1 H2]. rewrite H2, H1. auto. Qed.
Print Assumptions C12_reply_stamps.
Theorem C12_difference_symmetric : forall a b, abs_diff a b = Z.abs (a - b) /\ abs_diff a b = abs_diff b a.
Proof. intros a b. rewrite !abs_diff_abs. split; [reflexivity|]. rewrite <- Z.abs_opp. f_equal. ring. Qed.
Print Assumptions C12_difference_symmetric.
Example C12_example : micros_of_clock 1600000000123456 = 1600000000123456 mod 2 ^ 32 /\ micros_of_clock 1600000000123456 = 128311872 /\
  match fst (prepare_reply (dgram PData 1 1 1 []) PState (mkSt blank (sample_world true 0 []))) with
  | Ret r => timestamp r = 128188416 /\ timestamp_difference r = 128188339 | _ => False end.
Proof. vm_compute. auto. Qed.

(** C13.  Sending at [t0], acknowledgement at [t1] (real microseconds). *)
Definition measured_delay (t0 t1 : Z) : Z := ts_sub (micros_of_clock t1) (micros_of_clock t0).
Theorem C13_delay_refuted : ~ (forall t0 t1, 0 <= t0 <= t1 -> t1 - t0 < 3600 * 1000000 -> measured_delay t0 t1 = t1 - t0).
Proof. intros H. specialize (H 4294967295 4294967296). vm_compute in H. specialize (H ltac:(split; discriminate) eq_refl). discriminate. Qed.
Print Assumptions C13_delay_refuted.
(** It holds whenever the 32-bit clock does not wrap in between, and is off by exactly one wrap otherwise. *)
Theorem C13_delay_partial : forall t0 t1, 0 <= t0 <= t1 -> t1 - t0 < 3600 * 1000000 ->
  measured_delay t0 t1 = t1 - t0 \/ (t0 / 2 ^ 32 + 1 = t1 / 2 ^ 32 /\ measured_delay t0 t1 = t1 - t0 - 2 ^ 32).
Proof.
  intros t0 t1 H1 H2. unfold measured_delay, ts_sub. rewrite !micros_spec, !Z.abs_eq by lia. change (2 ^ 32) with 4294967296.
  pose proof (Z.div_mod t0 4294967296 ltac:(lia)). pose proof (Z.div_mod t1 4294967296 ltac:(lia)).
  pose proof (Z.mod_pos_bound t0 4294967296 ltac:(lia)). pose proof (Z.mod_pos_bound t1 4294967296 ltac:(lia)).
  assert (t1 / 4294967296 = t0 / 4294967296 \/ t1 / 4294967296 = t0 / 4294967296 + 1) as [E|E] by nia; [left|right]; nia.
Qed.
Print Assumptions C13_delay_partial.
(** The socket records exactly this measure: current clock minus the stamp of the acknowledged packet. *)
Theorem C13_sample_partial : forall i s s', process_ack i s = (Ret tt, s') -> exists p old,
  nth_error (s_send_window (sk s)) i = Some p /\
  s_current_delays (sk s') = old ++ [(clock_now s, clock_now s - timestamp p)].
Proof. exact process_ack_sample. Qed.
Print Assumptions C13_sample_partial.
Example C13_example : measured_delay 1600000000000000 1600000000250000 = 250000 /\ measured_delay 4294967000 4294967500 = 500 - 2 ^ 32.
Proof. vm_compute. auto. Qed.
Example C13_sample_example : let r := process_ack 0 (mkSt (ss_send_window [dgram PData 1 5 1 [x41]] blank) (sample_world true 0 [])) in
  fst r = Ret tt /\ s_current_delays (sk (snd r)) = [(128188416, 128188416 - 77)].
Proof. vm_compute. auto. Qed.

(** C14.  The table of kinds. *)
Theorem C14_error_kinds :
  kind_of_socket_error ConnectionClosed = KNotConnected /\ kind_of_socket_error NotConnected = KNotConnected /\
  kind_of_socket_error ConnectionReset = KConnectionReset /\ kind_of_socket_error ConnectionTimedOut = KTimedOut /\
  kind_of_socket_error InvalidReply = KConnectionRefused /\ kind_of_socket_error InvalidAddress = KInvalidInput /\
  kind_of_socket_error Other = KOther /\ forall e, kind_of_parse_error e = KOther.
Proof. repeat split. Qed.
Print Assumptions C14_error_kinds.
Example C14_example : fst (bind_socket (Ok []) (Ok tt) (mkSt blank (sample_world true 1 []))) = Fail (Throw KInvalidInput) /\
  fst (connect (Ok [peer]) (Ok tt) (mkSt blank (sample_world true 300 [rx_pkt (dgram PData 300 1 1 [])]))) = Fail (Throw KConnectionRefused).
Proof. vm_compute. auto. Qed.
