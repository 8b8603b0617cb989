(** Which fields the named socket updates leave alone: one mechanically spelled-out lemma per field. *)
From Verif Require Export Ops.
Local Open Scope Z_scope.

(** Field selection through the named socket updates. *)
Lemma base_delay_other {A} (f : socket -> A) d now k :
  (forall v k, f (ss_base_delays v k) = f k) -> (forall v k, f (ss_last_rollover v k) = f k) -> f (base_delay_socket d now k) = f k.
Proof.
  intros H1 H2. unfold base_delay_socket. destruct (_ || _); cbv zeta; [now rewrite H1, H2|]. destruct (_ <? _); [now rewrite H1|reflexivity].
Qed.
Lemma advance_other {A} (f : socket -> A) k :
  (forall v k, f (ss_last_dropped v k) = f k) -> (forall v k, f (ss_ack_nr v k) = f k) -> (forall v k, f (ss_incoming_buffer v k) = f k) ->
  f (advance_socket k) = f k.
Proof. intros H1 H2 H3. unfold advance_socket. destruct (s_incoming_buffer k); [reflexivity|]. now rewrite H1, H2, H3. Qed.
Lemma flush_other {A} (f : socket -> A) n k :
  (forall v k, f (ss_last_dropped v k) = f k) -> (forall v k, f (ss_ack_nr v k) = f k) -> (forall v k, f (ss_incoming_buffer v k) = f k) ->
  (forall v k, f (ss_pending_data v k) = f k) -> f (snd (flush_sk n k)) = f k.
Proof.
  intros H1 H2 H3 H4. unfold flush_sk. destruct (s_pending_data k); [destruct (s_incoming_buffer k); [reflexivity|]; destruct (_ || _); [|reflexivity];
      destruct (payload _); [|reflexivity]|]; cbn [snd]; cbv zeta; destruct (_ =? _)%nat; rewrite ?advance_other, ?H4 by auto; reflexivity.
Qed.
Lemma rto_other {A} (f : socket -> A) d k :
  (forall v k, f (ss_congestion_timeout v k) = f k) -> (forall v k, f (ss_rtt v k) = f k) -> (forall v k, f (ss_rtt_variance v k) = f k) -> f (rto_sk d k) = f k.
Proof. intros H1 H2 H3. unfold rto_sk. cbv zeta. now rewrite H1, H2, H3. Qed.
Lemma fr_bd_s_connected_to d now k : s_connected_to (base_delay_socket d now k) = s_connected_to k. Proof. now apply (base_delay_other s_connected_to). Qed.
#[global] Hint Rewrite fr_bd_s_connected_to : frame.
Lemma fr_bd_s_sender_connection_id d now k : s_sender_connection_id (base_delay_socket d now k) = s_sender_connection_id k. Proof. now apply (base_delay_other s_sender_connection_id). Qed.
#[global] Hint Rewrite fr_bd_s_sender_connection_id : frame.
Lemma fr_bd_s_receiver_connection_id d now k : s_receiver_connection_id (base_delay_socket d now k) = s_receiver_connection_id k. Proof. now apply (base_delay_other s_receiver_connection_id). Qed.
#[global] Hint Rewrite fr_bd_s_receiver_connection_id : frame.
Lemma fr_bd_s_seq_nr d now k : s_seq_nr (base_delay_socket d now k) = s_seq_nr k. Proof. now apply (base_delay_other s_seq_nr). Qed.
#[global] Hint Rewrite fr_bd_s_seq_nr : frame.
Lemma fr_bd_s_ack_nr d now k : s_ack_nr (base_delay_socket d now k) = s_ack_nr k. Proof. now apply (base_delay_other s_ack_nr). Qed.
#[global] Hint Rewrite fr_bd_s_ack_nr : frame.
Lemma fr_bd_s_state d now k : s_state (base_delay_socket d now k) = s_state k. Proof. now apply (base_delay_other s_state). Qed.
#[global] Hint Rewrite fr_bd_s_state : frame.
Lemma fr_bd_s_incoming_buffer d now k : s_incoming_buffer (base_delay_socket d now k) = s_incoming_buffer k. Proof. now apply (base_delay_other s_incoming_buffer). Qed.
#[global] Hint Rewrite fr_bd_s_incoming_buffer : frame.
Lemma fr_bd_s_send_window d now k : s_send_window (base_delay_socket d now k) = s_send_window k. Proof. now apply (base_delay_other s_send_window). Qed.
#[global] Hint Rewrite fr_bd_s_send_window : frame.
Lemma fr_bd_s_unsent_queue d now k : s_unsent_queue (base_delay_socket d now k) = s_unsent_queue k. Proof. now apply (base_delay_other s_unsent_queue). Qed.
#[global] Hint Rewrite fr_bd_s_unsent_queue : frame.
Lemma fr_bd_s_duplicate_ack_count d now k : s_duplicate_ack_count (base_delay_socket d now k) = s_duplicate_ack_count k. Proof. now apply (base_delay_other s_duplicate_ack_count). Qed.
#[global] Hint Rewrite fr_bd_s_duplicate_ack_count : frame.
Lemma fr_bd_s_last_acked d now k : s_last_acked (base_delay_socket d now k) = s_last_acked k. Proof. now apply (base_delay_other s_last_acked). Qed.
#[global] Hint Rewrite fr_bd_s_last_acked : frame.
Lemma fr_bd_s_last_acked_timestamp d now k : s_last_acked_timestamp (base_delay_socket d now k) = s_last_acked_timestamp k. Proof. now apply (base_delay_other s_last_acked_timestamp). Qed.
#[global] Hint Rewrite fr_bd_s_last_acked_timestamp : frame.
Lemma fr_bd_s_last_dropped d now k : s_last_dropped (base_delay_socket d now k) = s_last_dropped k. Proof. now apply (base_delay_other s_last_dropped). Qed.
#[global] Hint Rewrite fr_bd_s_last_dropped : frame.
Lemma fr_bd_s_rtt d now k : s_rtt (base_delay_socket d now k) = s_rtt k. Proof. now apply (base_delay_other s_rtt). Qed.
#[global] Hint Rewrite fr_bd_s_rtt : frame.
Lemma fr_bd_s_rtt_variance d now k : s_rtt_variance (base_delay_socket d now k) = s_rtt_variance k. Proof. now apply (base_delay_other s_rtt_variance). Qed.
#[global] Hint Rewrite fr_bd_s_rtt_variance : frame.
Lemma fr_bd_s_pending_data d now k : s_pending_data (base_delay_socket d now k) = s_pending_data k. Proof. now apply (base_delay_other s_pending_data). Qed.
#[global] Hint Rewrite fr_bd_s_pending_data : frame.
Lemma fr_bd_s_curr_window d now k : s_curr_window (base_delay_socket d now k) = s_curr_window k. Proof. now apply (base_delay_other s_curr_window). Qed.
#[global] Hint Rewrite fr_bd_s_curr_window : frame.
Lemma fr_bd_s_remote_wnd_size d now k : s_remote_wnd_size (base_delay_socket d now k) = s_remote_wnd_size k. Proof. now apply (base_delay_other s_remote_wnd_size). Qed.
#[global] Hint Rewrite fr_bd_s_remote_wnd_size : frame.
Lemma fr_bd_s_current_delays d now k : s_current_delays (base_delay_socket d now k) = s_current_delays k. Proof. now apply (base_delay_other s_current_delays). Qed.
#[global] Hint Rewrite fr_bd_s_current_delays : frame.
Lemma fr_bd_s_their_delay d now k : s_their_delay (base_delay_socket d now k) = s_their_delay k. Proof. now apply (base_delay_other s_their_delay). Qed.
#[global] Hint Rewrite fr_bd_s_their_delay : frame.
Lemma fr_bd_s_congestion_timeout d now k : s_congestion_timeout (base_delay_socket d now k) = s_congestion_timeout k. Proof. now apply (base_delay_other s_congestion_timeout). Qed.
#[global] Hint Rewrite fr_bd_s_congestion_timeout : frame.
Lemma fr_bd_s_cwnd d now k : s_cwnd (base_delay_socket d now k) = s_cwnd k. Proof. now apply (base_delay_other s_cwnd). Qed.
#[global] Hint Rewrite fr_bd_s_cwnd : frame.
Lemma fr_bd_s_max_retries d now k : s_max_retries (base_delay_socket d now k) = s_max_retries k. Proof. now apply (base_delay_other s_max_retries). Qed.
#[global] Hint Rewrite fr_bd_s_max_retries : frame.
Lemma fr_adv_s_connected_to  k : s_connected_to (advance_socket k) = s_connected_to k. Proof. now apply (advance_other s_connected_to). Qed.
#[global] Hint Rewrite fr_adv_s_connected_to : frame.
Lemma fr_adv_s_sender_connection_id  k : s_sender_connection_id (advance_socket k) = s_sender_connection_id k. Proof. now apply (advance_other s_sender_connection_id). Qed.
#[global] Hint Rewrite fr_adv_s_sender_connection_id : frame.
Lemma fr_adv_s_receiver_connection_id  k : s_receiver_connection_id (advance_socket k) = s_receiver_connection_id k. Proof. now apply (advance_other s_receiver_connection_id). Qed.
#[global] Hint Rewrite fr_adv_s_receiver_connection_id : frame.
Lemma fr_adv_s_seq_nr  k : s_seq_nr (advance_socket k) = s_seq_nr k. Proof. now apply (advance_other s_seq_nr). Qed.
#[global] Hint Rewrite fr_adv_s_seq_nr : frame.
Lemma fr_adv_s_state  k : s_state (advance_socket k) = s_state k. Proof. now apply (advance_other s_state). Qed.
#[global] Hint Rewrite fr_adv_s_state : frame.
Lemma fr_adv_s_send_window  k : s_send_window (advance_socket k) = s_send_window k. Proof. now apply (advance_other s_send_window). Qed.
#[global] Hint Rewrite fr_adv_s_send_window : frame.
Lemma fr_adv_s_unsent_queue  k : s_unsent_queue (advance_socket k) = s_unsent_queue k. Proof. now apply (advance_other s_unsent_queue). Qed.
#[global] Hint Rewrite fr_adv_s_unsent_queue : frame.
Lemma fr_adv_s_duplicate_ack_count  k : s_duplicate_ack_count (advance_socket k) = s_duplicate_ack_count k. Proof. now apply (advance_other s_duplicate_ack_count). Qed.
#[global] Hint Rewrite fr_adv_s_duplicate_ack_count : frame.
Lemma fr_adv_s_last_acked  k : s_last_acked (advance_socket k) = s_last_acked k. Proof. now apply (advance_other s_last_acked). Qed.
#[global] Hint Rewrite fr_adv_s_last_acked : frame.
Lemma fr_adv_s_last_acked_timestamp  k : s_last_acked_timestamp (advance_socket k) = s_last_acked_timestamp k. Proof. now apply (advance_other s_last_acked_timestamp). Qed.
#[global] Hint Rewrite fr_adv_s_last_acked_timestamp : frame.
Lemma fr_adv_s_rtt  k : s_rtt (advance_socket k) = s_rtt k. Proof. now apply (advance_other s_rtt). Qed.
#[global] Hint Rewrite fr_adv_s_rtt : frame.
Lemma fr_adv_s_rtt_variance  k : s_rtt_variance (advance_socket k) = s_rtt_variance k. Proof. now apply (advance_other s_rtt_variance). Qed.
#[global] Hint Rewrite fr_adv_s_rtt_variance : frame.
Lemma fr_adv_s_pending_data  k : s_pending_data (advance_socket k) = s_pending_data k. Proof. now apply (advance_other s_pending_data). Qed.
#[global] Hint Rewrite fr_adv_s_pending_data : frame.
Lemma fr_adv_s_curr_window  k : s_curr_window (advance_socket k) = s_curr_window k. Proof. now apply (advance_other s_curr_window). Qed.
#[global] Hint Rewrite fr_adv_s_curr_window : frame.
Lemma fr_adv_s_remote_wnd_size  k : s_remote_wnd_size (advance_socket k) = s_remote_wnd_size k. Proof. now apply (advance_other s_remote_wnd_size). Qed.
#[global] Hint Rewrite fr_adv_s_remote_wnd_size : frame.
Lemma fr_adv_s_base_delays  k : s_base_delays (advance_socket k) = s_base_delays k. Proof. now apply (advance_other s_base_delays). Qed.
#[global] Hint Rewrite fr_adv_s_base_delays : frame.
Lemma fr_adv_s_current_delays  k : s_current_delays (advance_socket k) = s_current_delays k. Proof. now apply (advance_other s_current_delays). Qed.
#[global] Hint Rewrite fr_adv_s_current_delays : frame.
Lemma fr_adv_s_their_delay  k : s_their_delay (advance_socket k) = s_their_delay k. Proof. now apply (advance_other s_their_delay). Qed.
#[global] Hint Rewrite fr_adv_s_their_delay : frame.
Lemma fr_adv_s_last_rollover  k : s_last_rollover (advance_socket k) = s_last_rollover k. Proof. now apply (advance_other s_last_rollover). Qed.
#[global] Hint Rewrite fr_adv_s_last_rollover : frame.
Lemma fr_adv_s_congestion_timeout  k : s_congestion_timeout (advance_socket k) = s_congestion_timeout k. Proof. now apply (advance_other s_congestion_timeout). Qed.
#[global] Hint Rewrite fr_adv_s_congestion_timeout : frame.
Lemma fr_adv_s_cwnd  k : s_cwnd (advance_socket k) = s_cwnd k. Proof. now apply (advance_other s_cwnd). Qed.
#[global] Hint Rewrite fr_adv_s_cwnd : frame.
Lemma fr_adv_s_max_retries  k : s_max_retries (advance_socket k) = s_max_retries k. Proof. now apply (advance_other s_max_retries). Qed.
#[global] Hint Rewrite fr_adv_s_max_retries : frame.
Lemma fr_rto_s_connected_to d k : s_connected_to (rto_sk d k) = s_connected_to k. Proof. now apply (rto_other s_connected_to). Qed.
#[global] Hint Rewrite fr_rto_s_connected_to : frame.
Lemma fr_rto_s_sender_connection_id d k : s_sender_connection_id (rto_sk d k) = s_sender_connection_id k. Proof. now apply (rto_other s_sender_connection_id). Qed.
#[global] Hint Rewrite fr_rto_s_sender_connection_id : frame.
Lemma fr_rto_s_receiver_connection_id d k : s_receiver_connection_id (rto_sk d k) = s_receiver_connection_id k. Proof. now apply (rto_other s_receiver_connection_id). Qed.
#[global] Hint Rewrite fr_rto_s_receiver_connection_id : frame.
Lemma fr_rto_s_seq_nr d k : s_seq_nr (rto_sk d k) = s_seq_nr k. Proof. now apply (rto_other s_seq_nr). Qed.
#[global] Hint Rewrite fr_rto_s_seq_nr : frame.
Lemma fr_rto_s_ack_nr d k : s_ack_nr (rto_sk d k) = s_ack_nr k. Proof. now apply (rto_other s_ack_nr). Qed.
#[global] Hint Rewrite fr_rto_s_ack_nr : frame.
Lemma fr_rto_s_state d k : s_state (rto_sk d k) = s_state k. Proof. now apply (rto_other s_state). Qed.
#[global] Hint Rewrite fr_rto_s_state : frame.
Lemma fr_rto_s_incoming_buffer d k : s_incoming_buffer (rto_sk d k) = s_incoming_buffer k. Proof. now apply (rto_other s_incoming_buffer). Qed.
#[global] Hint Rewrite fr_rto_s_incoming_buffer : frame.
Lemma fr_rto_s_send_window d k : s_send_window (rto_sk d k) = s_send_window k. Proof. now apply (rto_other s_send_window). Qed.
#[global] Hint Rewrite fr_rto_s_send_window : frame.
Lemma fr_rto_s_unsent_queue d k : s_unsent_queue (rto_sk d k) = s_unsent_queue k. Proof. now apply (rto_other s_unsent_queue). Qed.
#[global] Hint Rewrite fr_rto_s_unsent_queue : frame.
Lemma fr_rto_s_duplicate_ack_count d k : s_duplicate_ack_count (rto_sk d k) = s_duplicate_ack_count k. Proof. now apply (rto_other s_duplicate_ack_count). Qed.
#[global] Hint Rewrite fr_rto_s_duplicate_ack_count : frame.
Lemma fr_rto_s_last_acked d k : s_last_acked (rto_sk d k) = s_last_acked k. Proof. now apply (rto_other s_last_acked). Qed.
#[global] Hint Rewrite fr_rto_s_last_acked : frame.
Lemma fr_rto_s_last_acked_timestamp d k : s_last_acked_timestamp (rto_sk d k) = s_last_acked_timestamp k. Proof. now apply (rto_other s_last_acked_timestamp). Qed.
#[global] Hint Rewrite fr_rto_s_last_acked_timestamp : frame.
Lemma fr_rto_s_last_dropped d k : s_last_dropped (rto_sk d k) = s_last_dropped k. Proof. now apply (rto_other s_last_dropped). Qed.
#[global] Hint Rewrite fr_rto_s_last_dropped : frame.
Lemma fr_rto_s_pending_data d k : s_pending_data (rto_sk d k) = s_pending_data k. Proof. now apply (rto_other s_pending_data). Qed.
#[global] Hint Rewrite fr_rto_s_pending_data : frame.
Lemma fr_rto_s_curr_window d k : s_curr_window (rto_sk d k) = s_curr_window k. Proof. now apply (rto_other s_curr_window). Qed.
#[global] Hint Rewrite fr_rto_s_curr_window : frame.
Lemma fr_rto_s_remote_wnd_size d k : s_remote_wnd_size (rto_sk d k) = s_remote_wnd_size k. Proof. now apply (rto_other s_remote_wnd_size). Qed.
#[global] Hint Rewrite fr_rto_s_remote_wnd_size : frame.
Lemma fr_rto_s_base_delays d k : s_base_delays (rto_sk d k) = s_base_delays k. Proof. now apply (rto_other s_base_delays). Qed.
#[global] Hint Rewrite fr_rto_s_base_delays : frame.
Lemma fr_rto_s_current_delays d k : s_current_delays (rto_sk d k) = s_current_delays k. Proof. now apply (rto_other s_current_delays). Qed.
#[global] Hint Rewrite fr_rto_s_current_delays : frame.
Lemma fr_rto_s_their_delay d k : s_their_delay (rto_sk d k) = s_their_delay k. Proof. now apply (rto_other s_their_delay). Qed.
#[global] Hint Rewrite fr_rto_s_their_delay : frame.
Lemma fr_rto_s_last_rollover d k : s_last_rollover (rto_sk d k) = s_last_rollover k. Proof. now apply (rto_other s_last_rollover). Qed.
#[global] Hint Rewrite fr_rto_s_last_rollover : frame.
Lemma fr_rto_s_cwnd d k : s_cwnd (rto_sk d k) = s_cwnd k. Proof. now apply (rto_other s_cwnd). Qed.
#[global] Hint Rewrite fr_rto_s_cwnd : frame.
Lemma fr_rto_s_max_retries d k : s_max_retries (rto_sk d k) = s_max_retries k. Proof. now apply (rto_other s_max_retries). Qed.
#[global] Hint Rewrite fr_rto_s_max_retries : frame.
Lemma fr_fl_s_connected_to n k : s_connected_to (snd (flush_sk n k)) = s_connected_to k. Proof. now apply (flush_other s_connected_to). Qed.
#[global] Hint Rewrite fr_fl_s_connected_to : frame.
Lemma fr_fl_s_sender_connection_id n k : s_sender_connection_id (snd (flush_sk n k)) = s_sender_connection_id k. Proof. now apply (flush_other s_sender_connection_id). Qed.
#[global] Hint Rewrite fr_fl_s_sender_connection_id : frame.
Lemma fr_fl_s_receiver_connection_id n k : s_receiver_connection_id (snd (flush_sk n k)) = s_receiver_connection_id k. Proof. now apply (flush_other s_receiver_connection_id). Qed.
#[global] Hint Rewrite fr_fl_s_receiver_connection_id : frame.
Lemma fr_fl_s_seq_nr n k : s_seq_nr (snd (flush_sk n k)) = s_seq_nr k. Proof. now apply (flush_other s_seq_nr). Qed.
#[global] Hint Rewrite fr_fl_s_seq_nr : frame.
Lemma fr_fl_s_state n k : s_state (snd (flush_sk n k)) = s_state k. Proof. now apply (flush_other s_state). Qed.
#[global] Hint Rewrite fr_fl_s_state : frame.
Lemma fr_fl_s_send_window n k : s_send_window (snd (flush_sk n k)) = s_send_window k. Proof. now apply (flush_other s_send_window). Qed.
#[global] Hint Rewrite fr_fl_s_send_window : frame.
Lemma fr_fl_s_unsent_queue n k : s_unsent_queue (snd (flush_sk n k)) = s_unsent_queue k. Proof. now apply (flush_other s_unsent_queue). Qed.
#[global] Hint Rewrite fr_fl_s_unsent_queue : frame.
Lemma fr_fl_s_duplicate_ack_count n k : s_duplicate_ack_count (snd (flush_sk n k)) = s_duplicate_ack_count k. Proof. now apply (flush_other s_duplicate_ack_count). Qed.
#[global] Hint Rewrite fr_fl_s_duplicate_ack_count : frame.
Lemma fr_fl_s_last_acked n k : s_last_acked (snd (flush_sk n k)) = s_last_acked k. Proof. now apply (flush_other s_last_acked). Qed.
#[global] Hint Rewrite fr_fl_s_last_acked : frame.
Lemma fr_fl_s_last_acked_timestamp n k : s_last_acked_timestamp (snd (flush_sk n k)) = s_last_acked_timestamp k. Proof. now apply (flush_other s_last_acked_timestamp). Qed.
#[global] Hint Rewrite fr_fl_s_last_acked_timestamp : frame.
Lemma fr_fl_s_rtt n k : s_rtt (snd (flush_sk n k)) = s_rtt k. Proof. now apply (flush_other s_rtt). Qed.
#[global] Hint Rewrite fr_fl_s_rtt : frame.
Lemma fr_fl_s_rtt_variance n k : s_rtt_variance (snd (flush_sk n k)) = s_rtt_variance k. Proof. now apply (flush_other s_rtt_variance). Qed.
#[global] Hint Rewrite fr_fl_s_rtt_variance : frame.
Lemma fr_fl_s_curr_window n k : s_curr_window (snd (flush_sk n k)) = s_curr_window k. Proof. now apply (flush_other s_curr_window). Qed.
#[global] Hint Rewrite fr_fl_s_curr_window : frame.
Lemma fr_fl_s_remote_wnd_size n k : s_remote_wnd_size (snd (flush_sk n k)) = s_remote_wnd_size k. Proof. now apply (flush_other s_remote_wnd_size). Qed.
#[global] Hint Rewrite fr_fl_s_remote_wnd_size : frame.
Lemma fr_fl_s_base_delays n k : s_base_delays (snd (flush_sk n k)) = s_base_delays k. Proof. now apply (flush_other s_base_delays). Qed.
#[global] Hint Rewrite fr_fl_s_base_delays : frame.
Lemma fr_fl_s_current_delays n k : s_current_delays (snd (flush_sk n k)) = s_current_delays k. Proof. now apply (flush_other s_current_delays). Qed.
#[global] Hint Rewrite fr_fl_s_current_delays : frame.
Lemma fr_fl_s_their_delay n k : s_their_delay (snd (flush_sk n k)) = s_their_delay k. Proof. now apply (flush_other s_their_delay). Qed.
#[global] Hint Rewrite fr_fl_s_their_delay : frame.
Lemma fr_fl_s_last_rollover n k : s_last_rollover (snd (flush_sk n k)) = s_last_rollover k. Proof. now apply (flush_other s_last_rollover). Qed.
#[global] Hint Rewrite fr_fl_s_last_rollover : frame.
Lemma fr_fl_s_congestion_timeout n k : s_congestion_timeout (snd (flush_sk n k)) = s_congestion_timeout k. Proof. now apply (flush_other s_congestion_timeout). Qed.
#[global] Hint Rewrite fr_fl_s_congestion_timeout : frame.
Lemma fr_fl_s_cwnd n k : s_cwnd (snd (flush_sk n k)) = s_cwnd k. Proof. now apply (flush_other s_cwnd). Qed.
#[global] Hint Rewrite fr_fl_s_cwnd : frame.
Lemma fr_fl_s_max_retries n k : s_max_retries (snd (flush_sk n k)) = s_max_retries k. Proof. now apply (flush_other s_max_retries). Qed.
#[global] Hint Rewrite fr_fl_s_max_retries : frame.
Ltac frame := sproj; autorewrite with frame; sproj.
