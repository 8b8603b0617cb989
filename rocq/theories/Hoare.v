(** Weakest-precondition style reasoning for the monad of State.v. *)
From Verif Require Export Socket PacketProofs3.
Require Import ZifyBool ZifyNat ZifyN.
Local Open Scope Z_scope.
Ltac Zify.zify_post_hook ::= Z.div_mod_to_equations.

Definition wp {A} (m : M A) (Q : outcome A -> st -> Prop) (s : st) : Prop := Q (fst (m s)) (snd (m s)).

Section Wp.
  Context {A B : Type}.
  Implicit Types (s : st).
  Lemma wp_eq (m : M A) Q s o s' : m s = (o, s') -> wp m Q s -> Q o s'.
  Proof. unfold wp. intros ->. exact (fun H => H). Qed.
  Lemma wp_intro (m : M A) (Q : outcome A -> st -> Prop) s : (forall o s', m s = (o, s') -> Q o s') -> wp m Q s.
  Proof. unfold wp. intros H. destruct (m s) as [o s'] eqn:E. now apply H. Qed.
  Lemma wp_conseq (m : M A) (Q Q' : outcome A -> st -> Prop) s :
    wp m Q s -> (forall o s', Q o s' -> Q' o s') -> wp m Q' s.
  Proof. unfold wp. auto. Qed.
  Lemma wp_bind (m : M A) (f : A -> M B) Q s :
    wp m (fun o s' => match o with Ret a => wp (f a) Q s' | Fail e => Q (Fail e) s' end) s -> wp (bind m f) Q s.
  Proof. unfold wp, bind. destruct (m s) as [[a|e] s']; cbn; auto. Qed.
  Lemma wp_ret (a : A) (Q : outcome A -> st -> Prop) s : Q (Ret a) s -> wp (ret a) Q s.
  Proof. exact (fun H => H). Qed.
  Lemma wp_fail f (Q : outcome A -> st -> Prop) s : Q (Fail f) s -> wp (fail f) Q s.
  Proof. exact (fun H => H). Qed.
  Lemma wp_throw k (Q : outcome A -> st -> Prop) s : Q (Fail (Throw k)) s -> wp (throw k) Q s.
  Proof. exact (fun H => H). Qed.
  Lemma wp_throw_se k (Q : outcome A -> st -> Prop) s : Q (Fail (Throw (kind_of_socket_error k))) s -> wp (throw_se k) Q s.
  Proof. exact (fun H => H). Qed.
  Lemma wp_unwrap l (o : option A) (Q : outcome A -> st -> Prop) s :
    (forall a, o = Some a -> Q (Ret a) s) -> (o = None -> Q (Fail (Panic l)) s) -> wp (unwrap l o) Q s.
  Proof. destruct o; cbn; intros; unfold wp; cbn; auto. Qed.
  Lemma wp_try (r : result A kind) (Q : outcome A -> st -> Prop) s :
    (forall a, r = Ok a -> Q (Ret a) s) -> (forall k, r = Err k -> Q (Fail (Throw k)) s) -> wp (try_ r) Q s.
  Proof. destruct r; unfold wp; cbn; auto. Qed.
End Wp.
Lemma wp_get_sk (Q : outcome socket -> st -> Prop) s : Q (Ret (sk s)) s -> wp get_sk Q s.
Proof. exact (fun H => H). Qed.
Lemma wp_upd_sk f (Q : outcome unit -> st -> Prop) s : Q (Ret tt) (mkSt (f (sk s)) (wd s)) -> wp (upd_sk f) Q s.
Proof. exact (fun H => H). Qed.
Definition ticked (s : st) : st := mkSt (sk s) (sw_tick (S (w_tick (wd s))) (wd s)).
Definition rticked (s : st) : st := mkSt (sk s) (sw_rtick (S (w_rtick (wd s))) (wd s)).
Definition clock_now (s : st) : Z := micros_of_clock (w_clock (wd s) (w_tick (wd s))).
Lemma micros_range t : 0 <= micros_of_clock t < 2 ^ 32.
Proof. unfold micros_of_clock. apply u32_range. Qed.
Lemma wp_now (Q : outcome Z -> st -> Prop) s : Q (Ret (clock_now s)) (ticked s) -> wp now_microseconds Q s.
Proof. exact (fun H => H). Qed.
Lemma wp_rand (Q : outcome Z -> st -> Prop) s :
  (forall v, v = u16 (w_rand (wd s) (w_rtick (wd s))) -> Q (Ret v) (rticked s)) -> wp random_u16 Q s.
Proof. intros H. exact (H _ eq_refl). Qed.
Lemma wp_fuel (Q : outcome nat -> st -> Prop) s : Q (Ret (S (length (w_in (wd s))))) s -> wp event_fuel Q s.
Proof. exact (fun H => H). Qed.
Lemma wp_arith line lo hi wr v (Q : outcome Z -> st -> Prop) s :
  (w_chk (wd s) = true -> v < lo \/ hi < v -> Q (Fail (Panic line)) s) ->
  ((w_chk (wd s) = true -> lo <= v <= hi) -> Q (Ret (wr v)) s) -> wp (arith line lo hi wr v) Q s.
Proof.
  unfold wp, arith. intros H1 H2. destruct (w_chk (wd s) && _) eqn:E; cbn.
  - apply H1; [destruct (w_chk _); [reflexivity|discriminate]|]. destruct (w_chk _); lia.
  - apply H2. intros C. rewrite C in E. lia.
Qed.
(** [udp_send] *)
Definition tx_ok (s : st) : bool := match w_send (wd s) (w_stick (wd s)) with SendOk => true | _ => false end.
Definition tx_state (dest : addr) (p : packet) (s : st) : st :=
  mkSt (sk s) (if tx_ok s then sw_sent (w_sent (wd s) ++ [(dest, p)]) (sw_stick (S (w_stick (wd s))) (wd s))
               else sw_stick (S (w_stick (wd s))) (wd s)).
Lemma wp_udp_send dest p (Q : outcome (result unit kind) -> st -> Prop) s :
  (tx_ok s = true -> Q (Ret (Ok tt)) (tx_state dest p s)) ->
  (forall k, tx_ok s = false -> Q (Ret (Err k)) (tx_state dest p s)) ->
  (tx_ok s = false -> Q (Fail Pend) (tx_state dest p s)) -> wp (udp_send dest p) Q s.
Proof.
  unfold wp, udp_send, tx_state, tx_ok. intros H1 H2 H3. destruct (w_send _ _) eqn:E; cbn; auto.
Qed.
(** [udp_recv] *)
Definition rx_state (s : st) : st := mkSt (sk s) (sw_in (tl (w_in (wd s))) (wd s)).
Lemma wp_udp_recv size (Q : outcome (result (list byte * addr) kind) -> st -> Prop) s :
  (w_in (wd s) = [] -> Q (Fail Pend) s) ->
  (forall d src rest, w_in (wd s) = RxDgram d src :: rest -> Q (Ret (Ok (firstn size d, src))) (rx_state s)) ->
  (forall k rest, w_in (wd s) = RxErr k :: rest -> Q (Ret (Err k)) (rx_state s)) ->
  (forall rest, w_in (wd s) = RxCancel :: rest -> Q (Fail Pend) (rx_state s)) -> wp (udp_recv size) Q s.
Proof.
  unfold wp, udp_recv, rx_state. intros H1 H2 H3 H4.
  destruct (w_in (wd s)) as [|[d src|k|] rest] eqn:E; cbn; eauto.
Qed.

Lemma wp_loop {S A} (I : S -> st -> Prop) fuel body (x : S) (Q : outcome A -> st -> Prop) s :
  I x s ->
  (forall y t, I y t -> Q (Fail NoFuel) t) ->
  (forall y t, I y t -> wp (body y) (fun o t' => match o with
      | Ret (inl y') => I y' t' | Ret (inr a) => Q (Ret a) t' | Fail e => Q (Fail e) t' end) t) ->
  wp (loop fuel body x) Q s.
Proof.
  intros HI HF HB. revert x s HI. induction fuel as [|f IH]; intros x s HI; cbn [loop].
  - apply wp_fail. eauto.
  - apply wp_bind. eapply wp_conseq; [apply HB, HI|]. intros [[y|a]|e] s' H; auto.
Qed.


(** Field selection from updated records, nothing else. *)
Ltac sproj := cbn [s_connected_to ss_connected_to s_sender_connection_id ss_sender_connection_id s_receiver_connection_id ss_receiver_connection_id s_seq_nr ss_seq_nr s_ack_nr ss_ack_nr s_state ss_state s_incoming_buffer ss_incoming_buffer s_send_window ss_send_window s_unsent_queue ss_unsent_queue s_duplicate_ack_count ss_duplicate_ack_count s_last_acked ss_last_acked s_last_acked_timestamp ss_last_acked_timestamp s_last_dropped ss_last_dropped s_rtt ss_rtt s_rtt_variance ss_rtt_variance s_pending_data ss_pending_data s_curr_window ss_curr_window s_remote_wnd_size ss_remote_wnd_size s_base_delays ss_base_delays s_current_delays ss_current_delays s_their_delay ss_their_delay s_last_rollover ss_last_rollover s_congestion_timeout ss_congestion_timeout s_cwnd ss_cwnd s_max_retries ss_max_retries sk wd w_in w_tick w_clock w_rtick w_rand w_stick w_send w_sent w_chk sw_in sw_tick sw_rtick sw_stick sw_sent].
Ltac sproj_in H := cbn [s_connected_to ss_connected_to s_sender_connection_id ss_sender_connection_id s_receiver_connection_id ss_receiver_connection_id s_seq_nr ss_seq_nr s_ack_nr ss_ack_nr s_state ss_state s_incoming_buffer ss_incoming_buffer s_send_window ss_send_window s_unsent_queue ss_unsent_queue s_duplicate_ack_count ss_duplicate_ack_count s_last_acked ss_last_acked s_last_acked_timestamp ss_last_acked_timestamp s_last_dropped ss_last_dropped s_rtt ss_rtt s_rtt_variance ss_rtt_variance s_pending_data ss_pending_data s_curr_window ss_curr_window s_remote_wnd_size ss_remote_wnd_size s_base_delays ss_base_delays s_current_delays ss_current_delays s_their_delay ss_their_delay s_last_rollover ss_last_rollover s_congestion_timeout ss_congestion_timeout s_cwnd ss_cwnd s_max_retries ss_max_retries sk wd w_in w_tick w_clock w_rtick w_rand w_stick w_send w_sent w_chk sw_in sw_tick sw_rtick sw_stick sw_sent] in H.
Ltac sproj_all := cbn [s_connected_to ss_connected_to s_sender_connection_id ss_sender_connection_id s_receiver_connection_id ss_receiver_connection_id s_seq_nr ss_seq_nr s_ack_nr ss_ack_nr s_state ss_state s_incoming_buffer ss_incoming_buffer s_send_window ss_send_window s_unsent_queue ss_unsent_queue s_duplicate_ack_count ss_duplicate_ack_count s_last_acked ss_last_acked s_last_acked_timestamp ss_last_acked_timestamp s_last_dropped ss_last_dropped s_rtt ss_rtt s_rtt_variance ss_rtt_variance s_pending_data ss_pending_data s_curr_window ss_curr_window s_remote_wnd_size ss_remote_wnd_size s_base_delays ss_base_delays s_current_delays ss_current_delays s_their_delay ss_their_delay s_last_rollover ss_last_rollover s_congestion_timeout ss_congestion_timeout s_cwnd ss_cwnd s_max_retries ss_max_retries sk wd w_in w_tick w_clock w_rtick w_rand w_stick w_send w_sent w_chk sw_in sw_tick sw_rtick sw_stick sw_sent] in *.
Arguments set_timestamp : simpl never.
Arguments set_timestamp_difference : simpl never.
Arguments set_connection_id : simpl never.
Arguments set_seq_nr : simpl never.
Arguments set_ack_nr : simpl never.
Arguments set_wnd_size : simpl never.
Arguments set_type : simpl never.
Arguments seq_nr : simpl never.
Arguments ack_nr : simpl never.
Arguments timestamp : simpl never.
Arguments timestamp_difference : simpl never.
Arguments connection_id : simpl never.
Arguments wnd_size : simpl never.
Arguments packet_new : simpl never.
Arguments with_payload : simpl never.
Arguments set_sack : simpl never.
Arguments packet_try_from : simpl never.
Arguments payload : simpl never.
Arguments extensions : simpl never.
Arguments get_type : simpl never.
Arguments u16 : simpl never.
Arguments u32 : simpl never.
Arguments u64 : simpl never.
Arguments i32 : simpl never.
Arguments i64 : simpl never.
Arguments wire : simpl never.
Arguments ts_sub : simpl never.
Arguments abs_diff : simpl never.
Arguments sack_build : simpl never.
Arguments insert_packet : simpl never.
Arguments position : simpl never.
Arguments sum_len : simpl never.
Arguments packet_len : simpl never.

(** Symbolic execution of one primitive. *)
Ltac wstep :=
  lazymatch goal with
  | |- wp (bind _ _) _ _ => apply wp_bind
  | |- wp (ret _) _ _ => apply wp_ret; cbv beta iota
  | |- wp get_sk _ _ => apply wp_get_sk; cbv beta iota
  | |- wp (upd_sk _) _ _ => apply wp_upd_sk; cbv beta iota
  | |- wp now_microseconds _ _ => apply wp_now; cbv beta iota
  | |- wp (fail _) _ _ => apply wp_fail; cbv beta iota
  | |- wp (throw _) _ _ => apply wp_throw; cbv beta iota
  | |- wp (throw_se _) _ _ => apply wp_throw_se; cbv beta iota
  | |- wp event_fuel _ _ => apply wp_fuel; cbv beta iota
  | |- wp (ck_u16 _ _) _ _ => apply wp_arith; cbv beta iota
  | |- wp (ck_u32 _ _) _ _ => apply wp_arith; cbv beta iota
  | |- wp (ck_u64 _ _) _ _ => apply wp_arith; cbv beta iota
  | |- wp (ck_i32 _ _) _ _ => apply wp_arith; cbv beta iota
  | |- wp (ck_i64 _ _) _ _ => apply wp_arith; cbv beta iota
  | |- wp (let _ := _ in _) _ _ => cbv zeta
  | |- wp (if ?b then _ else _) _ _ => destruct b eqn:?
  end.
