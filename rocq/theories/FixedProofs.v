(** What the environment has decided (clock, random numbers, fate of each send, build profile) is never changed by a call, and no reading of the clock is undone. *)
From Verif Require Export PrefixProofs.
Require Import Lia.
Local Open Scope Z_scope.

Definition same_env (s s' : st) : Prop := w_clock (wd s') = w_clock (wd s) /\ w_rand (wd s') = w_rand (wd s) /\ w_send (wd s') = w_send (wd s) /\ w_chk (wd s') = w_chk (wd s) /\ (w_tick (wd s) <= w_tick (wd s'))%nat.
Lemma same_env_refl s : same_env s s. Proof. unfold same_env. auto 6. Qed.
Lemma same_env_trans a b c : same_env a b -> same_env b c -> same_env a c.
Proof. unfold same_env. intros (? & ? & ? & ? & ?) (? & ? & ? & ? & ?). repeat split; try congruence. lia. Qed.
Definition envfix {A} (m : M A) : Prop := forall s, same_env s (snd (m s)).
Lemma envfix_bind {A B} (m : M A) (f : A -> M B) : envfix m -> (forall a, envfix (f a)) -> envfix (bind m f).
Proof. intros H1 H2 s. unfold bind. specialize (H1 s). destruct (m s) as [[a|e] s1]; cbn [snd] in *; [|exact H1]. eapply same_env_trans; [exact H1|apply H2]. Qed.
Lemma envfix_ret {A} (a : A) : envfix (ret a). Proof. intros s. apply same_env_refl. Qed.
Lemma envfix_fail {A} f : envfix (@fail A f). Proof. intros s. apply same_env_refl. Qed.
Lemma envfix_get : envfix get_sk. Proof. intros s. apply same_env_refl. Qed.
Lemma envfix_upd f : envfix (upd_sk f). Proof. intros s. unfold same_env. cbn. auto 8. Qed.
Lemma envfix_now : envfix now_microseconds. Proof. intros s. unfold same_env. cbn. auto 8. Qed.
Lemma envfix_rand : envfix random_u16. Proof. intros s. unfold same_env. cbn. auto 8. Qed.
Lemma envfix_fuel : envfix event_fuel. Proof. intros s. apply same_env_refl. Qed.
Lemma envfix_arith l lo hi wr v : envfix (arith l lo hi wr v).
Proof. intros s. unfold arith. repeat match goal with |- context [if ?b then _ else _] => destruct b end; apply same_env_refl. Qed.
Lemma envfix_try {A} (r : result A kind) : envfix (try_ r). Proof. destruct r; [apply envfix_ret|apply envfix_fail]. Qed.
Lemma envfix_unwrap {A} l (o : option A) : envfix (unwrap l o). Proof. destruct o; [apply envfix_ret|apply envfix_fail]. Qed.
Lemma envfix_send d p : envfix (udp_send d p). Proof. intros s. unfold udp_send, same_env. destruct (w_send _ _); cbn; auto 8. Qed.
Lemma envfix_recv n : envfix (udp_recv n). Proof. intros s. unfold udp_recv, same_env. destruct (w_in (wd s)) as [|[] ?]; cbn; auto 8. Qed.
Lemma envfix_ignore {A} (m : M A) : envfix m -> envfix (ignore_result m).
Proof. intros H s. specialize (H s). unfold ignore_result. destruct (m s) as [[|[]] ?]; exact H. Qed.
Lemma envfix_loop {S A} (b : S -> M (S + A)) : (forall x, envfix (b x)) -> forall f x, envfix (loop f b x).
Proof. intros H. induction f as [|f IH]; intros x; cbn [loop]; [apply envfix_fail|]. apply envfix_bind; [apply H|]. intros [y|a]; [apply IH|apply envfix_ret]. Qed.
Ltac envfix := repeat (cbv beta zeta; match goal with
  | |- envfix (bind _ _) => apply envfix_bind; intros
  | |- envfix (ret _) => apply envfix_ret
  | |- envfix get_sk => apply envfix_get
  | |- envfix (upd_sk _) => apply envfix_upd
  | |- envfix now_microseconds => apply envfix_now
  | |- envfix random_u16 => apply envfix_rand
  | |- envfix event_fuel => apply envfix_fuel
  | |- envfix (loop _ _ _) => apply envfix_loop; intros
  | |- envfix (throw _) => apply envfix_fail
  | |- envfix (throw_se _) => apply envfix_fail
  | |- envfix (fail _) => apply envfix_fail
  | |- envfix (try_ _) => apply envfix_try
  | |- envfix (unwrap _ _) => apply envfix_unwrap
  | |- envfix (ignore_result _) => apply envfix_ignore
  | |- envfix (udp_send _ _) => apply envfix_send
  | |- envfix (udp_recv _) => apply envfix_recv
  | |- envfix (m_get_type _) => apply envfix_unwrap
  | |- envfix (ck_u16 _ _) => apply envfix_arith
  | |- envfix (ck_u32 _ _) => apply envfix_arith
  | |- envfix (ck_u64 _ _) => apply envfix_arith
  | |- envfix (ck_i32 _ _) => apply envfix_arith
  | |- envfix (ck_i64 _ _) => apply envfix_arith
  | |- envfix (if ?b then _ else _) => destruct b
  | |- envfix (match ?x with _ => _ end) => destruct x
  end); auto.
Lemma envfix_reply p t : envfix (prepare_reply p t). Proof. unfold prepare_reply. envfix. Qed.
Lemma envfix_attach p r : envfix (attach_sack p r). Proof. unfold attach_sack, build_selective_ack. envfix. Qed.
Lemma envfix_flush_in n : envfix (flush_incoming_buffer n). Proof. unfold flush_incoming_buffer, advance_incoming_buffer. envfix. Qed.
Lemma envfix_process_ack i : envfix (process_ack i).
Proof. unfold process_ack, update_base_delay, update_current_delay, update_congestion_window, update_congestion_timeout, queuing_delay. envfix. Qed.
Lemma envfix_drop n : envfix (drop_acked n). Proof. induction n as [|n IH]; cbn [drop_acked]; envfix. Qed.
Lemma envfix_advance : envfix advance_send_window. Proof. unfold advance_send_window. envfix. apply envfix_drop. Qed.
Section EnvFix.
  Variable rec : nat -> M (list byte * addr).
  Hypothesis Hrec : forall n, envfix (rec n).
  Lemma envfix_send_packet p : envfix (send_packet rec p). Proof. unfold send_packet. envfix. Qed.
  Lemma envfix_resend l : envfix (resend_lost_packet rec l). Proof. unfold resend_lost_packet. envfix. apply envfix_send_packet. Qed.
  Lemma envfix_gaps a bits q : forall i loss, envfix (resend_gaps rec a i bits q loss).
  Proof. induction bits as [|[] bits IH]; intros; cbn [resend_gaps]; envfix. apply envfix_resend. Qed.
  Lemma envfix_exts a exts : forall loss, envfix (process_extensions rec a exts loss).
  Proof. induction exts as [|e exts IH]; intros; cbn [process_extensions]; envfix; [apply envfix_resend|apply envfix_gaps]. Qed.
  Lemma envfix_note a : envfix (note_ack a). Proof. unfold note_ack. envfix. Qed.
  Lemma envfix_finish a e l : envfix (finish_state_packet rec a e l).
  Proof. unfold finish_state_packet. envfix; [apply envfix_resend|apply envfix_advance..]. Qed.
  Lemma envfix_state p : envfix (handle_state_packet rec p).
  Proof. unfold handle_state_packet. envfix; auto using envfix_note, envfix_process_ack, envfix_exts, envfix_finish. Qed.
  Lemma envfix_dispatch p ty src : envfix (dispatch rec p ty src).
  Proof.
    unfold dispatch. apply envfix_bind; [apply envfix_get|intros k].
    destruct (s_state k), ty; unfold handle_data_packet; envfix; auto using envfix_reply, envfix_attach, envfix_state.
  Qed.
  Lemma envfix_handle p src : envfix (handle_packet rec p src).
  Proof. unfold handle_packet, ack_in_order. envfix; auto using envfix_reply, envfix_dispatch. Qed.
  Lemma envfix_process n b src : envfix (process_datagram rec n b src).
  Proof. unfold process_datagram, insert_into_buffer. envfix; auto using envfix_handle, envfix_flush_in. Qed.
  Lemma envfix_fin : envfix send_fin. Proof. unfold send_fin. envfix. Qed.
  Lemma envfix_timeout : envfix handle_receive_timeout.
  Proof. unfold handle_receive_timeout, send_fast_resend_request, fast_resend_packet. envfix; apply envfix_fin. Qed.
  Lemma envfix_wait : envfix wait_datagram. Proof. unfold wait_datagram. envfix. apply envfix_timeout. Qed.
End EnvFix.
Lemma envfix_recv_fuel f : forall n, envfix (recv_fuel f n).
Proof. induction f as [|f IH]; intros n; cbn [recv_fuel]; [apply envfix_fail|]. unfold recv_body. apply envfix_bind; [apply envfix_wait|]. intros [b src]. apply envfix_process. exact IH. Qed.
Lemma envfix_call n : envfix (recv n). Proof. unfold recv. apply envfix_bind; [apply envfix_fuel|]. intros f. apply envfix_recv_fuel. Qed.
Lemma envfix_recv_from n : envfix (recv_from n). Proof. unfold recv_from. envfix; auto using envfix_flush_in, envfix_call. Qed.
Lemma envfix_flush : envfix flush. Proof. unfold flush. envfix; auto using envfix_call. Qed.
Lemma envfix_close : envfix close. Proof. unfold close. envfix; auto using envfix_call, envfix_flush, envfix_fin. Qed.
Lemma envfix_send_call : envfix send. Proof. unfold send. envfix. apply envfix_send_packet. intros. apply envfix_call. Qed.
Lemma envfix_send_to d : envfix (send_to d). Proof. unfold send_to. envfix. apply envfix_send_call. Qed.
Lemma envfix_run_op o : envfix (run_op o).
Proof. destruct o; cbn [run_op]; unfold peer_addr; envfix; auto using envfix_recv_from, envfix_send_to, envfix_flush, envfix_close. Qed.
Lemma envfix_syn_loop n : forall p, envfix (syn_loop n p).
Proof. induction n as [|n IH]; intros; cbn [syn_loop]; envfix. Qed.
Lemma envfix_connect a b : envfix (connect a b).
Proof. unfold connect, bind_socket, take_address, from_raw_parts. envfix; auto using envfix_syn_loop. apply envfix_handle. intros. apply envfix_call. Qed.
