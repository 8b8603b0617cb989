(** Proofs for C58: what a suspended call has sent does not depend on what is still to come. *)
From Verif Require Export TermProofs.
Require Import Lia.
Local Open Scope Z_scope.

Section Ext.
  Variable more : list rx.
  Notation ext := (ext more).
  Definition grows {A} (m : M A) : Prop := forall s, exists l, w_sent (wd (snd (m s))) = w_sent (wd s) ++ l.
  (** On the longer script [m'] first does what [m] does; it may have sent more in the end. *)
  Definition leads {A} (m m' : M A) : Prop := same more m m' /\ grows m' /\ forall s, exists l, w_sent (wd (snd (m' (ext s)))) = w_sent (wd (snd (m s))) ++ l.

  Lemma grows_bind {A B} (m : M A) (f : A -> M B) : grows m -> (forall a, grows (f a)) -> grows (bind m f).
  Proof.
    intros H1 H2 s. unfold bind. destruct (H1 s) as [l H]. destruct (m s) as [[a|e] s1]; cbn [snd] in *; [|now exists l].
    destruct (H2 a s1) as [l' H']. exists (l ++ l'). now rewrite H', H, app_assoc.
  Qed.
  Lemma leads_bind {A B} (m m' : M A) (f f' : A -> M B) : leads m m' -> (forall a, leads (f a) (f' a)) -> leads (bind m f) (bind m' f').
  Proof.
    intros (H1 & H2 & H3) HF. split; [apply same_bind; [exact H1|apply HF]|]. split; [apply grows_bind; [exact H2|apply HF]|].
    intros s. unfold bind. destruct (m s) as [[a|e] s1] eqn:E.
    - rewrite (H1 _ _ _ E I). apply HF.
    - destruct (H3 s) as [l H]. rewrite E in H. cbn [snd] in *. destruct (m' (ext s)) as [[a|e'] t]; cbn [snd] in *; [|now exists l].
      destruct (HF a) as (_ & G & _). destruct (G t) as [l' H']. exists (l ++ l'). now rewrite H', H, app_assoc.
  Qed.
  (** Programs that neither send nor look at the script. *)
  Lemma leads_quiet {A} (m : M A) : same more m m -> (forall s, w_sent (wd (snd (m s))) = w_sent (wd s)) -> leads m m.
  Proof. intros H1 H2. split; [exact H1|]. split; intros s; exists []; rewrite app_nil_r, ?H2; reflexivity. Qed.
  Lemma leads_ret {A} (a : A) : leads (ret a) (ret a). Proof. apply leads_quiet; [apply same_ret|reflexivity]. Qed.
  Lemma leads_throw {A} k : leads (@throw A k) (throw k). Proof. apply leads_quiet; [apply same_throw|reflexivity]. Qed.
  Lemma leads_panic {A} l : leads (@fail A (Panic l)) (fail (Panic l)). Proof. apply leads_quiet; [apply same_panic|reflexivity]. Qed.
  Lemma leads_nofuel {A} (m : M A) : grows m -> leads (fail NoFuel) m.
  Proof. intros H. split; [apply same_nofuel|]. split; [exact H|]. intros s. destruct (H (ext s)) as [l Hl]. now exists l. Qed.
  Lemma leads_get : leads get_sk get_sk. Proof. apply leads_quiet; [apply same_get|reflexivity]. Qed.
  Lemma leads_upd f : leads (upd_sk f) (upd_sk f). Proof. apply leads_quiet; [apply same_upd|reflexivity]. Qed.
  Lemma leads_now : leads now_microseconds now_microseconds. Proof. apply leads_quiet; [apply same_now|reflexivity]. Qed.
  Lemma leads_rand : leads random_u16 random_u16. Proof. apply leads_quiet; [apply same_rand|reflexivity]. Qed.
  Lemma leads_arith l lo hi wr v : leads (arith l lo hi wr v) (arith l lo hi wr v).
  Proof. apply leads_quiet; [apply same_arith|]. intros s. unfold arith. destruct (_ && _); reflexivity. Qed.
  Lemma leads_try {A} (r : result A kind) : leads (try_ r) (try_ r). Proof. destruct r; [apply leads_ret|apply leads_throw]. Qed.
  Lemma leads_unwrap {A} l (o : option A) : leads (unwrap l o) (unwrap l o). Proof. destruct o; [apply leads_ret|apply leads_panic]. Qed.
  Lemma leads_send d p : leads (udp_send d p) (udp_send d p).
  Proof.
    split; [apply same_send|]. split; intros s; unfold udp_send; cbn [TermProofs.ext wd sw_in w_send w_stick w_sent sk]; destruct (w_send _ _); cbn [snd wd sw_sent sw_stick w_sent sw_in TermProofs.ext].
    1: eexists; reflexivity. all: exists []; now rewrite app_nil_r.
  Qed.
  Lemma leads_recv n : leads (udp_recv n) (udp_recv n).
  Proof.
    assert (Q : forall s, w_sent (wd (snd (udp_recv n s))) = w_sent (wd s)) by (intros s; unfold udp_recv; destruct (w_in (wd s)) as [|[] ?]; reflexivity).
    apply leads_quiet; [apply same_recv|exact Q].
  Qed.
  Lemma leads_ignore {A} (m m' : M A) : leads m m' -> leads (ignore_result m) (ignore_result m').
  Proof.
    assert (Q : forall (n : M A) s, snd (ignore_result n s) = snd (n s)) by (intros n s; unfold ignore_result; destruct (n s) as [[|[]] ?]; reflexivity).
    intros (H1 & H2 & H3). split; [now apply same_ignore|]. split; intros s; rewrite !Q; [apply H2|apply H3].
  Qed.
  Lemma grows_loop {S A} (b : S -> M (S + A)) : (forall x, grows (b x)) -> forall f x, grows (loop f b x).
  Proof.
    intros H. induction f as [|f IH]; intros x; cbn [loop]; [intros s; exists []; now rewrite app_nil_r|]. apply grows_bind; [apply H|].
    intros [y|a]; [apply IH|intros s; exists []; now rewrite app_nil_r].
  Qed.
  Lemma leads_loop {S A} (b b' : S -> M (S + A)) : (forall x, leads (b x) (b' x)) -> forall f f' x, (f <= f')%nat -> leads (loop f b x) (loop f' b' x).
  Proof.
    intros H. induction f as [|f IH]; intros f' x HF; [apply leads_nofuel, grows_loop; intros y; apply H|]. destruct f' as [|f']; [lia|]. cbn [loop]. apply leads_bind; [apply H|].
    intros [y|a]; [apply IH; lia|apply leads_ret].
  Qed.
  Lemma leads_fuel {A} (k k' : nat -> M A) : (forall f f', (f <= f')%nat -> leads (k f) (k' f')) -> leads (bind event_fuel k) (bind event_fuel k').
  Proof.
    intros H. split; [apply same_fuel; intros; now apply H|]. split; intros s; unfold bind, event_fuel.
    - apply (H _ _ (le_n _)).
    - apply H. cbn. rewrite app_length. lia.
  Qed.
  Lemma leads_sloop {S A} (b b' : S -> M (S + A)) x : (forall x, leads (b x) (b' x)) -> leads (fuel <- event_fuel ;; loop fuel b x) (fuel <- event_fuel ;; loop fuel b' x).
  Proof. intros H. apply leads_fuel. intros. now apply leads_loop. Qed.
End Ext.
Ltac leads := repeat (cbv beta zeta; match goal with
  | |- leads _ (bind event_fuel _) _ => apply leads_sloop; intros
  | |- leads _ (bind _ _) _ => apply leads_bind; intros
  | |- leads _ (ret _) _ => apply leads_ret
  | |- leads _ get_sk _ => apply leads_get
  | |- leads _ (upd_sk _) _ => apply leads_upd
  | |- leads _ now_microseconds _ => apply leads_now
  | |- leads _ random_u16 _ => apply leads_rand
  | |- leads _ (throw _) _ => apply leads_throw
  | |- leads _ (throw_se _) _ => apply leads_throw
  | |- leads _ (fail (Panic _)) _ => apply leads_panic
  | |- leads _ (try_ _) _ => apply leads_try
  | |- leads _ (unwrap _ _) _ => apply leads_unwrap
  | |- leads _ (ignore_result _) _ => apply leads_ignore
  | |- leads _ (udp_send _ _) _ => apply leads_send
  | |- leads _ (udp_recv _) _ => apply leads_recv
  | |- leads _ (m_get_type _) _ => apply leads_unwrap
  | |- leads _ (ck_u16 _ _) _ => apply leads_arith
  | |- leads _ (ck_u32 _ _) _ => apply leads_arith
  | |- leads _ (ck_u64 _ _) _ => apply leads_arith
  | |- leads _ (ck_i32 _ _) _ => apply leads_arith
  | |- leads _ (ck_i64 _ _) _ => apply leads_arith
  | |- leads _ (if ?b then _ else _) _ => destruct b
  | |- leads _ (match ?x with _ => _ end) _ => destruct x
  end); auto.
Section Leads.
  Variable more : list rx.
  Notation leads := (leads more).
  Lemma leads_reply p t : leads (prepare_reply p t) (prepare_reply p t). Proof. unfold prepare_reply. leads. Qed.
  Lemma leads_attach p r : leads (attach_sack p r) (attach_sack p r). Proof. unfold attach_sack, build_selective_ack. leads. Qed.
  Lemma leads_flush_in n : leads (flush_incoming_buffer n) (flush_incoming_buffer n). Proof. unfold flush_incoming_buffer, advance_incoming_buffer. leads. Qed.
  Lemma leads_process_ack i : leads (process_ack i) (process_ack i).
  Proof. unfold process_ack, update_base_delay, update_current_delay, update_congestion_window, update_congestion_timeout, queuing_delay. leads. Qed.
  Lemma leads_drop n : leads (drop_acked n) (drop_acked n). Proof. induction n as [|n IH]; cbn [drop_acked]; leads. Qed.
  Lemma leads_advance : leads advance_send_window advance_send_window. Proof. unfold advance_send_window. leads. apply leads_drop. Qed.
  Variables rec rec' : nat -> M (list byte * addr).
  Hypothesis Hrec : forall n, leads (rec n) (rec' n).
  Lemma leads_send_packet p : leads (send_packet rec p) (send_packet rec' p).
  Proof.
    change (leads (k <- get_sk ;; t <- now_microseconds ;; gate rec (limit k) t ;;; transmit p) (k <- get_sk ;; t <- now_microseconds ;; gate rec' (limit k) t ;;; transmit p)).
    apply leads_bind; [apply leads_get|intros k]. apply leads_bind; [apply leads_now|intros t]. apply leads_bind; [|intros; unfold transmit; leads]. unfold gate, gate_body. leads.
  Qed.
  Lemma leads_resend l : leads (resend_lost_packet rec l) (resend_lost_packet rec' l). Proof. unfold resend_lost_packet. leads. apply leads_send_packet. Qed.
  Lemma leads_gaps a bits q : forall i loss, leads (resend_gaps rec a i bits q loss) (resend_gaps rec' a i bits q loss).
  Proof. induction bits as [|[] bits IH]; intros; cbn [resend_gaps]; leads. apply leads_resend. Qed.
  Lemma leads_exts a exts : forall loss, leads (process_extensions rec a exts loss) (process_extensions rec' a exts loss).
  Proof. induction exts as [|e exts IH]; intros; cbn [process_extensions]; leads; [apply leads_resend|apply leads_gaps]. Qed.
  Lemma leads_note a : leads (note_ack a) (note_ack a). Proof. unfold note_ack. leads. Qed.
  Lemma leads_finish a e l : leads (finish_state_packet rec a e l) (finish_state_packet rec' a e l).
  Proof. unfold finish_state_packet. leads; [apply leads_resend|apply leads_advance..]. Qed.
  Lemma leads_state p : leads (handle_state_packet rec p) (handle_state_packet rec' p).
  Proof. unfold handle_state_packet. leads; auto using leads_note, leads_process_ack, leads_exts, leads_finish. Qed.
  Lemma leads_dispatch p ty src : leads (dispatch rec p ty src) (dispatch rec' p ty src).
  Proof.
    unfold dispatch. apply leads_bind; [apply leads_get|intros k].
    destruct (s_state k), ty; unfold handle_data_packet; leads; auto using leads_reply, leads_attach, leads_state.
  Qed.
  Lemma leads_handle p src : leads (handle_packet rec p src) (handle_packet rec' p src).
  Proof. unfold handle_packet, ack_in_order. leads; auto using leads_reply, leads_dispatch. Qed.
  Lemma leads_process n b src : leads (process_datagram rec n b src) (process_datagram rec' n b src).
  Proof. unfold process_datagram, insert_into_buffer. leads; auto using leads_handle, leads_flush_in. Qed.
  Lemma leads_fin : leads send_fin send_fin. Proof. unfold send_fin. leads. Qed.
  Lemma leads_timeout : leads handle_receive_timeout handle_receive_timeout.
  Proof. unfold handle_receive_timeout, send_fast_resend_request, fast_resend_packet. leads; apply leads_fin. Qed.
  Lemma leads_wait : leads wait_datagram wait_datagram.
  Proof. unfold wait_datagram. leads. apply leads_timeout. Qed.
End Leads.
Lemma leads_recv_fuel more f : forall f' n, (f <= f')%nat -> leads more (recv_fuel f n) (recv_fuel f' n).
Proof.
  assert (G : forall g n, grows (recv_fuel g n)).
  { assert (R : forall g n, leads more (recv_fuel g n) (recv_fuel g n)).
    { induction g as [|g IH]; intros n; cbn [recv_fuel]; [apply leads_nofuel; intros s; exists []; now rewrite app_nil_r|]. unfold recv_body. apply leads_bind; [apply leads_wait|]. intros [b src]. apply leads_process. exact IH. }
    intros g n. apply (R g n). }
  induction f as [|f IH]; intros f' n HF; [apply leads_nofuel, G|]. destruct f' as [|f']; [lia|]. cbn [recv_fuel]. unfold recv_body.
  apply leads_bind; [apply leads_wait|]. intros [b src]. apply leads_process. intros m. apply IH. lia.
Qed.
Lemma leads_call more n : leads more (recv n) (recv n).
Proof. unfold recv. apply leads_fuel. intros. now apply leads_recv_fuel. Qed.
Lemma leads_recv_from more n : leads more (recv_from n) (recv_from n).
Proof. unfold recv_from. leads; auto using leads_flush_in, leads_call. Qed.
Lemma leads_flush more : leads more flush flush.
Proof. unfold flush. leads; auto using leads_call. Qed.
Lemma leads_close more : leads more close close.
Proof. unfold close. leads; auto using leads_call, leads_flush, leads_fin. Qed.
Lemma leads_send_call more : leads more send send.
Proof.
  unfold send. leads. apply leads_loop; [|lia]. intros _. leads. apply leads_send_packet. intros. apply leads_call.
Qed.
Lemma leads_run_op more o : leads more (run_op o) (run_op o).
Proof. destruct o; cbn [run_op]; unfold send_to, peer_addr; leads; auto using leads_recv_from, leads_send_call, leads_flush, leads_close. Qed.
Lemma leads_syn_loop more n : forall p, leads more (syn_loop n p) (syn_loop n p).
Proof. induction n as [|n IH]; intros; cbn [syn_loop]; leads. Qed.
Lemma leads_connect more a b : leads more (connect a b) (connect a b).
Proof. unfold connect, bind_socket, take_address, from_raw_parts. leads; auto using leads_syn_loop. apply leads_handle. intros. apply leads_call. Qed.
