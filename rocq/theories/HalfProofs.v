(** A socket that the peer's FIN closed while packets were in flight: nothing takes them out of the window any more (C115). *)
From Verif Require Export LostProofs.
Require Import ZifyBool ZifyNat ZifyN.
Local Open Scope Z_scope.

Section Half.
  Variable W : nat.
  Definition left_over (s : st) : Prop := length (s_send_window (sk s)) = W.
  Definition HC (s : st) : Prop := s_state (sk s) = Closed /\ left_over s.
  Definition hp {A} (m : M A) : Prop := forall s, HC s -> wp m (fun o s' => match o with Ret _ => HC s' | Fail _ => left_over s' end) s.
  Lemma hp_bind {A B} (m : M A) (f : A -> M B) : hp m -> (forall a, hp (f a)) -> hp (bind m f).
  Proof. intros H1 H2 s HS. apply wp_bind. eapply wp_conseq; [apply H1; exact HS|]. intros [a|e] t; cbv beta iota; auto. intros HT. now apply H2. Qed.
  Lemma hp_get {B} (f : socket -> M B) : (forall k, s_state k = Closed -> length (s_send_window k) = W -> hp (f k)) -> hp (s <- get_sk ;; f s).
  Proof. intros H s HS. do 2 wstep. apply H; [apply HS|apply HS|exact HS]. Qed.
  Lemma hp_ret {A} (a : A) : hp (ret a). Proof. intros s HS. wstep. exact HS. Qed.
  Lemma hp_fail {A} f : hp (@fail A f). Proof. intros s HS. wstep. apply HS. Qed.
  Lemma hp_throw {A} k : hp (@throw A k). Proof. intros s HS. wstep. apply HS. Qed.
  Lemma hp_event : hp event_fuel. Proof. intros s HS. wstep. exact HS. Qed.
  Lemma hp_now : hp now_microseconds. Proof. intros s HS. wstep. exact HS. Qed.
  Lemma hp_upd f : (forall k, s_state k = Closed -> length (s_send_window k) = W -> s_state (f k) = Closed /\ length (s_send_window (f k)) = W) -> hp (upd_sk f).
  Proof. intros H s [H1 H2]. wstep. exact (H (sk s) H1 H2). Qed.
  Lemma hp_arith l lo hi wr v : hp (arith l lo hi wr v). Proof. intros s HS. apply wp_arith; intros; cbv beta iota; [apply HS|exact HS]. Qed.
  Lemma hp_try {A} (r : result A kind) : hp (try_ r). Proof. destruct r; [apply hp_ret|apply hp_throw]. Qed.
  Lemma hp_unwrap {A} l (o : option A) : hp (unwrap l o). Proof. destruct o; [apply hp_ret|apply hp_fail]. Qed.
  Lemma hp_send d p : hp (udp_send d p).
  Proof.
    intros s HS. assert (HS' : HC (tx_state d p s)) by (unfold HC, left_over, tx_state in *; destruct (tx_ok s); sproj; exact HS).
    apply wp_udp_send; intros; cbv beta iota; auto; apply HS'.
  Qed.
  Ltac hsame := intros; split; assumption.
  Ltac hp := repeat (cbv beta zeta; match goal with
    | |- hp (bind get_sk _) => apply hp_get; intros
    | |- hp (bind _ _) => apply hp_bind; [|intros]
    | |- hp (ret _) => apply hp_ret
    | |- hp (fail _) => apply hp_fail
    | |- hp event_fuel => apply hp_event
    | |- hp (upd_sk _) => apply hp_upd; try solve [hsame]
    | |- hp now_microseconds => apply hp_now
    | |- hp (throw _) => apply hp_throw
    | |- hp (throw_se _) => apply hp_throw
    | |- hp (try_ _) => apply hp_try
    | |- hp (unwrap _ _) => apply hp_unwrap
    | |- hp (m_get_type _) => apply hp_unwrap
    | |- hp (udp_send _ _) => apply hp_send
    | |- hp (ck_u16 _ _) => apply hp_arith
    | |- hp (ck_u64 _ _) => apply hp_arith
    | |- hp (if ?b then _ else _) => destruct b eqn:?
    | |- hp (match ?x with _ => _ end) => destruct x eqn:?
    end); auto.
  Lemma hp_reply p t : hp (prepare_reply p t). Proof. unfold prepare_reply. hp. Qed.
  Lemma hp_flush_in n : hp (flush_incoming_buffer n).
  Proof. unfold flush_incoming_buffer, advance_incoming_buffer. hp; intros k' Hk' Hw'; unfold advance_socket; destruct (s_incoming_buffer k'); split; auto. Qed.
  Lemma hp_insert p : hp (insert_into_buffer p).
  Proof. unfold insert_into_buffer. hp. Qed.
  Lemma hp_timeout : hp handle_receive_timeout.
  Proof.
    unfold handle_receive_timeout. hp; try (unfold send_fin, send_fast_resend_request, fast_resend_packet; hp).
  Qed.
  Lemma hp_wait : hp wait_datagram.
  Proof.
    unfold wait_datagram. apply hp_bind; [hp|]. intros f. generalize 0. induction f as [|f IH]; intros r; cbn [loop]; [apply hp_fail|].
    apply hp_bind; [|intros [r'|x]; [apply IH|apply hp_ret]]. apply hp_get. intros k HK HW. destruct (_ <=? _); [hp|]. apply hp_bind.
    - intros s HS. apply wp_udp_recv; intros; cbv beta iota; try exact HS; apply HS.
    - intros [x|e]; hp. apply hp_timeout.
  Qed.
  Section Rec.
    Variable rec : nat -> M (list byte * addr).
    Lemma hp_dispatch p ty src : hp (dispatch rec p ty src).
    Proof.
      unfold dispatch. apply hp_get. intros k HK HW. rewrite HK. destruct ty; try solve [hp; apply hp_reply].
      intros s [_ HS]. do 3 wstep. exact HS.
    Qed.
    Lemma hp_handle p src : hp (handle_packet rec p src).
    Proof. unfold handle_packet, ack_in_order. hp; [intros k HK HW; destruct (_ =? _); auto|apply hp_reply|apply hp_dispatch]. Qed.
    Lemma hp_recv_body n : hp (recv_body rec n).
    Proof. unfold recv_body, process_datagram. apply hp_bind; [apply hp_wait|]. intros [b src]. hp; try apply hp_handle; try apply hp_insert; apply hp_flush_in. Qed.
  End Rec.
  Lemma hp_recv n : hp (recv n).
  Proof. unfold recv. apply hp_bind; [hp|]. intros f. destruct f; [apply hp_fail|]. apply hp_recv_body. Qed.
End Half.
(** So a flush cannot succeed, whatever arrives. *)
Lemma closed_flush_fails s : s_state (sk s) = Closed -> s_send_window (sk s) <> [] ->
  exists e s', flush s = (Fail e, s') /\ length (s_send_window (sk s')) = length (s_send_window (sk s)).
Proof.
  intros HS HW. set (W := length (s_send_window (sk s))). assert (HN : W <> O) by (unfold W; destruct (s_send_window (sk s)); [congruence|discriminate]).
  assert (H : wp flush (fun o s' => match o with Ret _ => False | Fail _ => left_over W s' end) s).
  { unfold flush. do 2 wstep. apply (wp_loop (fun _ t => HC W t)); [split; [exact HS|reflexivity]|intros y t H; apply H|]. intros y t HT. do 2 wstep.
    destruct (s_send_window (sk t)) eqn:E; [exfalso; destruct HT as [_ HT]; unfold left_over in HT; rewrite E in HT; cbn in HT; congruence|]. cbn [is_nil]. wstep.
    eapply wp_conseq; [apply hp_recv; exact HT|]. intros [a|e] t'; cbv beta iota; auto. }
  unfold wp in H. destruct (flush s) as [[a|e] s']; cbn in H; [contradiction|]. exists e, s'. auto.
Qed.
