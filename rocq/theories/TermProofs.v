(** Termination: no call runs out of fuel (C57), and results do not depend on the fuel or on events that
    follow (C58). *)
From Verif Require Export ConnProofs.
Require Import ZifyBool ZifyNat ZifyN.
Local Open Scope Z_scope.

Definition events (s : st) : nat := length (w_in (wd s)).
(** The call is cancelled by the script at some point. *)
Definition interrupted (s : st) : Prop := In RxCancel (w_in (wd s)) \/ exists i, w_send (wd s) i = SendDrop.
Record later (s s' : st) : Prop := mkLater {
  l_in : exists used, w_in (wd s) = used ++ w_in (wd s');
  l_send : w_send (wd s') = w_send (wd s);
  l_unsent : s_unsent_queue (sk s') = s_unsent_queue (sk s) }.
Lemma later_refl s : later s s. Proof. constructor; auto. now exists []. Qed.
Lemma later_same s s' : w_in (wd s') = w_in (wd s) -> w_send (wd s') = w_send (wd s) -> s_unsent_queue (sk s') = s_unsent_queue (sk s) -> later s s'.
Proof. intros H1 H2 H3. constructor; auto. now exists []. Qed.
Lemma later_trans s1 s2 s3 : later s1 s2 -> later s2 s3 -> later s1 s3.
Proof.
  intros [[u1 H1] H2 H3] [[u2 H4] H5 H6]. constructor; [|congruence..]. exists (u1 ++ u2). rewrite <- app_assoc. congruence.
Qed.
Lemma later_events s s' : later s s' -> (events s' <= events s)%nat.
Proof. intros [[u H] _ _]. unfold events. rewrite H, app_length. lia. Qed.
Lemma later_interrupted s s' : later s s' -> interrupted s' -> interrupted s.
Proof. intros [[u H] H2 _] [HI|[i HI]]; [left; rewrite H; apply in_or_app; now right|right; exists i; congruence]. Qed.

Definition fine {A} (s : st) (o : outcome A) (s' : st) : Prop :=
  later s s' /\ match o with Fail NoFuel => False | Fail Pend => w_in (wd s') = [] \/ interrupted s | _ => True end.
(** [calm N m]: with at most [N] events left, [m] does not run out of fuel. *)
Definition calm {A} (N : nat) (m : M A) : Prop := forall s, (events s <= N)%nat -> wp m (fine s) s.
(** ... and consumes an event when it returns. *)
Definition eats {A} (N : nat) (m : M A) : Prop := forall s, (events s <= N)%nat ->
  wp m (fun o s' => fine s o s' /\ match o with Ret _ => (events s' < events s)%nat | _ => True end) s.
(** A loop body that consumes an event whenever the loop goes on. *)
Definition paced {A B} (N : nat) (m : M (A + B)) : Prop := forall s, (events s <= N)%nat ->
  wp m (fun o s' => fine s o s' /\ match o with Ret (inl _) => (events s' < events s)%nat | _ => True end) s.

Lemma fine_later {A} s t (o : outcome A) s' : later s t -> fine t o s' -> fine s o s'.
Proof.
  intros H [H1 H2]. split; [eapply later_trans; eauto|]. destruct o as [a|[]]; auto. destruct H2 as [H2|H2]; [now left|right; eapply later_interrupted; eauto].
Qed.
Lemma fine_fail {A B} s e s' : fine s (@Fail A e) s' -> fine s (@Fail B e) s'.
Proof. intros [H1 H2]. split; assumption. Qed.
Lemma eats_calm {A} N (m : M A) : eats N m -> calm N m.
Proof. intros H s HN. eapply wp_conseq; [apply H, HN|]. intros o s' [H1 _]. exact H1. Qed.
Lemma calm_le {A} N N' (m : M A) : calm N m -> (N' <= N)%nat -> calm N' m.
Proof. intros H HL s HN. apply H. lia. Qed.

Section Rules.
  Context {A B : Type} (N : nat).
  Lemma calm_ret (a : A) : calm N (ret a).
  Proof. intros s _. wstep. split; [apply later_refl|exact I]. Qed.
  Lemma calm_bind (m : M A) (f : A -> M B) : calm N m -> (forall a, calm N (f a)) -> calm N (bind m f).
  Proof.
    intros H1 H2 s HN. apply wp_bind. eapply wp_conseq; [apply H1, HN|]. intros [a|e] s' H; [|eapply fine_fail; eauto].
    destruct H as [HL _]. eapply wp_conseq; [apply H2; pose proof (later_events _ _ HL); lia|]. intros o s'' H. eapply fine_later; eauto.
  Qed.
  Lemma eats_bind (m : M A) (f : A -> M B) : eats (S N) m -> (forall a, calm N (f a)) -> eats (S N) (bind m f).
  Proof.
    intros H1 H2 s HN. apply wp_bind. eapply wp_conseq; [apply H1, HN|]. intros [a|e] s' [H HE]; [|split; [eapply fine_fail; eauto|exact I]].
    destruct H as [HL _]. eapply wp_conseq; [apply H2; lia|]. intros o s'' H. split; [eapply fine_later; eauto|]. destruct o; [|exact I].
    destruct H as [H _]. apply later_events in H. lia.
  Qed.
  Lemma calm_fail k : calm N (@throw A k).
  Proof. intros s _. wstep. split; [apply later_refl|exact I]. Qed.
  Lemma calm_panic l : calm N (@fail A (Panic l)).
  Proof. intros s _. wstep. split; [apply later_refl|exact I]. Qed.
  Lemma calm_try (r : result A kind) : calm N (try_ r).
  Proof. destruct r; [apply calm_ret|apply calm_fail]. Qed.
  Lemma calm_unwrap l (o : option A) : calm N (unwrap l o).
  Proof. destruct o; [apply calm_ret|apply calm_panic]. Qed.
  Lemma calm_ignore (m : M A) : calm N m -> calm N (ignore_result m).
  Proof.
    intros H s HN. pose proof (H s HN) as HW. unfold wp, ignore_result in *. destruct (m s) as [[a|[k|l| |]] s']; cbn in *; destruct HW as [H1 H2]; split; auto.
  Qed.
End Rules.
Section Prims.
  Context (N : nat).
  Lemma calm_get : calm N get_sk. Proof. intros s _. wstep. split; [apply later_refl|exact I]. Qed.
  Lemma calm_upd f : (forall k, s_unsent_queue (f k) = s_unsent_queue k) -> calm N (upd_sk f).
  Proof. intros H s _. wstep. split; [|exact I]. apply later_same; cbn; auto. Qed.
  Lemma calm_now : calm N now_microseconds. Proof. intros s _. wstep. split; [|exact I]. apply later_same; cbn; auto. Qed.
  Lemma calm_rand : calm N random_u16. Proof. intros s _. apply wp_rand. intros v _. split; [|exact I]. now apply later_same. Qed.
  Lemma calm_arith l lo hi wr v : calm N (arith l lo hi wr v).
  Proof. intros s _. apply wp_arith; intros; (split; [apply later_refl|exact I]). Qed.
  Lemma calm_send d p : calm N (udp_send d p).
  Proof.
    intros s _. assert (HL : later s (tx_state d p s)) by (unfold tx_state; apply later_same; cbn; destruct (tx_ok s); reflexivity).
    unfold wp. unfold udp_send, tx_state, tx_ok in *. destruct (w_send (wd s) (w_stick (wd s))) eqn:E; split; auto; try exact I. cbn. right. right. eauto.
  Qed.
  Lemma eats_recv n : eats N (udp_recv n).
  Proof.
    intros s _. apply wp_udp_recv.
    - intros E. split; [|exact I]. split; [apply later_refl|now left].
    - intros d src rest E. assert (HL : later s (rx_state s)) by (constructor; auto; unfold rx_state; cbn; rewrite E; now exists [RxDgram d src]).
      split; [split; [exact HL|exact I]|]. unfold events, rx_state. cbn. rewrite E. cbn. lia.
    - intros k rest E. assert (HL : later s (rx_state s)) by (constructor; auto; unfold rx_state; cbn; rewrite E; now exists [RxErr k]).
      split; [split; [exact HL|exact I]|]. unfold events, rx_state. cbn. rewrite E. cbn. lia.
    - intros rest E. assert (HL : later s (rx_state s)) by (constructor; auto; unfold rx_state; cbn; rewrite E; now exists [RxCancel]).
      split; [|exact I]. split; [exact HL|]. right. left. rewrite E. now left.
  Qed.
End Prims.
Lemma loop_fine {S A} N (body : S -> M (S + A)) : (forall x, paced N (body x)) -> forall f x s, (events s < f)%nat -> (events s <= N)%nat -> wp (loop f body x) (fine s) s.
Proof.
  intros HB. induction f as [|f IH]; intros x s HF HN; [lia|]. cbn [loop]. apply wp_bind. eapply wp_conseq; [apply HB, HN|].
  intros [[y|a]|e] s' [H HE].
  - destruct H as [HL _]. eapply wp_conseq; [apply IH; lia|]. intros o s'' H. eapply fine_later; eauto.
  - wstep. destruct H as [HL _]. split; [exact HL|exact I].
  - eapply fine_fail; eauto.
Qed.
Lemma calm_loop {S A} N (body : S -> M (S + A)) x : (forall x, paced N (body x)) -> calm N (fuel <- event_fuel ;; loop fuel body x).
Proof. intros HB s HN. do 2 wstep. apply (loop_fine N); auto. Qed.
(** A body that consumes an event whatever it returns. *)
Lemma eats_loop {S A} N (body : S -> M (S + A)) x : (forall x, eats N (body x)) -> eats N (fuel <- event_fuel ;; loop fuel body x).
Proof.
  intros HB s HN. do 2 wstep.
  assert (HG : forall f x s, (events s < f)%nat -> (events s <= N)%nat -> wp (loop f body x) (fun o s' => fine s o s' /\ match o with Ret _ => (events s' < events s)%nat | _ => True end) s).
  { clear - HB. induction f as [|f IH]; intros x s HF HN; [lia|]. cbn [loop]. apply wp_bind. eapply wp_conseq; [apply HB, HN|].
    intros [[y|a]|e] s' [H HE].
    - destruct H as [HL _]. eapply wp_conseq; [apply IH; lia|]. intros o s'' [H HE']. split; [eapply fine_later; eauto|]. destruct o; [lia|exact I].
    - wstep. destruct H as [HL _]. split; [split; [exact HL|exact I]|exact HE].
    - split; [eapply fine_fail; eauto|exact I]. }
  apply HG; auto.
Qed.
Ltac calm := repeat (cbv beta zeta; match goal with
  | |- calm _ (bind event_fuel _) => fail 1
  | |- calm _ (bind _ _) => apply calm_bind; intros
  | |- calm _ (ret _) => apply calm_ret
  | |- calm _ get_sk => apply calm_get
  | |- calm _ (upd_sk _) => apply calm_upd; intros; try reflexivity
  | |- calm _ now_microseconds => apply calm_now
  | |- calm _ random_u16 => apply calm_rand
  | |- calm _ (throw _) => apply calm_fail
  | |- calm _ (throw_se _) => apply calm_fail
  | |- calm _ (fail (Panic _)) => apply calm_panic
  | |- calm _ (try_ _) => apply calm_try
  | |- calm _ (unwrap _ _) => apply calm_unwrap
  | |- calm _ (ignore_result _) => apply calm_ignore
  | |- calm _ (udp_send _ _) => apply calm_send
  | |- calm _ (m_get_type _) => apply calm_unwrap
  | |- calm _ (ck_u16 _ _) => apply calm_arith
  | |- calm _ (ck_u32 _ _) => apply calm_arith
  | |- calm _ (ck_u64 _ _) => apply calm_arith
  | |- calm _ (ck_i32 _ _) => apply calm_arith
  | |- calm _ (ck_i64 _ _) => apply calm_arith
  | |- calm _ (if ?b then _ else _) => destruct b
  | |- calm _ (match ?x with _ => _ end) => destruct x
  end); auto.

Section Calm.
  Variable N : nat.
  Lemma calm_reply p t : calm N (prepare_reply p t). Proof. unfold prepare_reply. calm. Qed.
  Lemma calm_attach p r : calm N (attach_sack p r). Proof. unfold attach_sack, build_selective_ack. calm. Qed.
  Lemma calm_flush_in n : calm N (flush_incoming_buffer n).
  Proof. unfold flush_incoming_buffer, advance_incoming_buffer. calm; unfold advance_socket; destruct (s_incoming_buffer _); reflexivity. Qed.
  Lemma calm_process_ack i : calm N (process_ack i).
  Proof.
    unfold process_ack, update_base_delay, update_current_delay, update_congestion_window, update_congestion_timeout, queuing_delay. calm.
    unfold base_delay_socket. repeat match goal with |- context [if ?b then _ else _] => destruct b end; reflexivity.
  Qed.
  Lemma calm_drop n : calm N (drop_acked n).
  Proof. induction n as [|n IH]; cbn [drop_acked]; calm. Qed.
  Lemma calm_advance : calm N advance_send_window. Proof. unfold advance_send_window. calm. apply calm_drop. Qed.
  Variable rec : nat -> M (list byte * addr).
  Hypothesis Hrec : forall n, eats N (rec n).
  Lemma paced_gate m t0 x : paced N (gate_body rec m t0 x).
  Proof.
    intros s HN. unfold gate_body. do 2 wstep. destruct (_ <=? _).
    2:{ wstep. split; [split; [apply later_refl|exact I]|exact I]. }
    do 2 wstep. assert (HT : later s (ticked s)) by now apply later_same. destruct (_ <? _).
    2:{ wstep. split; [split; [exact HT|exact I]|exact I]. }
    apply wp_bind. eapply wp_conseq; [apply Hrec; exact HN|]. intros [a|e] s' [H HE].
    - wstep. split; [split; [|exact I]|exact HE]. destruct H as [H _]. eapply later_trans; eauto.
    - split; [|exact I]. eapply fine_fail, fine_later; eauto.
  Qed.
  Lemma calm_send_packet p : calm N (send_packet rec p).
  Proof.
    intros s HN. unfold wp. rewrite send_packet_split.
    assert (HT : later s (ticked s)) by now apply later_same.
    assert (HC : calm N (gate rec (limit (sk s)) (clock_now s) ;;; transmit p)).
    { apply calm_bind; [apply calm_loop; intros; apply paced_gate|intros _]. unfold transmit. calm. }
    eapply fine_later; [exact HT|]. apply (HC (ticked s) HN).
  Qed.

  Lemma calm_resend l : calm N (resend_lost_packet rec l). Proof. unfold resend_lost_packet. calm. apply calm_send_packet. Qed.
  Lemma calm_gaps a bits q : forall i loss, calm N (resend_gaps rec a i bits q loss).
  Proof. induction bits as [|[] bits IH]; intros; cbn [resend_gaps]; calm. apply calm_resend. Qed.
  Lemma calm_exts a exts : forall loss, calm N (process_extensions rec a exts loss).
  Proof. induction exts as [|e exts IH]; intros; cbn [process_extensions]; calm; [apply calm_resend|apply calm_gaps]. Qed.
  Lemma calm_note a : calm N (note_ack a). Proof. unfold note_ack. calm. Qed.
  Lemma calm_finish a e l : calm N (finish_state_packet rec a e l). Proof. unfold finish_state_packet. calm; [apply calm_resend|apply calm_advance..]. Qed.
  Lemma calm_state p : calm N (handle_state_packet rec p).
  Proof. unfold handle_state_packet. calm; auto using calm_note, calm_process_ack, calm_exts, calm_finish. Qed.
  Lemma calm_dispatch p ty src : calm N (dispatch rec p ty src).
  Proof.
    unfold dispatch. apply calm_bind; [apply calm_get|intros k].
    destruct (s_state k), ty; unfold handle_data_packet; calm; auto using calm_reply, calm_attach, calm_state.
  Qed.
  Lemma calm_handle p src : calm N (handle_packet rec p src).
  Proof. unfold handle_packet, ack_in_order. calm; auto using calm_reply, calm_dispatch. destruct (_ =? 1); reflexivity. Qed.
  Lemma calm_process n b src : calm N (process_datagram rec n b src).
  Proof. unfold process_datagram, insert_into_buffer. calm; auto using calm_handle, calm_flush_in. Qed.
  Lemma calm_fin : calm N send_fin. Proof. unfold send_fin. calm. Qed.
  Lemma calm_timeout : calm N handle_receive_timeout.
  Proof. unfold handle_receive_timeout, send_fast_resend_request, fast_resend_packet. calm; apply calm_fin. Qed.
End Calm.

Lemma eats_wait N : eats N wait_datagram.
Proof.
  apply eats_loop. intros retries s HN. do 2 wstep. destruct (_ <=? _).
  - do 3 wstep. split; [split; [now apply later_same|exact I]|exact I].
  - apply wp_bind. eapply wp_conseq; [apply (eats_recv N); exact HN|]. intros [[x|k]|e] s' [H HE].
    + wstep. split; [split; [apply H|exact I]|exact HE].
    + destruct (is_timeout k).
      * apply wp_bind. destruct H as [HL _]. eapply wp_conseq; [apply (calm_timeout N); lia|]. intros [[]|e] s'' [H H2].
        -- wstep. apply later_trans with (1 := HL) in H as H3. apply later_events in H. split; [split; [exact H3|exact I]|lia].
        -- split; [|exact I]. eapply fine_later; [exact HL|]. split; assumption.
      * wstep. split; [split; [apply H|exact I]|exact I].
    + split; [|exact I]. exact H.
Qed.
Lemma eats_fuel f : forall N n, (N < f)%nat -> eats N (recv_fuel f n).
Proof.
  induction f as [|f IH]; intros N n HN; [lia|]. cbn [recv_fuel]. destruct N as [|N].
  - intros s HS. unfold recv_body. apply wp_bind. eapply wp_conseq; [apply (eats_wait 0); exact HS|]. intros [a|e] s' [H HE]; [lia|]. split; [eapply fine_fail; eauto|exact I].
  - unfold recv_body. apply eats_bind; [apply eats_wait|]. intros [b src]. apply calm_process. intros m. apply IH. lia.
Qed.
Lemma eats_call N n : eats N (recv n).
Proof. intros s _. unfold recv. do 2 wstep. apply (eats_fuel _ (events s)); unfold events; lia. Qed.
(** Public calls *)
Lemma calm_recv_from N n : calm N (recv_from n).
Proof.
  unfold recv_from. apply calm_bind; [apply calm_flush_in|intros d]. apply calm_bind; [apply calm_get|intros k]. calm. apply calm_loop. intros _ s HN. do 2 wstep.
  destruct (sstate_eqb _ _); [wstep; split; [split; [apply later_refl|exact I]|exact I]|]. apply wp_bind. eapply wp_conseq; [apply (eats_call N); exact HN|].
  intros [x|e] s' [H HE]; [|split; [eapply fine_fail; eauto|exact I]]. destruct H as [H _]. destruct (is_nil _); wstep; (split; [split; [exact H|exact I]|]); [exact HE|exact I].
Qed.
Lemma calm_recv_loop N (f : socket -> bool) : calm N (fuel <- event_fuel ;; loop fuel (fun _ : unit => s <- get_sk ;; if f s then ret (inr tt) else recv BUF_SIZE ;;; ret (inl tt)) tt).
Proof.
  apply calm_loop. intros _ s HN. do 2 wstep. destruct (f _); [wstep; split; [split; [apply later_refl|exact I]|exact I]|].
  apply wp_bind. eapply wp_conseq; [apply (eats_call N); exact HN|]. intros [x|e] s' [H HE]; [|split; [eapply fine_fail; eauto|exact I]].
  destruct H as [H _]. wstep. split; [split; [exact H|exact I]|exact HE].
Qed.
Lemma calm_flush N : calm N flush. Proof. apply (calm_recv_loop N (fun s => is_nil (s_send_window s))). Qed.
Lemma calm_close N : calm N close.
Proof.
  unfold close. apply calm_bind; [apply calm_get|intros k]. destruct (s_state k); calm;
  try apply calm_flush; try apply calm_fin; apply (calm_recv_loop N (fun s => sstate_eqb (s_state s) Closed)).
Qed.
(** [send] empties the queue instead of leaving it alone. *)
Definition ended {A} (s : st) (o : outcome A) (s' : st) : Prop :=
  (exists used, w_in (wd s) = used ++ w_in (wd s')) /\ w_send (wd s') = w_send (wd s) /\
  match o with Fail NoFuel => False | Fail Pend => w_in (wd s') = [] \/ interrupted s | _ => True end.
Lemma fine_ended {A} s (o : outcome A) s' : fine s o s' -> ended s o s'.
Proof. intros [[H1 H2 _] H3]. split; [exact H1|]. split; [exact H2|exact H3]. Qed.
Lemma ended_after {A B} s t s' (a : B) (o : outcome A) : ended s (Ret a) t -> ended t o s' -> ended s o s'.
Proof.
  intros [[u1 H1] [H2 _]] [[u2 H3] [H4 H5]]. split; [exists (u1 ++ u2); rewrite <- app_assoc; congruence|]. split; [congruence|].
  destruct o as [x|[]]; auto. destruct H5 as [H5|[H5|[i H5]]]; [now left|right; left; rewrite H1; apply in_or_app; now right|right; right; exists i; congruence].
Qed.
Lemma send_ended s : wp send (ended s) s.
Proof.
  unfold send. do 2 wstep.
  assert (HG : forall f s, (length (s_unsent_queue (sk s)) < f)%nat -> wp (loop f send_body tt) (ended s) s).
  { clear s. induction f as [|f IH]; intros s HF; [lia|]. cbn [loop]. apply wp_bind. unfold send_body at 1. do 2 wstep.
    destruct (s_unsent_queue (sk s)) as [|p rest] eqn:EU.
    - wstep. wstep. split; [now exists []|]. split; [reflexivity|exact I].
    - wstep. wstep. set (s1 := mkSt _ _). assert (H1 : ended s (Ret tt) s1) by (split; [now exists []|split; [reflexivity|exact I]]).
      assert (U1 : s_unsent_queue (sk s1) = rest) by reflexivity. clearbody s1.
      apply wp_bind. eapply wp_conseq; [apply (calm_send_packet (events s1) recv (fun n => eats_call _ n)); apply le_n|]. intros [p'|e] s2 H2; [|apply fine_ended in H2; eapply ended_after; [exact H1|]; exact H2].
      pose proof (fine_ended _ _ _ H2) as H2'. destruct H2 as [[_ _ HU] _].
      do 2 wstep. wstep. wstep; [intros; eapply ended_after; [exact H1|]; destruct H2' as (? & ? & _); split; [assumption|split; [assumption|exact I]]|]. intros _. do 3 wstep.
      match goal with |- wp _ _ ?x => set (s3 := x) end.
      assert (H3 : ended s (Ret tt) s3). { eapply ended_after; [exact H1|]. destruct H2' as (? & ? & _). split; [assumption|split; [assumption|exact I]]. }
      assert (U3 : s_unsent_queue (sk s3) = rest) by (unfold s3; cbn; congruence). clearbody s3.
      eapply wp_conseq; [apply IH; rewrite U3; cbn in HF; lia|]. intros o s' H. eapply ended_after; eauto. }
  apply HG. lia.
Qed.
Lemma run_op_ended o s : wp (run_op o) (ended s) s.
Proof.
  assert (HC : forall A (m : M A), calm (events s) m -> wp m (ended s) s). { intros A m H. eapply wp_conseq; [apply H, le_n|]. intros; now apply fine_ended. }
  destruct o; cbn [run_op].
  - apply HC. calm. apply calm_recv_from.
  - unfold send_to. apply wp_bind. do 2 wstep. destruct (sstate_eqb _ _).
    + wstep. split; [now exists []|]. split; [reflexivity|exact I].
    + wstep. wstep. set (s1 := mkSt _ _). assert (H1 : ended s (Ret tt) s1) by (split; [now exists []|split; [reflexivity|exact I]]). clearbody s1.
      apply wp_bind. eapply wp_conseq; [apply send_ended|]. intros [[]|e] s2 H2; [do 2 wstep; eapply ended_after; eauto|eapply ended_after; [exact H1|]; exact H2].
  - apply HC. calm. apply calm_flush.
  - apply HC. calm. apply calm_close.
  - apply HC. calm.
  - apply HC. unfold peer_addr. calm.
Qed.

(** ** C58 *)
Section Ext.
  Variable more : list rx.
  Definition ext (s : st) : st := mkSt (sk s) (sw_in (w_in (wd s) ++ more) (wd s)).
  (** The outcome does not stem from the end of the script. *)
  Definition settled {A} (o : outcome A) (s' : st) : Prop :=
    match o with Fail NoFuel => False | Fail Pend => more = [] \/ w_in (wd s') <> [] | _ => True end.
  (** [m'] (with more fuel) does on the longer script what [m] does. *)
  Definition same {A} (m m' : M A) : Prop := forall s o s', m s = (o, s') -> settled o s' -> m' (ext s) = (o, ext s').

  Lemma same_bind {A B} (m m' : M A) (f f' : A -> M B) : same m m' -> (forall a, same (f a) (f' a)) -> same (bind m f) (bind m' f').
  Proof.
    intros H1 H2 s o s' H HS. unfold bind in *. destruct (m s) as [[a|e] s1] eqn:E.
    - rewrite (H1 _ _ _ E I). now apply H2.
    - injection H as <- <-. rewrite (H1 _ _ _ E); [reflexivity|]. exact HS.
  Qed.
  Lemma same_ret {A} (a : A) : same (ret a) (ret a). Proof. now intros s o s' [= <- <-] _. Qed.
  Lemma same_throw {A} k : same (@throw A k) (throw k). Proof. now intros s o s' [= <- <-] _. Qed.
  Lemma same_panic {A} l : same (@fail A (Panic l)) (fail (Panic l)). Proof. now intros s o s' [= <- <-] _. Qed.
  Lemma same_nofuel {A} (m : M A) : same (fail NoFuel) m. Proof. now intros s o s' [= <- <-] []. Qed.
  Lemma same_get : same get_sk get_sk. Proof. now intros s o s' [= <- <-] _. Qed.
  Lemma same_upd f : same (upd_sk f) (upd_sk f). Proof. now intros s o s' [= <- <-] _. Qed.
  Lemma same_now : same now_microseconds now_microseconds. Proof. now intros s o s' [= <- <-] _. Qed.
  Lemma same_rand : same random_u16 random_u16. Proof. now intros s o s' [= <- <-] _. Qed.
  Lemma same_arith l lo hi wr v : same (arith l lo hi wr v) (arith l lo hi wr v).
  Proof. intros s o s' H _. unfold arith in *. cbn [ext wd sw_in w_chk]. destruct (_ && _); injection H as <- <-; reflexivity. Qed.
  Lemma same_try {A} (r : result A kind) : same (try_ r) (try_ r). Proof. destruct r; [apply same_ret|apply same_throw]. Qed.
  Lemma same_unwrap {A} l (o : option A) : same (unwrap l o) (unwrap l o). Proof. destruct o; [apply same_ret|apply same_panic]. Qed.
  Lemma same_send d p : same (udp_send d p) (udp_send d p).
  Proof. intros s o s' H _. unfold udp_send in *. cbn [ext wd sw_in w_send w_stick sk]. destruct (w_send _ _); injection H as <- <-; reflexivity. Qed.
  Lemma same_recv n : same (udp_recv n) (udp_recv n).
  Proof.
    intros s o s' H HS. unfold udp_recv in *. cbn [ext wd sw_in w_in sk]. destruct (w_in (wd s)) as [|ev rest] eqn:E.
    - injection H as <- <-. destruct HS as [->|HS]; [|congruence]. cbn [app]. unfold ext. now rewrite E.
    - cbn [app]. destruct ev; injection H as <- <-; reflexivity.
  Qed.
  Lemma same_ignore {A} (m m' : M A) : same m m' -> same (ignore_result m) (ignore_result m').
  Proof.
    intros H s o s' H1 HS. unfold ignore_result in *. destruct (m s) as [[a|[k|l| |]] s1] eqn:E; injection H1 as <- <-; rewrite (H _ _ _ E); auto; exact HS || exact I.
  Qed.
  Lemma same_loop {S A} (b b' : S -> M (S + A)) : (forall x, same (b x) (b' x)) -> forall f f' x, (f <= f')%nat -> same (loop f b x) (loop f' b' x).
  Proof.
    intros H. induction f as [|f IH]; intros f' x HF; [apply same_nofuel|]. destruct f' as [|f']; [lia|]. cbn [loop]. apply same_bind; [apply H|].
    intros [y|a]; [apply IH; lia|apply same_ret].
  Qed.
  Lemma same_fuel {A} (k k' : nat -> M A) : (forall f f', (f <= f')%nat -> same (k f) (k' f')) -> same (bind event_fuel k) (bind event_fuel k').
  Proof.
    intros H s o s' H1 HS. unfold bind, event_fuel in *. eapply H; [|exact H1|exact HS]. cbn. rewrite app_length. lia.
  Qed.
  Lemma same_sloop {S A} (b b' : S -> M (S + A)) x : (forall x, same (b x) (b' x)) -> same (fuel <- event_fuel ;; loop fuel b x) (fuel <- event_fuel ;; loop fuel b' x).
  Proof. intros H. apply same_fuel. intros. now apply same_loop. Qed.
End Ext.
Ltac same := repeat (cbv beta zeta; match goal with
  | |- same _ (bind event_fuel _) _ => apply same_sloop; intros
  | |- same _ (bind _ _) _ => apply same_bind; intros
  | |- same _ (ret _) _ => apply same_ret
  | |- same _ get_sk _ => apply same_get
  | |- same _ (upd_sk _) _ => apply same_upd
  | |- same _ now_microseconds _ => apply same_now
  | |- same _ random_u16 _ => apply same_rand
  | |- same _ (throw _) _ => apply same_throw
  | |- same _ (throw_se _) _ => apply same_throw
  | |- same _ (fail (Panic _)) _ => apply same_panic
  | |- same _ (try_ _) _ => apply same_try
  | |- same _ (unwrap _ _) _ => apply same_unwrap
  | |- same _ (ignore_result _) _ => apply same_ignore
  | |- same _ (udp_send _ _) _ => apply same_send
  | |- same _ (udp_recv _) _ => apply same_recv
  | |- same _ (m_get_type _) _ => apply same_unwrap
  | |- same _ (ck_u16 _ _) _ => apply same_arith
  | |- same _ (ck_u32 _ _) _ => apply same_arith
  | |- same _ (ck_u64 _ _) _ => apply same_arith
  | |- same _ (ck_i32 _ _) _ => apply same_arith
  | |- same _ (ck_i64 _ _) _ => apply same_arith
  | |- same _ (if ?b then _ else _) _ => destruct b
  | |- same _ (match ?x with _ => _ end) _ => destruct x
  end); auto.
Section Same.
  Variable more : list rx.
  Notation same := (same more).
  Lemma same_reply p t : same (prepare_reply p t) (prepare_reply p t). Proof. unfold prepare_reply. same. Qed.
  Lemma same_attach p r : same (attach_sack p r) (attach_sack p r). Proof. unfold attach_sack, build_selective_ack. same. Qed.
  Lemma same_flush_in n : same (flush_incoming_buffer n) (flush_incoming_buffer n). Proof. unfold flush_incoming_buffer, advance_incoming_buffer. same. Qed.
  Lemma same_process_ack i : same (process_ack i) (process_ack i).
  Proof. unfold process_ack, update_base_delay, update_current_delay, update_congestion_window, update_congestion_timeout, queuing_delay. same. Qed.
  Lemma same_drop n : same (drop_acked n) (drop_acked n). Proof. induction n as [|n IH]; cbn [drop_acked]; same. Qed.
  Lemma same_advance : same advance_send_window advance_send_window. Proof. unfold advance_send_window. same. apply same_drop. Qed.
  Variables rec rec' : nat -> M (list byte * addr).
  Hypothesis Hrec : forall n, same (rec n) (rec' n).
  Lemma same_send_packet p : same (send_packet rec p) (send_packet rec' p).
  Proof. unfold send_packet. apply same_bind; [apply same_get|intros k]. cbv zeta. apply same_bind; [apply same_now|intros t]. 
    intros s o s' H HS. change (send_packet rec' p) with (send_packet rec' p).
    assert (HG : same (gate rec (limit k) t ;;; transmit p) (gate rec' (limit k) t ;;; transmit p)).
    { apply same_bind; [|intros; unfold transmit; same]. unfold gate, gate_body. same. }
    exact (HG s o s' H HS).
  Qed.
  Lemma same_resend l : same (resend_lost_packet rec l) (resend_lost_packet rec' l). Proof. unfold resend_lost_packet. same. apply same_send_packet. Qed.
  Lemma same_gaps a bits q : forall i loss, same (resend_gaps rec a i bits q loss) (resend_gaps rec' a i bits q loss).
  Proof. induction bits as [|[] bits IH]; intros; cbn [resend_gaps]; same. apply same_resend. Qed.
  Lemma same_exts a exts : forall loss, same (process_extensions rec a exts loss) (process_extensions rec' a exts loss).
  Proof. induction exts as [|e exts IH]; intros; cbn [process_extensions]; same; [apply same_resend|apply same_gaps]. Qed.
  Lemma same_note a : same (note_ack a) (note_ack a). Proof. unfold note_ack. same. Qed.
  Lemma same_finish a e l : same (finish_state_packet rec a e l) (finish_state_packet rec' a e l).
  Proof. unfold finish_state_packet. same; [apply same_resend|apply same_advance..]. Qed.
  Lemma same_state p : same (handle_state_packet rec p) (handle_state_packet rec' p).
  Proof. unfold handle_state_packet. same; auto using same_note, same_process_ack, same_exts, same_finish. Qed.
  Lemma same_dispatch p ty src : same (dispatch rec p ty src) (dispatch rec' p ty src).
  Proof.
    unfold dispatch. apply same_bind; [apply same_get|intros k].
    destruct (s_state k), ty; unfold handle_data_packet; same; auto using same_reply, same_attach, same_state.
  Qed.
  Lemma same_handle p src : same (handle_packet rec p src) (handle_packet rec' p src).
  Proof. unfold handle_packet, ack_in_order. same; auto using same_reply, same_dispatch. Qed.
  Lemma same_process n b src : same (process_datagram rec n b src) (process_datagram rec' n b src).
  Proof. unfold process_datagram, insert_into_buffer. same; auto using same_handle, same_flush_in. Qed.
  Lemma same_fin : same send_fin send_fin. Proof. unfold send_fin. same. Qed.
  Lemma same_timeout : same handle_receive_timeout handle_receive_timeout.
  Proof. unfold handle_receive_timeout, send_fast_resend_request, fast_resend_packet. same; apply same_fin. Qed.
  Lemma same_wait : same wait_datagram wait_datagram.
  Proof. unfold wait_datagram. same. apply same_timeout. Qed.
End Same.
Lemma same_recv_fuel more f : forall f' n, (f <= f')%nat -> same more (recv_fuel f n) (recv_fuel f' n).
Proof.
  induction f as [|f IH]; intros f' n HF; [apply same_nofuel|]. destruct f' as [|f']; [lia|]. cbn [recv_fuel]. unfold recv_body.
  apply same_bind; [apply same_wait|]. intros [b src]. apply same_process. intros m. apply IH. lia.
Qed.
Lemma same_call more n : same more (recv n) (recv n).
Proof. unfold recv. apply same_fuel. intros. now apply same_recv_fuel. Qed.
Lemma same_recv_from more n : same more (recv_from n) (recv_from n).
Proof. unfold recv_from. same; auto using same_flush_in, same_call. Qed.
Lemma same_flush more : same more flush flush.
Proof. unfold flush. same; auto using same_call. Qed.
Lemma same_close more : same more close close.
Proof. unfold close. same; auto using same_call, same_flush, same_fin. Qed.
Lemma same_send_call more : same more send send.
Proof.
  unfold send. same. apply same_loop; [|lia]. intros _. same. apply same_send_packet. intros. apply same_call.
Qed.
Lemma same_run_op more o : same more (run_op o) (run_op o).
Proof. destruct o; cbn [run_op]; unfold send_to, peer_addr; same; auto using same_recv_from, same_send_call, same_flush, same_close. Qed.
Lemma same_syn_loop more n : forall p, same more (syn_loop n p) (syn_loop n p).
Proof. induction n as [|n IH]; intros; cbn [syn_loop]; same. Qed.
Lemma same_connect more a b : same more (connect a b) (connect a b).
Proof. unfold connect, bind_socket, take_address, from_raw_parts. same; auto using same_syn_loop. apply same_handle. intros. apply same_call. Qed.
Definition read_body (n : nat) (_ : unit) : M (unit + list byte * addr) :=
  s <- get_sk ;;
  if sstate_eqb (s_state s) Closed then ret (inr ([], s_connected_to s))
  else x <- recv n ;; if is_nil (fst x) then ret (inl tt) else ret (inr x).
Lemma recv_from_drained n s : no_wrap_panic s -> 0 <= s_ack_nr (sk s) -> buf_inv (sk s) -> drained (sk s) -> s_state (sk s) <> ResetReceived ->
  recv_from n s = loop (S (length (w_in (wd s)))) (read_body n) tt s.
Proof.
  intros H1 H2 H3 H4 HX. unfold recv_from, bind at 1. rewrite flush_drained_run by assumption. unfold bind at 1, get_sk at 1. cbn [is_nil negb].
  destruct (sstate_eqb (s_state (sk s)) ResetReceived) eqn:E1; [now apply state_eqb_true in E1|]. reflexivity.
Qed.
Definition flush_body (_ : unit) : M (unit + unit) :=
  s <- get_sk ;; if is_nil (s_send_window s) then ret (inr tt) else recv BUF_SIZE ;;; ret (inl tt).
Lemma flush_eq s : flush s = loop (S (length (w_in (wd s)))) flush_body tt s.
Proof. reflexivity. Qed.
Lemma loop_step {S A} f (body : S -> M (S + A)) x y s s' : body x s = (Ret (inl y), s') -> loop (Datatypes.S f) body x s = loop f body y s'.
Proof. intros H. cbn [loop]. unfold bind. rewrite H. reflexivity. Qed.
