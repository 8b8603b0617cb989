(** How much a socket with nothing in flight sends (C91), closed sockets (C92). *)
From Verif Require Export SpecTraffic TermProofs StreamOrderProofs OpenProofs.
From Verif Require PropSend.
Require Import ZifyBool ZifyNat ZifyN.
Local Open Scope Z_scope.

Definition toll (e : rx) : nat := match e with RxDgram _ _ => 1 | RxErr k => if is_timeout k then 3 else 0 | RxCancel => 0 end.
Definition tolls (evs : list rx) : nat := list_sum (map toll evs).
Lemma tolls_count evs : tolls evs = (datagrams evs + 3 * timeouts evs)%nat.
Proof.
  unfold tolls, datagrams, timeouts. induction evs as [|[d src|k|] evs IH]; [reflexivity|..]; cbn [map list_sum fold_right toll filter length] in *; unfold list_sum in *; [lia| |lia].
  destruct (is_timeout k); cbn [length]; lia.
Qed.
Definition cost (s : st) : nat := (length (w_sent (wd s)) + tolls (w_in (wd s)))%nat.
Definition clear (s : st) : Prop := s_send_window (sk s) = [].
(** [thrifty k m]: with nothing in flight, [m] sends at most what the events it consumes call for, plus [k]. *)
Definition thrifty {A} (k : nat) (m : M A) : Prop := forall s, clear s -> wp m (fun _ s' => clear s' /\ (cost s' <= cost s + k)%nat) s.

Section Rules.
  Context {A B : Type}.
  Lemma thrifty_le j k (m : M A) : thrifty j m -> (j <= k)%nat -> thrifty k m.
  Proof. intros H HL s HC. eapply wp_conseq; [apply H, HC|]. intros o s' [H1 H2]. split; [exact H1|lia]. Qed.
  Lemma thrifty_bind j k (m : M A) (f : A -> M B) : thrifty j m -> (forall a, thrifty k (f a)) -> thrifty (j + k) (bind m f).
  Proof.
    intros H1 H2 s HC. apply wp_bind. eapply wp_conseq; [apply H1, HC|]. intros [a|e] s' [HC' HL]; [|split; [exact HC'|lia]].
    eapply wp_conseq; [apply H2, HC'|]. intros o s'' [H3 H4]. split; [exact H3|lia].
  Qed.
  Lemma thrifty_mute k (m : M A) (f : A -> M B) : thrifty 0 m -> (forall a, thrifty k (f a)) -> thrifty k (bind m f).
  Proof. apply (thrifty_bind 0 k). Qed.
  Lemma thrifty_ret k (a : A) : thrifty k (ret a). Proof. intros s HC. wstep. split; [exact HC|lia]. Qed.
  Lemma thrifty_fail k e : thrifty k (@fail A e). Proof. intros s HC. wstep. split; [exact HC|lia]. Qed.
  Lemma thrifty_throw k e : thrifty k (@throw A e). Proof. intros s HC. wstep. split; [exact HC|lia]. Qed.
  Lemma thrifty_try k (r : result A kind) : thrifty k (try_ r). Proof. destruct r; [apply thrifty_ret|apply thrifty_throw]. Qed.
  Lemma thrifty_unwrap k l (o : option A) : thrifty k (unwrap l o). Proof. destruct o; [apply thrifty_ret|apply thrifty_fail]. Qed.
  Lemma thrifty_ignore k (m : M A) : thrifty k m -> thrifty k (ignore_result m).
  Proof. intros H s HC. pose proof (H s HC) as HW. unfold wp, ignore_result in *. destruct (m s) as [[a|[e|l| |]] s']; exact HW. Qed.
End Rules.
Lemma thrifty_get k : thrifty k get_sk. Proof. intros s HC. wstep. split; [exact HC|lia]. Qed.
Lemma thrifty_upd k f : (forall x, s_send_window x = [] -> s_send_window (f x) = []) -> thrifty k (upd_sk f).
Proof. intros H s HC. wstep. split; [apply H, HC|unfold cost; cbn [wd]; lia]. Qed.
Lemma thrifty_now k : thrifty k now_microseconds. Proof. intros s HC. wstep. split; [exact HC|apply Nat.le_add_r]. Qed.
Lemma thrifty_rand k : thrifty k random_u16. Proof. intros s HC. apply wp_rand. intros v _. split; [exact HC|apply Nat.le_add_r]. Qed.
Lemma thrifty_arith k l lo hi wr v : thrifty k (arith l lo hi wr v). Proof. intros s HC. apply wp_arith; intros; (split; [exact HC|lia]). Qed.
Lemma thrifty_send d p : thrifty 1 (udp_send d p).
Proof.
  intros s HC. unfold wp, udp_send. assert (HT : clear (tx_state d p s) /\ (cost (tx_state d p s) <= cost s + 1)%nat).
  { split; [exact HC|]. unfold cost, tx_state. destruct (tx_ok s); cbn [wd]; sproj; rewrite ?app_length; cbn [length]; lia. }
  unfold tx_state, tx_ok in *. destruct (w_send (wd s) (w_stick (wd s))) eqn:E; exact HT.
Qed.
Ltac thrifty := repeat (cbv beta zeta; match goal with
  | |- thrifty _ (bind event_fuel _) => fail 1
  | |- thrifty _ (bind (udp_send _ _) _) => fail 1
  | |- thrifty _ (bind _ _) => apply thrifty_mute; intros
  | |- thrifty _ (ret _) => apply thrifty_ret
  | |- thrifty _ get_sk => apply thrifty_get
  | |- thrifty _ (upd_sk _) => apply thrifty_upd; intros; try assumption
  | |- thrifty _ now_microseconds => apply thrifty_now
  | |- thrifty _ random_u16 => apply thrifty_rand
  | |- thrifty _ (throw _) => apply thrifty_throw
  | |- thrifty _ (throw_se _) => apply thrifty_throw
  | |- thrifty _ (fail _) => apply thrifty_fail
  | |- thrifty _ (try_ _) => apply thrifty_try
  | |- thrifty _ (unwrap _ _) => apply thrifty_unwrap
  | |- thrifty _ (m_get_type _) => apply thrifty_unwrap
  | |- thrifty _ (ck_u16 _ _) => apply thrifty_arith
  | |- thrifty _ (ck_u32 _ _) => apply thrifty_arith
  | |- thrifty _ (ck_u64 _ _) => apply thrifty_arith
  | |- thrifty _ (ck_i32 _ _) => apply thrifty_arith
  | |- thrifty _ (ck_i64 _ _) => apply thrifty_arith
  | |- thrifty _ (if ?b then _ else _) => destruct b
  | |- thrifty _ (match ?x with _ => _ end) => destruct x
  end); auto.

Lemma thrifty_reply k p t : thrifty k (prepare_reply p t). Proof. unfold prepare_reply. thrifty. Qed.
Lemma thrifty_attach k p r : thrifty k (attach_sack p r). Proof. unfold attach_sack, build_selective_ack. thrifty. Qed.
Lemma thrifty_flush_in k n : thrifty k (flush_incoming_buffer n).
Proof. unfold flush_incoming_buffer, advance_incoming_buffer. thrifty; unfold advance_socket; destruct (s_incoming_buffer _); assumption. Qed.
Lemma thrifty_process_ack k i : thrifty k (process_ack i).
Proof.
  unfold process_ack, update_base_delay, update_current_delay, update_congestion_window, update_congestion_timeout, queuing_delay. thrifty.
  unfold base_delay_socket. repeat match goal with |- context [if ?b then _ else _] => destruct b end; assumption.
Qed.
Lemma thrifty_advance k : thrifty k advance_send_window.
Proof. intros s HC. unfold advance_send_window. do 2 wstep. rewrite HC. change (wp (ret tt) (fun _ s' => clear s' /\ (cost s' <= cost s + k)%nat) s). wstep. split; [exact HC|lia]. Qed.
Section Open.
  Variable rec : nat -> M (list byte * addr).
  Lemma thrifty_resend k l : thrifty k (resend_lost_packet rec l).
  Proof. intros s HC. unfold resend_lost_packet. do 2 wstep. rewrite HC. change (wp (ret tt) (fun _ s' => clear s' /\ (cost s' <= cost s + k)%nat) s). wstep. split; [exact HC|lia]. Qed.
  Lemma thrifty_gaps k a bits q : forall i loss, thrifty k (resend_gaps rec a i bits q loss).
  Proof. induction bits as [|[] bits IH]; intros; cbn [resend_gaps]; thrifty. apply thrifty_resend. Qed.
  Lemma thrifty_exts k a exts : forall loss, thrifty k (process_extensions rec a exts loss).
  Proof. induction exts as [|e exts IH]; intros; cbn [process_extensions]; thrifty; [apply thrifty_resend|apply thrifty_gaps]. Qed.
  Lemma thrifty_note k a : thrifty k (note_ack a). Proof. unfold note_ack. thrifty. Qed.
  Lemma thrifty_finish k a e l : thrifty k (finish_state_packet rec a e l). Proof. unfold finish_state_packet. thrifty; [apply thrifty_resend|apply thrifty_advance..]. Qed.
  Lemma thrifty_state k p : thrifty k (handle_state_packet rec p).
  Proof. unfold handle_state_packet. thrifty; auto using thrifty_note, thrifty_process_ack, thrifty_exts, thrifty_finish. Qed.
  Lemma thrifty_dispatch k p ty src : thrifty k (dispatch rec p ty src).
  Proof.
    unfold dispatch. apply thrifty_mute; [apply thrifty_get|intros x].
    destruct (s_state x), ty; unfold handle_data_packet; thrifty; auto using thrifty_reply, thrifty_attach, thrifty_state.
  Qed.
  Lemma thrifty_handle k p src : thrifty k (handle_packet rec p src).
  Proof. unfold handle_packet, ack_in_order. thrifty; auto using thrifty_reply, thrifty_dispatch. destruct (_ =? 1); assumption. Qed.
  Lemma thrifty_process n b src : thrifty 1 (process_datagram rec n b src).
  Proof.
    unfold process_datagram. apply thrifty_mute; [apply thrifty_unwrap|intros [p|e]]; [|thrifty]. apply thrifty_mute; [apply thrifty_handle|intros q].
    apply (thrifty_bind 1 0); [|intros _; unfold insert_into_buffer; thrifty; apply thrifty_flush_in].
    destruct q as [q|]; [|apply thrifty_ret]. apply (thrifty_bind 1 0); [apply thrifty_send|intros; apply thrifty_try].
  Qed.
End Open.
Lemma thrifty_fin : thrifty 1 send_fin.
Proof. unfold send_fin. thrifty. apply (thrifty_bind 1 0); [apply thrifty_send|intros; apply thrifty_try]. Qed.
Lemma thrifty_timeout : thrifty 3 handle_receive_timeout.
Proof.
  intros s HC. unfold handle_receive_timeout. do 2 wstep. apply wp_bind. eapply wp_conseq; [apply (thrifty_arith 0); exact HC|]. intros [c|e] s' [HC' HL]; [|split; [exact HC'|lia]].
  do 3 wstep. assert (HC2 : clear (mkSt (ss_cwnd MSS (ss_congestion_timeout c (sk s'))) (wd s'))) by exact HC'. do 1 wstep. sproj. rewrite HC'.
  assert (HT : thrifty 3 (if sstate_eqb (s_state (sk s')) FinSent then send_fin else if negb (sstate_eqb (s_state (sk s')) New) then send_fast_resend_request else ret tt)).
  { destruct (sstate_eqb _ _); [apply (thrifty_le 1); [apply thrifty_fin|lia]|]. destruct (negb _); [|apply thrifty_ret]. unfold send_fast_resend_request.
    assert (HF : thrifty 1 fast_resend_packet) by (unfold fast_resend_packet; thrifty; apply (thrifty_bind 1 0); [apply thrifty_send|intros; apply thrifty_ret]).
    apply (thrifty_bind 1 2); [exact HF|intros _]. apply (thrifty_bind 1 1); [exact HF|intros _; exact HF]. }
  eapply wp_conseq; [apply HT; exact HC2|]. intros o s2 [H1 H2]. split; [exact H1|]. unfold cost in *. cbn [wd] in H2. lia.
Qed.

(** Receiving pays for the answer with the datagram. *)
Definition pays {A} (m : M A) : Prop := forall s, clear s -> wp m (fun o s' => clear s' /\ (match o with Ret _ => cost s' + 1 <= cost s | _ => cost s' <= cost s end)%nat) s.
Lemma pays_loop {S A} (body : S -> M (S + A)) :
  (forall x s, clear s -> wp (body x) (fun o s' => clear s' /\ (match o with Ret (inr _) => cost s' + 1 <= cost s | _ => cost s' <= cost s end)%nat) s) -> forall f x, pays (loop f body x).
Proof.
  intros HB. induction f as [|f IH]; intros x s HC; cbn [loop]; [wstep; split; [exact HC|lia]|]. apply wp_bind. eapply wp_conseq; [apply HB, HC|].
  intros [[y|a]|e] s' [H HE]; [|wstep; auto|auto]. eapply wp_conseq; [apply IH, H|]. intros o s'' [H1 H2]. split; [exact H1|]. destruct o; lia.
Qed.
Lemma thrifty_loop {S A} (body : S -> M (S + A)) : (forall x, thrifty 0 (body x)) -> forall f x, thrifty 0 (loop f body x).
Proof.
  intros HB. induction f as [|f IH]; intros x s HC; cbn [loop]; [wstep; split; [exact HC|lia]|]. apply wp_bind. eapply wp_conseq; [apply HB, HC|].
  intros [[y|a]|e] s' [H HE]; [|wstep; auto|auto]. eapply wp_conseq; [apply IH, H|]. intros o s'' [H1 H2]. split; [exact H1|]. lia.
Qed.
Lemma pays_wait : pays wait_datagram.
Proof.
  intros s HC. unfold wait_datagram. do 2 wstep. apply pays_loop; [|exact HC]. clear s HC. intros retries s HC. do 2 wstep. destruct (_ <=? _).
  { do 3 wstep. split; [exact HC|]. apply Nat.le_refl. }
  apply wp_bind. assert (HR : clear (rx_state s)) by exact HC.
  assert (HT : forall e rest, w_in (wd s) = e :: rest -> cost s = (cost (rx_state s) + toll e)%nat).
  { intros e rest E. unfold cost, rx_state. cbn [wd]. sproj. rewrite E. unfold tolls. cbn [map list_sum fold_right tl]. unfold list_sum. lia. }
  apply wp_udp_recv.
  - intros _. split; [exact HC|lia].
  - intros d src rest E. wstep. split; [exact HC|]. rewrite (HT _ _ E). cbn [toll]. lia.
  - intros k rest E. specialize (HT _ _ E). cbn [toll] in HT. destruct (is_timeout k).
    + apply wp_bind. eapply wp_conseq; [apply thrifty_timeout; exact HR|]. intros [[]|e] s' [H HL]; [wstep|]; (split; [exact H|lia]).
    + wstep. split; [exact HC|lia].
  - intros rest E. split; [exact HC|]. rewrite (HT _ _ E). lia.
Qed.
Lemma thrifty_body rec n : thrifty 0 (recv_body rec n).
Proof.
  intros s HC. unfold recv_body. apply wp_bind. eapply wp_conseq; [apply pays_wait, HC|]. intros [[b src]|e] s' [H HL]; [|split; [exact H|lia]].
  eapply wp_conseq; [apply thrifty_process, H|]. intros o s'' [H1 H2]. split; [exact H1|lia].
Qed.
Lemma thrifty_recv n : thrifty 0 (recv n).
Proof. intros s HC. unfold recv. do 2 wstep. destruct (S _); cbn [recv_fuel]; [wstep; split; [exact HC|lia]|]. now apply thrifty_body. Qed.
Lemma thrifty_recv_from n : thrifty 0 (recv_from n).
Proof.
  unfold recv_from. apply thrifty_mute; [apply thrifty_flush_in|intros d]. apply thrifty_mute; [apply thrifty_get|intros k]. thrifty. intros s HC. do 2 wstep. apply thrifty_loop; [|exact HC].
  intros _. thrifty. apply thrifty_recv.
Qed.
Lemma thrifty_recv_loop (f : socket -> bool) : thrifty 0 (fuel <- event_fuel ;; loop fuel (fun _ : unit => s <- get_sk ;; if f s then ret (inr tt) else recv BUF_SIZE ;;; ret (inl tt)) tt).
Proof. intros s HC. do 2 wstep. apply thrifty_loop; [|exact HC]. intros _. thrifty. apply thrifty_recv. Qed.
Lemma thrifty_flush : thrifty 0 flush. Proof. apply (thrifty_recv_loop (fun s => is_nil (s_send_window s))). Qed.
Lemma thrifty_close : thrifty 1 close.
Proof.
  unfold close. apply thrifty_mute; [apply thrifty_get|intros k]. destruct (s_state k); try apply thrifty_ret;
  (apply thrifty_mute; [apply thrifty_flush|intros _]; apply (thrifty_bind 1 0); [apply thrifty_fin|intros _]; thrifty; apply (thrifty_recv_loop (fun s => sstate_eqb (s_state s) Closed))).
Qed.
Definition no_send (o : op) : bool := match o with OSendTo _ => false | _ => true end.
Lemma thrifty_op o : no_send o = true -> thrifty (closes [o]) (run_op o).
Proof.
  destruct o as [n|d| | |m|]; intros H; try discriminate; cbn [run_op closes filter length].
  - apply thrifty_mute; [apply thrifty_recv_from|intros []; apply thrifty_ret].
  - apply thrifty_mute; [apply thrifty_flush|intros; apply thrifty_ret].
  - apply (thrifty_bind 1 0); [apply thrifty_close|intros; apply thrifty_ret].
  - thrifty.
  - unfold peer_addr. thrifty.
Qed.
Lemma thrifty_ops ops : forall s, forallb no_send ops = true -> clear s -> clear (snd (run_ops ops s)) /\ (cost (snd (run_ops ops s)) <= cost s + closes ops)%nat.
Proof.
  induction ops as [|o ops IH]; intros s HF HC; [cbn [run_ops snd closes]; split; [exact HC|lia]|]. cbn [forallb] in HF. apply andb_prop in HF as [HO HF].
  pose proof (thrifty_op o HO s HC) as H. unfold wp in H. cbn [run_ops]. destruct (run_op o s) as [r s1]. cbn [snd] in H. destruct H as [H1 H2].
  destruct (IH s1 HF H1) as [H3 H4]. assert (HCl : closes (o :: ops) = (closes [o] + closes ops)%nat) by (unfold closes; cbn [filter]; destruct o; reflexivity).
  destruct (run_ops ops s1) as [rs s2]. cbn [snd] in *. destruct r as [|[]]; cbn [snd]; (split; [assumption|lia]).
Qed.
Lemma ops_consume ops : forall s, exists used, consumed used s (snd (run_ops ops s)).
Proof.
  induction ops as [|o ops IH]; intros s; [exists []; reflexivity|]. destruct (run_op_ended o s) as [[u1 H1] _]. cbn [run_ops]. destruct (run_op o s) as [r s1]. cbn [snd] in H1.
  destruct (IH s1) as [u2 H2]. destruct (run_ops ops s1) as [rs s2]. cbn [snd] in H2. unfold consumed in *.
  destruct r as [|[]]; cbn [snd]; solve [exists (u1 ++ u2); rewrite <- app_assoc; congruence|exists u1; congruence].
Qed.
Lemma tolls_app a b : tolls (a ++ b) = (tolls a + tolls b)%nat.
Proof. unfold tolls. now rewrite map_app, list_sum_app. Qed.
Lemma idle_traffic ops s : s_send_window (sk s) = [] -> forallb no_send ops = true -> exists used, consumed used s (snd (run_ops ops s)) /\
  (sent_count (snd (run_ops ops s)) <= sent_count s + datagrams used + 3 * timeouts used + closes ops)%nat.
Proof.
  intros HC HF. destruct (thrifty_ops ops s HF HC) as [_ H]. destruct (ops_consume ops s) as [used HU]. exists used. split; [exact HU|].
  unfold cost in H. rewrite HU, tolls_app, (tolls_count used) in H. unfold sent_count. lia.
Qed.

(** ** Closed sockets *)
Definition still {A} (m : M A) : Prop := forall s, s_state (sk s) = Closed -> wp m (fun o s' => wd s' = wd s /\ s_state (sk s') = Closed /\ o <> Fail Pend) s.
Lemma flush_still n : still (flush_incoming_buffer n).
Proof.
  intros s HS.
  assert (HA : forall k, s_state (advance_socket k) = s_state k) by (intros k; unfold advance_socket; destruct (s_incoming_buffer k); reflexivity).
  unfold flush_incoming_buffer, advance_incoming_buffer. do 2 wstep. destruct (negb _).
  - apply wp_bind. destruct (_ =? _)%nat.
    + do 3 wstep. wstep. split; [reflexivity|]. split; [cbn [sk]; rewrite HA; exact HS|discriminate].
    + do 2 wstep. split; [reflexivity|]. split; [exact HS|discriminate].
  - destruct (s_incoming_buffer _) as [|p l]; [wstep; split; [reflexivity|]; split; [exact HS|discriminate]|]. apply wp_bind.
    assert (HR : wp (if s_ack_nr (sk s) =? seq_nr p then ret true else next <- ck_u16 574 (s_ack_nr (sk s) + 1) ;; ret (next =? seq_nr p)) (fun o s' => s' = s /\ o <> Fail Pend) s).
    { destruct (_ =? _); [wstep; split; [reflexivity|discriminate]|]. wstep. wstep; intros; [|wstep]; (split; [reflexivity|discriminate]). }
    eapply wp_conseq; [exact HR|]. intros [[|]|e] s' [-> HE]; [| |split; [reflexivity|]; split; [exact HS|congruence]].
    2:{ wstep. split; [reflexivity|]. split; [exact HS|discriminate]. }
    apply wp_bind. destruct (payload p) as [pl|]; cbn [unwrap]; wstep; [|split; [reflexivity|]; split; [exact HS|discriminate]].
    apply wp_bind. destruct (_ =? _)%nat; do 2 wstep; (split; [reflexivity|]); (split; [|discriminate]); cbn [sk]; [rewrite HA|]; exact HS.
Qed.
Lemma closed_silent o s : s_state (sk s) = Closed -> (o = OFlush -> s_send_window (sk s) = []) -> wd (snd (run_op o s)) = wd s /\ s_state (sk (snd (run_op o s))) = Closed /\ fst (run_op o s) <> Fail Pend.
Proof.
  intros HS HW. destruct o as [n|d| | |m|]; cbn [run_op].
  - assert (H : wp (recv_from n) (fun o s' => wd s' = wd s /\ s_state (sk s') = Closed /\ o <> Fail Pend) s).
    { unfold recv_from. apply wp_bind. eapply wp_conseq; [apply flush_still, HS|]. intros [d|e] s' (H1 & H2 & H3); [|split; [exact H1|]; split; [exact H2|congruence]].
      do 2 wstep. destruct (negb _); [wstep; split; [exact H1|]; split; [exact H2|discriminate]|]. rewrite H2. cbn [sstate_eqb].
      do 2 wstep. cbn [loop]. apply wp_bind. do 2 wstep. rewrite H2. cbn [sstate_eqb]. do 2 wstep. split; [exact H1|]. split; [exact H2|discriminate]. }
    unfold wp in H. unfold bind. destruct (recv_from n s) as [[[d src]|e] s']; cbn [fst snd] in *; destruct H as (H1 & H2 & H3); repeat (split; [assumption|]); [discriminate|congruence].
  - unfold bind, send_to, bind, get_sk. rewrite HS. cbn [sstate_eqb snd fst]. repeat (split; [reflexivity || assumption|]). discriminate.
  - assert (E : flush s = (Ret tt, s)) by (rewrite flush_eq; cbn [loop]; unfold bind at 1, flush_body, bind at 1, get_sk at 1; rewrite (HW eq_refl); reflexivity).
    unfold bind. rewrite E. cbn [snd fst ret]. repeat (split; [reflexivity || assumption|]). discriminate.
  - unfold bind, close, bind, get_sk. rewrite HS. cbn [snd fst ret]. repeat (split; [reflexivity || assumption|]). discriminate.
  - cbn. repeat (split; [reflexivity || assumption|]). discriminate.
  - unfold bind, peer_addr, bind, get_sk. rewrite HS. cbn. repeat (split; [reflexivity || assumption|]). discriminate.
Qed.
Lemma closed_flush k p rest s : s_send_window (sk s) = p :: rest -> w_in (wd s) = [RxErr k] -> is_timeout k = true -> 1 < s_max_retries (sk s) -> 0 <= s_congestion_timeout (sk s) < 2 ^ 63 -> tx_ok s = true ->
  exists s' t, flush s = (Fail Pend, s') /\ w_sent (wd s') = w_sent (wd s) ++ [(s_connected_to (sk s), set_timestamp t p)].
Proof.
  intros HW HI HK HM HT HX. destruct (timeout_resends p rest (mkSt (sk s) (sw_in [] (wd s)))) as (s' & E & K & L & HI'); [exact HW|unfold timer_fits; cbn [sk]; lia|exact HX|].
  exists s', (clock_now s). split; [|exact L]. rewrite flush_eq. cbn [loop]. unfold bind at 1, flush_body, bind at 1, get_sk at 1. rewrite HW. cbn [is_nil]. unfold bind at 1.
  rewrite (PropSend.C35_while_waiting BUF_SIZE s k s'); [reflexivity|exact HI|destruct k; try discriminate; auto|exact HM|exact E|rewrite K; reflexivity|exact HI'].
Qed.
