(** Proofs for C84: what ends [close]. *)
From Verif Require Export OpenProofs.
Require Import Lia ZifyBool.
Local Open Scope Z_scope.

(** What the end of a connection looks at. *)
Definition key (k : socket) : sstate * Z * Z * Z := (s_state k, s_sender_connection_id k, s_receiver_connection_id k, s_seq_nr k).
(** A packet of the connection that ends it: a FIN, or the acknowledgement of the socket's FIN. *)
Definition closing (k : socket) (p : packet) : Prop :=
  own_id k p /\ (get_type p = Some PFin \/ (get_type p = Some PState /\ ack_nr p = s_seq_nr k)).
Lemma closing_key k k' p : key k = key k' -> closing k p -> closing k' p.
Proof. unfold key, closing, own_id. intros H. injection H as _ -> -> ->. exact (fun H => H). Qed.

Lemma key_insert p k : key (ss_incoming_buffer (insert_packet p (s_incoming_buffer k)) k) = key k. Proof. reflexivity. Qed.
Lemma key_acked p k : key (acked_sk p k) = key k. Proof. unfold key. now rewrite (acked_other s_state), (acked_other s_sender_connection_id), (acked_other s_receiver_connection_id), (acked_other s_seq_nr). Qed.
Lemma key_flush n k : key (snd (flush_sk n k)) = key k. Proof. unfold key. frame. reflexivity. Qed.

Lemma timeout_key s : wp handle_receive_timeout (fun o s' => match o with Ret _ => key (sk s') = key (sk s) /\ w_in (wd s') = w_in (wd s) | _ => True end) s.
Proof.
  unfold handle_receive_timeout. do 3 wstep. wstep; [intros; exact I|]. intros _. do 4 wstep. sproj.
  assert (TX : forall a p t, w_in (wd (tx_state a p t)) = w_in (wd t)) by (intros; unfold tx_state; sproj; destruct (tx_ok _); reflexivity).
  assert (TT : forall t, w_in (wd (ticked t)) = w_in (wd t)) by reflexivity.
  destruct (s_send_window (sk s)) as [|p rest].
  - destruct (sstate_eqb _ FinSent); [|destruct (negb _)].
    + unfold send_fin. do 4 wstep. apply wp_bind, wp_udp_send; [intros _|intros k _|intros _; exact I]; (apply wp_try; [intros [] _|intros ? _; exact I]; rewrite TX; split; reflexivity).
    + unfold send_fast_resend_request, fast_resend_packet.
      do 5 wstep. apply wp_bind, wp_udp_send; [intros _|intros k _|intros _; exact I]; wstep;
      do 5 wstep; (apply wp_bind, wp_udp_send; [intros _|intros k' _|intros _; exact I]); wstep;
      do 4 wstep; (apply wp_bind, wp_udp_send; [intros _|intros k'' _|intros _; exact I]); wstep; repeat (rewrite TX || rewrite TT); split; reflexivity.
    + wstep. split; reflexivity.
  - do 2 wstep. cbv zeta. do 2 wstep. apply wp_bind, wp_udp_send; [intros _|intros k _|intros _; exact I]; (apply wp_try; [intros [] _|intros ? _; exact I]; rewrite TX; split; reflexivity).
Qed.
Lemma wait_key s : wp wait_datagram (fun o s' => match o with Ret x => key (sk s') = key (sk s) /\ exists pre d, w_in (wd s) = pre ++ RxDgram d (snd x) :: w_in (wd s') /\ fst x = firstn 1520 d | _ => True end) s.
Proof.
  unfold wait_datagram. do 2 wstep. eapply (wp_loop (fun _ t => key (sk t) = key (sk s) /\ exists pre, w_in (wd s) = pre ++ w_in (wd t))).
  - split; [reflexivity|]. now exists [].
  - intros; exact I.
  - intros y t (HK & pre & HI). do 2 wstep. wstep; [do 2 wstep; wstep; exact I|]. wstep. apply wp_udp_recv.
    + intros _. exact I.
    + intros d src rest E. wstep. split; [exact HK|]. exists pre, d. unfold rx_state. sproj. rewrite HI, E. split; reflexivity.
    + intros k rest E. destruct (is_timeout k); [|wstep; exact I]. wstep. eapply wp_conseq; [apply timeout_key|]. intros [[]|f] u H; cbv beta iota in H |- *; [|exact I].
      destruct H as [H1 H2]. wstep. rewrite H1, H2. split; [exact HK|]. exists (pre ++ [RxErr k]). rewrite <- app_assoc. unfold rx_state. sproj. rewrite HI, E. reflexivity.
    + intros rest E. exact I.
Qed.
Lemma attach_sack_same p r s r' s' : attach_sack p r s = (Ret r', s') -> s' = s.
Proof.
  unfold attach_sack, bind at 1, get_sk at 1. destruct (1 <? _); [|intros H; now injection H as <- <-]. unfold bind at 1.
  assert (HB : forall o t, build_selective_ack s = (o, t) -> t = s).
  { intros o t. unfold build_selective_ack, bind, get_sk, ck_u16, arith, unwrap, ret, fail. destruct (is_nil _); [|destruct (_ && _)]; try destruct (sack_build _ _ _); intros H; now injection H as <- <-. }
  destruct (build_selective_ack s) as [[sack|] t] eqn:E; [|discriminate]. rewrite (HB _ _ eq_refl). destruct (is_nil sack); [intros H; now injection H as <- <-|].
  unfold unwrap, ret, fail. destruct (set_sack _ _); intros H; [now injection H as <- <-|discriminate].
Qed.
(** The end, or nothing of interest. *)
Definition ends (p : packet) (s s' : st) : Prop := w_in (wd s') = w_in (wd s) /\ (key (sk s') = key (sk s) \/ (s_state (sk s') = Closed /\ closing (sk s) p)).
Lemma dispatch_ends rec p ty src s : s_state (sk s) = FinSent -> get_type p = Some ty -> own_id (sk s) p \/ ty = PSyn ->
  wp (dispatch rec p ty src) (fun o s' => match o with Ret _ => ends p s s' | _ => True end) s.
Proof.
  intros HS HT HO. unfold dispatch. do 2 wstep. rewrite HS. destruct ty.
  - unfold handle_data_packet. do 2 wstep. cbv zeta. apply wp_bind. unfold wp at 1. rewrite prepare_reply_eq. cbn [fst snd]. wstep. apply wp_intro. intros [r|f] t E; [|exact I].
    apply attach_sack_same in E. subst t. wstep. split; [reflexivity|left; reflexivity].
  - apply wp_bind. unfold wp at 1. rewrite prepare_reply_eq. cbn [fst snd]. wstep. apply wp_intro. intros [r|f] t E; [|exact I].
    apply attach_sack_same in E. subst t. do 3 wstep. split; [reflexivity|right]. split; [reflexivity|]. split; [destruct HO as [HO|HO]; [exact HO|discriminate]|left; exact HT].
  - wstep. wstep; wstep; wstep; split; try reflexivity; [|left; reflexivity]. right. split; [reflexivity|]. split; [destruct HO as [HO|HO]; [exact HO|discriminate]|right; split; [exact HT|lia]].
  - do 2 wstep. wstep. exact I.
  - apply wp_bind. unfold wp at 1. rewrite prepare_reply_eq. cbn [fst snd]. wstep. split; [reflexivity|left; reflexivity].
Qed.
Lemma handle_ends rec p src s : s_state (sk s) = FinSent -> wp (handle_packet rec p src) (fun o s' => match o with Ret _ => ends p s s' | _ => True end) s.
Proof.
  intros HS. unfold handle_packet, ack_in_order. do 2 wstep. wstep. unfold m_get_type. apply wp_unwrap; [|intros _; exact I]. intros ty HT. do 2 wstep.
  match goal with |- wp _ _ ?t => set (s1 := t) end. assert (HK : key (sk s1) = key (sk s)) by (unfold s1; cbn [sk]; apply (key_acked p (sk s))).
  assert (HS1 : s_state (sk s1) = FinSent) by (rewrite <- HS; exact (f_equal (fun x => fst (fst (fst x))) HK)).
  assert (HW : w_in (wd s1) = w_in (wd s)) by reflexivity. clearbody s1.
  assert (TR : forall s2 s', key (sk s2) = key (sk s) -> w_in (wd s2) = w_in (wd s) -> ends p s2 s' -> ends p s s').
  { intros s2 s' E1 E2 (A & B). split; [congruence|]. destruct B as [B|[B1 B2]]; [left; congruence|right; split; [exact B1|eapply closing_key; eassumption]]. }
  wstep.
  - apply wp_bind. unfold wp at 1. rewrite prepare_reply_eq. cbn [fst snd]. wstep. split; [exact HW|left; exact HK].
  - do 6 wstep. match goal with |- wp _ _ ?t => set (s2 := t); assert (K2 : key (sk s2) = key (sk s)) by exact HK; assert (W2 : w_in (wd s2) = w_in (wd s)) by exact HW; assert (S2 : s_state (sk s2) = FinSent) by exact HS1;
      assert (O2 : own_id (sk s2) p \/ ty = PSyn) by (unfold own_id, s2; sproj; rewrite HS1 in Heqb; destruct ty; try (right; reflexivity); left; (destruct (connection_id p =? s_sender_connection_id (sk s1)) eqn:E1; [left; apply Z.eqb_eq; exact E1|destruct (connection_id p =? s_receiver_connection_id (sk s1)) eqn:E2; [right; apply Z.eqb_eq; exact E2|discriminate]])) end. clearbody s2.
    eapply wp_conseq; [apply (dispatch_ends rec p ty src s2 S2 HT O2)|]. intros [r|f] s' H; [|exact I]. eapply TR; eassumption.
Qed.

Lemma process_ends rec n b src s : s_state (sk s) = FinSent -> wp (process_datagram rec n b src) (fun o s' => match o with
  | Ret _ => w_in (wd s') = w_in (wd s) /\ (key (sk s') = key (sk s) \/ (s_state (sk s') = Closed /\ exists p, packet_try_from b = Some (Ok p) /\ closing (sk s) p)) | _ => True end) s.
Proof.
  intros HS. unfold process_datagram. wstep. apply wp_unwrap; [|intros _; exact I]. intros [p|e] HP; [|do 3 wstep; split; [reflexivity|left; reflexivity]].
  wstep. eapply wp_conseq; [apply (handle_ends rec p src s HS)|]. intros [r|f] t H; cbv beta iota in H |- *; [|exact I]. destruct H as [HW HE].
  assert (TX : forall a p t, w_in (wd (tx_state a p t)) = w_in (wd t)) by (intros; unfold tx_state; sproj; destruct (tx_ok _); reflexivity).
  assert (REST : forall u, w_in (wd u) = w_in (wd s) -> sk u = sk t -> wp (ty <- m_get_type p ;; s <- get_sk ;; (if ptype_eqb ty PData && (0 <? u16 (seq_nr p - s_last_dropped s)) then insert_into_buffer p else ret tt) ;;; data <- flush_incoming_buffer n ;; ret (data, src))
    (fun o s' => match o with Ret _ => w_in (wd s') = w_in (wd s) /\ (key (sk s') = key (sk s) \/ (s_state (sk s') = Closed /\ exists p, packet_try_from b = Some (Ok p) /\ closing (sk s) p)) | _ => True end) u).
  { intros u HU HK. unfold m_get_type. wstep. apply wp_unwrap; [|intros _; exact I]. intros ty HT. do 3 wstep.
    apply wp_intro. intros [[]|f] v EV; [|exact I].
    assert (HV : key (sk v) = key (sk t) /\ w_in (wd v) = w_in (wd s)).
    { rewrite <- HK. destruct (_ && _) in EV; [unfold insert_into_buffer, upd_sk in EV|unfold ret in EV]; injection EV as <-; split; try exact HU; reflexivity. }
    destruct HV as [K1 W1]. wstep. eapply wp_conseq; [apply (flush_incoming_spec n v)|]. intros [d|f] w H; cbv beta iota in H |- *; [|exact I]. destruct H as [_ ->]. wstep. cbn [sk wd].
    split; [exact W1|]. pose proof (key_flush n (sk v)) as K2. rewrite K1 in K2. destruct HE as [HE|[HE1 HE2]].
    - left. rewrite K2. exact HE.
    - right. split; [rewrite <- HE1; exact (f_equal (fun x => fst (fst (fst x))) K2)|]. exists p. auto. }
  wstep. destruct r as [pkt|].
  - wstep. apply wp_udp_send; [intros _|intros k _|intros _; exact I]; (apply wp_try; [intros [] _|intros ? _; exact I]); apply REST; try (rewrite TX; exact HW); reflexivity.
  - wstep. apply REST; [exact HW|reflexivity].
Qed.
Lemma recv_ends n s : s_state (sk s) = FinSent -> wp (recv n) (fun o s' => match o with
  | Ret _ => exists pre d src, w_in (wd s) = pre ++ RxDgram d src :: w_in (wd s') /\
      (key (sk s') = key (sk s) \/ (s_state (sk s') = Closed /\ exists p, packet_try_from (firstn 1520 d) = Some (Ok p) /\ closing (sk s) p)) | _ => True end) s.
Proof.
  intros HS. unfold recv. do 2 wstep. cbn [recv_fuel]. unfold recv_body. wstep. eapply wp_conseq; [apply wait_key|]. intros [[b src]|f] t H; cbv beta iota in H |- *; [|exact I].
  cbn [fst snd] in *. destruct H as (HK & pre & d & HI & ->). assert (HT : s_state (sk t) = FinSent) by (rewrite <- HS; exact (f_equal (fun x => fst (fst (fst x))) HK)).
  eapply wp_conseq; [apply (process_ends _ n _ src t HT)|]. intros [x|f] u H; cbv beta iota in H |- *; [|exact I]. destruct H as [HW HE]. exists pre, d, src. split; [now rewrite HW|].
  destruct HE as [HE|(HE & p & HP & HC)]; [left; congruence|right]. split; [exact HE|]. exists p. split; [exact HP|]. eapply closing_key; eassumption.
Qed.
Lemma close_loop_ends fuel s : s_state (sk s) = FinSent ->
  wp (loop fuel (fun _ : unit => s <- get_sk ;; if sstate_eqb (s_state s) Closed then ret (inr tt) else recv BUF_SIZE ;;; ret (inl tt)) tt)
    (fun o s' => match o with Ret _ => exists pre d src p, w_in (wd s) = pre ++ RxDgram d src :: w_in (wd s') /\ packet_try_from (firstn 1520 d) = Some (Ok p) /\ closing (sk s) p | _ => True end) s.
Proof.
  intros HS. apply (wp_loop (fun _ t => (key (sk t) = key (sk s) /\ exists pre, w_in (wd s) = pre ++ w_in (wd t)) \/
    (s_state (sk t) = Closed /\ exists pre d src p, w_in (wd s) = pre ++ RxDgram d src :: w_in (wd t) /\ packet_try_from (firstn 1520 d) = Some (Ok p) /\ closing (sk s) p))).
  - left. split; [reflexivity|]. now exists [].
  - intros; exact I.
  - intros [] t H. do 2 wstep. destruct H as [(HK & pre & HI)|(HC & H)].
    + assert (HT : s_state (sk t) = FinSent) by (rewrite <- HS; exact (f_equal (fun x => fst (fst (fst x))) HK)). rewrite HT. cbn [sstate_eqb]. wstep.
      eapply wp_conseq; [apply (recv_ends BUF_SIZE t HT)|]. intros [x|f] u H; cbv beta iota in H |- *; [|exact I]. wstep. destruct H as (pre' & d & src & EI & HE). destruct HE as [HE|(HE & p & HP & HC)].
      * left. split; [congruence|]. exists (pre ++ pre' ++ [RxDgram d src]). rewrite <- !app_assoc. cbn [app]. now rewrite HI, EI.
      * right. split; [exact HE|]. exists (pre ++ pre'), d, src, p. rewrite <- app_assoc, HI, EI. split; [reflexivity|]. split; [exact HP|]. eapply closing_key; eassumption.
    + rewrite HC. cbn [sstate_eqb]. wstep. exact H.
Qed.
Lemma close_ends s s' : s_state (sk s) <> New -> s_state (sk s) <> SynSent -> s_state (sk s) <> Closed -> close s = (Ret tt, s') ->
  exists t pre d src p, flush s = (Ret tt, t) /\ w_in (wd t) = pre ++ RxDgram d src :: w_in (wd s') /\ packet_try_from (firstn 1520 d) = Some (Ok p) /\ closing (sk t) p.
Proof.
  intros H1 H2 H3 H. unfold close, bind at 1, get_sk at 1 in H.
  assert (H' : (flush ;;; send_fin ;;; upd_sk (ss_state FinSent) ;;; fuel <- event_fuel ;;
    loop fuel (fun _ : unit => s <- get_sk ;; if sstate_eqb (s_state s) Closed then ret (inr tt) else recv BUF_SIZE ;;; ret (inl tt)) tt) s = (Ret tt, s')).
  { destruct (s_state (sk s)); try congruence; exact H. }
  clear H. unfold bind at 1 in H'. destruct (flush s) as [[[]|e] t] eqn:EF; [|discriminate]. exists t. unfold bind at 1 in H'. destruct (send_fin t) as [[[]|e] u] eqn:EN; [|discriminate].
  assert (HU : sk u = sk t /\ w_in (wd u) = w_in (wd t)).
  { revert EN. unfold send_fin, bind at 1, get_sk at 1. unfold bind at 1, now_microseconds. unfold bind, udp_send. destruct (w_send _ _); cbn [try_ ret throw]; intros E; try discriminate. now injection E as <-. }
  destruct HU as [K1 W1]. unfold bind at 1, upd_sk at 1 in H'. unfold bind at 1, event_fuel at 1 in H'.
  match type of H' with loop ?f _ tt ?v = _ => pose proof (wp_eq _ _ _ _ _ H' (close_loop_ends f v eq_refl)) as H end. cbv beta iota in H. destruct H as (pre & d & src & p & HI & HP & HC).
  sproj_in HI. rewrite W1 in HI. exists pre, d, src, p. split; [reflexivity|]. split; [exact HI|]. split; [exact HP|]. revert HC. unfold closing, own_id. sproj. rewrite K1. exact (fun H => H).
Qed.
