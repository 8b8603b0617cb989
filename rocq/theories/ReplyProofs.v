(** What is sent in answer to a received packet (C75, C76), errors of the UDP socket (C77), connects that fail (C79). *)
From Verif Require Export ConnProofs SendProofs.
Require Import ZifyBool ZifyNat ZifyN.
Local Open Scope Z_scope.
Ltac Zify.zify_post_hook ::= Z.div_mod_to_equations.

(** The type of the reply due to a packet of type [ty] in a given state. *)
Definition due (state : sstate) (ty : ptype) : option ptype :=
  match ty, state with
  | PData, Connected => Some PState
  | PData, FinSent => Some PFin
  | PFin, (Connected | FinSent | Closed) => Some PState
  | PSyn, (Connected | FinSent | Closed | ResetReceived) => Some PReset
  | _, _ => None
  end.
(** The number acknowledged once a packet numbered [sq] has been received. *)
Definition next_ack (ack sq : Z) : Z := if (sq - ack) mod 65536 =? 1 then sq else ack.
Lemma acked_next p k : s_ack_nr (acked_sk p k) = next_ack (s_ack_nr k) (seq_nr p).
Proof. unfold acked_sk, next_ack. rewrite u16_eq. destruct (_ =? 1); reflexivity. Qed.

Definition only_ticked (s s' : st) : Prop := exists n, wd s' = sw_tick n (wd s).
Lemma only_ticked_refl s : only_ticked s s. Proof. exists (w_tick (wd s)). destruct s as [k []]; reflexivity. Qed.

Definition replied (t : ptype) (p : packet) (s : st) (o : outcome (option packet)) (s' : st) : Prop :=
  match o with
  | Ret r => (exists ts tsd exts, r = Some (wire (mkHdr t (s_sender_connection_id (sk s)) ts tsd 0 (s_seq_nr (sk s)) (next_ack (s_ack_nr (sk s)) (seq_nr p))) exts [])) /\ only_ticked s s'
  | Fail (Panic _) => True
  | Fail _ => False
  end.
Lemma reply_due rec p ty src t s : get_type p = Some ty -> own_id (sk s) p \/ ty = PSyn -> due (s_state (sk s)) ty = Some t ->
  wp (handle_packet rec p src) (replied t p s) s.
Proof.
  intros HT HO HD. unfold wp. rewrite (handle_own rec p src ty s HT ltac:(tauto)).
  set (s1 := noted p s). assert (E1 : s_state (sk s1) = s_state (sk s)) by (unfold s1, noted; sproj; now apply acked_other).
  assert (E2 : s_sender_connection_id (sk s1) = s_sender_connection_id (sk s)) by (unfold s1, noted; sproj; now apply acked_other).
  assert (E3 : s_seq_nr (sk s1) = s_seq_nr (sk s)) by (unfold s1, noted; sproj; now apply acked_other).
  assert (E4 : s_ack_nr (sk s1) = next_ack (s_ack_nr (sk s)) (seq_nr p)) by (unfold s1, noted; sproj; apply acked_next).
  assert (E5 : only_ticked s s1) by (exists (S (w_tick (wd s))); reflexivity). clearbody s1.
  match goal with |- replied _ _ _ (fst (?m s1)) _ => change (wp m (replied t p s) s1) end.
  assert (HP : forall t', t' = t -> wp (r <- prepare_reply p t' ;; ret (Some r)) (replied t p s) s1).
  { intros t' ->. unfold wp, bind. rewrite prepare_reply_eq. cbn [ret fst snd]. split; [|destruct E5 as [n E5]; exists (S (w_tick (wd s1))); unfold ticked; sproj; rewrite E5; destruct (wd s); reflexivity].
    unfold reply_to. rewrite E2, E3, E4. eauto. }
  assert (HS : forall t' (m : packet -> M (option packet)), t' = t -> (forall r u, only_ticked s u -> exists u', m r u = (Ret (Some r), u') /\ only_ticked s u') ->
    wp (r <- prepare_reply p t' ;; r' <- attach_sack p r ;; m r') (replied t p s) s1).
  { intros t' m -> Hm. apply wp_bind. unfold wp. rewrite prepare_reply_eq. cbn [fst snd].
    assert (E6 : only_ticked s (ticked s1)) by (destruct E5 as [n E5]; exists (S (w_tick (wd s1))); unfold ticked; sproj; rewrite E5; destruct (wd s); reflexivity).
    match goal with |- replied _ _ _ (fst (?m ?u)) _ => change (wp m (replied t p s) u) end. apply wp_bind.
    eapply wp_conseq; [apply (attach_sack_spec (fun _ _ => False) (fun _ => True)) with (t := t)|].
    { intros ? ? []. } { intros; exact I. } { intros; exact I. }
    { unfold reply_to. eexists _, _. split; [|split; [|reflexivity]]; [apply micros_range|apply u32_range]. }
    cbv beta. intros [r'|[]] u H; try contradiction; try exact I. destruct H as (-> & ts & tsd & exts & _ & _ & _ & ->).
    match goal with |- wp (m ?r) _ _ => destruct (Hm r _ E6) as (u' & Hu & Hu') end. unfold wp. rewrite Hu. cbn [fst snd replied].
    split; [|exact Hu']. unfold ticked. sproj. rewrite E2, E3, E4. eauto. }
  unfold dispatch. do 2 wstep. rewrite E1. unfold due in HD. destruct ty, (s_state (sk s)); try discriminate HD; injection HD as <-.
  all: try match goal with |- wp (bind (prepare_reply _ _) (fun r => ret (Some r))) _ _ => apply HP; reflexivity end.
  1,2: unfold handle_data_packet; do 2 wstep; rewrite E1; cbn [sstate_eqb]; apply (HS _ (fun r => ret (Some r))); [reflexivity|]; intros r u Hu; exists u; auto.
  all: apply (HS _ (fun r => bind (upd_sk (ss_state Closed)) (fun _ => ret (Some r)))); [reflexivity|]; intros r u [n Hu]; unfold bind, upd_sk, ret; eexists; split; [reflexivity|]; exists n; exact Hu.
Qed.

Lemma answer_sends p ty n src r s : tx_ok s = true -> wp (answer p ty n src (Some r)) (fun _ u => w_sent (wd u) = w_sent (wd s) ++ [(src, set_wnd_size 1048576 r)] /\
  w_in (wd u) = w_in (wd s)) s.
Proof.
  intros HX. unfold answer. apply wp_bind, wp_bind. unfold wp at 1. rewrite (send_ok_eq src (set_wnd_size WINDOW_SIZE r) s HX). cbn [fst snd try_]. change WINDOW_SIZE with 1048576. wstep.
  set (s2 := tx_state _ _ s).
  assert (E2 : w_sent (wd s2) = w_sent (wd s) ++ [(src, set_wnd_size 1048576 r)] /\ w_in (wd s2) = w_in (wd s)) by (unfold s2, tx_state; rewrite HX; sproj; auto).
  clearbody s2. rewrite <- (proj1 E2), <- (proj2 E2). clear E2.
  apply (wp_conseq _ (fun _ u => wd u = wd s2)); [|intros ? u ->; auto].
  do 2 wstep.
  assert (HF : forall u, wd u = wd s2 -> wp (data <- flush_incoming_buffer n ;; ret (data, src)) (fun _ u' => wd u' = wd s2) u).
  { intros u Hu. apply wp_bind. eapply wp_conseq; [apply flush_incoming_spec|]. cbv beta. intros [dd|[]] u' H; try contradiction; [|now subst]. destruct H as [_ ->]. wstep. exact Hu. }
  wstep. destruct (_ && _); [unfold insert_into_buffer|]; wstep; apply HF; reflexivity.
Qed.
(** The whole receive: exactly this one datagram is sent, straight away. *)
Lemma recv_due n d src p ty rest t s : w_in (wd s) = RxDgram d src :: rest -> 0 < s_max_retries (sk s) ->
  packet_try_from (firstn 1520 d) = Some (Ok p) -> get_type p = Some ty -> own_id (sk s) p \/ ty = PSyn -> due (s_state (sk s)) ty = Some t -> tx_ok s = true ->
  (forall l, fst (recv n s) <> Fail (Panic l)) ->
  exists ts tsd exts, w_sent (wd (snd (recv n s))) = w_sent (wd s) ++
    [(src, wire (mkHdr t (s_sender_connection_id (sk s)) ts tsd 1048576 (s_seq_nr (sk s)) (next_ack (s_ack_nr (sk s)) (seq_nr p))) exts [])] /\ w_in (wd (snd (recv n s))) = rest.
Proof.
  intros HI HM HP HT HO HD HX. rewrite (recv_first n d src rest s HI HM), (process_packet _ _ _ _ p ty _ HP HT). intros HN.
  pose proof (reply_due (recv_fuel (length (w_in (wd s)))) p ty src t (rx_state s) HT HO HD) as HR. unfold wp in HR.
  unfold bind in HN |- *. fold (answer p ty n src) in HN.
  destruct (handle_packet _ p src (rx_state s)) as [[r|e] s1]; cbn [fst snd replied] in *; [|destruct e; try contradiction; now elim (HN line)].
  clear HN. destruct HR as [(ts & tsd & exts & ->) [m HW]]. exists ts, tsd, exts.
  assert (HX1 : tx_ok s1 = true) by (unfold tx_ok; rewrite HW; exact HX).
  match goal with |- context [answer p ty n src (Some ?r) s1] => pose proof (answer_sends p ty n src r s1 HX1) as HA end. unfold wp in HA. destruct HA as [HA1 HA2]. split.
  - etransitivity; [exact HA1|]. rewrite set_wnd_wire, HW. sproj. reflexivity.
  - etransitivity; [exact HA2|]. rewrite HW. unfold rx_state. sproj. rewrite HI. reflexivity.
Qed.

(** ** Packets that get no reply *)
Lemma no_reply rec p ty src s : get_type p = Some ty -> ty = PState \/ ty = PReset -> own_id (sk s) p \/ s_state (sk s) = SynSent ->
  wp (handle_packet rec p src) (fun o _ => forall r, o <> Ret (Some r)) s.
Proof.
  intros HT HY HO. unfold wp. rewrite (handle_own rec p src ty s HT ltac:(tauto)). match goal with |- forall r, fst (?m ?u) <> _ => change (wp m (fun o _ => forall r, o <> Ret (Some r)) u); set (s1 := u) end.
  clearbody s1. unfold dispatch. do 2 wstep. destruct HY as [-> | ->], (s_state (sk s1)); repeat (first [wstep|discriminate|intros _|intros ?]); try discriminate.
  all: eapply wp_conseq; [apply wp_intro; intros o u _; exact I|]; cbv beta; intros [|] u _; [wstep; discriminate|discriminate].
Qed.
(** Own resets: nothing at all is sent. *)

(** ** Errors of the UDP socket *)
Lemma recv_error n k rest s : w_in (wd s) = RxErr k :: rest -> is_timeout k = false -> 0 < s_max_retries (sk s) -> recv n s = (Fail (Throw k), rx_state s).
Proof.
  intros HI HK HM. unfold recv, bind at 1, event_fuel. change (recv_fuel (S ?x) n) with (recv_body (recv_fuel x) n).
  unfold recv_body, bind at 1, wait_datagram, bind at 1, event_fuel. rewrite HI. cbn [length loop].
  unfold bind at 1 2, get_sk at 1. replace (s_max_retries (sk s) <=? 0) with false by lia.
  unfold bind at 1, udp_recv. rewrite HI. cbn. rewrite HK. unfold rx_state. rewrite HI. reflexivity.
Qed.

(** ** A connect that fails *)
Definition unopen (s : st) : Prop := s_state (sk s) = New \/ s_state (sk s) = SynSent.
Definition gives_up (o : outcome unit) (s : st) : Prop := match o with Ret _ => True | Fail (Panic _) => True | Fail _ => unopen s end.
Definition awaiting {A} (o : outcome A) (s : st) : Prop := match o with Ret _ => s_state (sk s) = SynSent | Fail _ => unopen s end.
Lemma syn_loop_awaiting tries : forall p s, unopen s -> s_state (sk s) = SynSent \/ (0 < tries)%nat -> wp (syn_loop tries p) awaiting s.
Proof.
  induction tries as [|tries IH]; intros p s HU HS; cbn [syn_loop]; [wstep; unfold awaiting; destruct HS; [assumption|lia]|]. do 2 wstep. cbv zeta. do 2 wstep. wstep. apply wp_udp_send.
  - intros _. wstep. cbn [try_]. wstep. wstep. wstep. apply wp_bind, wp_udp_recv; intros; try (right; reflexivity).
    + wstep. wstep. wstep. reflexivity.
    + destruct (is_timeout k); [apply IH; [right|left]; reflexivity|]. wstep. right. reflexivity.
  - intros k _. wstep. exact HU.
  - intros _. exact HU.
Qed.
Lemma connect_handles p src s : s_state (sk s) = SynSent -> wp (handle_packet recv p src) (fun o s' =>
  match o with Ret _ => s_state (sk s') = Connected \/ (get_type p = Some PSyn /\ s_state (sk s') = SynSent) | Fail (Panic _) => True | Fail _ => unopen s' end) s.
Proof.
  intros HS. destruct (get_type p) as [ty|] eqn:HT.
  - unfold wp. rewrite (handle_own recv p src ty s HT ltac:(tauto)). match goal with |- match fst (?m ?u) with _ => _ end => set (s1 := u); assert (E : s_state (sk s1) = SynSent) by (unfold s1, noted; sproj; rewrite <- HS; now apply acked_other) end.
    clearbody s1. unfold unopen. match goal with |- match fst (?m s1) with Ret _ => ?A | Fail _ => _ end => idtac end.
    assert (HW : wp (dispatch recv p ty src) (fun o s' =>
      match o with Ret _ => s_state (sk s') = Connected \/ (Some ty = Some PSyn /\ s_state (sk s') = SynSent) | Fail (Panic _) => True | Fail _ => s_state (sk s') = New \/ s_state (sk s') = SynSent end) s1); [|exact HW].
    unfold dispatch. do 2 wstep. rewrite E. destruct ty; try (wstep; right; exact E).
    + do 3 wstep. wstep; [intros; exact I|]. intros _. repeat wstep. left. reflexivity.
    + apply wp_bind. unfold wp at 1. rewrite prepare_reply_eq. cbn [fst snd]. wstep. right. split; [reflexivity|]. exact E.
  - unfold handle_packet, m_get_type, ack_in_order. wstep. apply wp_bind, wp_unwrap; [intros ty E; congruence|]. intros _. exact I.
Qed.
Lemma connect_outcome other bound s : unopen s -> wp (connect other bound) (fun o s' =>
  match o with Ret _ => s_state (sk s') = Connected \/ s_state (sk s') = SynSent | Fail (Panic _) => True | Fail _ => unopen s' end) s.
Proof.
  intros HU. unfold connect, bind_socket, take_address. destruct other as [[|a l]|k]; [wstep; exact HU| |wstep; exact HU].
  destruct bound as [[]|k]; [|repeat wstep; exact HU].
  wstep. wstep. apply wp_bind. repeat wstep.
  cbn [try_]. wstep. unfold from_raw_parts. apply wp_bind, wp_rand. intros v _. do 4 wstep.
  apply wp_bind. eapply wp_conseq; [apply syn_loop_awaiting; [left; reflexivity|right; unfold MAX_SYN_RETRIES; lia]|]. intros [b|[]] u Hu; try exact Hu; [|exact I].
  do 2 wstep. apply wp_bind, wp_unwrap; [|intros; exact I]. intros [p|e] _; [|wstep; right; exact Hu].
  apply wp_bind. eapply wp_conseq; [apply connect_handles; exact Hu|]. intros [r|[]] u' Hu'; try exact Hu'. wstep. tauto.
Qed.

Definition answered (r : packet) (t : ptype) (k : socket) (ack : Z) : Prop :=
  get_type r = Some t /\ connection_id r = s_sender_connection_id k /\ seq_nr r = s_seq_nr k /\ ack_nr r = ack /\ wnd_size r = 1048576.
Lemma recv_answers n d src p ty rest t s : reachable s -> w_in (wd s) = RxDgram d src :: rest -> 0 < s_max_retries (sk s) ->
  packet_try_from (firstn 1520 d) = Some (Ok p) -> get_type p = Some ty -> own_id (sk s) p \/ ty = PSyn -> due (s_state (sk s)) ty = Some t -> tx_ok s = true ->
  (forall l, fst (recv n s) <> Fail (Panic l)) ->
  exists r, w_sent (wd (snd (recv n s))) = w_sent (wd s) ++ [(src, r)] /\ answered r t (sk s) (next_ack (s_ack_nr (sk s)) (seq_nr p)) /\ w_in (wd (snd (recv n s))) = rest.
Proof.
  intros HR HI HM HP HT HO HD HX HN. destruct (recv_due n d src p ty rest t s HI HM HP HT HO HD HX HN) as (ts & tsd & exts & E1 & E2).
  eexists. split; [exact E1|]. split; [|exact E2]. unfold answered. rewrite get_type_wire, cid_wire, seq_wire, ack_wire, wnd_wire. cbn [h_type h_cid h_seq h_ack h_wnd].
  pose proof (reachable_ranges s HR) as G. pose proof (r_scid _ G). pose proof (r_seq _ G). pose proof (r_ack _ G). pose proof (seq_nr_range p).
  assert (0 <= next_ack (s_ack_nr (sk s)) (seq_nr p) < 65536) by (unfold next_ack; destruct ((seq_nr p - s_ack_nr (sk s)) mod 65536 =? 1); lia).
  rewrite !u16_small by assumption. auto.
Qed.

(** ** The connection id and destination of everything sent (C78) *)
Definition Wc (c : Z) (p : packet) : Prop := exists h pl, p = wire h [] pl /\ h_type h = PData /\ h_cid h = c.
Lemma Wc_ts c p t : Wc c p -> Wc c (set_timestamp t p).
Proof. intros (h & pl & -> & HT & HC). rewrite set_ts_wire. eexists _, pl. split; [reflexivity|]. auto. Qed.
Lemma Wc_tsd c p t : Wc c p -> Wc c (set_timestamp_difference t p).
Proof. intros (h & pl & -> & HT & HC). rewrite set_tsd_wire. eexists _, pl. split; [reflexivity|]. auto. Qed.
Lemma Wc_queue cs : forall k, queue_ok (Wc (s_sender_connection_id k)) cs k.
Proof. induction cs as [|c cs IH]; intros k; cbn [queue_ok]; [exact I|]. split; [rewrite chunk_packet_wire; eexists _, c; split; [reflexivity|]; auto|]. apply (IH (queue_chunk c k)). Qed.
(** A datagram of this connection: the sender's id, and data only to the peer. *)
Definition of_connection (c : Z) (a : addr) (x : addr * packet) : Prop := connection_id (snd x) = c /\ (get_type (snd x) = Some PData -> fst x = a).
Definition conn_inv (c : Z) (a : addr) (sent : list (addr * packet)) (s : st) : Prop :=
  (s_state (sk s) <> New /\ s_state (sk s) <> SynSent) /\ s_sender_connection_id (sk s) = c /\ s_connected_to (sk s) = a /\
  exists new, w_sent (wd s) = sent ++ new /\ Forall (of_connection c a) new.
Lemma flush_frame_ids n k : let k' := snd (flush_sk n k) in s_state k' = s_state k /\ s_sender_connection_id k' = s_sender_connection_id k /\ s_connected_to k' = s_connected_to k.
Proof.
  cbv zeta. assert (HA : forall k, s_state (advance_socket k) = s_state k /\ s_sender_connection_id (advance_socket k) = s_sender_connection_id k /\ s_connected_to (advance_socket k) = s_connected_to k) by (intros k'; unfold advance_socket; destruct (s_incoming_buffer k'); auto).
  unfold flush_sk. destruct (s_pending_data k); [destruct (s_incoming_buffer k); [auto|]; destruct (_ || _); [|auto];
    destruct (payload _); [|auto]|]; cbn [snd]; cbv zeta; destruct (_ =? _)%nat; auto; apply (HA (ss_pending_data [] k)).
Qed.
Lemma base_frame_ids d now k : let k' := base_delay_socket d now k in s_state k' = s_state k /\ s_sender_connection_id k' = s_sender_connection_id k /\ s_connected_to k' = s_connected_to k.
Proof. unfold base_delay_socket. destruct (_ || _); [auto|]. cbv zeta. destruct (_ <? _); auto. Qed.
Lemma skstep_ids k k' : skstep G0 k k' -> s_state k <> New /\ s_state k <> SynSent -> (s_state k' <> New /\ s_state k' <> SynSent) /\ s_sender_connection_id k' = s_sender_connection_id k /\ s_connected_to k' = s_connected_to k.
Proof.
  intros H [H1 H2]; destruct H; sproj; try (repeat split; auto; discriminate); try contradiction.
  - destruct (base_frame_ids d now k) as (-> & -> & ->); auto.
  - destruct (flush_frame_ids n k) as (-> & -> & ->); auto.
Qed.
Lemma conn_inv_tx c a sent s dest p : 0 <= c < 65536 -> conn_inv c a sent s -> of_connection c a (dest, p) -> conn_inv c a sent (tx_state dest p s).
Proof.
  intros HC (H1 & H2 & H3 & new & H4 & H5) HO. unfold conn_inv, tx_state. sproj. split; [exact H1|]. split; [exact H2|]. split; [exact H3|].
  destruct (tx_ok s); sproj; [|eauto]. exists (new ++ [(dest, p)]). rewrite H4, app_assoc. split; [reflexivity|]. apply Forall_app. auto.
Qed.
Lemma ostep_conn c a sent s s' : 0 <= c < 65536 -> ostep G0 (Wc c) s s' -> conn_inv c a sent s -> conn_inv c a sent s'.
Proof.
  intros HC H HI. destruct H as [s s' H|s ch HW|s p rest HU|s p HW|s ts Hts HW HS|s HW HS|s n Hn]; try exact HI.
  - destruct H as [s k H|s|s|s ev rest H|s dest p H]; try exact HI.
    + destruct HI as (H1 & H2 & H3 & H4). destruct (skstep_ids _ _ H H1) as (E1 & E2 & E3). unfold conn_inv. sproj. rewrite E2, E3. auto.
    + apply conn_inv_tx; [exact HC|exact HI|]. destruct HI as (H1 & H2 & H3 & _).
      destruct H as [orig src t ts tsd exts HG Ht|ts| ts|p HW]; unfold of_connection; cbn [fst snd];
        try (rewrite cid_wire, get_type_wire; cbn [h_cid h_type]; rewrite H2, u16_small by exact HC; split; [reflexivity|]; intros [= E]; try (subst t; destruct Ht as [|[|[? _]]]); discriminate).
      split; [destruct HW as (h & pl & -> & _ & E); rewrite cid_wire, E; now apply u16_small|auto].
  - apply conn_inv_tx; [exact HC|exact HI|]. destruct HI as (H1 & H2 & H3 & _). unfold of_connection; cbn [fst snd]. rewrite cid_wire, get_type_wire; cbn [h_cid h_type]. rewrite H2, u16_small by exact HC. split; [reflexivity|discriminate].
  - destruct HI as (H1 & H2 & H3 & H4). unfold conn_inv. sproj. repeat split; auto; discriminate.
Qed.
Lemma run_op_conn o c a sent s v s' : 0 <= c < 65536 -> conn_inv c a sent s -> Forall (Wc c) (s_send_window (sk s)) -> Forall (Wc c) (s_unsent_queue (sk s)) ->
  run_op o s = (v, s') -> not_panic v -> conn_inv c a sent s' /\ Forall (Wc c) (s_send_window (sk s')) /\ Forall (Wc c) (s_unsent_queue (sk s')).
Proof.
  intros HC HI H1 H2 HE HN.
  assert (HP : opre G0 (Wc c) s) by (split; [split; [apply evs_ok_G0|exact H1]|exact H2]).
  assert (HS : osteps G0 (Wc c) s s').
  { pose proof (run_op_osteps G0 (Wc c) G0_valid (Wc_ts c) (Wc_tsd c) o s) as HW. unfold wp in HW. rewrite HE in HW. cbn [fst snd] in HW.
    assert (HQ : op_queue_ok (Wc c) o (sk s)) by (destruct o; cbn; auto; destruct HI as (_ & <- & _); apply Wc_queue).
    specialize (HW HQ HP). destruct v as [v|[k|l| |]]; cbn in HW; auto; [apply HW|]. now destruct (HN l). }
  split; [|destruct (osteps_ind_inv G0 (Wc c) (opre G0 (Wc c)) (ostep_opre G0 (Wc c) (Wc_ts c)) s s' HS HP) as [[_ ?] ?]; auto].
  revert HI. apply (osteps_ind_inv G0 (Wc c) (conn_inv c a sent)); [|exact HS]. intros t t'. now apply ostep_conn.
Qed.
Lemma run_ops_conn ops : forall c a sent s, 0 <= c < 65536 -> conn_inv c a sent s -> Forall (Wc c) (s_send_window (sk s)) -> Forall (Wc c) (s_unsent_queue (sk s)) ->
  Forall not_panic (fst (run_ops ops s)) -> conn_inv c a sent (snd (run_ops ops s)).
Proof.
  induction ops as [|o ops IH]; intros c a sent s HC HI H1 H2; cbn [run_ops]; [auto|]. destruct (run_op o s) as [v s1] eqn:E.
  intros HF. assert (HN : not_panic v) by (destruct v as [x|[k|l| |]]; try discriminate; destruct (run_ops ops s1); now inversion HF).
  destruct (run_op_conn o c a sent s v s1 HC HI H1 H2 E HN) as (G1 & G2 & G3). specialize (IH c a sent s1 HC G1 G2 G3).
  destruct v as [x|[k|l| |]]; try (destruct (run_ops ops s1); cbn [fst snd] in *; inversion HF; subst; now apply IH). cbn [snd]. exact G1.
Qed.
