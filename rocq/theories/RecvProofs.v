(** Exact descriptions of what one received datagram does (C21, C22, C25-C29, C53). *)
From Verif Require Export BufferProofs CongProofs.
Require Import ZifyBool ZifyNat ZifyN.
Local Open Scope Z_scope.
Ltac Zify.zify_post_hook ::= Z.div_mod_to_equations.

Definition own_id (k : socket) (p : packet) : Prop := connection_id p = s_sender_connection_id k \/ connection_id p = s_receiver_connection_id k.
(** socket.rs:861-863 as a function on the socket *)
Definition acked_sk (p : packet) (k : socket) : socket := if u16 (seq_nr p - s_ack_nr k) =? 1 then ss_ack_nr (seq_nr p) k else k.
(** What every packet of this connection does before it is looked at by type. *)
Definition noted (p : packet) (s : st) : st :=
  mkSt (ss_their_delay (abs_diff (clock_now s) (timestamp p)) (ss_remote_wnd_size (wnd_size p) (acked_sk p (sk s)))) (wd (ticked s)).
Definition reply_to (p : packet) (t : ptype) (s : st) : packet :=
  wire (mkHdr t (s_sender_connection_id (sk s)) (clock_now s) (u32 (abs_diff (clock_now s) (timestamp p))) 0 (s_seq_nr (sk s)) (s_ack_nr (sk s))) [] [].

Lemma prepare_reply_eq p t s : prepare_reply p t s = (Ret (reply_to p t s), ticked s).
Proof.
  pose proof (prepare_reply_wire p t s) as H. unfold wp in H. destruct (prepare_reply p t s) as [o s']. cbn [fst snd] in H.
  destruct H as (-> & tsd & -> & ->). reflexivity.
Qed.
Lemma acked_cases p k : acked_sk p k = k \/ acked_sk p k = ss_ack_nr (seq_nr p) k /\ u16 (seq_nr p - s_ack_nr k) = 1.
Proof. unfold acked_sk. destruct (_ =? _) eqn:E; [right; split; [reflexivity|lia]|now left]. Qed.
Lemma acked_other {A} (f : socket -> A) p k : (forall v k, f (ss_ack_nr v k) = f k) -> f (acked_sk p k) = f k.
Proof. intros H. unfold acked_sk. destruct (_ =? _); [apply H|reflexivity]. Qed.

Section Rec.
  Variable rec : nat -> M (list byte * addr).

  Lemma handle_own p src ty s : get_type p = Some ty -> own_id (sk s) p \/ ty = PSyn \/ s_state (sk s) = SynSent ->
    handle_packet rec p src s = dispatch rec p ty src (noted p s).
  Proof.
    intros HT HO. unfold handle_packet, ack_in_order, m_get_type, bind, upd_sk, get_sk. rewrite HT. cbn [unwrap ret sk].
    fold (acked_sk p (sk s)).
    rewrite (acked_other s_state p), (acked_other s_sender_connection_id p), (acked_other s_receiver_connection_id p) by reflexivity.
    replace (negb _ && negb _ && negb _) with false; [reflexivity|].
    destruct HO as [[H|H]|[ -> | -> ]]; [rewrite H, Z.eqb_refl; cbn [orb negb]; now rewrite andb_false_r| |reflexivity|cbn; now rewrite andb_false_r].
    rewrite H, Z.eqb_refl, orb_true_r; cbn [orb negb]; now rewrite andb_false_r.
  Qed.
  Lemma handle_foreign p src ty s : get_type p = Some ty -> ty <> PSyn -> s_state (sk s) <> SynSent -> ~ own_id (sk s) p ->
    handle_packet rec p src s = (Ret (Some (reply_to p PReset (mkSt (acked_sk p (sk s)) (wd s)))), ticked (mkSt (acked_sk p (sk s)) (wd s))).
  Proof.
    intros HT HY HS HO. unfold handle_packet, ack_in_order, m_get_type, bind, upd_sk, get_sk. rewrite HT. cbn [unwrap ret sk].
    fold (acked_sk p (sk s)).
    rewrite (acked_other s_state p), (acked_other s_sender_connection_id p), (acked_other s_receiver_connection_id p) by reflexivity.
    replace (negb _ && negb _ && negb _) with true; [rewrite prepare_reply_eq; reflexivity|].
    unfold own_id in HO. destruct ty; try congruence; destruct (s_state (sk s)); try congruence; cbn [ptype_eqb sstate_eqb negb andb]; lia.
  Qed.
End Rec.

(** ** Receiving the first event *)
Lemma recv_first n d src rest s : w_in (wd s) = RxDgram d src :: rest -> 0 < s_max_retries (sk s) ->
  recv n s = process_datagram (recv_fuel (length (w_in (wd s)))) n (firstn (BUF_SIZE + HEADER_SIZE) d) src (rx_state s).
Proof.
  intros HI HM. unfold recv, bind at 1, event_fuel. change (recv_fuel (S ?x) n) with (recv_body (recv_fuel x) n).
  unfold recv_body, bind at 1, wait_datagram, bind at 1, event_fuel. cbn [loop]. unfold bind at 1, bind at 1, get_sk at 1.
  replace (s_max_retries (sk s) <=? 0) with false by lia. unfold bind at 1, udp_recv. rewrite HI. unfold ret. cbn [fst snd tl].
  unfold rx_state. rewrite HI. reflexivity.
Qed.

(** ** C28: datagrams that are not packets *)
Definition unparsable (b : list byte) : Prop := forall p, packet_try_from b <> Some (Ok p).
Lemma process_junk rec n b src s : unparsable b -> process_datagram rec n b src s = (Ret ([], s_connected_to (sk s)), s).
Proof.
  intros H. unfold process_datagram. destruct (parse_total b) as [[p|e] E]; [now elim (H p)|]. unfold bind. rewrite E. reflexivity.
Qed.

(** ** C29: packets of another connection *)
(** Nothing can be read without the network, and no empty packet is waiting to be dropped. *)
Definition drained (k : socket) : Prop :=
  s_pending_data k = [] /\ match s_incoming_buffer k with [] => True | q :: _ => seq_nr q <> s_ack_nr k /\ seq_nr q <> (s_ack_nr k + 1) mod 65536 end.
Lemma flush_drained n k : drained k -> flush_sk n k = ([], k).
Proof.
  intros [HP HB]. unfold flush_sk. rewrite HP. destruct (s_incoming_buffer k) as [|q buf]; [reflexivity|].
  rewrite <- u16_eq in HB. replace (_ || _) with false by lia. reflexivity.
Qed.
Lemma flush_drained_run n s : no_wrap_panic s -> 0 <= s_ack_nr (sk s) -> buf_inv (sk s) -> drained (sk s) -> flush_incoming_buffer n s = (Ret [], s).
Proof. intros H1 H2 H3 H4. rewrite flush_run, flush_drained by assumption. cbn [fst snd]. now rewrite st_sk_same. Qed.

Lemma send_ok_eq dest p s : tx_ok s = true -> udp_send dest p s = (Ret (Ok tt), tx_state dest p s).
Proof. unfold tx_ok, tx_state, udp_send, tx_ok. destruct (w_send _ _); congruence. Qed.
(** The tail of [process_datagram]: reply, insertion, delivery. *)
Definition answer (p : packet) (ty : ptype) (n : nat) (src : addr) (reply : option packet) : M (list byte * addr) :=
  (match reply with Some pkt => r <- udp_send src (set_wnd_size WINDOW_SIZE pkt) ;; try_ r | None => ret tt end) ;;;
  s <- get_sk ;;
  (if ptype_eqb ty PData && (0 <? u16 (seq_nr p - s_last_dropped s)) then insert_into_buffer p else ret tt) ;;;
  data <- flush_incoming_buffer n ;;
  ret (data, src).
Lemma process_packet rec n b src p ty s : packet_try_from b = Some (Ok p) -> get_type p = Some ty ->
  process_datagram rec n b src s = (reply <- handle_packet rec p src ;; answer p ty n src reply) s.
Proof.
  intros HP HT. unfold process_datagram, answer, m_get_type, bind. rewrite HP. cbn [unwrap ret].
  destruct (handle_packet rec p src s) as [[[r|]|e] s1]; try reflexivity; [|now rewrite HT].
  destruct (udp_send src _ s1) as [[[[]|k]|e] s2]; try reflexivity. cbn [try_ ret]. now rewrite HT.
Qed.
Lemma foreign_recv n d src p ty rest s : w_in (wd s) = RxDgram d src :: rest -> 0 < s_max_retries (sk s) ->
  packet_try_from (firstn (BUF_SIZE + HEADER_SIZE) d) = Some (Ok p) -> get_type p = Some ty ->
  ty <> PSyn -> ty <> PData -> s_state (sk s) <> SynSent -> ~ own_id (sk s) p -> (seq_nr p - s_ack_nr (sk s)) mod 65536 <> 1 ->
  tx_ok s = true -> no_wrap_panic s -> 0 <= s_ack_nr (sk s) -> buf_inv (sk s) -> drained (sk s) ->
  exists s', recv n s = (Ret ([], src), s') /\ sk s' = sk s /\ w_in (wd s') = rest /\
    w_sent (wd s') = w_sent (wd s) ++ [(src, set_wnd_size WINDOW_SIZE (reply_to p PReset s))].
Proof.
  intros HI HM HP HT HY HD HS HO HA HX HW H0 HB HDr. rewrite (recv_first n d src rest s HI HM).
  rewrite (process_packet _ _ _ _ p ty _ HP HT). unfold bind at 1.
  rewrite (handle_foreign _ p src ty (rx_state s) HT HY HS HO).
  assert (EA : acked_sk p (sk s) = sk s). { unfold acked_sk. rewrite u16_eq. replace (_ =? 1) with false by lia. reflexivity. }
  change (sk (rx_state s)) with (sk s). rewrite EA. unfold answer, bind at 1, bind at 1.
  rewrite send_ok_eq by exact HX. cbn [try_ ret]. unfold bind at 1, get_sk at 1.
  replace (ptype_eqb ty PData) with false by (destruct ty; try reflexivity; congruence). cbn [andb]. unfold bind at 1, ret at 1, bind at 1.
  assert (ETX : tx_ok (ticked {| sk := sk s; wd := wd (rx_state s) |}) = true) by exact HX.
  rewrite flush_drained_run; [|unfold no_wrap_panic, tx_state; rewrite ETX; exact HW|exact H0|exact HB|exact HDr].
  eexists. split; [reflexivity|]. unfold tx_state. rewrite ETX. cbn. rewrite HI. repeat split.
Qed.

(** ** C27: resets *)
Lemma reset_recv n d src p rest s : w_in (wd s) = RxDgram d src :: rest -> 0 < s_max_retries (sk s) ->
  packet_try_from (firstn (BUF_SIZE + HEADER_SIZE) d) = Some (Ok p) -> get_type p = Some PReset -> s_state (sk s) <> SynSent -> own_id (sk s) p ->
  exists s', recv n s = (Fail (Throw KConnectionReset), s') /\ s_state (sk s') = ResetReceived /\
    s_pending_data (sk s') = s_pending_data (sk s) /\ s_incoming_buffer (sk s') = s_incoming_buffer (sk s) /\
    s_last_dropped (sk s') = s_last_dropped (sk s) /\ s_ack_nr (sk s') = s_ack_nr (acked_sk p (sk s)) /\
    w_sent (wd s') = w_sent (wd s) /\ w_in (wd s') = rest.
Proof.
  intros HI HM HP HT HS HO. rewrite (recv_first n d src rest s HI HM).
  rewrite (process_packet _ _ _ _ p PReset _ HP HT). unfold bind at 1. rewrite (handle_own _ p src PReset (rx_state s) HT (or_introl HO)).
  unfold dispatch, bind at 1, get_sk at 1. unfold noted. sproj. rewrite (acked_other s_state) by reflexivity. change (sk (rx_state s)) with (sk s).
  destruct (s_state (sk s)); try congruence; (eexists; split; [reflexivity|]; sproj; unfold ticked, rx_state; sproj; rewrite HI; cbn [tl];
    rewrite (acked_other s_pending_data), (acked_other s_incoming_buffer), (acked_other s_last_dropped) by reflexivity; repeat split; reflexivity).
Qed.
Lemma reset_drained n s : no_wrap_panic s -> 0 <= s_ack_nr (sk s) -> buf_inv (sk s) -> drained (sk s) -> s_state (sk s) = ResetReceived ->
  recv_from n s = (Fail (Throw KConnectionReset), s).
Proof. intros H1 H2 H3 H4 HS. unfold recv_from, bind at 1. rewrite flush_drained_run by assumption. unfold bind, get_sk. rewrite HS. reflexivity. Qed.

(** ** C25: end of stream *)
Lemma closed_drained n s : no_wrap_panic s -> 0 <= s_ack_nr (sk s) -> buf_inv (sk s) -> drained (sk s) -> s_state (sk s) = Closed ->
  recv_from n s = (Ret ([], s_connected_to (sk s)), s).
Proof. intros H1 H2 H3 H4 HS. unfold recv_from, bind at 1. rewrite flush_drained_run by assumption. unfold bind, get_sk, event_fuel. cbn [loop]. rewrite HS. cbn. unfold bind, get_sk. rewrite HS. reflexivity. Qed.
Definition no_empty_packet (k : socket) : Prop := Forall (fun q => payload q <> Some []) (s_incoming_buffer k).
Lemma unavailable_drained k : buf_inv k -> no_empty_packet k -> available k = [] -> drained k.
Proof.
  intros HB HN HA. unfold available in HA. unfold drained, no_empty_packet in *. destruct (s_pending_data k) as [|b0 pend]; [|destruct (s_incoming_buffer k); discriminate].
  split; [reflexivity|]. destruct (s_incoming_buffer k) as [|q buf] eqn:EB; [exact I|]. cbn [ready_bytes] in HA.
  destruct ((seq_nr q =? s_ack_nr k) || (seq_nr q =? (s_ack_nr k + 1) mod 65536)) eqn:E; [exfalso|lia].
  unfold buf_inv in HB. rewrite EB in HB. destruct HB as [_ HB]. inversion HB as [|? ? HQ]; subst. apply buffered_payload in HQ.
  inversion HN as [|? ? HE]; subst. rewrite HQ in HE. destruct (payload_of q); [congruence|discriminate].
Qed.

(** A FIN of this connection closes the socket and is answered by a State packet. *)
Lemma fin_closes rec p src s : get_type p = Some PFin -> own_id (sk s) p -> s_state (sk s) = Connected \/ s_state (sk s) = FinSent ->
  0 <= s_ack_nr (sk s) < 65536 -> s_ack_nr (acked_sk p (sk s)) < 65535 \/ w_chk (wd s) = false \/ s_incoming_buffer (sk s) = [] ->
  exists r s', handle_packet rec p src s = (Ret (Some r), s') /\ s_state (sk s') = Closed /\ get_type r = Some PState /\
    s_pending_data (sk s') = s_pending_data (sk s) /\ s_incoming_buffer (sk s') = s_incoming_buffer (sk s) /\
    s_last_dropped (sk s') = s_last_dropped (sk s) /\ s_ack_nr (sk s') = s_ack_nr (acked_sk p (sk s)) /\ ack_nr r = s_ack_nr (sk s').
Proof.
  intros HT HO HS H0 HA. rewrite (handle_own rec p src PFin s HT (or_introl HO)). unfold dispatch, bind at 1, get_sk at 1.
  unfold noted. sproj. rewrite (acked_other s_state) by reflexivity.
  assert (HA0 : 0 <= s_ack_nr (acked_sk p (sk s)) < 65536). { destruct (acked_cases p (sk s)) as [->|[-> _]]; [exact H0|sproj; apply seq_nr_range]. }
  destruct HS as [-> | ->]; (unfold bind at 1; rewrite prepare_reply_eq; unfold bind at 1, reply_to at 1; rewrite attach_sack_exact;
    [|sproj; unfold ticked, noted; sproj; rewrite (acked_other s_incoming_buffer) by reflexivity;
      destruct HA as [HA|[HA|HA]]; [left; lia|right; left; exact HA|right; right; exact HA]];
    unfold bind, upd_sk, ret; eexists; eexists; split; [reflexivity|]; sproj; unfold ticked, noted; sproj;
    rewrite get_type_wire, ack_wire; cbn [h_type h_ack]; unfold noted; sproj;
    rewrite (acked_other s_pending_data), (acked_other s_incoming_buffer), (acked_other s_last_dropped) by reflexivity;
    repeat split; try reflexivity; now apply u16_small).
Qed.

Lemma data_reply_full p s : 0 <= s_ack_nr (sk s) < 65535 \/ w_chk (wd s) = false \/ s_incoming_buffer (sk s) = [] ->
  handle_data_packet p s = (Ret (Some (wire (mkHdr (if sstate_eqb (s_state (sk s)) FinSent then PFin else PState) (s_sender_connection_id (sk s)) (clock_now s)
    (u32 (abs_diff (clock_now s) (timestamp p))) 0 (s_seq_nr (sk s)) (s_ack_nr (sk s))) (match reply_bitmap p (sk s) with [] => [] | sack => [(x01, sack)] end) [])), ticked s).
Proof.
  intros HA. unfold handle_data_packet, bind at 1, get_sk. cbv zeta. unfold bind at 1. rewrite prepare_reply_eq. unfold bind, reply_to.
  rewrite attach_sack_exact by exact HA. reflexivity.
Qed.
(** ** C21: the packet delivered last, received again *)
Lemma duplicate_recv rec n b src p s : packet_try_from b = Some (Ok p) -> get_type p = Some PData -> own_id (sk s) p -> s_state (sk s) = Connected ->
  seq_nr p = s_last_dropped (sk s) -> (seq_nr p - s_ack_nr (sk s)) mod 65536 <> 1 -> 0 <= s_ack_nr (sk s) < 65535 -> tx_ok s = true -> buf_inv (sk s) ->
  exists s' r, process_datagram rec n b src s = (Ret (fst (flush_sk n (sk s)), src), s') /\
    s_pending_data (sk s') = s_pending_data (snd (flush_sk n (sk s))) /\ s_incoming_buffer (sk s') = s_incoming_buffer (snd (flush_sk n (sk s))) /\
    s_ack_nr (sk s') = s_ack_nr (snd (flush_sk n (sk s))) /\ s_last_dropped (sk s') = s_last_dropped (snd (flush_sk n (sk s))) /\
    s_state (sk s') = Connected /\ w_sent (wd s') = w_sent (wd s) ++ [(src, r)] /\ get_type r = Some PState /\ ack_nr r = s_ack_nr (sk s).
Proof.
  intros HP HT HO HS HL HA H0 HX HB. rewrite (process_packet _ _ _ _ p PData _ HP HT). unfold bind at 1.
  rewrite (handle_own _ p src PData s HT (or_introl HO)). unfold dispatch, bind at 1, get_sk at 1.
  assert (EA : acked_sk p (sk s) = sk s). { unfold acked_sk. rewrite u16_eq. replace (_ =? 1) with false by lia. reflexivity. }
  set (k1 := ss_their_delay (abs_diff (clock_now s) (timestamp p)) (ss_remote_wnd_size (wnd_size p) (sk s))).
  assert (EN : noted p s = mkSt k1 (wd (ticked s))) by (unfold noted; now rewrite EA). rewrite EN. cbn [sk].
  replace (s_state k1) with Connected by (symmetry; exact HS).
  rewrite data_reply_full by (left; exact H0).
  unfold answer, bind at 1, bind at 1. match goal with |- context [udp_send src ?q ?t] => assert (EX : tx_ok t = true) by exact HX; rewrite (send_ok_eq src q t EX) end.
  cbn [try_ ret]. unfold bind at 1, get_sk at 1. cbn [tx_state sk]. change (s_last_dropped (sk (ticked _))) with (s_last_dropped (sk s)).
  replace (ptype_eqb PData PData && (0 <? u16 (seq_nr p - s_last_dropped (sk s)))) with false by (rewrite HL, Z.sub_diag; reflexivity).
  unfold bind at 1, ret at 1, bind at 1. rewrite flush_run; [|right; left; apply H0|apply H0|exact HB].
  cbn [tx_state sk ticked wd].
  assert (EF : fst (flush_sk n k1) = fst (flush_sk n (sk s)) /\ s_pending_data (snd (flush_sk n k1)) = s_pending_data (snd (flush_sk n (sk s))) /\
    s_incoming_buffer (snd (flush_sk n k1)) = s_incoming_buffer (snd (flush_sk n (sk s))) /\ s_ack_nr (snd (flush_sk n k1)) = s_ack_nr (snd (flush_sk n (sk s))) /\
    s_last_dropped (snd (flush_sk n k1)) = s_last_dropped (snd (flush_sk n (sk s)))).
  { unfold flush_sk, k1. sproj. destruct (s_pending_data (sk s)); [destruct (s_incoming_buffer (sk s)) as [|q buf] eqn:EB; [auto 10|]; destruct (_ || _); [|sproj; auto 10];
      destruct (payload q); [|sproj; auto 10]|]; cbv zeta; destruct (_ =? _)%nat; cbn [fst snd]; unfold advance_socket; sproj; rewrite ?EB; sproj; auto 10;
      destruct (s_incoming_buffer (sk s)); sproj; auto 10. }
  destruct EF as (E1 & E2 & E3 & E4 & E5). rewrite E1. eexists. eexists. split; [reflexivity|]. sproj. repeat split; auto.
  - rewrite (flush_other s_state); [exact HS|reflexivity..].
  - match goal with |- context [tx_ok ?t] => change (tx_ok t) with (tx_ok s) end. rewrite HX. reflexivity.
  - rewrite set_wnd_wire, get_type_wire. cbn [h_type]. unfold k1. sproj. rewrite HS. reflexivity.
  - rewrite set_wnd_wire, ack_wire. cbn [h_ack]. apply u16_small. change (s_ack_nr (sk _)) with (s_ack_nr (sk s)). lia.
Qed.

(** What [recv_from] does with the outcome of its first [recv]. *)
Lemma recv_from_fails n s e s' : no_wrap_panic s -> 0 <= s_ack_nr (sk s) -> buf_inv (sk s) -> drained (sk s) ->
  s_state (sk s) <> Closed -> s_state (sk s) <> ResetReceived -> recv n s = (Fail e, s') -> recv_from n s = (Fail e, s').
Proof.
  intros H1 H2 H3 H4 HC HR HE. unfold recv_from, bind at 1. rewrite flush_drained_run by assumption. unfold bind at 1, get_sk at 1. cbn [is_nil negb].
  replace (sstate_eqb (s_state (sk s)) ResetReceived) with false by (destruct (s_state (sk s)); try reflexivity; congruence).
  unfold bind at 1, event_fuel. cbn [loop]. unfold bind at 1, bind at 1, get_sk at 1.
  replace (sstate_eqb (s_state (sk s)) Closed) with false by (destruct (s_state (sk s)); try reflexivity; congruence).
  unfold bind at 1. rewrite HE. reflexivity.
Qed.
Lemma read_one_frame s n d src s' : recv_from n s = (Ret (d, src), s') -> available (sk s) <> [] -> buf_inv (sk s) -> 0 <= s_ack_nr (sk s) -> no_wrap_panic s -> (0 < n)%nat ->
  s_state (sk s') = s_state (sk s) /\ (no_empty_packet (sk s) -> no_empty_packet (sk s')) /\ buf_inv (sk s') /\ 0 <= s_ack_nr (sk s') /\ no_wrap_panic s'.
Proof.
  intros H HV HB HA HN Hn. destruct (read_one s n HB HA HN Hn HV) as (d' & k' & E & Hd & _ & _ & H1 & H2 & H3). rewrite E in H. injection H as _ _ H4. subst s'.
  assert (Ek : k' = snd (flush_sk n (sk s))).
  { revert E. unfold recv_from, bind at 1. rewrite flush_run by assumption. unfold bind, get_sk. destruct (fst (flush_sk n (sk s))) eqn:EF.
    - exfalso. revert HV Hn EF HB. clear. intros HV Hn. unfold flush_sk, available in *. destruct (s_pending_data (sk s)) as [|b0 pend]; [|destruct n; [lia|discriminate]].
      destruct (s_incoming_buffer (sk s)) as [|q buf] eqn:EB; [now elim HV|]. cbn [ready_bytes] in HV. rewrite <- u16_eq in HV. intros EF HB.
      unfold buf_inv in HB. rewrite EB in HB. destruct HB as [_ HB]. inversion HB as [|? ? HQ _]; subst. apply buffered_payload in HQ. rewrite HQ in EF.
      rewrite (Z.eqb_sym (s_ack_nr (sk s))), (Z.eqb_sym (u16 _)) in EF. destruct (_ || _); [|now elim HV]. destruct (payload_of q); [now elim HV|]. destruct n; [lia|discriminate].
    - cbn [is_nil negb]. intros E. injection E; intros; congruence. }
  subst k'. cbn [sk]. split; [apply (flush_other s_state); reflexivity|]. split; [|auto].
  intros HE. unfold no_empty_packet in *. destruct (flush_cases n (sk s)) as [(-> & _) | (q & buf & E1 & E2 & _)]; [exact HE|].
  rewrite E1 in HE. rewrite E2. now inversion HE.
Qed.
Lemma drain_closed_gen n ns : forall s, s_state (sk s) = Closed -> buf_inv (sk s) -> 0 <= s_ack_nr (sk s) -> no_wrap_panic s -> no_empty_packet (sk s) ->
  Forall (fun m => 0 < m)%nat ns -> (length (available (sk s)) <= length ns)%nat ->
  exists m ds s', reads s (firstn m ns) ds s' /\ wd s' = wd s /\ concat ds = available (sk s) /\ recv_from n s' = (Ret ([], s_connected_to (sk s')), s').
Proof.
  induction ns as [|m0 ns IH]; intros s HS HB HA HN HE HF HL; (destruct (available (sk s)) as [|b0 a] eqn:EV;
    [exists 0%nat, [], s; cbn [firstn concat]; split; [constructor|]; split; [reflexivity|]; split; [reflexivity|]; apply closed_drained; auto; now apply unavailable_drained|]).
  - cbn in HL. lia.
  - inversion HF; subst. destruct (read_one s m0 HB HA HN ltac:(lia) ltac:(congruence)) as (d & k' & E & Hd & Hdl & HC & _).
    destruct (read_one_frame s m0 d _ _ E ltac:(congruence) HB HA HN ltac:(lia)) as (F1 & F2 & F3 & F4 & F5).
    assert (HL' : (length (available k') <= length ns)%nat).
    { rewrite HC in EV. apply (f_equal (@length byte)) in EV. rewrite app_length in EV. destruct d; [congruence|]. cbn [length] in *. lia. }
    destruct (IH (mkSt k' (wd s)) ltac:(congruence) F3 F4 F5 (F2 HE) ltac:(assumption) HL') as (m & ds & s' & R1 & R2 & R3 & R4).
    exists (S m), (d :: ds), s'. cbn [firstn concat]. split; [econstructor; eauto|]. split; [exact R2|]. split; [rewrite R3; cbn [sk]; congruence|exact R4].
Qed.
Lemma drain_closed ns n s : reachable s -> s_state (sk s) = Closed -> no_wrap_panic s -> no_empty_packet (sk s) -> Forall (fun m => 0 < m)%nat ns ->
  (length (available (sk s)) <= length ns)%nat ->
  exists m ds s', reads s (firstn m ns) ds s' /\ wd s' = wd s /\ concat ds = available (sk s) /\ recv_from n s' = (Ret ([], s_connected_to (sk s')), s').
Proof. intros HR HS HN HE HF HL. apply drain_closed_gen; auto; [apply reachable_buffer, HR|]. apply (r_ack _ (reachable_ranges s HR)). Qed.
