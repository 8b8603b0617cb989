(** What the socket does with the delay a peer reports (C96) and with packets sent twice (C97). *)
From Verif Require Export RecvProofs SendProofs.
Local Open Scope Z_scope.

Lemma same_fields rec p q src s : get_type q = get_type p -> seq_nr q = seq_nr p -> ack_nr q = ack_nr p -> connection_id q = connection_id p -> timestamp q = timestamp p -> wnd_size q = wnd_size p ->
  extensions q = extensions p -> handle_packet rec q src s = handle_packet rec p src s.
Proof.
  intros E1 E2 E3 E4 E5 E6 E7. unfold handle_packet, ack_in_order, m_get_type, dispatch, handle_data_packet, attach_sack, prepare_reply, handle_state_packet.
  rewrite E1, E2, E3, E4, E5, E6, E7. reflexivity.
Qed.
Lemma report_ignored rec n p d src s : packet_try_from p = Some (Ok p) -> get_type p <> Some PData ->
  process_datagram rec n (set_timestamp_difference d p) src s = process_datagram rec n p src s.
Proof.
  intros HV HT. destruct (parse_inv _ _ HV) as (_ & h & exts & pl & _ & HE & EP). set (q := set_timestamp_difference d p).
  assert (EQ : q = wire (mkHdr (h_type h) (h_cid h) (h_ts h) (u32 d) (h_wnd h) (h_seq h) (h_ack h)) exts pl) by (unfold q; rewrite EP, set_tsd_wire; reflexivity).
  assert (HQ : packet_try_from q = Some (Ok q)) by (rewrite EQ; now apply wire_valid). assert (E1 : get_type q = get_type p) by (rewrite EQ, EP, !get_type_wire; reflexivity).
  assert (E2 : seq_nr q = seq_nr p) by (rewrite EQ, EP, !seq_wire; reflexivity).
  destruct (get_type p) as [ty|] eqn:ET; [|rewrite EP, get_type_wire in ET; discriminate].
  rewrite (process_packet rec n q src q ty s HQ E1), (process_packet rec n p src p ty s HV ET). unfold bind.
  rewrite (same_fields rec p q src s); try congruence; try (rewrite EQ, EP, ?get_type_wire, ?ack_wire, ?cid_wire, ?ts_wire, ?wnd_wire, ?extensions_wire by assumption; reflexivity).
  destruct (handle_packet rec p src s) as [[r|e] s1]; [|reflexivity]. unfold answer. rewrite E2. destruct ty; try reflexivity. congruence.
Qed.
