(** C26 for every state. *)
From Verif Require Import CrossProofs Samples.
Require Import Lia.
Local Open Scope Z_scope.

(** C26.  For every connected reader that has nothing in store, a FIN with any sequence number, however many packets are missing before it, is reported as the end of the stream; what comes after it
    stays unread, and every later read reports the end as well. *)
Theorem C26_every_refuted : forall n p src rest s, s_state (sk s) = Connected -> s_pending_data (sk s) = [] -> s_incoming_buffer (sk s) = [] -> (forall i, w_send (wd s) i = SendOk) -> 0 < s_max_retries (sk s) ->
  w_in (wd s) = RxDgram p src :: rest -> (length p <= 1520)%nat -> packet_try_from p = Some (Ok p) -> get_type p = Some PFin ->
  connection_id p = s_sender_connection_id (sk s) \/ connection_id p = s_receiver_connection_id (sk s) ->
  exists s', run_op (ORecvFrom n) s = (Ret (VData [] (s_connected_to (sk s))), s') /\ s_state (sk s') = Closed /\ w_in (wd s') = rest /\
    s_ack_nr (sk s') = (if (seq_nr p - s_ack_nr (sk s)) mod 65536 =? 1 then seq_nr p else s_ack_nr (sk s)) /\
    forall m, run_op (ORecvFrom m) s' = (Ret (VData [] (s_connected_to (sk s))), s').
Proof.
  intros n p src rest s ES EP EB HX HM HI HL HV HT HO.
  destruct (fin_closes (recv_fuel (length (w_in (wd s)))) n p src (rx_state s)) as (s' & r & E & _ & H2 & _ & (dl & H4) & _); auto.
  assert (ER : recv n s = (Ret ([], src), s')) by (rewrite (recv_first n p src rest s HI HM); change (BUF_SIZE + HEADER_SIZE)%nat with 1520%nat; rewrite firstn_all2 by exact HL; exact E).
  change (sk (rx_state s)) with (sk s) in H4.
  assert (EC : s_state (sk s') = Closed) by (rewrite H4; reflexivity).
  assert (EA : s_connected_to (sk s') = s_connected_to (sk s)) by (rewrite H4; sproj; exact (acked_other s_connected_to p (sk s) ltac:(reflexivity))).
  assert (EP' : s_pending_data (sk s') = []) by (rewrite H4; sproj; rewrite (acked_other s_pending_data p (sk s) ltac:(reflexivity)); exact EP).
  assert (EB' : s_incoming_buffer (sk s') = []) by (rewrite H4; sproj; rewrite (acked_other s_incoming_buffer p (sk s) ltac:(reflexivity)); exact EB).
  exists s'. split; [|split; [exact EC|split; [rewrite H2; unfold rx_state; sproj; now rewrite HI|split]]].
  - cbn [run_op]. unfold bind at 1. rewrite (recv_from_first n s EP EB ES), ER. cbn [is_nil]. rewrite HI. cbn [length loop]. unfold bind, get_sk. rewrite EC, EA. reflexivity.
  - rewrite H4. sproj. unfold acked_sk. rewrite u16_eq. destruct (_ =? 1); reflexivity.
  - intros m. cbn [run_op]. unfold bind at 1, recv_from, bind at 1. rewrite (flush_empty m s' EP' EB'). unfold bind at 1, get_sk at 1. cbn [is_nil negb]. rewrite EC. cbn [sstate_eqb].
    unfold bind at 1, event_fuel. cbn [loop]. unfold bind, get_sk. rewrite EC, EA. reflexivity.
Qed.
Print Assumptions C26_every_refuted.
(** Ten packets are missing, and the first of them arrives right after the FIN. *)
Example C26_every_example : let p := dgram PFin 101 21 499 [] in let s := accepted true 500 10 [rx_pkt p; rx_pkt (dgram PData 101 11 499 [x41])] in
  s_state (sk s) = Connected /\ s_pending_data (sk s) = [] /\ s_incoming_buffer (sk s) = [] /\ (forall i, w_send (wd s) i = SendOk) /\ 0 < s_max_retries (sk s) /\ (length p <= 1520)%nat /\ packet_try_from p = Some (Ok p) /\
  get_type p = Some PFin /\ connection_id p = s_receiver_connection_id (sk s) /\ fst (run_ops [ORecvFrom 9; ORecvFrom 9] s) = [Ret (VData [] peer); Ret (VData [] peer)].
Proof. cbv zeta. repeat split; try (vm_compute; reflexivity); vm_compute; lia. Qed.
