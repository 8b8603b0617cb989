(** C66-C73. *)
From Verif Require Import OpenProofs SelectiveProofs ListenerProofs Samples.
Require Import Lia.
Local Open Scope Z_scope.
Lemma run_eq {A} (m : M A) s o : fst (m s) = o -> m s = (o, snd (m s)).
Proof. intros <-. apply surjective_pairing. Qed.
Notation unopened r evs := (mkSt blank (sample_world true r evs)).

(** C66.  [established_by] and [syns_to] describe the socket and the SYNs. *)
Theorem C66_active_open : forall a l ks d src p rest s0, w_in (wd s0) = map RxErr ks ++ RxDgram d src :: rest ->
  Forall (fun k => is_timeout k = true) ks -> (length ks < 5)%nat -> all_sent s0 ->
  packet_try_from (firstn 1500 d) = Some (Ok p) -> get_type p = Some PState ->
  exists s' syns, connect (Ok (a :: l)) (Ok tt) s0 = (Ret tt, s') /\ established_by p src (w_rand (wd s0) (w_rtick (wd s0)) mod 65536) (sk s') /\ w_in (wd s') = rest /\
    w_sent (wd s') = w_sent (wd s0) ++ syns /\ length syns = S (length ks) /\ syns_to a (s_receiver_connection_id (sk s')) 1 syns.
Proof. exact connect_opens. Qed.
Print Assumptions C66_active_open.
Notation c66_end r := (connect (Ok [peer]) (Ok tt) (unopened r [timeout; timeout; rx_pkt (dgram PState 300 9 1 [])])).
Example C66_example : fst (c66_end 300) = Ret tt /\ established_by (dgram PState 300 9 1 []) peer 300 (sk (snd (c66_end 300))) /\
  map (fun x => (fst x, get_type (snd x), connection_id (snd x), seq_nr (snd x))) (w_sent (wd (snd (c66_end 300)))) = [(peer, Some PSyn, 300, 1); (peer, Some PSyn, 300, 1); (peer, Some PSyn, 300, 1)] /\
  s_sender_connection_id (sk (snd (c66_end 65535))) = 65535 /\ s_receiver_connection_id (sk (snd (c66_end 65535))) = 65534.
Proof. unfold established_by. vm_compute. auto 30. Qed.

(** C67.  Sending: [t] is the moment of transmission.  A packet that is not transmitted (C43) comes back unchanged. *)
Theorem C67_echo : forall p s p' s', (20 <= length p)%nat -> send_packet recv p s = (Ret p', s') -> exists t, sk t = sk s' /\
  ((p' = p /\ w_sent (wd s') = w_sent (wd t)) \/
   (w_sent (wd s') = w_sent (wd t) ++ [(s_connected_to (sk s'), p')] /\ timestamp_difference p' = s_their_delay (sk s') mod 2 ^ 32 /\ timestamp p' = clock_now t)).
Proof. exact (send_packet_echo recv). Qed.
Print Assumptions C67_echo.
Theorem C67_noted : forall p src ty s r s', get_type p = Some ty -> own_id (sk s) p \/ ty = PSyn \/ s_state (sk s) = SynSent -> ~ (ty = PState /\ s_state (sk s) = Connected) ->
  handle_packet recv p src s = (Ret r, s') -> s_their_delay (sk s') = Z.abs (clock_now s - timestamp p).
Proof. exact (noted_delay recv). Qed.
Print Assumptions C67_noted.
Theorem C67_noted_state : forall p src exts s r s', get_type p = Some PState -> own_id (sk s) p -> s_state (sk s) = Connected -> extensions p = Some exts -> no_sack exts ->
  (s_send_window (sk s) = [] \/ dup_after (ack_nr p) (sk s) <> 3) ->
  handle_packet recv p src s = (Ret r, s') -> s_their_delay (sk s') = Z.abs (clock_now s - timestamp p).
Proof. exact (noted_delay_state recv). Qed.
Print Assumptions C67_noted_state.
Theorem C67_range : forall s, reachable s -> s_their_delay (sk s) mod 2 ^ 32 = s_their_delay (sk s).
Proof. intros s H. apply Z.mod_small. exact (r_tdelay _ (reachable_ranges s H)). Qed.
Print Assumptions C67_range.
(** A FIN does not echo anything. *)
Notation c67_state := (snd (run_ops [ORecvFrom 9; OSendTo [x42]; ORecvFrom 9; OClose] (accepted true 500 10 [rx_pkt (dgram PData 101 11 500 [x41]); rx_pkt (dgram PState 101 12 500 []); RxCancel]))).
Theorem C67_fin_refuted : exists s, reachable s /\ s_their_delay (sk s) <> 0 /\
  exists before fin, w_sent (wd s) = before ++ [(peer, fin)] /\ get_type fin = Some PFin /\ timestamp_difference fin = 0.
Proof.
  exists c67_state. split; [reach|]. split; [vm_compute; discriminate|].
  eexists (removelast (w_sent (wd c67_state))), (snd (last (w_sent (wd c67_state)) (peer, []))). vm_compute. auto.
Qed.
Print Assumptions C67_fin_refuted.
Notation c67_sent := (snd (run_ops [ORecvFrom 9; OSendTo [x42]] (accepted true 500 10 [rx_pkt (dgram PData 101 11 500 [x41])]))).
Example C67_example : reachable c67_sent /\ s_state (sk c67_sent) = Connected /\
  map (fun x => (get_type (snd x), timestamp (snd x), timestamp_difference (snd x))) (skipn 2 (w_sent (wd c67_sent))) = [(Some PData, 128193416, s_their_delay (sk c67_sent))] /\
  s_their_delay (sk c67_sent) = 128190416 - 77.
Proof. split; [reach|]. vm_compute. auto. Qed.

(** C68.  [to_resend]: the numbers the bitmap reports missing (below the last one in flight), and the number after the
    acknowledged one if at least three packets after it arrived; [copies]: the packets in flight with these numbers, in
    this order, sent again with new stamps.  The flow-control gate must be open and the numbers must not wrap. *)
Theorem C68_selective_partial : forall p d s s', extensions p = Some [mkExt ESack d] -> (length d < 256)%nat -> 0 <= ack_nr p -> ack_nr p + 2 + 8 * zlen d <= 65536 ->
  (s_curr_window (sk s) < 2800 \/ (~ In (ack_nr p) (map seq_nr (s_send_window (sk s))) /\ gate_is_open s)) -> all_sent s ->
  handle_state_packet recv p s = (Ret tt, s') ->
  let w := s_send_window (sk s) in
  let ns := (if (3 <=? set_bits d)%nat then [u16 (ack_nr p + 1)] else []) ++ match last_opt w with Some q => missing (ack_nr p) d (seq_nr q) | None => [] end in
  s_send_window (sk s') = forget (ack_nr p) w /\
  (exists xs, w_sent (wd s') = w_sent (wd s) ++ xs /\ copies (s_connected_to (sk s)) (flat_map (in_flight w) ns) xs) /\
  (exists c, (~ In (ack_nr p) (map seq_nr w) -> c = s_cwnd (sk s)) /\
     s_cwnd (sk s') = if negb (is_nil w) && (dup_after (ack_nr p) (sk s) =? 3) || negb (is_nil ns) then Z.max (c / 2) 2800 else c).
Proof. exact (selective_run recv). Qed.
Print Assumptions C68_selective_partial.
Notation sack_of cid sq ak bits := (wire (mkHdr PState cid 77 0 1048576 sq ak) [(x01, bits)] []).
Notation five_in_flight := (snd (run_ops [OSendTo [x41]; OSendTo [x42]; OSendTo [x43]; OSendTo [x44]; OSendTo [x45]] (accepted true 500 10 []))).
(** 500 is acknowledged; 502 and 504 arrived; 503 is missing. *)
Example C68_example : reachable five_in_flight /\
  (let p := sack_of 101 11 500 [x05; x00; x00; x00] in
   extensions p = Some [mkExt ESack [x05; x00; x00; x00]] /\ missing 500 [x05; x00; x00; x00] 504 = [503] /\ s_curr_window (sk five_in_flight) = 105 /\
   fst (handle_state_packet recv p five_in_flight) = Ret tt /\
   map (fun x => (seq_nr (snd x), payload (snd x))) (skipn 6 (w_sent (wd (snd (handle_state_packet recv p five_in_flight))))) = [(503, Some [x44])]) /\
  map (fun x => seq_nr (snd x)) (skipn 6 (w_sent (wd (snd (handle_state_packet recv (sack_of 101 11 500 [x0e; x00; x00; x00]) five_in_flight))))) = [501; 502].
Proof. split; [reach|]. vm_compute. auto 10. Qed.
(** Release build: 65535 is in flight and reported missing, but the last number in flight is 1 and so nothing is sent. *)
Notation wrapping := (snd (run_ops [ORecvFrom 9; OSendTo [x41]; OSendTo [x42]; OSendTo [x43]; OSendTo [x44]; OSendTo [x45]] (accepted false 65533 10 [rx_pkt (dgram PState 101 11 65532 [])]))).
Theorem C68_wrap_refuted : exists p s s', reachable s /\ all_sent s /\ s_curr_window (sk s) < 2800 /\ map seq_nr (s_send_window (sk s)) = [65533; 65534; 65535; 0; 1] /\
  extensions p = Some [mkExt ESack [x05; x00; x00; x00]] /\ ack_nr p = 65532 /\ handle_state_packet recv p s = (Ret tt, s') /\ w_sent (wd s') = w_sent (wd s).
Proof.
  exists (sack_of 101 11 65532 [x05; x00; x00; x00]), wrapping. eexists. split; [reach|]. split; [intros i; reflexivity|]. split; [vm_compute; reflexivity|]. split; [vm_compute; reflexivity|].
  split; [vm_compute; reflexivity|]. split; [vm_compute; reflexivity|]. split; [apply run_eq; vm_compute; reflexivity|]. vm_compute. reflexivity.
Qed.
Print Assumptions C68_wrap_refuted.

(** C69.  The answers to received packets advertise 1 MiB, and the peer's window is taken from its packets. *)
Theorem C69_replies_partial : forall n b src p r s s1, packet_try_from b = Some (Ok p) -> handle_packet recv p src s = (Ret (Some r), s1) -> tx_ok s1 = true -> (20 <= length r)%nat ->
  wnd_size (set_wnd_size 1048576 r) = 1048576 /\
  exists more, w_sent (wd (snd (process_datagram recv n b src s))) = w_sent (wd s1) ++ (src, set_wnd_size 1048576 r) :: more.
Proof. exact (reply_window recv). Qed.
Print Assumptions C69_replies_partial.
Theorem C69_recorded : forall p src ty s r s', get_type p = Some ty -> own_id (sk s) p \/ ty = PSyn \/ s_state (sk s) = SynSent -> ~ (ty = PState /\ s_state (sk s) = Connected) ->
  handle_packet recv p src s = (Ret r, s') -> s_remote_wnd_size (sk s') = wnd_size p.
Proof. exact (noted_window recv). Qed.
Print Assumptions C69_recorded.
Theorem C69_recorded_state : forall p src exts s r s', get_type p = Some PState -> own_id (sk s) p -> s_state (sk s) = Connected -> extensions p = Some exts -> no_sack exts ->
  (s_send_window (sk s) = [] \/ dup_after (ack_nr p) (sk s) <> 3) ->
  handle_packet recv p src s = (Ret r, s') -> s_remote_wnd_size (sk s') = wnd_size p.
Proof. exact (noted_window_state recv). Qed.
Print Assumptions C69_recorded_state.
(** The SYN reply of a listener and every data packet advertise an empty window; the client, a socket of this very
    implementation, then limits itself to two segments. *)
Notation c69_syn := (snd (last (w_sent (wd (snd (connect (Ok [peer]) (Ok tt) (unopened 300 []))))) (peer, []))).
Notation c69_server := (snd (run_ops [OSendTo [x58]] (snd (accept (RxDgram c69_syn peer) (Ok local) (Ok tt) (unopened 500 []))))).
Notation c69_sent i := (snd (nth i (w_sent (wd c69_server)) (peer, []))).
Notation c69_client := (snd (run_ops [ORecvFrom 9] (snd (connect (Ok [peer]) (Ok tt) (unopened 300 [RxDgram (c69_sent 0) peer; RxDgram (c69_sent 1) peer]))))).
Theorem C69_window_refuted : map (fun x => (get_type (snd x), wnd_size (snd x))) (w_sent (wd c69_server)) = [(Some PState, 0); (Some PData, 0)] /\
  reachable c69_client /\ s_state (sk c69_client) = Connected /\ s_remote_wnd_size (sk c69_client) = 0.
Proof.
  split; [vm_compute; reflexivity|]. split; [|vm_compute; auto]. apply ran_reachable; [|vm_compute; reflexivity].
  eapply (rc_connect (Ok [peer]) (Ok tt)); [|apply run_eq; vm_compute; reflexivity]. reflexivity.
Qed.
Print Assumptions C69_window_refuted.
Example C69_example : let s := accepted true 500 10 [] in let d := dgram PData 101 11 500 [x41] in
  fst (process_datagram recv 9 d peer s) = Ret ([x41], peer) /\ map (fun x => wnd_size (snd x)) (skipn 1 (w_sent (wd (snd (process_datagram recv 9 d peer s))))) = [1048576] /\
  s_remote_wnd_size (sk (snd (process_datagram recv 9 d peer s))) = 1048576 /\ tx_ok s = true.
Proof. vm_compute. auto. Qed.

(** C70.  A packet is waiting to be read, yet a read into an empty buffer does not return. *)
Notation c70_state := (snd (run_ops [ORecvFrom 1] (accepted true 500 10 [rx_pkt (dgram PData 101 11 500 [x41; x42])]))).
Theorem C70_empty_read_refuted : exists s, reachable s /\ s_state (sk s) = Connected /\ s_pending_data (sk s) = [x42] /\ fst (recv_from 0 s) = Fail Pend.
Proof. exists c70_state. split; [reach|]. vm_compute. auto. Qed.
Print Assumptions C70_empty_read_refuted.
(** No reachable open socket answers such a read until something arrives. *)
Theorem C70_empty_read_waits_refuted : forall s, reachable s -> w_in (wd s) = [] -> w_chk (wd s) = false -> 0 < s_max_retries (sk s) ->
  s_state (sk s) <> Closed -> s_state (sk s) <> ResetReceived -> fst (recv_from 0 s) = Fail Pend.
Proof. exact empty_read_waits. Qed.
Print Assumptions C70_empty_read_waits_refuted.
(** On a closed socket with nothing buffered it returns at once. *)
Theorem C70_closed_partial : forall s, s_state (sk s) = Closed -> s_pending_data (sk s) = [] -> s_incoming_buffer (sk s) = [] ->
  recv_from 0 s = (Ret ([], s_connected_to (sk s)), s).
Proof.
  intros s HS HP HB. unfold recv_from, bind at 1, flush_incoming_buffer, bind at 1, get_sk at 1. rewrite HP, HB. cbn [is_nil negb]. unfold ret at 1.
  unfold bind at 1, get_sk at 1. cbn [is_nil negb]. rewrite HS. cbn [sstate_eqb]. unfold bind at 1, event_fuel. cbn [loop]. unfold bind at 1, bind at 1, get_sk at 1. rewrite HS. reflexivity.
Qed.
Print Assumptions C70_closed_partial.
Example C70_example : let s := snd (run_ops [ORecvFrom 9] (accepted true 500 10 [rx_pkt (dgram PFin 101 11 500 [])])) in
  reachable s /\ s_state (sk s) = Closed /\ s_pending_data (sk s) = [] /\ s_incoming_buffer (sk s) = [] /\ fst (recv_from 0 s) = Ret ([], peer).
Proof. cbv zeta. split; [reach|]. vm_compute. auto. Qed.

(** C71.  A State packet with another connection id, from another address, acknowledging nothing we sent. *)
Definition stranger : addr := V4 66.
Notation c71_start := (unopened 300 [RxDgram (dgram PState 9999 40 12345 []) stranger]).
Theorem C71_stranger_refuted : exists s, connect (Ok [peer]) (Ok tt) c71_start = (Ret tt, s) /\ reachable s /\ s_state (sk s) = Connected /\
  s_connected_to (sk s) = stranger /\ s_receiver_connection_id (sk s) = 300.
Proof.
  eexists. split; [apply run_eq; vm_compute; reflexivity|]. split; [|vm_compute; auto].
  eapply (rc_connect (Ok [peer]) (Ok tt)); [|apply run_eq; vm_compute; reflexivity]. reflexivity.
Qed.
Print Assumptions C71_stranger_refuted.
(** What holds: the reply is a well-formed packet, and a Data, Fin or Reset packet does not open a connection. *)
Theorem C71_types_partial : forall a l s0 s b, connect (Ok (a :: l)) (Ok tt) s0 = (Ret tt, s) -> first_reply (w_in (wd s0)) b ->
  packet_try_from b = Some (Ok b) /\ (get_type b = Some PState \/ get_type b = Some PSyn).
Proof.
  intros a l s0 s b H HB. apply connect_all in H as (cid & syns & _ & _ & _ & _ & b' & HB' & HP & HT). assert (b = b') as -> by (eapply first_reply_unique; eauto). split; [exact HP|]. tauto.
Qed.
Print Assumptions C71_types_partial.
Example C71_example : let r := connect (Ok [peer]) (Ok tt) (unopened 300 [timeout; rx_pkt (dgram PData 300 9 1 [x41])]) in
  fst r = Fail (Throw KConnectionRefused) /\ s_state (sk (snd r)) = SynSent.
Proof. vm_compute. auto. Qed.

(** C72. *)
Theorem C72_drop_closes : forall s, snd (drop_socket s) = snd (close s) /\
  (fst (close s) = Ret tt \/ (exists k, fst (close s) = Fail (Throw k)) -> fst (drop_socket s) = Ret tt) /\
  (forall f, fst (close s) = Fail f -> (forall k, f <> Throw k) -> fst (drop_socket s) = Fail f).
Proof.
  intros s. unfold drop_socket, ignore_result. destruct (close s) as [[[]|[k|l| |]] s']; cbn [fst snd]; repeat split; intros; auto; try discriminate; try congruence.
  - destruct H as [H|[k H]]; discriminate.
  - destruct H as [H|[k H]]; discriminate.
  - destruct H as [H|[k H]]; discriminate.
Qed.
Print Assumptions C72_drop_closes.
Theorem C72_drop_idle : forall s, s_state (sk s) = New \/ s_state (sk s) = SynSent \/ s_state (sk s) = Closed -> drop_socket s = (Ret tt, s).
Proof. intros s H. unfold drop_socket, ignore_result, close, bind, get_sk. destruct H as [-> |[ -> | -> ]]; reflexivity. Qed.
Print Assumptions C72_drop_idle.
Notation c72_state := (snd (run_ops [OSendTo [x41]] (accepted true 500 10 [rx_pkt (dgram PState 101 11 500 []); RxErr KOther]))).
Example C72_example : reachable c72_state /\ s_state (sk c72_state) = Connected /\ fst (close c72_state) = Fail (Throw KOther) /\ fst (drop_socket c72_state) = Ret tt /\
  map (fun x => get_type (snd x)) (skipn 2 (w_sent (wd (snd (drop_socket c72_state))))) = [Some PFin] /\ s_state (sk (snd (drop_socket c72_state))) = FinSent.
Proof. split; [reach|]. vm_compute. auto 10. Qed.

(** C73.  Sending the SYN reply fails; the socket is dropped, which sends a FIN and waits for the peer. *)
Definition first_send_fails (evs : list rx) : world :=
  mkWorld evs 0 (fun n => 1600000000000000 + 1000 * Z.of_nat n) 0 (fun _ => 500) 0 (fun i => if Nat.eqb i 0 then SendErr KOther else SendOk) [] true.
Theorem C73_lingers_refuted : let r := accept_drop (RxDgram (dgram PSyn 100 10 0 []) peer) (Ok local) (Ok tt) (mkSt blank (first_send_fails [timeout; timeout; timeout; timeout])) in
  fst r = Fail Pend /\ s_state (sk (snd r)) = FinSent /\ map (fun x => (get_type (snd x), connection_id (snd x))) (w_sent (wd (snd r))) = repeat (Some PFin, 100) 5.
Proof. vm_compute. auto. Qed.
Print Assumptions C73_lingers_refuted.
(** The other failures are immediate: everything but a SYN, and errors before a socket exists; and when [accept]
    succeeds the destructor is not involved. *)
Theorem C73_rejects_partial : forall data src la bound s, (forall p, packet_try_from (firstn 1500 data) = Some (Ok p) -> get_type p <> Some PSyn) ->
  exists k, accept_drop (RxDgram data src) la bound s = (Fail (Throw k), s).
Proof. exact accept_drop_rejects. Qed.
Print Assumptions C73_rejects_partial.
Theorem C73_success_partial : forall ev la bound s a s', accept_drop ev la bound s = (Ret a, s') <-> accept ev la bound s = (Ret a, s').
Proof. exact accept_drop_success. Qed.
Print Assumptions C73_success_partial.
Example C73_example : fst (accept_drop (RxDgram (dgram PSyn 100 10 0 []) peer) (Ok local) (Ok tt) (unopened 500 [])) = Ret peer /\
  fst (accept_drop (RxDgram (dgram PData 100 10 0 [x41]) peer) (Ok local) (Ok tt) (unopened 500 [])) = Fail (Throw KOther).
Proof. vm_compute. auto. Qed.
