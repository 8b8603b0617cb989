(** Properties C18, C19, C20: the receiving side as a byte stream. *)
From Verif Require Import StreamOrderProofs.
Local Open Scope Z_scope.

(** The peer's packets as an accepted socket (connection id 101) or a connected one (id 300) sees them. *)
Notation to_server sq pl := (rx_pkt (dgram PData 101 sq 499 pl)).
Notation to_client sq pl := (rx_pkt (dgram PData 300 sq 1 pl)).

(** ** C18 *)
(** What is read is a prefix of the peer's stream, for an accepted connection, packet numbers that do not wrap,
    replies that can be sent, and reads into non-empty buffers. *)
Theorem C18_prefix_partial a chunks s ns :
  0 <= a -> a + Z.of_nat (length chunks) + 1 < 65535 -> Forall (fun c => c <> []) chunks ->
  reader_at a s -> all_sends_succeed s ->
  Forall (from_stream a chunks (s_sender_connection_id (sk s)) (s_receiver_connection_id (sk s))) (w_in (wd s)) ->
  Forall (fun n => 0 < n)%nat ns ->
  prefix_of (bytes_read (fst (run_ops (map ORecvFrom ns) s))) (concat chunks).
Proof. exact (reader_prefix a chunks s ns). Qed.
Print Assumptions C18_prefix_partial.

(** Losses, repetitions, reordering, an undecodable datagram, a receive timeout, a cancelled call and the FIN. *)
Notation c18_chunks := [[x41; x42]; [x43]; [x44; x45; x46]].
Notation c18_script := [to_server 13 [x44; x45; x46]; timeout; RxDgram [x00; x01] peer; to_server 11 [x41; x42]; to_server 11 [x41; x42]; RxCancel;
  rx_pkt (dgram PSyn 100 10 0 []); to_server 12 [x43]; rx_pkt (dgram PFin 101 14 499 [])].
Example C18_example : reachable (accepted true 500 10 c18_script) /\ reader_at 10 (accepted true 500 10 c18_script) /\ all_sends_succeed (accepted true 500 10 c18_script) /\
  Forall (from_stream 10 c18_chunks (s_sender_connection_id (sk (accepted true 500 10 c18_script))) (s_receiver_connection_id (sk (accepted true 500 10 c18_script)))) c18_script /\
  fst (run_ops (map ORecvFrom [1; 1; 4; 2; 9; 9; 9]%nat) (accepted true 500 10 c18_script)) =
    [Ret (VData [x41] peer); Ret (VData [x42] peer); Fail Pend; Ret (VData [x43] peer); Ret (VData [x44; x45; x46] peer); Ret (VData [] peer); Ret (VData [] peer)].
Proof.
  split; [apply accepted_reachable; vm_compute; reflexivity|]. split; [vm_compute; auto 10|]. split; [intros i; reflexivity|].
  split; [apply events_sound; vm_compute; reflexivity|vm_compute; reflexivity].
Qed.

(** Across the wrap of the packet numbers the statement fails (release build): 0 arrives before 65534 and 65535 and is
    handed out first. *)
Notation c18_wrap := [to_server 0 [x43]; to_server 65534 [x41]; to_server 65535 [x42]].
Theorem C18_wrap_refuted : exists s, reachable s /\ reader_at 65533 s /\ all_sends_succeed s /\
  Forall (from_stream 65533 [[x41]; [x42]; [x43]] (s_sender_connection_id (sk s)) (s_receiver_connection_id (sk s))) (w_in (wd s)) /\
  bytes_read (fst (run_ops (map ORecvFrom [9; 9]%nat) s)) = [x43].
Proof.
  exists (accepted false 500 65533 c18_wrap). split; [apply accepted_reachable; vm_compute; reflexivity|]. split; [vm_compute; auto 10|]. split; [intros i; reflexivity|].
  split; [apply events_sound; vm_compute; reflexivity|vm_compute; reflexivity].
Qed.
Print Assumptions C18_wrap_refuted.

(** On a connected (client) socket the statement fails when the peer's first packet is late or lost: the number of the
    peer's State reply and of its first data packet are the same, so the second packet looks like the next one. *)
Theorem C18_client_refuted : exists s, reachable s /\ client_at 500 s /\ all_sends_succeed s /\
  Forall (from_stream 499 [[x41]; [x42]] (s_sender_connection_id (sk s)) (s_receiver_connection_id (sk s))) (w_in (wd s)) /\
  fst (run_ops (map ORecvFrom [9; 9]%nat) s) = [Ret (VData [x42] peer); Fail Pend].
Proof.
  exists (connected true 500 [to_client 501 [x42]; to_client 500 [x41]]). split; [apply connected_reachable; vm_compute; reflexivity|]. split; [vm_compute; auto 10|]. split; [intros i; reflexivity|].
  split; [apply events_sound; vm_compute; reflexivity|vm_compute; reflexivity].
Qed.
Print Assumptions C18_client_refuted.

(** A data packet whose acknowledgement cannot be sent is lost although it counts as received; the next one is
    handed out in its place. *)
Definition second_send_fails : world :=
  mkWorld [] 0 (fun n => 1600000000000000 + 1000 * Z.of_nat n) 0 (fun _ => 500) 0 (fun i => if Nat.eqb i 1 then SendErr KOther else SendOk) [] true.
Notation c18_lossy evs := (let s := snd (accept (RxDgram (dgram PSyn 100 10 0 []) peer) (Ok local) (Ok tt) (mkSt blank second_send_fails)) in mkSt (sk s) (sw_in evs (wd s))).
Theorem C18_send_failure_refuted : exists s, reachable s /\ reader_at 10 s /\
  Forall (from_stream 10 [[x41]; [x42]] (s_sender_connection_id (sk s)) (s_receiver_connection_id (sk s))) (w_in (wd s)) /\
  fst (run_ops (map ORecvFrom [9; 9]%nat) s) = [Fail (Throw KOther); Ret (VData [x42] peer)].
Proof.
  exists (c18_lossy [to_server 11 [x41]; to_server 12 [x42]]). split.
  { cbv zeta. apply rc_input.
    assert (H : fst (accept (RxDgram (dgram PSyn 100 10 0 []) peer) (Ok local) (Ok tt) (mkSt blank second_send_fails)) = Ret peer) by (vm_compute; reflexivity).
    destruct (accept _ _ _ _) as [o s] eqn:E. cbn [fst snd] in *. subst o. eapply rc_accept; [|exact E]. reflexivity. }
  split; [vm_compute; auto 10|]. split; [apply events_sound; vm_compute; reflexivity|vm_compute; reflexivity].
Qed.
Print Assumptions C18_send_failure_refuted.

(** A read into an empty buffer while data is pending lets an old duplicate in, and data is handed out twice. *)
Notation c18_zero := [to_server 11 [x41]; to_server 12 [x42]; to_server 13 [x43; x44]; to_server 11 [x41]; RxCancel; to_server 12 [x42]].
Theorem C18_zero_read_refuted : exists s, reachable s /\ reader_at 10 s /\ all_sends_succeed s /\
  Forall (from_stream 10 [[x41]; [x42]; [x43; x44]] (s_sender_connection_id (sk s)) (s_receiver_connection_id (sk s))) (w_in (wd s)) /\
  bytes_read (fst (run_ops (map ORecvFrom [9; 9; 1; 0; 9; 9]%nat) s)) = [x41; x42; x43; x44; x42].
Proof.
  exists (accepted true 500 10 c18_zero). split; [apply accepted_reachable; vm_compute; reflexivity|]. split; [vm_compute; auto 10|]. split; [intros i; reflexivity|].
  split; [apply events_sound; vm_compute; reflexivity|vm_compute; reflexivity].
Qed.
Print Assumptions C18_zero_read_refuted.

(** ** C19 *)
(** When a read blocks, everything up to the first packet that has not arrived has been handed out. *)
Theorem C19_nothing_withheld_partial a chunks s ns n s1 s2 :
  0 <= a -> a + Z.of_nat (length chunks) + 1 < 65535 -> Forall (fun c => c <> []) chunks ->
  reader_at a s -> all_sends_succeed s ->
  Forall (from_stream a chunks (s_sender_connection_id (sk s)) (s_receiver_connection_id (sk s))) (w_in (wd s)) ->
  ~ duplicated a chunks (w_in (wd s)) -> Forall (fun n => 0 < n)%nat ns -> (0 < n)%nat ->
  existsb panicked (fst (run_ops (map ORecvFrom ns) s)) = false -> s1 = snd (run_ops (map ORecvFrom ns) s) -> recv_from n s1 = (Fail Pend, s2) ->
  exists es d, w_in (wd s) = es ++ w_in (wd s2) /\ bytes_read (fst (run_ops (map ORecvFrom ns) s)) = concat (firstn d chunks) /\
    (d <= length chunks)%nat /\ (forall j, (j < d)%nat -> arrived a chunks es j) /\ ((d < length chunks)%nat -> ~ arrived a chunks es d).
Proof. exact (reader_complete a chunks s ns n s1 s2). Qed.
Print Assumptions C19_nothing_withheld_partial.

(** Packets 1 and 3 of 4 are late or lost: the second and fourth wait in the buffer. *)
Notation c19_script := [to_server 12 [x43]; to_server 14 [x47]; timeout; to_server 11 [x41; x42]].
Example C19_example : reader_at 10 (accepted true 500 10 c19_script) /\ all_sends_succeed (accepted true 500 10 c19_script) /\
  Forall (from_stream 10 [[x41; x42]; [x43]; [x44; x45; x46]; [x47]] (s_sender_connection_id (sk (accepted true 500 10 c19_script))) (s_receiver_connection_id (sk (accepted true 500 10 c19_script)))) c19_script /\
  ~ duplicated 10 [[x41; x42]; [x43]; [x44; x45; x46]; [x47]] c19_script /\
  fst (run_ops (map ORecvFrom [1; 1; 4]%nat) (accepted true 500 10 c19_script)) = [Ret (VData [x41] peer); Ret (VData [x42] peer); Ret (VData [x43] peer)] /\
  fst (recv_from 9 (snd (run_ops (map ORecvFrom [1; 1; 4]%nat) (accepted true 500 10 c19_script)))) = Fail Pend.
Proof.
  split; [vm_compute; auto 10|]. split; [intros i; reflexivity|]. split; [apply events_sound; vm_compute; reflexivity|].
  split; [apply distinct_sound; [cbn; lia|vm_compute; reflexivity]|]. split; vm_compute; reflexivity.
Qed.

(** On a connected socket and across the wrap everything has arrived exactly once and is withheld for good. *)
Theorem C19_client_refuted : exists s, reachable s /\ client_at 500 s /\ all_sends_succeed s /\
  Forall (from_stream 499 [[x41]; [x42]] (s_sender_connection_id (sk s)) (s_receiver_connection_id (sk s))) (w_in (wd s)) /\
  ~ duplicated 499 [[x41]; [x42]] (w_in (wd s)) /\ arrived 499 [[x41]; [x42]] (w_in (wd s)) 0 /\
  fst (run_ops (map ORecvFrom [9; 9]%nat) s) = [Ret (VData [x42] peer); Fail Pend].
Proof.
  exists (connected true 500 [to_client 501 [x42]; to_client 500 [x41]]). split; [apply connected_reachable; vm_compute; reflexivity|]. split; [vm_compute; auto 10|]. split; [intros i; reflexivity|].
  split; [apply events_sound; vm_compute; reflexivity|]. split; [apply distinct_sound; [cbn; lia|vm_compute; reflexivity]|]. split; [|vm_compute; reflexivity].
  exists (to_client 500 [x41]). split; [cbn; auto|]. eexists. split; [eexists; eexists; split; [reflexivity|vm_compute; reflexivity]|]. split; [reflexivity|]. split; [reflexivity|]. exists [x41]. auto.
Qed.
Print Assumptions C19_client_refuted.
Theorem C19_wrap_refuted : exists s, reachable s /\ reader_at 65533 s /\ all_sends_succeed s /\
  Forall (from_stream 65533 [[x41]; [x42]; [x43]] (s_sender_connection_id (sk s)) (s_receiver_connection_id (sk s))) (w_in (wd s)) /\
  ~ duplicated 65533 [[x41]; [x42]; [x43]] (w_in (wd s)) /\ length (w_in (wd s)) = 3%nat /\
  fst (run_ops (map ORecvFrom [9; 9]%nat) s) = [Ret (VData [x43] peer); Fail Pend] /\ w_in (wd (snd (run_ops (map ORecvFrom [9; 9]%nat) s))) = [].
Proof.
  exists (accepted false 500 65533 c18_wrap). split; [apply accepted_reachable; vm_compute; reflexivity|]. split; [vm_compute; auto 10|]. split; [intros i; reflexivity|].
  split; [apply events_sound; vm_compute; reflexivity|]. split; [apply distinct_sound; [cbn; lia|vm_compute; reflexivity]|]. split; [reflexivity|]. split; vm_compute; reflexivity.
Qed.
Print Assumptions C19_wrap_refuted.

(** ** C20 *)
(** In-order streams of any length, any number of wrap-arounds, accepted and connected sockets, both build profiles:
    no read panics or fails, what is read is a prefix, and it is everything once a read blocks or there were as many
    reads as bytes. *)
Theorem C20_in_order_partial a chunks s ns :
  Forall (fun c => c <> []) chunks ->
  s_state (sk s) = Connected -> 0 < s_max_retries (sk s) -> all_sends_succeed s ->
  s_pending_data (sk s) = [] -> s_incoming_buffer (sk s) = [] ->
  0 <= s_last_dropped (sk s) < 65536 -> s_last_dropped (sk s) <> (a + 1) mod 65536 ->
  s_ack_nr (sk s) = a mod 65536 \/ s_ack_nr (sk s) = (a + 1) mod 65536 ->
  in_order a chunks (s_sender_connection_id (sk s)) (s_receiver_connection_id (sk s)) 0 (w_in (wd s)) -> length (w_in (wd s)) = length chunks ->
  Forall (fun n => 0 < n)%nat ns ->
  Forall (fun o => (exists d src, o = Ret (VData d src) /\ d <> []) \/ o = Fail Pend) (fst (run_ops (map ORecvFrom ns) s)) /\
  prefix_of (bytes_read (fst (run_ops (map ORecvFrom ns) s))) (concat chunks) /\
  (In (Fail Pend) (fst (run_ops (map ORecvFrom ns) s)) \/ (length (concat chunks) <= length ns)%nat ->
   bytes_read (fst (run_ops (map ORecvFrom ns) s)) = concat chunks).
Proof. exact (order_reads a chunks s ns). Qed.
Print Assumptions C20_in_order_partial.

Example C20_example : let s := accepted true 500 65533 [to_server 65534 [x41; x42]; to_server 65535 [x43]; to_server 0 [x44; x45; x46]; to_server 1 [x47]] in
  reader_at 65533 s /\ all_sends_succeed s /\
  in_order 65533 [[x41; x42]; [x43]; [x44; x45; x46]; [x47]] (s_sender_connection_id (sk s)) (s_receiver_connection_id (sk s)) 0 (w_in (wd s)) /\
  fst (run_ops (map ORecvFrom [1; 1; 4; 2; 9; 9; 9]%nat) s) = [Ret (VData [x41] peer); Ret (VData [x42] peer); Ret (VData [x43] peer); Ret (VData [x44; x45] peer); Ret (VData [x46] peer);
    Ret (VData [x47] peer); Fail Pend].
Proof.
  cbv zeta. split; [vm_compute; auto 10|]. split; [intros i; reflexivity|]. split; [|vm_compute; reflexivity].
  apply in_order_sound. vm_compute. reflexivity.
Qed.

(** The one start number for which it fails on a connected socket: the peer's numbers start at 0, the initial value of
    [last_dropped]; its first packet is thrown away. *)
Theorem C20_client_zero_refuted : exists s, reachable s /\ client_at 0 s /\ all_sends_succeed s /\
  in_order (-1) [[x41]; [x42]] (s_sender_connection_id (sk s)) (s_receiver_connection_id (sk s)) 0 (w_in (wd s)) /\
  fst (run_ops (map ORecvFrom [9; 9]%nat) s) = [Ret (VData [x42] peer); Fail Pend].
Proof.
  exists (connected true 0 [to_client 0 [x41]; to_client 1 [x42]]). split; [apply connected_reachable; vm_compute; reflexivity|]. split; [vm_compute; auto 10|]. split; [intros i; reflexivity|].
  split; [|vm_compute; reflexivity]. apply in_order_sound. vm_compute. reflexivity.
Qed.
Print Assumptions C20_client_zero_refuted.
