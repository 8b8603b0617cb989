(** C107: a write that fails, or is given up, while its packet is handed to the UDP socket. *)
From Verif Require Import HoleProofs Samples.
Local Open Scope Z_scope.

(** For every open connection with nothing queued or in flight, and every message of one packet whose UDP send fails or
    is given up: whatever is called and received afterwards (up to 65535 packets of data), the number of the lost packet is
    never sent. *)
Theorem C107_never_sent_refuted d s evs ops : reachable s -> s_state (sk s) = Connected -> s_send_window (sk s) = [] -> s_unsent_queue (sk s) = [] -> (0 < length d <= 1380)%nat ->
  (s_seq_nr (sk s) - s_last_acked (sk s)) mod 65536 <= (s_last_acked (sk s) - s_seq_nr (sk s)) mod 65536 -> w_send (wd s) (w_stick (wd s)) <> SendOk ->
  exists s1, send_to d s = (match w_send (wd s) (w_stick (wd s)) with SendErr k => Fail (Throw k) | _ => Fail Pend end, s1) /\ w_sent (wd s1) = w_sent (wd s) /\
    let s2 := mkSt (sk s1) (sw_in evs (wd s1)) in
    existsb panicked (fst (run_ops ops s2)) = false -> packets_needed ops s2 <= 65535 -> exists new, w_sent (wd (snd (run_ops ops s2))) = w_sent (wd s) ++ new /\
      forall dest p, In (dest, p) new -> get_type p = Some PData -> seq_nr p <> s_seq_nr (sk s).
Proof. intros HR HS HW HU. exact (never_sent d s evs ops (conj HR (conj HS (conj HW HU)))). Qed.
Print Assumptions C107_never_sent_refuted.
(** The peer, who has everything sent before, reads nothing of what is sent afterwards, however often it is sent and
    whatever the network does with it. *)
Theorem C107_never_read_refuted d s evs ops a r ns : reachable s -> s_state (sk s) = Connected -> s_send_window (sk s) = [] -> s_unsent_queue (sk s) = [] -> (0 < length d <= 1380)%nat ->
  (s_seq_nr (sk s) - s_last_acked (sk s)) mod 65536 <= (s_last_acked (sk s) - s_seq_nr (sk s)) mod 65536 -> w_send (wd s) (w_stick (wd s)) <> SendOk ->
  0 <= a -> s_seq_nr (sk s) = a + 1 -> reader_at a r -> s_receiver_connection_id (sk r) = s_sender_connection_id (sk s) -> all_sends_succeed r -> Forall (fun n => 0 < n)%nat ns ->
  exists s1, send_to d s = (match w_send (wd s) (w_stick (wd s)) with SendErr k => Fail (Throw k) | _ => Fail Pend end, s1) /\
    let s2 := mkSt (sk s1) (sw_in evs (wd s1)) in
    existsb panicked (fst (run_ops ops s2)) = false -> a + packets_needed ops s2 < 65533 -> exists new, w_sent (wd (snd (run_ops ops s2))) = w_sent (wd s) ++ new /\
      ((forall e p, In e (w_in (wd r)) -> delivers e p -> In p (map snd new) /\ get_type p = Some PData) ->
       bytes_read (fst (run_ops (map ORecvFrom ns) r)) = []).
Proof. intros HR HS HW HU. exact (never_read d s evs ops a r ns (conj HR (conj HS (conj HW HU)))). Qed.
Print Assumptions C107_never_read_refuted.
(** When the write is refused because the connection is closed, nothing is used up. *)
Theorem C107_closed_partial d s : s_state (sk s) = Closed -> send_to d s = (Fail (Throw KNotConnected), s).
Proof. exact (send_closed d s). Qed.
Print Assumptions C107_closed_partial.
(** A client whose second datagram, the first after the SYN, fails or is given up; it writes the message
    again and then another, which are sent twice; the server waits for a packet that never comes. *)
Definition bad_second (r : sendres) (evs : list rx) : world :=
  mkWorld evs 0 (fun n => 1600000000000000 + 1000 * Z.of_nat n) 0 (fun _ => 300) 0 (fun i => if Nat.eqb i 1 then r else SendOk) [] true.
Definition half_client (r : sendres) : st := snd (connect (Ok [peer]) (Ok tt) (mkSt blank (bad_second r [rx_pkt (dgram PState 300 10 1 [])]))).
Lemma half_client_reachable r : reachable (half_client r).
Proof.
  unfold half_client. assert (H : fst (connect (Ok [peer]) (Ok tt) (mkSt blank (bad_second r [rx_pkt (dgram PState 300 10 1 [])]))) = Ret tt) by (vm_compute; reflexivity).
  destruct (connect _ _ _) as [o s] eqn:E. cbn [fst snd] in *. subst o. eapply rc_connect; [|exact E]. reflexivity.
Qed.
Definition half_server (evs : list rx) : st :=
  let s := snd (accept (RxDgram (dgram PSyn 300 1 0 []) peer) (Ok local) (Ok tt) (mkSt blank (sample_world true 500 []))) in mkSt (sk s) (sw_in evs (wd s)).
Definition after_syn (s : st) : list packet := map snd (skipn 1 (w_sent (wd s))).
Example C107_example : forall r, In r [SendErr (KMisc 13); SendDrop] ->
  let s := half_client r in let s1 := snd (send_to [x41] s) in
  let s2 := snd (run_ops [OSendTo [x41]; OSendTo [x42]; OFlush; OClose] (mkSt (sk s1) (sw_in [timeout] (wd s1)))) in
  let srv := half_server (map (fun p => RxDgram p peer) (after_syn s2)) in
  reachable s /\ s_state (sk s) = Connected /\ s_send_window (sk s) = [] /\ s_unsent_queue (sk s) = [] /\ s_seq_nr (sk s) = 2 /\ s_last_acked (sk s) = 1 /\
  w_send (wd s) (w_stick (wd s)) = r /\ reader_at 1 srv /\ s_receiver_connection_id (sk srv) = s_sender_connection_id (sk s) /\ all_sends_succeed srv /\
  map (fun p => (get_type p, seq_nr p, payload p)) (after_syn s2) = [(Some PData, 3, Some [x41]); (Some PData, 4, Some [x42]); (Some PData, 3, Some [x41])] /\
  fst (recv_from 9 srv) = Fail Pend /\ s_state (sk (snd (recv_from 9 srv))) = Connected.
Proof.
  intros r H. split; [apply half_client_reachable|]. cbn [In] in H. destruct H as [<-|[<-|[]]];
    (do 6 (split; [vm_compute; reflexivity|]); split; [vm_compute; auto 10|]; split; [vm_compute; reflexivity|]; split; [intros i; reflexivity|]; vm_compute; auto).
Qed.
(** If the writer closes instead, the reader is told that the stream ended there. *)
Example C107_example_fin :
  let s1 := snd (send_to [x41] (half_client SendDrop)) in
  let out := after_syn (snd (close s1)) in
  map (fun p => (get_type p, seq_nr p)) out = [(Some PFin, 3)] /\ fst (recv_from 9 (half_server (map (fun p => RxDgram p peer) out))) = Ret ([], peer).
Proof. vm_compute. auto. Qed.
