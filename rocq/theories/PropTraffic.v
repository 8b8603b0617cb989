(** C91: how much is sent in answer to what arrives.  C92: closed sockets.  C93: what a reader buffers. *)
From Verif Require Import UtilProofs SpecTraffic SpecTransfer TrafficProofs Samples.
Require Import Lia.
Local Open Scope Z_scope.

(** C91.  A socket with nothing in flight that is asked anything but to send: at most one datagram for each one that arrives, three for each timeout, and one for each close; whatever
    arrives, in whatever state. *)
Theorem C91_idle_partial : forall ops s, s_send_window (sk s) = [] -> forallb (fun o => match o with OSendTo _ => false | _ => true end) ops = true ->
  exists used, consumed used s (snd (run_ops ops s)) /\ (sent_count (snd (run_ops ops s)) <= sent_count s + datagrams used + 3 * timeouts used + closes ops)%nat.
Proof. intros ops s HW HF. exact (idle_traffic ops s HW HF). Qed.
Print Assumptions C91_idle_partial.
(** But a sender is made to send a packet again for every selective acknowledgement in one and the same datagram: 245 times, with three packets in flight. *)
Definition sacks (n : nat) : packet := wire (mkHdr PState 300 77 0 1048576 500 1) (repeat (x01, [x00; x00; x00; x00]) n) [].
Definition speaker : st := snd (run_ops [OSendTo [x41]; OSendTo [x42]; OSendTo [x43]] (connected true 500 [])).
Theorem C91_sender_refuted : reachable speaker /\ map seq_nr (s_send_window (sk speaker)) = [2; 3; 4] /\ length (sacks 245) = 1490%nat /\
  let sent := map snd (skipn (sent_count speaker) (w_sent (wd (snd (run_op OFlush (arrive peer [sacks 245] speaker)))))) in map seq_nr sent = repeat 3 245 /\ map get_type sent = repeat (Some PData) 245.
Proof.
  split; [unfold speaker; apply ran_reachable; [apply connected_reachable|]; vm_compute; reflexivity|]. split; [vm_compute; reflexivity|]. split; [vm_compute; reflexivity|]. vm_compute. auto.
Qed.
Print Assumptions C91_sender_refuted.

(** C92.  A closed socket does not touch the network and does not wait, whatever it is asked, except for a flush with something unacknowledged. *)
Theorem C92_silent_partial : forall o s, s_state (sk s) = Closed -> (o = OFlush -> s_send_window (sk s) = []) ->
  wd (snd (run_op o s)) = wd s /\ s_state (sk (snd (run_op o s))) = Closed /\ fst (run_op o s) <> Fail Pend.
Proof. exact closed_silent. Qed.
Print Assumptions C92_silent_partial.
(** That flush waits and, with every timeout, sends again: in every closed state with something unacknowledged. *)
Theorem C92_flush_refuted : forall k p rest s, s_state (sk s) = Closed -> s_send_window (sk s) = p :: rest -> w_in (wd s) = [RxErr k] -> is_timeout k = true -> 1 < s_max_retries (sk s) ->
  0 <= s_congestion_timeout (sk s) < 2 ^ 63 -> (forall i, w_send (wd s) i = SendOk) ->
  exists s' t, run_op OFlush s = (Fail Pend, s') /\ w_sent (wd s') = w_sent (wd s) ++ [(s_connected_to (sk s), set_timestamp t p)].
Proof.
  intros k p rest s _ HW HI HK HM HT HX. destruct (closed_flush k p rest s HW HI HK HM HT (all_sent_ok s HX)) as (s' & t & E & L). exists s', t. split; [|exact L].
  cbn [run_op]. unfold bind. rewrite E. reflexivity.
Qed.
Print Assumptions C92_flush_refuted.
(** Such states are reached: the peer does not answer, a flush gives up, the connection is closed; the next flush starts all over. *)
Definition given_up : st := snd (run_ops [OSendTo [x41]; OFlush] (connected true 500 (repeat timeout 5))).
Example C92_example : reachable given_up /\ s_state (sk given_up) = Closed /\ map seq_nr (s_send_window (sk given_up)) = [2] /\
  let r := run_op OFlush (mkSt (sk given_up) (sw_in (repeat timeout 5) (wd given_up))) in
  (fst r, length (w_sent (wd (snd r))) - sent_count given_up)%nat = (Fail (Throw KTimedOut), 5%nat).
Proof. split; [unfold given_up; apply ran_reachable; [apply connected_reachable|]; vm_compute; reflexivity|]. vm_compute. auto. Qed.

(** C91 on a reader: a foreign packet, a timeout, a packet of the connection and its copy. *)
Example C91_example :
  let s := accepted true 500 1 [rx_pkt (dgram PData 9 77 0 [x41]); timeout; rx_pkt (dgram PData 101 4 500 [x42]); rx_pkt (dgram PData 101 4 500 [x42])] in
  let s' := snd (run_ops [ORecvFrom 10; OClose] s) in
  (s_send_window (sk s), w_in (wd s'), (sent_count s' - sent_count s)%nat) = ([], [], 7%nat).
Proof. vm_compute. reflexivity. Qed.

(** C93.  A reader keeps more than the 1 MiB it advertises, in its replies, as the room it has: 720 packets, the first one after a gap. *)
Definition hoard : st := snd (run_ops [ORecvFrom 10] (accepted true 500 1 (map (fun i => rx_pkt (dgram PData 101 (3 + Z.of_nat i) 500 (repeat x41 1480))) (seq 0 720)))).
Definition stored (s : st) : Z := fold_right (fun p n => match payload p with Some d => zlen d + n | None => n end) 0 (s_incoming_buffer (sk s)).
Lemma hoard_accepted : fst (accept (RxDgram (dgram PSyn 100 1 0 []) peer) (Ok local) (Ok tt) (mkSt blank (sample_world true 500 []))) = Ret peer.
Proof. vm_compute. reflexivity. Qed.
Lemma hoard_checked : (let r := run_ops [ORecvFrom 10] (accepted true 500 1 (map (fun i => rx_pkt (dgram PData 101 (3 + Z.of_nat i) 500 (repeat x41 1480))) (seq 0 720))) in negb (existsb panicked (fst r)) && (1048576 <? stored (snd r)) && forallb (Z.eqb 1048576) (map wnd_size (skipn 1 (map snd (w_sent (wd (snd r)))))) &&
  (length (skipn 1 (map snd (w_sent (wd (snd r))))) =? 720)%nat) = true.
Proof. vm_compute. reflexivity. Qed.
Lemma all_same (z : Z) l n : forallb (Z.eqb z) l = true -> length l = n -> l = repeat z n.
Proof. revert n. induction l as [|x l IH]; intros n H <-; [reflexivity|]. cbn in *. apply andb_prop in H as [H1 H2]. apply Z.eqb_eq in H1. subst x. f_equal. now apply IH. Qed.
Theorem C93_refuted : reachable hoard /\ 1048576 < stored hoard /\ map wnd_size (skipn 1 (map snd (w_sent (wd hoard)))) = repeat 1048576 720.
Proof.
  pose proof hoard_checked as H. cbv zeta in H. apply andb_prop in H as [H H4]. apply andb_prop in H as [H H3]. apply andb_prop in H as [H1 H2]. unfold hoard.
  split; [|split; [exact (proj1 (Z.ltb_lt _ _) H2)|apply all_same; [exact H3|rewrite map_length; exact (proj1 (Nat.eqb_eq _ _) H4)]]].
  exact (ran_reachable _ _ (accepted_reachable true 500 1 _ hoard_accepted) (proj1 (negb_true_iff _) H1)).
Qed.
Print Assumptions C93_refuted.
