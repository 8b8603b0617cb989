(** C94: what a read that is given up (its future dropped) costs. *)
From Verif Require Import SpecCancel CancelProofs Samples.
Require Import Lia.
Local Open Scope Z_scope.

(** C94.  A read given up while it waits for a datagram leaves the socket as it was: the next read sees exactly what this one would have seen. *)
Theorem C94_waiting_partial : forall rest n s, w_in (wd s) = RxCancel :: rest -> 0 < s_max_retries (sk s) -> s_state (sk s) <> Closed -> s_state (sk s) <> ResetReceived -> nothing_ready (sk s) ->
  recv_from n s = (Fail Pend, mkSt (sk s) (sw_in rest (wd s))).
Proof. intros rest n s HI HM HC HR (HP & HB). exact (read_cancelled rest n s HI HM HC HR HP HB). Qed.
Print Assumptions C94_waiting_partial.
(** Given up while it sends the acknowledgement of a packet, the packet is not handed out, but a copy of it that arrives next is. *)
Theorem C94_again_partial : forall n a d p q src rest s, caught_up a (sk s) -> w_in (wd s) = RxDgram p src :: RxDgram q src :: rest ->
  piece_no (s_receiver_connection_id (sk s)) ((a + 1) mod 65536) d p -> piece_no (s_receiver_connection_id (sk s)) ((a + 1) mod 65536) d q ->
  (0 < length d <= 1380)%nat -> (length d <= n)%nat -> w_send (wd s) (w_stick (wd s)) = SendDrop -> w_send (wd s) (S (w_stick (wd s))) = SendOk ->
  exists s1 s2 r, recv_from n s = (Fail Pend, s1) /\ recv_from n s1 = (Ret (d, src), s2) /\ w_sent (wd s2) = w_sent (wd s) ++ [(src, r)] /\ acknowledges ((a + 1) mod 65536) r.
Proof.
  intros n a d p q src rest s HC HI HP HQ Hd Hn HF HX. destruct (packet_again n a d p q src rest s) as (s1 & s2 & r & E1 & E2 & H); auto; [congruence|]. rewrite HF in E1.
  exists s1, s2, r. split; [|exact H]. destruct (recv_from n s); cbn [fst snd] in *. congruence.
Qed.
Print Assumptions C94_again_partial.
(** If instead the next packet of the stream arrives, it is handed out in place of the first, and both are acknowledged: the first is lost for good. *)
Theorem C94_refuted : forall n a d e p q src rest s, caught_up a (sk s) -> w_in (wd s) = RxDgram p src :: RxDgram q src :: rest ->
  piece_no (s_receiver_connection_id (sk s)) ((a + 1) mod 65536) d p -> piece_no (s_receiver_connection_id (sk s)) ((a + 2) mod 65536) e q ->
  (0 < length d <= 1380)%nat -> (0 < length e <= 1380)%nat -> (length d <= n)%nat -> (length e <= n)%nat ->
  w_send (wd s) (w_stick (wd s)) = SendDrop -> w_send (wd s) (S (w_stick (wd s))) = SendOk ->
  exists s1 s2 r, recv_from n s = (Fail Pend, s1) /\ recv_from n s1 = (Ret (e, src), s2) /\ w_sent (wd s2) = w_sent (wd s) ++ [(src, r)] /\ acknowledges ((a + 2) mod 65536) r.
Proof.
  intros n a d e p q src rest s HC HI HP HQ Hd He Hn Hm HF HX. destruct (packet_lost n a d e p q src rest s) as (s1 & s2 & r & E1 & E2 & H); auto; [congruence|]. rewrite HF in E1.
  exists s1, s2, r. split; [|exact H]. destruct (recv_from n s); cbn [fst snd] in *. congruence.
Qed.
Print Assumptions C94_refuted.

(** Such a reader: an accepted connection whose second datagram, after the answer to the SYN, is given up. *)
Definition second_dropped : world :=
  mkWorld [] 0 (fun n => 1600000000000000 + 1000 * Z.of_nat n) 0 (fun _ => 500) 0 (fun i => if Nat.eqb i 1 then SendDrop else SendOk) [] true.
Definition listening (evs : list rx) : st :=
  let s := snd (accept (RxDgram (dgram PSyn 100 10 0 []) peer) (Ok local) (Ok tt) (mkSt blank second_dropped)) in mkSt (sk s) (sw_in evs (wd s)).
Lemma listening_reachable evs : reachable (listening evs).
Proof.
  unfold listening. cbv zeta. apply rc_input.
  assert (H : fst (accept (RxDgram (dgram PSyn 100 10 0 []) peer) (Ok local) (Ok tt) (mkSt blank second_dropped)) = Ret peer) by (vm_compute; reflexivity).
  destruct (accept _ _ _ _) as [o s] eqn:E. cbn [fst snd] in *. subst o. eapply rc_accept; [|exact E]. reflexivity.
Qed.
Definition part (sq : Z) (d : list byte) : packet := wire (mkHdr PData 101 7 0 0 sq 500) [] d.
Example C94_example : let s := listening [RxCancel; RxDgram (part 11 [x41]) peer; RxDgram (part 12 [x42]) peer] in let s0 := snd (recv_from 9 s) in
  reachable s /\ nothing_ready (sk s) /\ s_state (sk s) = Connected /\ fst (recv_from 9 s) = Fail Pend /\ caught_up 10 (sk s0) /\ s_receiver_connection_id (sk s0) = 101 /\
  w_send (wd s0) (w_stick (wd s0)) = SendDrop /\ w_send (wd s0) (S (w_stick (wd s0))) = SendOk /\
  piece_no 101 11 [x41] (part 11 [x41]) /\ piece_no 101 12 [x42] (part 12 [x42]) /\
  let '(rs, s2) := run_ops [ORecvFrom 9; ORecvFrom 9; ORecvFrom 9] s in rs = [Fail Pend; Fail Pend; Ret (VData [x42] peer)] /\ map (fun x => ack_nr (snd x)) (w_sent (wd s2)) = [10; 12].
Proof.
  cbv zeta. split; [apply listening_reachable|]. split; [vm_compute; auto|]. split; [vm_compute; reflexivity|]. split; [vm_compute; reflexivity|]. split; [vm_compute; intuition congruence|].
  split; [vm_compute; reflexivity|]. split; [vm_compute; reflexivity|]. split; [vm_compute; reflexivity|]. split; [exists 7, 0, 500; reflexivity|]. split; [exists 7, 0, 500; reflexivity|]. vm_compute. auto.
Qed.
