(** C113. *)
From Verif Require Import TimerProofs NoPanicProofs PropDelay Samples.
Require Import Lia.
Local Open Scope Z_scope.

(** What the script of network events holds for timeouts. *)
Definition timed_out (e : rx) : bool := match e with RxErr KTimedOut | RxErr KWouldBlock => true | _ => false end.
Lemma timed_out_count l : timeouts l = length (filter timed_out l).
Proof. reflexivity. Qed.

(** C113.  Whatever a socket with nothing in flight reads, its timer is what it was, doubled once for every timeout: no packet of the peer brings it down. *)
Theorem C113_reader_refuted : forall n s v s', reachable s -> s_send_window (sk s) = [] -> run_op (ORecvFrom n) s = (v, s') -> (forall l, v <> Fail (Panic l)) ->
  s_send_window (sk s') = [] /\ exists used, w_in (wd s) = used ++ w_in (wd s') /\
    s_congestion_timeout (sk s') = (s_congestion_timeout (sk s) * 2 ^ Z.of_nat (length (filter timed_out used))) mod 2 ^ 64.
Proof.
  intros n s v s' HR HW E HN. destruct (read_timer n s v s' (r_cto _ (reachable_ranges s HR)) HW E HN) as (H1 & used & H2 & H3). rewrite timed_out_count in H3. split; [exact H1|]. now exists used.
Qed.
Print Assumptions C113_reader_refuted.

(** A reader whose peer pauses now and then: twelve reads, each of which sees one timeout and then its data, all in order. *)
Definition paused (n : nat) : list rx := flat_map (fun i => [RxErr KTimedOut; rx_pkt (dgram PData 101 (11 + Z.of_nat i) 500 [x41])]) (seq 0 n).
Notation reader := (snd (run_ops (repeat (ORecvFrom 10) 12) (accepted true 500 10 (paused 12)))).
Theorem C113_hour_refuted : exists s, reachable s /\ run_ops (repeat (ORecvFrom 10) 12) (accepted true 500 10 (paused 12)) = (repeat (Ret (VData [x41] peer)) 12, s) /\
  s_state (sk s) = Connected /\ s_congestion_timeout (sk (accepted true 500 10 (paused 12))) = 1000 /\ s_congestion_timeout (sk s) = 4096000.
Proof.
  exists reader. split; [reach|]. split; [|vm_compute; auto].
  assert (E : fst (run_ops (repeat (ORecvFrom 10) 12) (accepted true 500 10 (paused 12))) = repeat (Ret (VData [x41] peer)) 12) by (vm_compute; reflexivity). rewrite <- E. apply surjective_pairing.
Qed.
Print Assumptions C113_hour_refuted.
(** Only the acknowledgement of an own packet does: from any value, to between 500 ms and 60 s. *)
Theorem C113_sender_partial : forall i s s', reachable s -> process_ack i s = (Ret tt, s') -> 500 <= s_congestion_timeout (sk s') <= 60000.
Proof. intros i s s' HR H. destruct (C81_sample i s s' HR H) as (p & _ & HX). cbv zeta in HX. destruct HX as (_ & _ & _ & _ & _ & ->). lia. Qed.
Print Assumptions C113_sender_partial.
Example C113_example : s_send_window (sk (accepted true 500 10 (paused 12))) = [] /\ length (filter timed_out (paused 12)) = 12%nat /\
  let s := snd (run_ops [OSendTo [x41]; ORecvFrom 10] (accepted true 500 10 [timeout; timeout; timeout; rx_pkt (dgram PState 101 11 500 []); rx_pkt (dgram PData 101 11 500 [x42])])) in
  s_congestion_timeout (sk s) = 500 /\ s_send_window (sk s) = [].
Proof. vm_compute. auto. Qed.
