(** C21 and C22, for every reader: an old copy stalls it, a forged packet is delivered. *)
From Verif Require Import SpecCancel ForeignProofs OldCopyProofs Samples.
Require Import Lia.
Local Open Scope Z_scope.

(** A reader whose buffer starts with a number behind the one acknowledged is stalled for good: whatever arrives from whomever (short of a packet with the
    number 0) and whatever is called, no byte is ever returned again. *)
Theorem C21_stalled_refuted : forall ops s q rest d src, reachable s -> s_pending_data (sk s) = [] -> s_state (sk s) <> New -> s_state (sk s) <> SynSent ->
  s_incoming_buffer (sk s) = q :: rest -> 1 <= seq_nr q < s_ack_nr (sk s) ->
  (forall b a p, In (RxDgram b a) (w_in (wd s)) -> packet_try_from (firstn 1520 b) = Some (Ok p) -> seq_nr p <> 0) ->
  In (Ret (VData d src)) (fst (run_ops ops s)) -> d = [].
Proof.
  intros ops s q rest d src HR HP H1 H2 HB HQ HZ. apply stalled_for_good; [exact HR| |exact HZ]. unfold stall. rewrite HB. pose proof (r_ack _ (reachable_ranges s HR)). repeat split; try assumption; lia.
Qed.
Print Assumptions C21_stalled_refuted.
(** Every reader that has handed out everything up to number a is brought into that state by one copy of an older packet: nothing is returned after it. *)
Theorem C21_every_refuted : forall n ops b src q rest s d src', reachable s -> caught_up (s_ack_nr (sk s)) (sk s) -> (forall i, w_send (wd s) i = SendOk) ->
  w_in (wd s) = RxDgram b src :: rest -> packet_try_from (firstn 1520 b) = Some (Ok q) -> get_type q = Some PData -> own_id (sk s) q ->
  seq_nr q < s_ack_nr (sk s) -> s_ack_nr (sk s) < 65535 ->
  (forall b a p, In (RxDgram b a) (w_in (wd s)) -> packet_try_from (firstn 1520 b) = Some (Ok p) -> seq_nr p <> 0) ->
  In (Ret (VData d src')) (fst (run_ops (ORecvFrom n :: ops) s)) -> d = [].
Proof. intros n ops b src q rest s d src' HR HC HX EW HV HT HO HQ H1 HZ. eapply (old_copy_stalls n b src q rest s ops d src'); eassumption. Qed.
Print Assumptions C21_every_refuted.

Notation c21_caught := (snd (run_ops [ORecvFrom 9; ORecvFrom 9] (accepted true 500 10 [rx_pkt (dgram PData 101 11 0 [x41]); rx_pkt (dgram PData 101 12 0 [x42]);
  rx_pkt (dgram PData 101 11 0 [x41]); rx_pkt (dgram PData 101 13 0 [x43]); rx_pkt (dgram PData 101 14 0 [x44])]))).
Notation c21_stuck := (snd (run_ops [ORecvFrom 9; ORecvFrom 9; ORecvFrom 9] (accepted true 500 10 [rx_pkt (dgram PData 101 11 0 [x41]); rx_pkt (dgram PData 101 12 0 [x42]);
  rx_pkt (dgram PData 101 11 0 [x41]); rx_pkt (dgram PData 101 13 0 [x43]); rx_pkt (dgram PData 101 14 0 [x44])]))).
Example C21_every_example : reachable c21_caught /\ caught_up (s_ack_nr (sk c21_caught)) (sk c21_caught) /\ w_send (wd c21_caught) 7%nat = SendOk /\
  length (w_in (wd c21_caught)) = 3%nat /\ own_id (sk c21_caught) (dgram PData 101 11 0 [x41]) /\ s_ack_nr (sk c21_caught) = 12 /\
  fst (run_ops [ORecvFrom 9; ORecvFrom 9; ORecvFrom 9] c21_caught) = [Fail Pend; Fail Pend; Fail Pend].
Proof. split; [reach|]. split; [unfold caught_up; vm_compute; repeat split; auto; discriminate|]. split; [vm_compute; reflexivity|]. split; [vm_compute; reflexivity|]. split; [right; vm_compute; reflexivity|]. vm_compute. auto. Qed.
Example C21_stalled_example : reachable c21_stuck /\ s_pending_data (sk c21_stuck) = [] /\ s_state (sk c21_stuck) = Connected /\
  map seq_nr (s_incoming_buffer (sk c21_stuck)) = [11; 13; 14] /\ s_ack_nr (sk c21_stuck) = 14.
Proof. split; [reach|]. vm_compute. repeat split. Qed.

(** C22: every such reader delivers a data packet with the next number, from any address and with any connection id, and counts it as received; the
    forger is told so with a Reset. *)
Theorem C22_every_refuted : forall n p d src rest s, w_in (wd s) = RxDgram p src :: rest -> caught_up (s_ack_nr (sk s)) (sk s) -> (forall i, w_send (wd s) i = SendOk) ->
  packet_try_from (firstn 1520 p) = Some (Ok p) -> get_type p = Some PData -> ~ own_id (sk s) p -> payload p = Some d -> d <> [] -> (length d <= n)%nat ->
  seq_nr p = (s_ack_nr (sk s) + 1) mod 65536 ->
  exists s' r, recv_from n s = (Ret (d, src), s') /\ get_type r = Some PReset /\ w_sent (wd s') = w_sent (wd s) ++ [(src, r)] /\ w_in (wd s') = rest /\
    s_ack_nr (sk s') = seq_nr p /\ s_last_dropped (sk s') = seq_nr p /\ s_state (sk s') = Connected.
Proof.
  intros n p d src rest s EW HC HX HV HT HO HP Hd Hn HQ. destruct (recv_forged n p d src rest s EW HC HX HV HT HO HP Hd Hn HQ) as (s' & r & H1 & H2 & H3 & H4 & _ & H6).
  exists s', r. rewrite H6. repeat split; auto. destruct HC as (ES & _). exact ES.
Qed.
Print Assumptions C22_every_refuted.
Notation c22_forged := (snd (run_ops [ORecvFrom 9] (accepted true 500 10 [rx_pkt (dgram PData 101 11 0 [x41]); RxDgram (dgram PData 7 12 0 [x66]) local; rx_pkt (dgram PData 101 12 0 [x42]);
  rx_pkt (dgram PData 101 13 0 [x43])]))).
Example C22_every_example : caught_up (s_ack_nr (sk c22_forged)) (sk c22_forged) /\ ~ own_id (sk c22_forged) (dgram PData 7 12 0 [x66]) /\ seq_nr (dgram PData 7 12 0 [x66]) = s_ack_nr (sk c22_forged) + 1 /\
  fst (run_ops [ORecvFrom 9; ORecvFrom 9] c22_forged) = [Ret (VData [x66] local); Ret (VData [x43] peer)].
Proof. split; [unfold caught_up; vm_compute; repeat split; auto; discriminate|]. split; [intros [H|H]; vm_compute in H; discriminate|]. vm_compute. auto. Qed.
