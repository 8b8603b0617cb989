(** C108: which packets acknowledge. *)
From Verif Require Import PiggyProofs CongProofs PropCong Samples.
Local Open Scope Z_scope.

(** However long the history and whatever is received: as long as no State packet is among it, nothing that is in flight
    is ever acknowledged (only the time stamp of the oldest packet changes, and packets are added behind), and no flush
    succeeds.  What the acknowledgement numbers of data, FIN and other packets say does not matter. *)
Theorem C108_refuted ops s p w : reachable s -> s_send_window (sk s) = p :: w ->
  (forall d src q, In (RxDgram d src) (w_in (wd s)) -> packet_try_from (firstn 1520 d) = Some (Ok q) -> get_type q <> Some PState) -> existsb panicked (fst (run_ops ops s)) = false ->
  (exists q more, s_send_window (sk (snd (run_ops ops s))) = q :: w ++ more) /\
  (forall i v, nth_error ops i = Some OFlush -> nth_error (fst (run_ops ops s)) i <> Some (Ret v)).
Proof.
  intros HR HW HN HP. destruct (piggy ops s HR HN HP) as (H1 & H2). rewrite HW in H1, H2. split; [exact H1|]. apply H2. discriminate.
Qed.
Print Assumptions C108_refuted.
(** Nor can the connection be closed. *)
Theorem C108_close_refuted s : reachable s -> s_send_window (sk s) <> [] -> s_state (sk s) = Connected ->
  (forall d src q, In (RxDgram d src) (w_in (wd s)) -> packet_try_from (firstn 1520 d) = Some (Ok q) -> get_type q <> Some PState) -> fst (close s) <> Ret tt.
Proof. intros HR HW HS HN. exact (close_pends s HR HN HW HS). Qed.
Print Assumptions C108_close_refuted.
(** On a State packet the number counts. *)
Theorem C108_state_partial : forall p exts s s', extensions p = Some exts -> no_sack exts ->
  (s_send_window (sk s) = [] \/ dup_after (ack_nr p) (sk s) <> 3) -> handle_state_packet recv p s = (Ret tt, s') ->
  forall w1 q w2, s_send_window (sk s) = w1 ++ q :: w2 -> seq_nr q = ack_nr p -> ~ In (ack_nr p) (map seq_nr w1) -> s_send_window (sk s') = w2.
Proof. intros p exts s s' H1 H2 H3 H4. exact (proj1 (C33_acknowledge p exts s s' H1 H2 H3 H4)). Qed.
Print Assumptions C108_state_partial.

(** A client sends a byte; the peer answers with data that acknowledges it, three times, and the client's timer runs out: the byte is sent again. *)
Definition talking : st :=
  snd (run_ops [OSendTo [x41]] (connected true 10 (map (fun sq => rx_pkt (dgram PData 300 sq 2 [x58])) [10; 11; 12] ++ [timeout; rx_pkt (dgram PFin 300 13 2 [])]))).
Example C108_example : reachable talking /\ map seq_nr (s_send_window (sk talking)) = [2] /\ s_state (sk talking) = Connected /\
  map (fun e => match e with RxDgram d _ => (get_type d, ack_nr d) | _ => (None, 0) end) (w_in (wd talking)) = [(Some PData, 2); (Some PData, 2); (Some PData, 2); (None, 0); (Some PFin, 2)] /\
  let r := run_ops [ORecvFrom 1500; OFlush; OClose] talking in
  fst r = [Ret (VData [x58] peer); Fail Pend; Ret VUnit] /\ map seq_nr (s_send_window (sk (snd r))) = [2] /\
  map (fun x => (get_type (snd x), seq_nr (snd x))) (filter (fun x => match get_type (snd x) with Some PData => true | _ => false end) (w_sent (wd (snd r)))) = [(Some PData, 2); (Some PData, 2)].
Proof. split; [unfold talking; reach|]. vm_compute. auto 20. Qed.
