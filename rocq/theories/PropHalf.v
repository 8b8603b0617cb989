(** C115. *)
From Verif Require Import HalfProofs Samples.
Require Import Lia.
Local Open Scope Z_scope.

(** C115.  Once the peer's FIN has closed the socket while packets are in flight, no script of network events makes flush succeed, and no packet leaves the window. *)
Theorem C115_every_refuted : forall s, s_state (sk s) = Closed -> s_send_window (sk s) <> [] ->
  exists e s', run_op OFlush s = (Fail e, s') /\ length (s_send_window (sk s')) = length (s_send_window (sk s)).
Proof. intros s HS HW. destruct (closed_flush_fails s HS HW) as (e & s' & E & H). exists e, s'. split; [|exact H]. cbn [run_op]. unfold bind. now rewrite E. Qed.
Print Assumptions C115_every_refuted.

Notation ack n := (rx_pkt (dgram PState 101 11 n [])).
Notation fin := (rx_pkt (dgram PFin 101 11 499 [])).
Notation sent evs := (let s := snd (run_ops [OSendTo [x41]] (accepted true 500 10 [])) in mkSt (sk s) (sw_in evs (wd s))).
(** The peer ends its stream and then acknowledges what it was sent: flush and close, on a connected socket, fail on that acknowledgement, and no FIN is sent. *)
Theorem C115_flush_refuted : exists s, reachable s /\ s_state (sk s) = Connected /\ w_in (wd s) = [fin; ack 500] /\ map seq_nr (s_send_window (sk s)) = [500] /\
  fst (run_op OFlush s) = Fail (Throw KOther) /\ fst (run_op OClose s) = Fail (Throw KOther) /\ w_in (wd (snd (run_op OClose s))) = [] /\
  map seq_nr (s_send_window (sk (snd (run_op OClose s)))) = [500] /\ Forall (fun x => get_type (snd x) <> Some PFin) (w_sent (wd (snd (run_op OClose s)))).
Proof.
  exists (sent [fin; ack 500]). split; [cbv zeta; apply rc_input; reach|]. do 7 (split; [vm_compute; reflexivity|]). 
  vm_compute. repeat constructor; discriminate.
Qed.
Print Assumptions C115_flush_refuted.
(** In the other order both succeed. *)
Example C115_example : fst (run_op OFlush (sent [ack 500; fin])) = Ret VUnit /\ fst (run_op OClose (sent [ack 500; fin])) = Ret VUnit /\
  s_state (sk (snd (run_op OFlush (sent [fin])))) = Closed /\ s_send_window (sk (snd (run_op OFlush (sent [fin])))) <> [].
Proof. vm_compute. repeat split; discriminate. Qed.
