(** C118. *)
From Verif Require Import TransferProofs Samples.
Require Import Lia.
Local Open Scope Z_scope.

(** C118.  Whatever the state, except Closed, an idle socket takes a write, sends it and reports success: also after a reset, and with no connection at all. *)
Theorem C118_every_refuted : forall d s, (s_state (sk s) = ResetReceived \/ s_state (sk s) = New \/ s_state (sk s) = SynSent) -> (0 < length d <= 1380)%nat ->
  s_unsent_queue (sk s) = [] -> s_send_window (sk s) = [] -> s_curr_window (sk s) = 0 -> 0 <= s_seq_nr (sk s) < 65536 ->
  (s_seq_nr (sk s) - s_last_acked (sk s)) mod 65536 <= (s_last_acked (sk s) - s_seq_nr (sk s)) mod 65536 -> (forall i, w_send (wd s) i = SendOk) ->
  exists s' p, run_op (OSendTo d) s = (Ret (VLen (Z.of_nat (length d))), s') /\ s_state (sk s') = s_state (sk s) /\
    w_sent (wd s') = w_sent (wd s) ++ [(s_connected_to (sk s), p)] /\ get_type p = Some PData /\ payload p = Some d.
Proof.
  intros d s HS Hd HU HW H0 HQ HA HX. destruct (send_one d s Hd) as (s' & p & E & Hp & HK & HT & _); auto.
  { destruct HS as [H|[H|H]]; rewrite H; discriminate. }
  exists s', p. cbn [run_op]. unfold bind. rewrite E. split; [reflexivity|]. split; [rewrite HK; reflexivity|]. split; [exact HT|]. rewrite Hp. unfold data_packet. rewrite get_type_wire, payload_wire by constructor. auto.
Qed.
Print Assumptions C118_every_refuted.
(** A socket that was only bound takes the first write, whatever it is, and sends it to the address it is itself bound to. *)
Theorem C118_bound_refuted : forall a rest d s0 s, bind_socket (Ok (a :: rest)) (Ok tt) s0 = (Ret tt, s) -> (0 < length d <= 1380)%nat -> (forall i, w_send (wd s0) i = SendOk) ->
  exists s' p, run_op (OSendTo d) s = (Ret (VLen (Z.of_nat (length d))), s') /\ s_state (sk s') = New /\ w_sent (wd s') = w_sent (wd s0) ++ [(a, p)] /\ get_type p = Some PData /\ payload p = Some d.
Proof.
  intros a rest d s0 s HB Hd HX. destruct (bind_socket_spec _ _ _ _ HB) as (a' & rest' & [= <- <-] & _ & ->).
  eapply (C118_every_refuted d); try reflexivity; auto; [cbn; lia|vm_compute; discriminate].
Qed.
Print Assumptions C118_bound_refuted.

(** After the peer's Reset, a write succeeds, and a flush then waits for acknowledgements of a connection that no longer is; a bound socket does the same. *)
Definition gone : st := snd (run_ops [ORecvFrom 10] (accepted true 500 10 [rx_pkt (dgram PReset 101 11 499 [])])).
Theorem C118_refuted : reachable gone /\ s_state (sk gone) = ResetReceived /\
  fst (run_ops [ORecvFrom 10; OSendTo [x41]; OFlush] gone) = [Fail (Throw KConnectionReset); Ret (VLen 1); Fail Pend].
Proof. split; [unfold gone; reach|]. vm_compute. auto. Qed.
Print Assumptions C118_refuted.
Example C118_example : let r := run_op (OSendTo [x41]) (snd (bind_socket (Ok [local]) (Ok tt) (mkSt blank (sample_world true 300 [])))) in
  fst r = Ret (VLen 1) /\ map fst (w_sent (wd (snd r))) = [local].
Proof. vm_compute. auto. Qed.
