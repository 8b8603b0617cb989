(** C07, C15, C16, C17, C56. *)
From Verif Require Import BufferProofs Samples.
Require Import Lia.
Local Open Scope Z_scope.

(** C07. *)
(** The server below (SYN had number 10) receives data packets 2053 and 13: the reply to the second one
    announces packet 2053 in a bitmap of 256 bytes, whose length byte is 0. *)
Definition c07_events : list rx := [rx_pkt (dgram PData 101 2053 0 [x41]); rx_pkt (dgram PData 101 13 0 [x42]); RxCancel].
Notation c07_state := (snd (run_ops [ORecvFrom 100] (accepted true 500 10 c07_events))).
Theorem C07_valid_refuted : exists s, reachable s /\ exists x, In x (w_sent (wd s)) /\ packet_try_from (snd x) <> Some (Ok (snd x)).
Proof.
  exists c07_state. split; [reach|].
  assert (E : existsb (fun x => negb (parses (snd x))) (w_sent (wd c07_state)) = true) by (vm_compute; reflexivity).
  apply existsb_exists in E as (x & H1 & H2). exists x. split; [exact H1|]. apply parses_valid. exact (proj1 (Bool.negb_true_iff _) H2).
Qed.
Print Assumptions C07_valid_refuted.
(** The only way to send an invalid packet is a bitmap of 256 bytes or more. *)
Theorem C07_valid_partial : forall s, reachable s -> forall x, In x (w_sent (wd s)) ->
  packet_try_from (snd x) = Some (Ok (snd x)) \/
  exists h bitmap, snd x = wire h [(x01, bitmap)] [] /\ (256 <= length bitmap)%nat.
Proof. intros s H x Hx. pose proof (log_sendable s H) as HF. rewrite Forall_forall in HF. exact (HF x Hx). Qed.
Print Assumptions C07_valid_partial.
(** And that needs a buffered packet 2018 or more past the acknowledged one. *)
Theorem C07_near_partial : forall p s, reachable s -> s_ack_nr (sk s) < 65535 ->
  (forall q, In q (s_incoming_buffer (sk s)) -> seq_nr q < s_ack_nr (sk s) + 2018) ->
  exists r s', handle_data_packet p s = (Ret (Some r), s') /\ packet_try_from r = Some (Ok r).
Proof.
  intros p s HR HA HG. pose proof (r_ack _ (reachable_ranges s HR)).
  destruct (data_reply_announces p s) as (r & s' & exts & E & _ & HV & _); [lia|exact HG|]. eauto.
Qed.
Print Assumptions C07_near_partial.
Example C07_example :
  let r := run_ops [ORecvFrom 100] (accepted true 500 10 [rx_pkt (dgram PData 101 2027 0 [x41]); rx_pkt (dgram PData 101 13 0 [x42]); RxCancel]) in
  fst r = [Fail Pend] /\ length (w_sent (wd (snd r))) = 3%nat /\
  Forall (fun x => packet_try_from (snd x) = Some (Ok (snd x))) (w_sent (wd (snd r))) /\
  map (fun x => length (snd x)) (w_sent (wd (snd r))) = [20; 20; 274]%nat.
Proof. vm_compute. repeat constructor. Qed.

(** C15. *)
Theorem C15_reorder_buffer : forall s, reachable s ->
  StronglySorted (fun p q => seq_nr p < seq_nr q) (s_incoming_buffer (sk s)) /\
  NoDup (map seq_nr (s_incoming_buffer (sk s))) /\
  Forall (fun p => packet_try_from p = Some (Ok p) /\ get_type p = Some PData) (s_incoming_buffer (sk s)) /\
  Z.of_nat (length (s_incoming_buffer (sk s))) <= 65536.
Proof.
  intros s H. pose proof (reachable_buffer s H) as HB. destruct HB as [HS HF]. split; [exact HS|]. split; [now apply sorted_nodup|]. split; [exact HF|].
  exact (buffer_bounded s H).
Qed.
Print Assumptions C15_reorder_buffer.
Notation c15_state := (snd (run_ops [ORecvFrom 100]
  (accepted true 500 10 [rx_pkt (dgram PData 101 15 0 [x41]); rx_pkt (dgram PData 101 13 0 [x42]); rx_pkt (dgram PData 101 15 0 [x43]); rx_pkt (dgram PData 101 14 0 [x44]); RxCancel]))).
Lemma c15_state_reachable : reachable c15_state.
Proof. reach. Qed.
Example C15_example : reachable c15_state /\ map (fun p => (seq_nr p, payload p)) (s_incoming_buffer (sk c15_state)) =
  [(13, Some [x42]); (14, Some [x44]); (15, Some [x41])].
Proof. split; [exact c15_state_reachable|]. vm_compute. reflexivity. Qed.

(** C16. *)
Theorem C16_insert : forall s p, reachable s -> exists s',
  insert_into_buffer p s = (Ret tt, s') /\ wd s' = wd s /\ ss_incoming_buffer (s_incoming_buffer (sk s)) (sk s') = sk s /\
  ((exists q, In q (s_incoming_buffer (sk s)) /\ seq_nr q = seq_nr p) -> s_incoming_buffer (sk s') = s_incoming_buffer (sk s)) /\
  (~ (exists q, In q (s_incoming_buffer (sk s)) /\ seq_nr q = seq_nr p) ->
     Permutation (p :: s_incoming_buffer (sk s)) (s_incoming_buffer (sk s')) /\ StronglySorted (fun a b => seq_nr a < seq_nr b) (s_incoming_buffer (sk s'))).
Proof.
  intros s p HR. pose proof (reachable_buffer s HR) as [HS _]. eexists. split; [reflexivity|]. split; [reflexivity|]. split; [destruct s as [[] ?]; reflexivity|].
  cbn [sk]. sproj. destruct (insert_spec p _ HS) as [H1 H2]. split; [exact H1|]. intros HN. split; [now apply H2|]. apply insert_sorted, HS.
Qed.
Print Assumptions C16_insert.
Example C16_example : let buf p := map (fun q => (seq_nr q, payload q)) (s_incoming_buffer (sk (snd (insert_into_buffer p c15_state)))) in
  reachable c15_state /\
  buf (dgram PData 101 14 0 [x99]) = [(13, Some [x42]); (14, Some [x44]); (15, Some [x41])] /\
  buf (dgram PData 101 12 0 [x99]) = [(12, Some [x99]); (13, Some [x42]); (14, Some [x44]); (15, Some [x41])].
Proof. split; [exact c15_state_reachable|]. vm_compute. auto. Qed.

(** C17.  [available k]: the bytes [k] can deliver without the network.  For any non-zero buffer sizes the
    reads succeed, return non-empty pieces, use no I/O, and their concatenation with what is still available is
    always the same; enough reads return exactly [available k]. *)
Theorem C17_slicing : forall s ns, reachable s -> no_wrap_panic s -> Forall (fun n => 0 < n)%nat ns ->
  exists m ds s', (m <= length ns)%nat /\ reads s (firstn m ns) ds s' /\ wd s' = wd s /\
    available (sk s) = concat ds ++ available (sk s') /\
    Forall2 (fun n d => (0 < length d <= n)%nat) (firstn m ns) ds /\ (m = length ns \/ available (sk s') = []).
Proof.
  intros s ns HR HN HF. apply read_many; auto; [apply reachable_buffer, HR|]. apply (r_ack _ (reachable_ranges s HR)).
Qed.
Print Assumptions C17_slicing.
Theorem C17_drain : forall s ns, reachable s -> no_wrap_panic s -> Forall (fun n => 0 < n)%nat ns ->
  (length (available (sk s)) <= length ns)%nat ->
  exists m ds s', reads s (firstn m ns) ds s' /\ wd s' = wd s /\ concat ds = available (sk s) /\ available (sk s') = [].
Proof.
  intros s ns HR HN HF. apply read_all; auto; [apply reachable_buffer, HR|]. apply (r_ack _ (reachable_ranges s HR)).
Qed.
Print Assumptions C17_drain.
(** A socket with packets 11..13 buffered of which 2 bytes have been read. *)
Notation c17_state := (snd (run_ops [ORecvFrom 5; ORecvFrom 2]
  (accepted true 500 10 [rx_pkt (dgram PData 101 12 0 [x42; x43]); rx_pkt (dgram PData 101 13 0 [x44; x45]); RxCancel; rx_pkt (dgram PData 101 11 0 [x46; x47; x48])]))).
Example C17_example : no_wrap_panic c17_state /\ available (sk c17_state) = [x48; x42; x43; x44; x45] /\
  fst (run_ops [ORecvFrom 2; ORecvFrom 1; ORecvFrom 10; ORecvFrom 1; ORecvFrom 1] c17_state) =
    [Ret (VData [x48] peer); Ret (VData [x42] peer); Ret (VData [x43] peer); Ret (VData [x44] peer); Ret (VData [x45] peer)].
Proof. split; [right; left; vm_compute; reflexivity|]. vm_compute. auto. Qed.

(** C56. *)
Theorem C56_selective_ack : forall p s, reachable s -> s_ack_nr (sk s) < 65535 ->
  (forall q, In q (s_incoming_buffer (sk s)) -> seq_nr q < s_ack_nr (sk s) + 2018) ->
  exists r s' exts, handle_data_packet p s = (Ret (Some r), s') /\ sk s' = sk s /\
    packet_try_from r = Some (Ok r) /\ ack_nr r = s_ack_nr (sk s) /\ extensions r = Some exts /\
    ((seq_nr p - s_ack_nr (sk s)) mod 65536 <= 1 -> exts = []) /\
    (1 < (seq_nr p - s_ack_nr (sk s)) mod 65536 ->
      (exts = [] /\ forall q, In q (s_incoming_buffer (sk s)) -> seq_nr q <= s_ack_nr (sk s) + 1) \/
      (exists data, exts = [mkExt ESack data] /\
        forall i, nth i (bit_string data) false = true <-> exists q, In q (s_incoming_buffer (sk s)) /\ seq_nr q = s_ack_nr (sk s) + 2 + Z.of_nat i)).
Proof. intros p s HR HA HG. pose proof (r_ack _ (reachable_ranges s HR)). apply data_reply_announces; [lia|exact HG]. Qed.
Print Assumptions C56_selective_ack.
Example C56_example : reachable c15_state /\ s_ack_nr (sk c15_state) = 10 /\
  match fst (handle_data_packet (dgram PData 101 20 0 [x41]) c15_state) with
  | Ret (Some r) => extensions r = Some [mkExt ESack [x0e; x00; x00; x00]] | _ => False end.
Proof. split; [exact c15_state_reachable|]. vm_compute. auto. Qed.
