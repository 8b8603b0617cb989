(** C46-C49, C51, C52. *)
From Verif Require Import ConnProofs Samples.
Require Import Lia.
Local Open Scope Z_scope.

(** C46.  [opened_by] and [syn_reply] describe the socket and the reply; [syn_safe]: a debug build panics on
    connection id 65535 (C55). *)
Theorem C46_accept : forall data src p la s, packet_try_from (firstn 1500 data) = Some (Ok p) -> get_type p = Some PSyn -> syn_safe s p -> tx_ok s = true ->
  exists r s', accept (RxDgram data src) (Ok la) (Ok tt) s = (Ret src, s') /\
    opened_by p src (w_rand (wd s) (S (w_rtick (wd s))) mod 65536) (sk s') /\ syn_reply p (s_seq_nr (sk s')) r /\
    w_sent (wd s') = w_sent (wd s) ++ [(src, r)] /\ w_in (wd s') = w_in (wd s).
Proof. exact accept_opens. Qed.
Print Assumptions C46_accept.
(** A bound socket with nothing buffered: reading from it consumes the SYN and then waits. *)
Theorem C46_bound : forall n d src p s, w_in (wd s) = [RxDgram d src] -> 0 < s_max_retries (sk s) ->
  packet_try_from (firstn 1520 d) = Some (Ok p) -> get_type p = Some PSyn -> s_state (sk s) = New -> syn_safe s p -> tx_ok s = true ->
  s_incoming_buffer (sk s) = [] -> s_pending_data (sk s) = [] ->
  exists r s', recv_from n s = (Fail Pend, s') /\ opened_by p src (w_rand (wd s) (w_rtick (wd s)) mod 65536) (sk s') /\ syn_reply p (s_seq_nr (sk s')) r /\
    w_sent (wd s') = w_sent (wd s) ++ [(src, r)] /\ w_in (wd s') = [].
Proof.
  intros n d src p s HI HM HP HT HS HC HX HB HD.
  destruct (recv_opens n d src p [] s HI HM HP HT HS HC HX HB HD) as (r & s' & E & HO & HR & L & I & M). exists r, s'.
  split; [|split; [exact HO|]; destruct HO as (_ & _ & _ & _ & _ & _ & ->); auto].
  destruct HO as (_ & HS' & _).
  unfold recv_from, bind at 1. unfold flush_incoming_buffer, bind at 1, get_sk at 1. rewrite HD. cbn [is_nil negb]. rewrite HB. unfold ret at 1. unfold bind at 1, get_sk at 1. cbn [is_nil negb].
  rewrite HS. cbn [sstate_eqb]. unfold bind at 1, event_fuel. rewrite HI. cbn [length loop]. unfold bind at 1, bind at 1, get_sk at 1. rewrite HS. cbn [sstate_eqb]. unfold bind at 1. rewrite E. cbn [fst is_nil]. unfold ret at 1.
  unfold bind at 1, bind at 1, get_sk at 1. rewrite HS'. cbn [sstate_eqb]. unfold bind at 1. rewrite recv_waits; [reflexivity|exact I|rewrite M; exact HM].
Qed.
Print Assumptions C46_bound.
Lemma run_eq {A} (m : M A) s o : fst (m s) = o -> m s = (o, snd (m s)).
Proof. intros <-. apply surjective_pairing. Qed.
Notation listening r evs := (mkSt blank (sample_world true r evs)).
Notation bound_socket evs := (snd (bind_socket (Ok [local]) (Ok tt) (listening 900 evs))).
Example C46_example : let r := accept (RxDgram (dgram PSyn 100 65535 0 []) peer) (Ok local) (Ok tt) (listening 500 []) in
  fst r = Ret peer /\ (s_receiver_connection_id (sk (snd r)), s_sender_connection_id (sk (snd r)), s_seq_nr (sk (snd r)), s_ack_nr (sk (snd r))) = (101, 100, 500, 65535) /\
  map (fun x => (fst x, get_type (snd x), connection_id (snd x), seq_nr (snd x), ack_nr (snd x))) (w_sent (wd (snd r))) = [(peer, Some PState, 100, 500, 65535)] /\
  reachable (bound_socket [rx_pkt (dgram PSyn 7 3 0 [])]) /\ s_state (sk (bound_socket [rx_pkt (dgram PSyn 7 3 0 [])])) = New /\
  s_ack_nr (sk (snd (recv_from 10 (bound_socket [rx_pkt (dgram PSyn 7 3 0 [])])))) = 3.
Proof.
  cbv zeta. split; [vm_compute; reflexivity|]. split; [vm_compute; reflexivity|]. split; [vm_compute; reflexivity|]. split; [|vm_compute; auto].
  eapply (rc_bind (Ok [local]) (Ok tt) (listening 900 [rx_pkt (dgram PSyn 7 3 0 [])])); [reflexivity|].
  apply run_eq. vm_compute. reflexivity.
Qed.

(** C47.  The state passed in comes back unchanged: nothing was sent and no socket was created. *)
Theorem C47_rejects : forall data src la bound s, (forall p, packet_try_from (firstn 1500 data) = Some (Ok p) -> get_type p <> Some PSyn) ->
  exists k, accept (RxDgram data src) la bound s = (Fail (Throw k), s).
Proof. intros data src la bound s H. apply (accept_rejects (RxDgram data src)). intros d r p [= <- <-]. apply H. Qed.
Print Assumptions C47_rejects.
Theorem C47_io_error : forall k la bound s, accept (RxErr k) la bound s = (Fail (Throw k), s).
Proof. reflexivity. Qed.
Print Assumptions C47_io_error.
Example C47_example : fst (accept (RxDgram (dgram PData 100 1 0 [x41]) peer) (Ok local) (Ok tt) (listening 5 [])) = Fail (Throw KOther) /\
  fst (accept (RxDgram [x41] peer) (Ok local) (Ok tt) (listening 5 [])) = Fail (Throw KOther) /\ get_type (dgram PData 100 1 0 [x41]) <> Some PSyn.
Proof. split; [vm_compute; reflexivity|]. split; [vm_compute; reflexivity|]. vm_compute. discriminate. Qed.

(** C48 is false: a SYN answered by a SYN. *)
Theorem C48_syn_refuted : exists s0 s, connect (Ok [peer]) (Ok tt) s0 = (Ret tt, s) /\ s_state (sk s) = SynSent /\
  fst (peer_addr s) = Fail (Throw KNotConnected).
Proof.
  exists (listening 300 [rx_pkt (dgram PSyn 300 9 0 [])]). eexists. split; [apply run_eq; vm_compute; reflexivity|]. vm_compute. auto.
Qed.
Print Assumptions C48_syn_refuted.
(** What holds: a State packet came back within five attempts and the socket is connected, or a SYN came back. *)
Theorem C48_reply_partial : forall a l s0 s, connect (Ok (a :: l)) (Ok tt) s0 = (Ret tt, s) ->
  exists b, first_reply (w_in (wd s0)) b /\ packet_try_from b = Some (Ok b) /\
    (get_type b = Some PState /\ s_state (sk s) = Connected /\ s_ack_nr (sk s) = seq_nr b \/ get_type b = Some PSyn /\ s_state (sk s) = SynSent).
Proof. intros a l s0 s H. apply connect_all in H as (cid & syns & _ & _ & _ & _ & H). exact H. Qed.
Print Assumptions C48_reply_partial.
Example C48_example : exists s, connect (Ok [peer]) (Ok tt) (listening 300 [timeout; timeout; rx_pkt (dgram PState 300 9 1 [])]) = (Ret tt, s) /\
  s_state (sk s) = Connected /\ length (w_sent (wd s)) = 3%nat.
Proof. eexists. split; [apply run_eq; vm_compute; reflexivity|]. vm_compute. auto. Qed.

(** C49.  At most five SYNs whatever happens, at least one if the first send succeeds, all alike. *)
Theorem C49_attempts : forall a l s0 o s, connect (Ok (a :: l)) (Ok tt) s0 = (o, s) ->
  exists cid syns, w_sent (wd s) = w_sent (wd s0) ++ syns /\ syns_to a cid 1 syns /\ (length syns <= 5)%nat /\ (tx_ok s0 = true -> (0 < length syns)%nat).
Proof. intros a l s0 o s H. apply connect_all in H as (cid & syns & H1 & H2 & H3 & H4 & _). exists cid, syns. auto. Qed.
Print Assumptions C49_attempts.
(** The reported error is false: five unanswered SYNs are always reported as [Other], never as [TimedOut]. *)
Theorem C49_timeout_refuted : forall a l ks rest s0, w_in (wd s0) = map RxErr ks ++ rest -> Forall (fun k => is_timeout k = true) ks -> length ks = 5%nat -> all_sent s0 ->
  exists s', connect (Ok (a :: l)) (Ok tt) s0 = (Fail (Throw KOther), s') /\ exists syns, w_sent (wd s') = w_sent (wd s0) ++ syns /\ length syns = 5%nat.
Proof. exact connect_unanswered. Qed.
Print Assumptions C49_timeout_refuted.
Example C49_example : let s0 := listening 300 [timeout; timeout; timeout; timeout; timeout; timeout] in
  fst (connect (Ok [peer]) (Ok tt) s0) = Fail (Throw KOther) /\ length (w_sent (wd (snd (connect (Ok [peer]) (Ok tt) s0)))) = 5%nat /\ all_sent s0.
Proof. cbv zeta. split; [vm_compute; reflexivity|]. split; [vm_compute; reflexivity|]. intros i. reflexivity. Qed.

(** C51. *)
Theorem C51_noop : forall s, s_state (sk s) = New \/ s_state (sk s) = SynSent \/ s_state (sk s) = Closed -> close s = (Ret tt, s).
Proof. intros s H. unfold close, bind, get_sk. destruct H as [-> |[ -> | -> ]]; reflexivity. Qed.
Print Assumptions C51_noop.
(** [t]: the socket when the FIN is sent; by C34 everything in flight before was acknowledged. *)
Theorem C51_close : forall s s', reachable s -> s_state (sk s) <> New -> s_state (sk s) <> SynSent -> s_state (sk s) <> Closed -> close s = (Ret tt, s') ->
  exists t ts more, flush s = (Ret tt, t) /\ s_send_window (sk t) = [] /\
    w_sent (wd s') = w_sent (wd t) ++ (s_connected_to (sk t), wire (mkHdr PFin (s_sender_connection_id (sk t)) ts 0 0 (s_seq_nr (sk t)) (s_ack_nr (sk t))) [] []) :: more /\
    s_state (sk s') = Closed /\ close s' = (Ret tt, s').
Proof. exact close_ok. Qed.
Print Assumptions C51_close.
Notation c51_start := (snd (run_ops [OSendTo [x41; x42]] (accepted true 500 10 [rx_pkt (dgram PState 101 11 500 []); timeout; rx_pkt (dgram PState 101 11 501 []); rx_pkt (dgram PFin 101 11 501 [])]))).
Example C51_example : reachable c51_start /\ s_state (sk c51_start) = Connected /\ length (s_send_window (sk c51_start)) = 1%nat /\ fst (close c51_start) = Ret tt /\
  map (fun x => (get_type (snd x), seq_nr (snd x))) (w_sent (wd (snd (close c51_start)))) =
    [(Some PState, 500); (Some PData, 500); (Some PFin, 501); (Some PFin, 501)].
Proof. split; [reach|]. vm_compute. auto. Qed.

(** C52 is false: after a reset, close sends a FIN and waits. *)
Notation c52_start := (snd (run_ops [ORecvFrom 9] (accepted true 500 10 [rx_pkt (dgram PReset 101 11 0 [])]))).
Theorem C52_close_refuted : exists s s', reachable s /\ s_state (sk s) = ResetReceived /\ s_send_window (sk s) = [] /\ close s = (Fail Pend, s') /\
  length (w_sent (wd s')) = S (length (w_sent (wd s))).
Proof. exists c52_start. eexists. split; [reach|]. split; [vm_compute; reflexivity|]. split; [vm_compute; reflexivity|]. split; [apply run_eq; vm_compute; reflexivity|]. vm_compute. reflexivity. Qed.
Print Assumptions C52_close_refuted.
