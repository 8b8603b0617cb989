(** C104: the complete effect of one received packet. *)
From Verif Require Import TableProofs Samples.
Require Import Lia.
Local Open Scope Z_scope.

(** Every packet in every state, but for acknowledgements on a connection: how it is disposed of and the whole socket afterwards. *)
Theorem C104_table : forall n d src p ty rest s, reachable s -> w_in (wd s) = RxDgram d src :: rest -> 0 < s_max_retries (sk s) ->
  packet_try_from (firstn 1520 d) = Some (Ok p) -> get_type p = Some ty -> ~ (s_state (sk s) = Connected /\ ty = PState) -> tx_ok s = true -> (forall l, fst (recv n s) <> Fail (Panic l)) ->
  let t := table src p ty (clock_now s) (clock_now (ticked s)) (w_rand (wd s) (w_rtick (wd s))) (sk s) in
  let s' := snd (recv n s) in
  w_in (wd s') = rest /\
  match fst t with
  | Quiet => w_sent (wd s') = w_sent (wd s) /\ delivers_only (snd t) (sk s') /\ exists data, fst (recv n s) = Ret (data, src)
  | Answer r => (exists q, w_sent (wd s') = w_sent (wd s) ++ [(src, q)] /\ answers r p (if foreign (sk s) ty p then clock_now s else clock_now (ticked s)) (snd t) q /\ wnd_size q = 1048576) /\
      delivers_only (snd t) (sk s') /\ exists data, fst (recv n s) = Ret (data, src)
  | Refuse e => w_sent (wd s') = w_sent (wd s) /\ sk s' = snd t /\ fst (recv n s) = Fail (Throw e)
  end.
Proof. exact recv_table. Qed.
Print Assumptions C104_table.
(** The same for the processing of the packet alone, before a reply is sent and before data is delivered: not even these fields differ from the table. *)
Theorem C104_packet : forall p ty src s o s', reachable s -> get_type p = Some ty -> ~ (s_state (sk s) = Connected /\ ty = PState) -> handle_packet recv p src s = (o, s') -> (forall l, o <> Fail (Panic l)) ->
  let t := table src p ty (clock_now s) (clock_now (ticked s)) (w_rand (wd s) (w_rtick (wd s))) (sk s) in
  sk s' = snd t /\ w_in (wd s') = w_in (wd s) /\ w_sent (wd s') = w_sent (wd s) /\
  match fst t with Quiet => o = Ret None | Answer r => exists q, o = Ret (Some q) | Refuse e => o = Fail (Throw e) end.
Proof.
  intros p ty src s o s' HR HT HC HH HN. destruct (handle_table recv p ty src s o s' (r_ack _ (reachable_ranges s HR)) HT HC HH HN) as (H1 & H2 & (i & j & H3)). cbv zeta.
  split; [exact H1|]. rewrite H3. repeat split. destruct (fst _); cbn [disposed] in H2; auto. destruct H2 as (h & exts & H2 & _). eauto.
Qed.
Print Assumptions C104_packet.
(** Acknowledgements on a connection, unless they make packets be sent again: nothing but the sending side changes, and nothing is sent. *)
Theorem C104_ack : forall p src s, reachable s -> get_type p = Some PState -> s_state (sk s) = Connected -> own_id (sk s) p -> simple_ack p (sk s) ->
  let s' := snd (handle_packet recv p src s) in
  others (sk s') = others (snd (table src p PState (clock_now s) 0 0 (sk s))) /\ w_in (wd s') = w_in (wd s) /\ w_sent (wd s') = w_sent (wd s).
Proof. exact ack_table. Qed.
Print Assumptions C104_ack.

Notation c104_state := (accepted true 500 10 [rx_pkt (dgram PFin 101 11 500 []); rx_pkt (dgram PReset 101 3 500 [])]).
Notation c104_closed := (snd (recv 9 c104_state)).
Example C104_example : let p := dgram PFin 101 11 500 [] in
  reachable c104_state /\ packet_try_from (firstn 1520 p) = Some (Ok p) /\ get_type p = Some PFin /\ tx_ok c104_state = true /\ fst (recv 9 c104_state) = Ret ([], peer) /\
  foreign (sk c104_state) PFin p = false /\ table peer p PFin 3000 4000 7 (sk c104_state) =
    (Answer PState, ss_ack_nr 11 (ss_remote_wnd_size 1048576 (ss_their_delay 2923 (ss_state Closed (sk c104_state))))) /\
  (s_ack_nr (sk c104_closed), s_state (sk c104_closed), length (w_sent (wd c104_closed))) = (11, Closed, S (length (w_sent (wd c104_state)))) /\
  fst (recv 9 c104_closed) = Fail (Throw KConnectionReset).
Proof. split; [apply accepted_reachable; vm_compute; reflexivity|]. vm_compute. auto 20. Qed.
(** A SYN to a new socket, and one to an open one. *)
Example C104_example_syn : let p := dgram PSyn 100 10 0 [] in
  fst (table peer p PSyn 3000 4000 7 blank) = Answer PState /\ s_seq_nr (snd (table peer p PSyn 3000 4000 7 blank)) = 7 /\ s_receiver_connection_id (snd (table peer p PSyn 3000 4000 7 blank)) = 101 /\
  fst (table peer p PSyn 3000 4000 7 (sk c104_state)) = Answer PReset /\ foreign (sk c104_state) PReset (dgram PReset 555 77 3 []) = true.
Proof. vm_compute. auto. Qed.
Notation c104_busy := (snd (run_ops [OSendTo [x41]; OSendTo [x42]] (accepted true 500 10 []))).
Example C104_example_ack : let p := dgram PState 101 11 500 [] in
  reachable c104_busy /\ s_state (sk c104_busy) = Connected /\ own_id (sk c104_busy) p /\ simple_ack p (sk c104_busy) /\ length (s_send_window (sk c104_busy)) = 2%nat /\
  length (s_send_window (sk (snd (handle_packet recv p peer c104_busy)))) = 1%nat.
Proof. split; [reach|]. split; [vm_compute; reflexivity|]. split; [vm_compute; auto|]. split; [|vm_compute; auto]. split; [intros exts H; vm_compute in H; injection H as <-; reflexivity|right; vm_compute; discriminate]. Qed.
