(** C59, C60: what is put on the wire over a whole history, and two endpoints composed.  Statements, assumptions, examples. *)
From Verif Require Import EndProofs.
Require Import ZifyBool ZifyNat ZifyN.
Local Open Scope Z_scope.
Ltac Zify.zify_post_hook ::= Z.div_mod_to_equations.

(** ** C60 *)
(** From any moment at which nothing is queued or in flight, over any history of calls and events that does not panic:
    the stream accepted by [send_to] is cut into pieces, and every data datagram put on the wire carries exactly the
    piece its number says.  Missing for the full statement: sockets not yet connected (see the refutation). *)
Theorem C60_original_data_partial ops s : reachable s -> s_state (sk s) <> New -> s_state (sk s) <> SynSent ->
  s_send_window (sk s) = [] -> s_unsent_queue (sk s) = [] -> existsb panicked (fst (run_ops ops s)) = false ->
  exists cs xs, concat cs = stream_sent ops s /\ (forall c, In c cs -> (1 <= length c <= 1380)%nat) /\
    w_sent (wd (snd (run_ops ops s))) = w_sent (wd s) ++ xs /\
    forall dest p, In (dest, p) xs -> get_type p = Some PData ->
      exists j c, nth_error cs j = Some c /\ packet_try_from p = Some (Ok p) /\ payload p = Some c /\ seq_nr p = (s_seq_nr (sk s) + Z.of_nat j) mod 65536 /\
        connection_id p = s_sender_connection_id (sk s).
Proof. exact (original_data ops s). Qed.
Print Assumptions C60_original_data_partial.
(** In particular two datagrams with the same number carry the same bytes, as long as numbers are not used twice. *)
Theorem C60_same_number_partial ops s : reachable s -> s_state (sk s) <> New -> s_state (sk s) <> SynSent ->
  s_send_window (sk s) = [] -> s_unsent_queue (sk s) = [] -> existsb panicked (fst (run_ops ops s)) = false -> packets_needed ops s <= 65536 ->
  exists xs, w_sent (wd (snd (run_ops ops s))) = w_sent (wd s) ++ xs /\
    forall d1 p1 d2 p2, In (d1, p1) xs -> In (d2, p2) xs -> get_type p1 = Some PData -> get_type p2 = Some PData -> seq_nr p1 = seq_nr p2 -> payload p1 = payload p2.
Proof. exact (same_number ops s). Qed.
Print Assumptions C60_same_number_partial.
(** Three packets, the first retransmitted after a timeout and again after three duplicate acknowledgements. *)
Notation to_client_ack n := (rx_pkt (dgram PState 300 10 n [])).
Notation c60_ops := [OSendTo (repeat x41 1381); OSendTo [x42]; OFlush].
Notation c60_start := (connected true 10 [timeout; to_client_ack 1; to_client_ack 1; to_client_ack 1]).
Example C60_example : reachable c60_start /\ s_state (sk c60_start) = Connected /\ s_send_window (sk c60_start) = [] /\ s_unsent_queue (sk c60_start) = [] /\
  existsb panicked (fst (run_ops c60_ops c60_start)) = false /\ stream_sent c60_ops c60_start = repeat x41 1381 ++ [x42] /\
  map (fun x => (seq_nr (snd x), option_map zlen (payload (snd x)))) (w_sent (wd (snd (run_ops c60_ops c60_start)))) =
    [(1, Some 0); (2, Some 1380); (3, Some 1); (4, Some 1); (2, Some 1380); (2, Some 1380)].
Proof. split; [apply connected_reachable; vm_compute; reflexivity|]. vm_compute. auto 20. Qed.

(** A socket that sends before it is connected: the connection that is opened afterwards chooses its start number at
    random, and the peer gets two datagrams with the same number and different bytes. *)
Definition bound_world := sample_world true 1 [].
Definition bound_socket : st := snd (bind_socket (Ok [local]) (Ok tt) (mkSt blank bound_world)).
Notation c60_bad := (mkSt (sk bound_socket) (sw_in [rx_pkt (dgram PSyn 100 10 0 []); timeout; RxCancel] (wd bound_socket))).
Theorem C60_unconnected_refuted : exists s ops p1 p2, reachable s /\ s_state (sk s) = New /\ existsb panicked (fst (run_ops ops s)) = false /\ stream_sent ops s = [x41; x42] /\
  In (peer, p1) (w_sent (wd (snd (run_ops ops s)))) /\ In (peer, p2) (w_sent (wd (snd (run_ops ops s)))) /\
  get_type p1 = Some PData /\ get_type p2 = Some PData /\ seq_nr p1 = seq_nr p2 /\ payload p1 = Some [x41] /\ payload p2 = Some [x42].
Proof.
  exists c60_bad, [OSendTo [x41]; ORecvFrom 9%nat; OSendTo [x42]].
  exists (nth 2 (map snd (w_sent (wd (snd (run_ops [OSendTo [x41]; ORecvFrom 9%nat; OSendTo [x42]] c60_bad))))) []).
  exists (nth 3 (map snd (w_sent (wd (snd (run_ops [OSendTo [x41]; ORecvFrom 9%nat; OSendTo [x42]] c60_bad))))) []).
  split.
  { apply rc_input. unfold bound_socket. destruct (bind_socket (Ok [local]) (Ok tt) (mkSt blank bound_world)) as [o s] eqn:E.
    assert (o = Ret tt) by (change o with (fst (o, s)); rewrite <- E; vm_compute; reflexivity). subst o. eapply rc_bind; [|exact E]. reflexivity. }
  vm_compute. auto 20.
Qed.
Print Assumptions C60_unconnected_refuted.

(** ** C59 *)
(** The connecting side sends and finally may close, the accepting side reads; the network may do anything with the
    sender's datagrams, except that State and Reset packets of the sender do not arrive.  Whatever the sender receives
    (also nonsense), whatever calls it makes in between. *)
Theorem C59_prefix_partial a l c0 c data src la r0 x r ops1 ops2 acks evs ns :
  w_sent (wd c0) = [] -> connect (Ok (a :: l)) (Ok tt) c0 = (Ret tt, c) -> s_state (sk c) = Connected ->
  In data (map snd (w_sent (wd c))) -> accept (RxDgram data src) (Ok la) (Ok tt) r0 = (Ret x, r) ->
  let s := mkSt (sk c) (sw_in acks (wd c)) in
  let s' := snd (run_ops (ops1 ++ ops2) s) in
  existsb panicked (fst (run_ops (ops1 ++ ops2) s)) = false -> ~ In OClose ops1 -> Forall (fun o => ~ is_send o) ops2 ->
  packets_needed (ops1 ++ ops2) s < 65533 ->
  all_sends_succeed r -> Forall (carried (w_sent (wd s'))) evs -> Forall (fun n => 0 < n)%nat ns ->
  prefix_of (bytes_read (fst (run_ops (map ORecvFrom ns) (mkSt (sk r) (sw_in evs (wd r)))))) (stream_sent (ops1 ++ ops2) s).
Proof. exact (end_to_end a l c0 c data src la r0 x r ops1 ops2 acks evs ns). Qed.
Print Assumptions C59_prefix_partial.

(** A whole run: the client connects (its SYN is the one the server accepted), sends three packets, times out, closes; the
    server receives them in the order 3, 1, 1, 2, FIN. *)
Notation c59_client evs := (connected true 500 evs).
Definition client_syn : packet := nth 0 (map snd (w_sent (wd (c59_client [])))) [].
Definition server (chk : bool) (r : Z) (evs : list rx) : st :=
  let s := snd (accept (RxDgram client_syn peer) (Ok local) (Ok tt) (mkSt blank (sample_world chk r []))) in
  mkSt (sk s) (sw_in evs (wd s)).
Lemma server_reachable chk r evs : fst (accept (RxDgram client_syn peer) (Ok local) (Ok tt) (mkSt blank (sample_world chk r []))) = Ret peer -> reachable (server chk r evs).
Proof.
  intros H. unfold server. cbv zeta. apply rc_input. destruct (accept _ _ _ _) as [o s] eqn:E. cbn [fst snd] in *. subst o. eapply rc_accept; [|exact E]. reflexivity.
Qed.
Definition nth_sent (n : nat) (s : st) : rx := RxDgram (nth n (map snd (w_sent (wd s))) []) peer.
Definition carriedb (log : list (addr * packet)) (e : rx) : bool :=
  match e with
  | RxDgram d _ => match packet_try_from (firstn 1520 d) with
    | Some (Ok p) => existsb (bytes_eqb p) (map snd log) && match get_type p with Some PData | Some PFin | Some PSyn => true | _ => false end
    | _ => true end
  | _ => true end.
Lemma carried_sound log es : forallb (carriedb log) es = true -> Forall (carried log) es.
Proof.
  intros H. apply Forall_forall. intros e He. rewrite forallb_forall in H. specialize (H e He). intros p (d & src & -> & HP). cbn [carriedb] in H. rewrite HP in H.
  apply andb_prop in H as [H1 H2]. split.
  - apply existsb_exists in H1 as (q & Hq & E). unfold bytes_eqb in E. destruct (list_eq_dec _ _ _); [|discriminate]. now subst.
  - destruct (get_type p) as [[]|]; auto; discriminate.
Qed.
Notation c59_run := (snd (run_ops ([OSendTo (repeat x41 1381); OSendTo [x42]] ++ [ORecvFrom 9%nat; OClose]) (c59_client [timeout; to_client_ack 4]))).
Notation c59_events := [nth_sent 3 c59_run; nth_sent 1 c59_run; RxDgram [x00] peer; nth_sent 4 c59_run; timeout; nth_sent 2 c59_run; nth_sent 5 c59_run].
Example C59_example : existsb panicked (fst (run_ops ([OSendTo (repeat x41 1381); OSendTo [x42]] ++ [ORecvFrom 9%nat; OClose]) (c59_client [timeout; to_client_ack 4]))) = false /\
  Forall (carried (w_sent (wd c59_run))) c59_events /\
  map (fun o => zlen (bytes_of o)) (fst (run_ops (map ORecvFrom [700; 700; 9; 9; 9]%nat) (server true 500 c59_events))) = [700; 680; 1; 1; 0] /\
  bytes_read (fst (run_ops (map ORecvFrom [700; 700; 9; 9; 9]%nat) (server true 500 c59_events))) = repeat x41 1381 ++ [x42].
Proof. split; [vm_compute; reflexivity|]. split; [apply carried_sound; vm_compute; reflexivity|]. split; vm_compute; reflexivity. Qed.

(** An idle client (waiting for data, timing out) sends State packets that carry the number of its next data packet; if
    one arrives, the server takes that number as received, and when that data packet is lost the next one is read in
    its place.  Every datagram the server receives was sent by the client, in order. *)
Notation c59_idle := (c59_client [timeout; RxCancel]).
Notation c59_idle_ops := [ORecvFrom 9%nat; OSendTo [x41]; OSendTo [x42]].
Notation c59_idle_run := (snd (run_ops c59_idle_ops c59_idle)).
Notation c59_idle_server := (server true 500 [nth_sent 1 c59_idle_run; nth_sent 5 c59_idle_run]).
Theorem C59_idle_sender_refuted : exists c r ops, reachable c /\ reachable r /\ reader_at 1 r /\ all_sends_succeed r /\ client_ready 300 c /\
  s_receiver_connection_id (sk r) = s_sender_connection_id (sk c) /\ existsb panicked (fst (run_ops ops c)) = false /\
  (forall e, In e (w_in (wd r)) -> exists p dest, e = RxDgram p peer /\ In (dest, p) (w_sent (wd (snd (run_ops ops c))))) /\
  stream_sent ops c = [x41; x42] /\ bytes_read (fst (run_ops (map ORecvFrom [9; 9]%nat) r)) = [x42].
Proof.
  exists c59_idle, c59_idle_server, c59_idle_ops. split; [apply connected_reachable; vm_compute; reflexivity|]. split; [apply server_reachable; vm_compute; reflexivity|].
  split; [vm_compute; auto 10|]. split; [intros i; reflexivity|]. split; [vm_compute; auto 10|]. split; [vm_compute; reflexivity|]. split; [vm_compute; reflexivity|].
  split; [|split; vm_compute; reflexivity].
  intros e He. change (w_in (wd c59_idle_server)) with [nth_sent 1 c59_idle_run; nth_sent 5 c59_idle_run] in He. unfold nth_sent in He.
  destruct He as [<-|[<-|[]]]; eexists _, peer; (split; [reflexivity|]); vm_compute; auto 10.
Qed.
Print Assumptions C59_idle_sender_refuted.

(** In the other direction, from the accepting to the connecting side, the loss of the first packet is enough. *)
Definition c59_server : st := server true 500 [].
Definition c59_far_client (evs : list rx) : st :=
  let s := snd (connect (Ok [peer]) (Ok tt) (mkSt blank (sample_world true 300 [nth_sent 0 c59_server]))) in mkSt (sk s) (sw_in evs (wd s)).
Notation c59_far_run := (snd (run_ops [OSendTo [x41]; OSendTo [x42]] c59_server)).
Theorem C59_server_sends_refuted : exists c r ops, reachable c /\ reachable r /\ client_at 500 c /\ reader_at 1 r /\ all_sends_succeed c /\
  nth_error (map snd (w_sent (wd c))) 0 = Some client_syn /\ existsb panicked (fst (run_ops ops r)) = false /\
  (forall e, In e (w_in (wd c)) -> exists p dest, e = RxDgram p peer /\ In (dest, p) (w_sent (wd (snd (run_ops ops r)))) /\ get_type p = Some PData) /\
  stream_sent ops r = [x41; x42] /\ bytes_read (fst (run_ops (map ORecvFrom [9; 9]%nat) c)) = [x42].
Proof.
  exists (c59_far_client [nth_sent 2 c59_far_run]), c59_server, [OSendTo [x41]; OSendTo [x42]]. split.
  { unfold c59_far_client. cbv zeta. apply rc_input. destruct (connect _ _ _) as [o s] eqn:E. assert (o = Ret tt) by (change o with (fst (o, s)); rewrite <- E; vm_compute; reflexivity).
    subst o. eapply rc_connect; [|exact E]. reflexivity. }
  split; [apply server_reachable; vm_compute; reflexivity|]. split; [vm_compute; auto 10|]. split; [vm_compute; auto 10|]. split; [intros i; reflexivity|].
  split; [vm_compute; reflexivity|]. split; [vm_compute; reflexivity|]. split; [|split; vm_compute; reflexivity].
  intros e He. change (w_in (wd (c59_far_client [nth_sent 2 c59_far_run]))) with [nth_sent 2 c59_far_run] in He. unfold nth_sent in He.
  destruct He as [<-|[]]; eexists _, peer; (split; [reflexivity|]); vm_compute; auto 10.
Qed.
Print Assumptions C59_server_sends_refuted.
