(** C57, C58; C28 for whole calls. *)
From Verif Require Import TermProofs PrefixProofs Samples.
Require Import Lia.
Local Open Scope Z_scope.

(** C57.  In every state whatsoever: the call ends - normally, with an error or by panicking -, having used up
    some of the events, or it is suspended with no event left, or the script cancelled it.  [NoFuel] is the
    outcome of a recursion or loop that did not end within the number of events. *)
Theorem C57_terminates : forall o s, exists used, w_in (wd s) = used ++ w_in (wd (snd (run_op o s))) /\
  match fst (run_op o s) with
  | Ret _ | Fail (Throw _) | Fail (Panic _) => True
  | Fail Pend => w_in (wd (snd (run_op o s))) = [] \/ In RxCancel (w_in (wd s)) \/ (exists i, w_send (wd s) i = SendDrop)
  | Fail NoFuel => False
  end.
Proof. intros o s. destruct (run_op_ended o s) as ([used H1] & _ & H2). exists used. split; [exact H1|]. destruct (fst (run_op o s)) as [v|[]]; auto. Qed.
Print Assumptions C57_terminates.
(** Every internal wait consumes at least one event when it returns. *)
Theorem C57_recv_consumes : forall n s x s', recv n s = (Ret x, s') -> (length (w_in (wd s')) < length (w_in (wd s)))%nat.
Proof. intros n s x s' H. pose proof (eats_call (events s) n s (le_n _)) as HW. unfold wp in HW. rewrite H in HW. cbn in HW. apply HW. Qed.
Print Assumptions C57_recv_consumes.
(** Any larger bound on the recursion depth gives the same result. *)
Theorem C57_depth_irrelevant : forall f n s, (length (w_in (wd s)) < f)%nat -> recv_fuel f n s = recv n s.
Proof.
  intros f n s HF. destruct (recv n s) as [o s'] eqn:E. unfold recv, bind, event_fuel in E.
  pose proof (eats_fuel (S (length (w_in (wd s)))) (events s) n ltac:(unfold events; lia) s (le_n _)) as HW. unfold wp in HW. rewrite E in HW. cbn [fst snd] in HW.
  destruct HW as [[_ HO] _].
  assert (HX : forall t, ext [] t = t). { intros [k w]. unfold ext. cbn. rewrite app_nil_r. destruct w; reflexivity. }
  pose proof (same_recv_fuel [] (S (length (w_in (wd s)))) f n ltac:(lia) s o s' E) as HS. rewrite !HX in HS. apply HS.
  unfold settled. destruct o as [x|[]]; auto.
Qed.
Print Assumptions C57_depth_irrelevant.
Theorem C57_connect_terminates : forall a l s, fst (connect (Ok (a :: l)) (Ok tt) s) <> Fail NoFuel.
Proof. intros a l s H. destruct (connect (Ok (a :: l)) (Ok tt) s) as [o s'] eqn:E. cbn in H. subst o. apply connect_all in E as (cid & syns & _ & _ & _ & _ & HF). exact HF. Qed.
Print Assumptions C57_connect_terminates.
(** Two packets in flight, three duplicate acknowledgements followed by one of a selective kind, a timeout: the retransmissions nest. *)
Notation c57_start := (snd (run_ops [OSendTo [x41]; OSendTo [x42]] (accepted true 500 10 []))).
Notation c57_script := [rx_pkt (dgram PState 101 11 499 []); timeout; rx_pkt (dgram PState 101 11 499 []); rx_pkt (dgram PState 101 11 499 []); rx_pkt (dgram PState 101 11 501 [])].
Example C57_example : fst (run_op OFlush (mkSt (sk c57_start) (sw_in c57_script (wd c57_start)))) = Ret VUnit /\
  fst (run_op OFlush c57_start) = Fail Pend.
Proof. vm_compute. auto. Qed.

(** C58.  [evs ++ more] instead of [evs]: same outcome, same socket, same datagrams sent, [more] untouched. *)
Theorem C58_batching : forall o s more v s', run_op o s = (v, s') ->
  match v with Fail Pend => w_in (wd s') <> [] | _ => True end ->
  run_op o (mkSt (sk s) (sw_in (w_in (wd s) ++ more) (wd s))) = (v, mkSt (sk s') (sw_in (w_in (wd s') ++ more) (wd s'))).
Proof.
  intros o s more v s' H HV. apply (same_run_op more o s v s' H). destruct (run_op_ended o s) as (_ & _ & HO). rewrite H in HO. cbn [fst snd] in HO.
  unfold settled. destruct v as [x|[]]; auto.
Qed.
Print Assumptions C58_batching.
Theorem C58_connect : forall a b s more s', connect a b s = (Ret tt, s') ->
  connect a b (mkSt (sk s) (sw_in (w_in (wd s) ++ more) (wd s))) = (Ret tt, mkSt (sk s') (sw_in (w_in (wd s') ++ more) (wd s'))).
Proof. intros a b s more s' H. exact (same_connect more a b s _ s' H I). Qed.
Print Assumptions C58_connect.
(** A call that is still waiting has already sent what it will have sent when more has arrived: later arrivals only add to it. *)
Theorem C58_sent_before : forall o s more, exists later,
  w_sent (wd (snd (run_op o (mkSt (sk s) (sw_in (w_in (wd s) ++ more) (wd s)))))) = w_sent (wd (snd (run_op o s))) ++ later.
Proof. intros o s more. exact (proj2 (proj2 (leads_run_op more o)) s). Qed.
Print Assumptions C58_sent_before.
Theorem C58_connect_sent_before : forall a b s more, exists later,
  w_sent (wd (snd (connect a b (mkSt (sk s) (sw_in (w_in (wd s) ++ more) (wd s)))))) = w_sent (wd (snd (connect a b s))) ++ later.
Proof. intros a b s more. exact (proj2 (proj2 (leads_connect more a b)) s). Qed.
Print Assumptions C58_connect_sent_before.
(** A close waiting for the answer to its FIN; the answer comes. *)
Example C58_sent_before_example : let s := accepted true 500 10 [] in
  fst (run_op OClose s) = Fail Pend /\ length (w_sent (wd (snd (run_op OClose s)))) = S (length (w_sent (wd s))) /\
  let s' := mkSt (sk s) (sw_in [timeout; rx_pkt (dgram PState 101 11 500 [])] (wd s)) in
  fst (run_op OClose s') = Ret VUnit /\ length (w_sent (wd (snd (run_op OClose s')))) = S (S (length (w_sent (wd s)))).
Proof. vm_compute. auto. Qed.
Example C58_example : let s := accepted true 500 10 [rx_pkt (dgram PData 101 11 500 [x41])] in
  fst (run_op (ORecvFrom 5) s) = Ret (VData [x41] peer) /\
  w_in (wd (snd (run_op (ORecvFrom 5) (mkSt (sk s) (sw_in (w_in (wd s) ++ [timeout]) (wd s)))))) = [timeout].
Proof. vm_compute. auto. Qed.

(** C28 for reading and flushing: a datagram that is no packet might as well not have come. *)
Theorem C28_read : forall n d src rest s, w_in (wd s) = RxDgram d src :: rest -> (forall p, packet_try_from (firstn 1520 d) <> Some (Ok p)) ->
  0 < s_max_retries (sk s) -> reachable s -> no_wrap_panic s -> drained (sk s) -> s_state (sk s) <> Closed -> s_state (sk s) <> ResetReceived ->
  recv_from n s = recv_from n (mkSt (sk s) (sw_in rest (wd s))).
Proof.
  intros n d src rest s HI HJ HM HR HN HD HC HX. pose proof (reachable_buffer s HR) as HB. pose proof (r_ack _ (reachable_ranges s HR)) as HA.
  assert (ER : rx_state s = mkSt (sk s) (sw_in rest (wd s))) by (unfold rx_state; now rewrite HI). rewrite <- ER.
  rewrite (recv_from_drained n s) by (auto; lia). rewrite (recv_from_drained n (rx_state s)); [|exact HN|exact (proj1 HA)|exact HB|exact HD|exact HX]. replace (length (w_in (wd (rx_state s)))) with (length rest) by (unfold rx_state; cbn; now rewrite HI).
  rewrite HI. cbn [length]. apply loop_step. unfold read_body, bind at 1, get_sk at 1. destruct (sstate_eqb (s_state (sk s)) Closed) eqn:E2; [now apply state_eqb_true in E2|].
  unfold bind at 1. rewrite (recv_first n d src rest s HI HM), process_junk by exact HJ. reflexivity.
Qed.
Print Assumptions C28_read.
Theorem C28_flush : forall d src rest s, w_in (wd s) = RxDgram d src :: rest -> (forall p, packet_try_from (firstn 1520 d) <> Some (Ok p)) ->
  0 < s_max_retries (sk s) -> s_send_window (sk s) <> [] -> flush s = flush (mkSt (sk s) (sw_in rest (wd s))).
Proof.
  intros d src rest s HI HJ HM HW. assert (ER : rx_state s = mkSt (sk s) (sw_in rest (wd s))) by (unfold rx_state; now rewrite HI). rewrite <- ER.
  rewrite (flush_eq s), (flush_eq (rx_state s)). replace (length (w_in (wd (rx_state s)))) with (length rest) by (unfold rx_state; cbn; now rewrite HI).
  rewrite HI. cbn [length]. apply loop_step. unfold flush_body, bind at 1, get_sk at 1. destruct (s_send_window (sk s)) as [|q l]; [congruence|]. cbn [is_nil].
  unfold bind at 1. rewrite (recv_first _ d src rest s HI HM), process_junk by exact HJ. reflexivity.
Qed.
Print Assumptions C28_flush.
Notation c28_read_start := (accepted true 500 10 [RxDgram [x41; x42] peer; rx_pkt (dgram PData 101 11 500 [x41])]).
Example C28_read_example : reachable c28_read_start /\ drained (sk c28_read_start) /\ parses [x41; x42] = false /\ fst (run_op (ORecvFrom 5) c28_read_start) = Ret (VData [x41] peer).
Proof. split; [apply accepted_reachable; vm_compute; reflexivity|]. split; [vm_compute; auto|]. vm_compute. auto. Qed.
