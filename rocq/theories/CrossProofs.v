(** Two ends that close at the same time (C100). *)
From Verif Require Export SpecCross PartingProofs.
Require Import ZifyBool ZifyNat ZifyN.
Local Open Scope Z_scope.
Ltac Zify.zify_post_hook ::= Z.div_mod_to_equations.

Definition fin_reply (r : packet) (t : ptype) (cid sq ak : Z) : Prop := exists ts tsd, r = wire (mkHdr t cid ts tsd 1048576 sq ak) [] [].
Definition fin_seen (p : packet) (k k' : socket) : Prop := exists dl, k' = ss_state Closed (ss_their_delay dl (ss_remote_wnd_size (wnd_size p) (acked_sk p k))).

(** A FIN of the connection, in any of the states in which one is expected. *)
Lemma fin_closes rec n p src s : s_state (sk s) = Connected \/ s_state (sk s) = FinSent \/ s_state (sk s) = Closed -> s_pending_data (sk s) = [] -> s_incoming_buffer (sk s) = [] -> all_sent s ->
  packet_try_from p = Some (Ok p) -> get_type p = Some PFin -> own_id (sk s) p ->
  exists s' r, process_datagram rec n p src s = (Ret ([], src), s') /\ w_sent (wd s') = w_sent (wd s) ++ [(src, r)] /\ w_in (wd s') = w_in (wd s) /\ w_send (wd s') = w_send (wd s) /\
    fin_seen p (sk s) (sk s') /\ fin_reply r PState (s_sender_connection_id (sk s)) (s_seq_nr (sk s)) (s_ack_nr (acked_sk p (sk s))).
Proof.
  intros ES EP EB HX HV HT HO. rewrite (process_packet _ _ _ _ p PFin _ HV HT). unfold bind at 1.
  rewrite (handle_own _ p src PFin s HT (or_introl HO)). set (dl := abs_diff (clock_now s) (timestamp p)). pose proof (acked_other s_state p (sk s) ltac:(reflexivity)) as A1.
  pose proof (acked_other s_pending_data p (sk s) ltac:(reflexivity)) as A2. pose proof (acked_other s_incoming_buffer p (sk s) ltac:(reflexivity)) as A3.
  pose proof (acked_other s_sender_connection_id p (sk s) ltac:(reflexivity)) as A4. pose proof (acked_other s_seq_nr p (sk s) ltac:(reflexivity)) as A5.
  assert (EK : sk (noted p s) = ss_their_delay dl (ss_remote_wnd_size (wnd_size p) (acked_sk p (sk s)))) by reflexivity.
  remember (noted p s) as t eqn:Et. assert (Ewd : wd t = wd (ticked s)) by (rewrite Et; reflexivity). clear Et.
  assert (K3 : s_incoming_buffer (sk t) = []) by (rewrite EK; sproj; congruence). assert (K4 : s_pending_data (sk t) = []) by (rewrite EK; sproj; congruence).
  assert (ED : exists t1, dispatch rec p PFin src t = (Ret (Some (reply_to p PState t)), t1) /\ sk t1 = ss_state Closed (sk t) /\ wd t1 = wd (ticked t)).
  { assert (ES2 : attach_sack p (reply_to p PState t) (ticked t) = (Ret (reply_to p PState t), ticked t)).
    { unfold attach_sack, bind at 1, get_sk at 1. change (sk (ticked t)) with (sk t). destruct (1 <? _); [|reflexivity]. unfold build_selective_ack, bind, get_sk. change (sk (ticked t)) with (sk t). rewrite K3. reflexivity. }
    unfold dispatch, bind at 1, get_sk at 1. assert (K2 : s_state (sk t) = s_state (sk s)) by (rewrite EK; sproj; congruence). rewrite K2.
    destruct ES as [E|[E|E]]; rewrite E; unfold bind at 1; rewrite prepare_reply_eq; [| |].
    - unfold bind at 1. rewrite ES2. unfold bind at 1, upd_sk at 1. unfold ret. eexists. split; [reflexivity|]. split; reflexivity.
    - unfold bind at 1. rewrite ES2. unfold bind at 1, upd_sk at 1. unfold ret. eexists. split; [reflexivity|]. split; reflexivity.
    - unfold ret. eexists. split; [reflexivity|]. split; [|reflexivity]. change (sk (ticked t)) with (sk t). rewrite E in K2. destruct (sk t). cbn in K2. subst. reflexivity. }
  destruct ED as (t1 & E1 & E2 & E3). rewrite E1. unfold answer, bind at 1, bind at 1. unfold reply_to. rewrite set_wnd_wire. cbn [h_type h_cid h_ts h_tsd h_wnd h_seq h_ack].
  match goal with |- context [udp_send src ?q ?t] => set (r := q) end.
  assert (EX : tx_ok t1 = true) by (apply all_sent_ok; unfold all_sent; rewrite E3; cbn [ticked wd]; sproj; rewrite Ewd; exact HX).
  rewrite (send_ok_eq src r t1 EX). cbn [try_ ret]. unfold bind at 1, get_sk at 1. cbn [ptype_eqb andb]. unfold bind at 1, ret at 1. unfold bind at 1.
  change (sk (tx_state src r t1)) with (sk t1). rewrite flush_empty by (change (sk (tx_state src r t1)) with (sk t1); rewrite E2; sproj; assumption). unfold ret at 1.
  eexists. exists r. split; [reflexivity|]. unfold tx_state. rewrite EX. cbn [wd sk]. sproj. rewrite E3. unfold ticked. sproj. rewrite Ewd. unfold ticked. sproj.
  repeat (split; [reflexivity|]). split; [exists dl; rewrite E2, EK; reflexivity|]. exists (clock_now t), (u32 (abs_diff (clock_now t) (timestamp p))). unfold r. rewrite EK. sproj. rewrite A4, A5. reflexivity.
Qed.

(** Data that arrives at a socket that is closing: acknowledged by a packet of type FIN, and handed to nobody. *)
Lemma data_in_close rest n p d src s : w_in (wd s) = RxDgram p src :: rest -> s_state (sk s) = FinSent -> s_pending_data (sk s) = [] -> s_incoming_buffer (sk s) = [] -> 0 < s_max_retries (sk s) -> all_sent s ->
  packet_try_from (firstn 1520 p) = Some (Ok p) -> get_type p = Some PData -> own_id (sk s) p -> payload p = Some d -> (length d <= n)%nat ->
  (s_ack_nr (sk s) = (seq_nr p - 1) mod 65536 \/ s_ack_nr (sk s) = seq_nr p) -> s_last_dropped (sk s) <> seq_nr p -> ranges (sk s) ->
  exists s' r dl, recv n s = (Ret (d, src), s') /\ fin_reply r PFin (s_sender_connection_id (sk s)) (s_seq_nr (sk s)) (seq_nr p) /\
    w_sent (wd s') = w_sent (wd s) ++ [(src, r)] /\ w_in (wd s') = rest /\ w_send (wd s') = w_send (wd s) /\
    sk s' = ss_last_dropped (seq_nr p) (ss_ack_nr (seq_nr p) (ss_their_delay dl (ss_remote_wnd_size (wnd_size p) (sk s)))).
Proof.
  intros EW ES EP EB HM HX HV HT HO HPl Hn HA HL HR. rewrite (recv_first n p src rest s EW HM).
  change 1520%nat with (BUF_SIZE + HEADER_SIZE)%nat in HV. rewrite (process_packet _ _ _ _ p PData _ HV HT). unfold bind at 1.
  rewrite (handle_own _ p src PData (rx_state s) HT (or_introl HO)). pose proof (seq_nr_range p) as HQ.
  assert (EK : sk (noted p (rx_state s)) = ss_their_delay (abs_diff (clock_now s) (timestamp p)) (ss_remote_wnd_size (wnd_size p) (ss_ack_nr (seq_nr p) (sk s)))).
  { unfold noted. cbn [sk rx_state]. do 2 f_equal. unfold acked_sk. rewrite u16_eq. destruct HA as [HA|HA]; rewrite HA.
    - replace (_ =? 1) with true by lia. reflexivity.
    - replace (_ =? 1) with false by lia. rewrite <- HA. destruct (sk s); reflexivity. }
  remember (noted p (rx_state s)) as t eqn:Et. assert (Ewd : wd t = wd (ticked (rx_state s))) by (rewrite Et; reflexivity). clear Et.
  assert (K1 : s_ack_nr (sk t) = seq_nr p) by (rewrite EK; reflexivity). assert (K2 : s_state (sk t) = FinSent) by (rewrite EK; exact ES).
  assert (K3 : s_incoming_buffer (sk t) = []) by (rewrite EK; exact EB). assert (K4 : s_pending_data (sk t) = []) by (rewrite EK; exact EP).
  unfold dispatch, bind at 1, get_sk at 1. rewrite K2. rewrite data_reply_full by (right; right; exact K3).
  assert (EBm : reply_bitmap p (sk t) = []) by (unfold reply_bitmap; rewrite K1, Z.sub_diag; reflexivity). rewrite EBm, K2, K1. cbn [sstate_eqb].
  unfold answer, bind at 1, bind at 1. rewrite set_wnd_wire. cbn [h_type h_cid h_ts h_tsd h_wnd h_seq h_ack].
  match goal with |- context [udp_send src ?q ?t] => set (r := q); set (t1 := t) end.
  assert (EX : tx_ok t1 = true) by (apply all_sent_ok; unfold all_sent, t1; cbn [ticked wd]; sproj; rewrite Ewd; exact HX).
  rewrite (send_ok_eq src r t1 EX). cbn [try_ ret]. unfold bind at 1, get_sk at 1. change (sk (tx_state src r t1)) with (sk t).
  assert (K5 : s_last_dropped (sk t) = s_last_dropped (sk s)) by (rewrite EK; reflexivity). rewrite K5.
  replace (ptype_eqb PData PData && (0 <? u16 (seq_nr p - s_last_dropped (sk s)))) with true by (rewrite u16_eq; destruct HR; cbn [ptype_eqb andb]; lia).
  unfold insert_into_buffer, bind at 1, upd_sk at 1. change (sk (tx_state src r t1)) with (sk t). rewrite K3. change (insert_packet p []) with [p]. unfold bind at 1.
  rewrite (flush_ready n _ p [] d) by (sproj; auto). rewrite firstn_all2, Nat.eqb_refl by lia. cbn [ret].
  eexists. exists r, (abs_diff (clock_now s) (timestamp p)). split; [reflexivity|]. split.
  { exists (clock_now t), (u32 (abs_diff (clock_now t) (timestamp p))). unfold r. rewrite EK. reflexivity. }
  cbn [wd sk]. unfold tx_state. rewrite EX. cbn [wd]. sproj. change (wd t1) with (sw_tick (S (w_tick (wd t))) (wd t)). sproj. rewrite Ewd. unfold rx_state, ticked. sproj. rewrite EW.
  repeat (split; [reflexivity|]). unfold advance_socket. sproj. rewrite EK. destruct (sk s); cbn in *. subst. reflexivity.
Qed.

(** ** Both close *)
Lemma close_meets_fin f src s : w_in (wd s) = [RxDgram f src] -> packet_try_from (firstn 1520 f) = Some (Ok f) -> length f = 20%nat -> get_type f = Some PFin -> own_id (sk s) f ->
  s_state (sk s) = Connected -> s_pending_data (sk s) = [] -> s_incoming_buffer (sk s) = [] -> s_send_window (sk s) = [] -> 0 < s_max_retries (sk s) -> all_sent s ->
  exists s' r, close s = (Ret tt, s') /\ w_sent (wd s') = w_sent (wd s) ++ [(s_connected_to (sk s), fin_of s); (src, r)] /\ s_state (sk s') = Closed.
Proof.
  intros EI HV HL HT HO ES EP EB EW HM HX. destruct (close_begins s ES EW HX) as (t & E & K & L & I & X). rewrite E, EI. cbn [length].
  destruct (fin_closes (recv_fuel (length (w_in (wd t)))) BUF_SIZE f src (rx_state t)) as (s' & r & E1 & L1 & _ & _ & (dl & K1) & _).
  { right. left. unfold rx_state. sproj. rewrite K. reflexivity. } { unfold rx_state. sproj. rewrite K. exact EP. } { unfold rx_state. sproj. rewrite K. exact EB. }
  { intros i. unfold rx_state. sproj. rewrite X. apply HX. } { rewrite firstn_all2 in HV by lia. exact HV. } { exact HT. } { unfold own_id, rx_state in *. sproj. rewrite K. exact HO. }
  erewrite loop_step; [|unfold cbody, bind at 1, get_sk at 1; rewrite K; sproj; cbn [sstate_eqb]; unfold bind at 1; rewrite (recv_first BUF_SIZE f src [] t ltac:(rewrite I; exact EI) ltac:(rewrite K; exact HM));
    rewrite firstn_all2 by (change (BUF_SIZE + HEADER_SIZE)%nat with 1520%nat; lia); rewrite E1; reflexivity].
  cbn [loop]. unfold bind at 1, cbody, bind at 1, get_sk at 1. rewrite K1. sproj. cbn [sstate_eqb]. unfold ret. exists s', r. split; [reflexivity|]. split; [|rewrite K1; reflexivity].
  rewrite L1. unfold rx_state. sproj. rewrite L, <- app_assoc. reflexivity.
Qed.
Lemma run_close_ret s s' : close s = (Ret tt, s') -> run_op OClose s = (Ret VUnit, s').
Proof. intros H. cbn [run_op]. unfold bind. rewrite H. reflexivity. Qed.
Lemma run_close_fail s e s' : close s = (Fail e, s') -> run_op OClose s = (Fail e, s').
Proof. intros H. cbn [run_op]. unfold bind. rewrite H. reflexivity. Qed.
Lemma both_close_runs ax ay x y : joined ax ay x y -> exists x' y', both_close ax ay x y x' y'.
Proof.
  intros (HX & HY & AX & AY & I1 & I2). destruct HX as (RX & SX & PX & BX & WX & UX & MX & IX & TX). destruct HY as (RY & SY & PY & BY & WY & UY & MY & IY & TY).
  pose proof (reachable_ranges x RX) as NX. pose proof (reachable_ranges y RY) as NY.
  destruct (finp_facts (sk x) (fin_of x) ltac:(eexists; reflexivity) (r_seq _ NX) (r_scid _ NX)) as (P1 & P2 & P3 & P4 & P5).
  destruct (finp_facts (sk y) (fin_of y) ltac:(eexists; reflexivity) (r_seq _ NY) (r_scid _ NY)) as (Q1 & Q2 & Q3 & Q4 & Q5).
  assert (VP : packet_try_from (firstn 1520 (fin_of x)) = Some (Ok (fin_of x))) by (rewrite firstn_all2 by lia; exact P2).
  assert (VQ : packet_try_from (firstn 1520 (fin_of y)) = Some (Ok (fin_of y))) by (rewrite firstn_all2 by lia; exact Q2).
  destruct (close_pends x SX WX TX MX IX) as (x1 & E1 & L1). destruct (close_pends y SY WY TY MY IY) as (y1 & E2 & L2).
  destruct (close_meets_fin (fin_of y) ay (arrive ay [fin_of y] x)) as (x' & a & E3 & L3 & S3); auto; [unfold arrive; cbn [wd]; sproj; rewrite IX; reflexivity|right; change (sk (arrive ay [fin_of y] x)) with (sk x); congruence|].
  destruct (close_meets_fin (fin_of x) ax (arrive ax [fin_of x] y)) as (y' & b & E4 & L4 & S4); auto; [unfold arrive; cbn [wd]; sproj; rewrite IY; reflexivity|right; change (sk (arrive ax [fin_of x] y)) with (sk y); congruence|].
  rewrite AX in L1. rewrite AY in L2. change (sk (arrive ay [fin_of y] x)) with (sk x) in L3. change (sk (arrive ax [fin_of x] y)) with (sk y) in L4. rewrite AX in L3. rewrite AY in L4.
  exists x', y', (fin_of x), (fin_of y), a, b, x1, y1. split; [apply run_close_fail; exact E1|]. split; [exact L1|]. split; [apply run_close_fail; exact E2|]. split; [exact L2|].
  split; [apply run_close_ret; exact E3|]. split; [exact L3|]. split; [exact S3|]. split; [apply run_close_ret; exact E4|]. split; [exact L4|exact S4].
Qed.

(** ** One sends and closes while the other closes *)
Lemma flush_step_fin f src rest s : w_in (wd s) = RxDgram f src :: rest -> packet_try_from f = Some (Ok f) -> length f = 20%nat -> get_type f = Some PFin -> own_id (sk s) f ->
  s_state (sk s) = Connected \/ s_state (sk s) = FinSent \/ s_state (sk s) = Closed -> s_pending_data (sk s) = [] -> s_incoming_buffer (sk s) = [] -> s_send_window (sk s) <> [] -> 0 < s_max_retries (sk s) -> all_sent s ->
  exists s' r, flush_body tt s = (Ret (inl tt), s') /\ w_sent (wd s') = w_sent (wd s) ++ [(src, r)] /\ w_in (wd s') = rest /\ w_send (wd s') = w_send (wd s) /\ fin_seen f (sk s) (sk s') /\
    fin_reply r PState (s_sender_connection_id (sk s)) (s_seq_nr (sk s)) (s_ack_nr (acked_sk f (sk s))).
Proof.
  intros EI HV HL HT HO ES EP EB EW HM HX. destruct (fin_closes (recv_fuel (length (w_in (wd s)))) BUF_SIZE f src (rx_state s)) as (s' & r & E1 & L1 & I1 & X1 & K1 & F1); try assumption.
  exists s', r. split; [|split; [exact L1|split; [rewrite I1; unfold rx_state; sproj; rewrite EI; reflexivity|auto]]].
  unfold flush_body, bind at 1, get_sk at 1. destruct (s_send_window (sk s)); [congruence|]. cbn [is_nil]. unfold bind at 1. rewrite (recv_first BUF_SIZE f src rest s EI HM).
  rewrite firstn_all2 by (change (BUF_SIZE + HEADER_SIZE)%nat with 1520%nat; lia). rewrite E1. reflexivity.
Qed.
Lemma recv_timed_out n s s' : wait_datagram s = (Fail (Throw KTimedOut), s') -> recv n s = (Fail (Throw KTimedOut), s').
Proof.
  intros H. unfold recv, bind at 1, event_fuel. change (recv_fuel (S ?x) n) with (recv_body (recv_fuel x) n). unfold recv_body, bind at 1. rewrite H. reflexivity.
Qed.
Lemma seen_frame f k k' : fin_seen f k k' -> s_state k' = Closed /\ s_pending_data k' = s_pending_data k /\ s_incoming_buffer k' = s_incoming_buffer k /\ s_send_window k' = s_send_window k /\ s_max_retries k' = s_max_retries k /\
  s_congestion_timeout k' = s_congestion_timeout k /\ s_sender_connection_id k' = s_sender_connection_id k /\ s_receiver_connection_id k' = s_receiver_connection_id k.
Proof. intros (dl & ->). unfold acked_sk. destruct (_ =? 1); sproj; auto 10. Qed.
(** The data and the answer to the FIN, as they reach the other end. *)
Lemma close_two p d r ax s : w_in (wd s) = [RxDgram p ax; RxDgram r ax] -> s_state (sk s) = Connected -> s_pending_data (sk s) = [] -> s_incoming_buffer (sk s) = [] -> s_send_window (sk s) = [] -> 0 < s_max_retries (sk s) -> all_sent s ->
  packet_try_from (firstn 1520 p) = Some (Ok p) -> get_type p = Some PData -> own_id (sk s) p -> payload p = Some d -> (length d <= 1380)%nat ->
  (s_ack_nr (sk s) = (seq_nr p - 1) mod 65536 \/ s_ack_nr (sk s) = seq_nr p) -> s_last_dropped (sk s) <> seq_nr p -> ranges (sk s) ->
  packet_try_from (firstn 1520 r) = Some (Ok r) -> get_type r = Some PState -> own_id (sk s) r -> ack_nr r = s_seq_nr (sk s) ->
  exists s' g, close s = (Ret tt, s') /\ w_sent (wd s') = w_sent (wd s) ++ [(s_connected_to (sk s), fin_of s); (ax, g)] /\ s_state (sk s') = Closed /\ fin_reply g PFin (s_sender_connection_id (sk s)) (s_seq_nr (sk s)) (seq_nr p).
Proof.
  intros EI ES EP EB EW HM HX PV PT PO PP PL HA HD HR RV RT RO RA. destruct (close_begins s ES EW HX) as (t & E & K & L & I & X). rewrite E, EI. cbn [length].
  destruct (data_in_close [RxDgram r ax] BUF_SIZE p d ax t) as (t1 & g & dl & E1 & G & L1 & I1 & X1 & K1).
  { rewrite I. exact EI. } { rewrite K. reflexivity. } { rewrite K. exact EP. } { rewrite K. exact EB. } { rewrite K. exact HM. } { intros i. rewrite X. apply HX. } { exact PV. } { exact PT. }
  { unfold own_id in *. rewrite K. exact PO. } { exact PP. } { change BUF_SIZE with 1500%nat. lia. } { rewrite K. exact HA. } { rewrite K. exact HD. } { rewrite K. destruct HR. constructor; sproj; assumption. }
  erewrite loop_step; [|unfold cbody, bind at 1, get_sk at 1; rewrite K; sproj; cbn [sstate_eqb]; unfold bind at 1; rewrite E1; reflexivity].
  erewrite loop_step; [|unfold cbody, bind at 1, get_sk at 1; rewrite K1, K; sproj; cbn [sstate_eqb]; unfold bind at 1; rewrite (recv_first BUF_SIZE r ax [] t1 I1 ltac:(rewrite K1, K; sproj; exact HM))].
  2:{ rewrite (process_packet _ _ _ _ r PState _ RV RT). unfold bind at 1. rewrite (handle_own _ r ax PState (rx_state t1) RT) by (left; unfold own_id, rx_state in *; sproj; rewrite K1, K; exact RO).
      unfold dispatch, bind at 1, get_sk at 1. assert (EN : s_state (sk (noted r (rx_state t1))) = FinSent) by (unfold noted; sproj; rewrite (acked_other s_state) by reflexivity; unfold rx_state; sproj; rewrite K1, K; reflexivity). rewrite EN.
      assert (EQ : s_seq_nr (sk (noted r (rx_state t1))) = ack_nr r) by (unfold noted; sproj; rewrite (acked_other s_seq_nr) by reflexivity; unfold rx_state; sproj; rewrite K1, K; auto). rewrite EQ, Z.eqb_refl.
      unfold bind at 1, upd_sk at 1. unfold ret at 1. unfold answer, bind at 1, ret at 1. unfold bind at 1, get_sk at 1. cbn [ptype_eqb andb]. unfold bind at 1, ret at 1. unfold bind at 1.
      rewrite flush_empty; [reflexivity| |]; unfold noted; sproj; [rewrite (acked_other s_pending_data) by reflexivity|rewrite (acked_other s_incoming_buffer) by reflexivity]; unfold rx_state; sproj; rewrite K1, K; assumption. }
  cbn [loop]. unfold bind at 1, cbody, bind at 1, get_sk at 1. sproj. cbn [sstate_eqb]. unfold ret at 1. cbv iota. eexists. exists g. split; [reflexivity|]. split; [|split; [reflexivity|rewrite K in G; exact G]].
  unfold noted, rx_state, ticked. sproj. rewrite L1, L, <- app_assoc. reflexivity.
Qed.
Lemma fin_reply_facts r t cid sq ak : fin_reply r t cid sq ak -> 0 <= cid < 65536 -> 0 <= sq < 65536 -> 0 <= ak < 65536 ->
  length r = 20%nat /\ packet_try_from r = Some (Ok r) /\ packet_try_from (firstn 1520 r) = Some (Ok r) /\ get_type r = Some t /\ connection_id r = cid /\ seq_nr r = sq /\ ack_nr r = ak.
Proof.
  intros (ts & tsd & ->) H1 H2 H3. set (r := wire _ _ _). assert (EL : length r = 20%nat) by (unfold r; rewrite wire_length; reflexivity).
  assert (EV : packet_try_from r = Some (Ok r)) by (apply wire_valid; constructor). split; [exact EL|]. split; [exact EV|]. split; [rewrite firstn_all2 by lia; exact EV|]. unfold r.
  rewrite get_type_wire, cid_wire, seq_wire, ack_wire. cbn [h_type h_cid h_seq h_ack]. rewrite !u16_small by lia. auto.
Qed.
Lemma crossed_runs ax ay d ks x y : joined ax ay x y -> listens x y -> s_ack_nr (sk x) = (s_seq_nr (sk y) - 1) mod 65536 \/ s_ack_nr (sk x) = s_seq_nr (sk y) -> (0 < length d <= 1380)%nat ->
  all_timeouts ks -> Z.of_nat (length ks) = s_max_retries (sk x) -> s_congestion_timeout (sk x) * 2 ^ Z.of_nat (length ks) < 2 ^ 64 ->
  exists x' y', crossed ax ay d ks x y x' y'.
Proof.
  intros (HX & HY & AX & AY & I1 & I2) (HA & HD & HL) HA2 Hd HK HM HT. destruct HX as (RX & SX & PX & BX & WX & UX & MX & IX & TX). destruct HY as (RY & SY & PY & BY & WY & UY & MY & IY & TY).
  pose proof (reachable_ranges x RX) as NX. pose proof (reachable_ranges y RY) as NY.
  assert (CX : s_curr_window (sk x) = 0) by (pose proof (reachable_inflight x RX) as H; unfold inflight in H; rewrite WX in H; exact H).
  pose proof (r_seq _ NX) as QX. pose proof (r_seq _ NY) as QY. pose proof (r_lacked _ NX) as LX. pose proof (r_scid _ NX) as DX. pose proof (r_scid _ NY) as DY. pose proof (r_ack _ NX) as KX. pose proof (r_cto _ NX) as C0.
  destruct (send_one d x Hd ltac:(rewrite SX; discriminate) UX WX CX QX ltac:(rewrite !u16_eq; lia) TX) as (x1 & p & E1 & Ep & K1 & L1 & J1 & T1 & _).
  rewrite AX in L1. pose proof (run_send_to _ _ _ _ E1) as O1.
  destruct (chunkp_facts (s_sender_connection_id (sk x)) (s_seq_nr (sk x)) d p) as (P1 & P2 & P3 & P4 & P5 & P6); [rewrite Ep; do 3 eexists; reflexivity|exact QX|exact DX|exact Hd|]. clear Ep.
  destruct (close_pends y SY WY TY MY IY) as (y1 & E2 & L2). rewrite AY in L2. remember (fin_of y) as f eqn:Ef.
  destruct (finp_facts (sk y) f ltac:(rewrite Ef; eexists; reflexivity) QY DY) as (F1 & F2 & F3 & F4 & F5).
  assert (S1 : s_state (sk x1) = Connected /\ s_pending_data (sk x1) = [] /\ s_incoming_buffer (sk x1) = [] /\ s_send_window (sk x1) = [p] /\ s_max_retries (sk x1) = s_max_retries (sk x) /\ s_congestion_timeout (sk x1) = s_congestion_timeout (sk x) /\
    s_sender_connection_id (sk x1) = s_sender_connection_id (sk x) /\ s_receiver_connection_id (sk x1) = s_receiver_connection_id (sk x) /\ s_ack_nr (sk x1) = s_ack_nr (sk x) /\ s_seq_nr (sk x1) = u16 (s_seq_nr (sk x) + 1)).
  { rewrite K1. unfold after_send. sproj. auto 15. }
  destruct S1 as (A1 & A2 & A3 & A4 & A5 & A6 & A7 & A8 & A9 & A10).
  assert (X1 : all_sent x1) by (intros i; rewrite T1; apply TX). assert (WI : w_in (wd x1) = []) by congruence.
  assert (AK : s_ack_nr (acked_sk f (sk x1)) = s_seq_nr (sk y)).
  { unfold acked_sk. rewrite u16_eq, A9, F4. destruct HA2 as [HA2|HA2]; rewrite HA2; destruct (_ =? 1) eqn:EQ; sproj; lia. }
  (* the FIN alone *)
  destruct (flush_step_fin f ay [] (arrive ay [f] x1)) as (x2 & r & E3 & L3 & J3 & T3 & G3 & R3); try assumption; try (change (sk (arrive ay [f] x1)) with (sk x1)).
  { unfold arrive. cbn [wd]. sproj. rewrite WI. reflexivity. } { right. congruence. } { auto. } { rewrite A4. discriminate. } { lia. }
  change (sk (arrive ay [f] x1)) with (sk x1) in *. rewrite AK, A7, A10 in R3.
  destruct (fin_reply_facts _ _ _ _ _ R3 DX ltac:(rewrite u16_eq; lia) QY) as (R1 & R2 & R2' & R4 & R5 & R6 & R7).
  destruct (seen_frame _ _ _ G3) as (B1 & B2 & B3 & B4 & B5 & B6 & B7 & B8).
  assert (E3' : close (arrive ay [f] x1) = (Fail Pend, x2)).
  { unfold close, bind at 1, get_sk at 1. change (sk (arrive ay [f] x1)) with (sk x1). rewrite A1. unfold bind at 1. rewrite flush_eq. unfold arrive at 1. cbn [wd]. sproj. rewrite WI. cbn [length app map].
    erewrite loop_step by exact E3. cbn [loop]. unfold bind at 1, flush_body, bind at 1, get_sk at 1. rewrite B4, A4. cbn [is_nil]. unfold bind at 1. rewrite (recv_waits BUF_SIZE x2 J3) by lia. reflexivity. }
  (* the other end *)
  destruct (close_two p d r ax (arrive ax [p; r] y)) as (y' & g & E4 & L4 & S4 & G4); try assumption; try (change (sk (arrive ax [p; r] y)) with (sk y)); try assumption.
  { unfold arrive. cbn [wd]. sproj. rewrite IY. reflexivity. } { right. congruence. } { lia. } { rewrite P4. exact HA. } { congruence. } { right. congruence. }
  change (sk (arrive ax [p; r] y)) with (sk y) in *. change (w_sent (wd (arrive ax [p; r] y))) with (w_sent (wd y)) in L4. rewrite AY in L4. change (fin_of (arrive ax [p; r] y)) with (fin_of y) in L4. rewrite <- Ef in L4.
  destruct (fin_reply_facts _ _ _ _ _ G4 DY QY ltac:(rewrite P4; exact QX)) as (g1 & g2 & g3 & g4 & g5 & g6 & g7).
  (* to the end *)
  set (xs := script (RxDgram f ay :: RxDgram g ay :: map RxErr ks) x1). assert (IS : w_in (wd xs) = RxDgram f ay :: RxDgram g ay :: map RxErr ks) by (unfold xs, script; cbn [wd]; sproj; rewrite WI; reflexivity).
  destruct (flush_step_fin f ay (RxDgram g ay :: map RxErr ks) xs) as (x3 & r3 & E5 & L5 & J5 & T5 & G5 & _); try assumption; try (change (sk xs) with (sk x1)); [right; congruence|auto|rewrite A4; discriminate|lia|].
  destruct (seen_frame _ _ _ G5) as (D1 & D2 & D3 & D4 & D5 & D6 & D7 & D8). change (sk xs) with (sk x1) in *.
  destruct (flush_step_fin g ay (map RxErr ks) x3) as (x4 & r4 & E6 & L6 & J6 & T6 & G6 & _); try assumption; [right; congruence|auto|congruence|congruence|rewrite D4, A4; discriminate|lia|intros i; rewrite T5; apply X1|].
  destruct (seen_frame _ _ _ G6) as (H1 & H2 & H3 & H4 & H5 & H6 & H7 & H8).
  destruct (wait_gives_up ks [] x4) as (x' & E7 & _); [exact HK|rewrite app_nil_r; exact J6|intros i; rewrite T6, T5; apply X1|right; rewrite H6, D6, A6; split; [apply C0|exact HT]|lia|].
  assert (E8 : close xs = (Fail (Throw KTimedOut), x')).
  { unfold close, bind at 1, get_sk at 1. change (sk xs) with (sk x1). rewrite A1. unfold bind at 1. rewrite flush_eq, IS. cbn [length].
    erewrite loop_step by exact E5. erewrite loop_step by exact E6. cbn [loop]. unfold bind at 1, flush_body, bind at 1, get_sk at 1. rewrite H4, D4, A4. cbn [is_nil]. unfold bind at 1. rewrite (recv_timed_out BUF_SIZE x4 x' E7). reflexivity. }
  exists x', y', p, f, r, g, x1, x2, y1. split; [exact O1|]. split; [exact L1|]. split; [apply run_close_fail; exact E2|]. split; [exact L2|]. split; [apply run_close_fail; exact E3'|]. split; [exact L3|].
  split; [apply run_close_ret; exact E4|]. split; [exact L4|]. split; [exact S4|]. split; [exact g7|]. apply run_close_fail. exact E8.
Qed.
