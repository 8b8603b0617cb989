(** Reads that are given up (C94). *)
From Verif Require Export SpecCancel LossyProofs.
Require Import ZifyBool ZifyNat ZifyN.
Local Open Scope Z_scope.
Ltac Zify.zify_post_hook ::= Z.div_mod_to_equations.

(** ** While waiting for a datagram *)
Lemma wait_cancelled rest n s : w_in (wd s) = RxCancel :: rest -> 0 < s_max_retries (sk s) -> recv n s = (Fail Pend, rx_state s).
Proof.
  intros HI HM. unfold recv, bind at 1, event_fuel. change (recv_fuel (S ?x) n) with (recv_body (recv_fuel x) n).
  unfold recv_body, bind at 1, wait_datagram, bind at 1, event_fuel. cbn [loop]. unfold bind at 1, bind at 1, get_sk at 1.
  replace (s_max_retries (sk s) <=? 0) with false by lia. unfold bind at 1, udp_recv. rewrite HI. unfold rx_state. rewrite HI. reflexivity.
Qed.
Lemma read_cancelled rest n s : w_in (wd s) = RxCancel :: rest -> 0 < s_max_retries (sk s) -> s_state (sk s) <> Closed -> s_state (sk s) <> ResetReceived -> s_pending_data (sk s) = [] ->
  match s_incoming_buffer (sk s) with [] => True | p :: _ => 0 <= s_ack_nr (sk s) < 65535 /\ seq_nr p <> s_ack_nr (sk s) /\ seq_nr p <> s_ack_nr (sk s) + 1 end ->
  recv_from n s = (Fail Pend, mkSt (sk s) (sw_in rest (wd s))).
Proof.
  intros HI HM HC HR HP HB. unfold recv_from, bind at 1.
  assert (E : flush_incoming_buffer n s = (Ret [], s)).
  { unfold flush_incoming_buffer, bind at 1, get_sk at 1. rewrite HP. cbn [is_nil negb]. destruct (s_incoming_buffer (sk s)) as [|p l]; [reflexivity|].
    unfold bind at 1. replace (s_ack_nr (sk s) =? seq_nr p) with false by lia. unfold ck_u16, arith, bind at 1.
    replace ((0 <=? s_ack_nr (sk s) + 1) && (s_ack_nr (sk s) + 1 <=? 2 ^ 16 - 1)) with true by lia. rewrite andb_false_r. unfold ret at 1. rewrite u16_small by lia.
    replace (s_ack_nr (sk s) + 1 =? seq_nr p) with false by lia. reflexivity. }
  rewrite E. unfold bind at 1, get_sk at 1. cbn [is_nil negb]. destruct (sstate_eqb (s_state (sk s)) ResetReceived) eqn:E1; [destruct (s_state (sk s)); cbn in E1; congruence|].
  unfold bind at 1, event_fuel. cbn [loop]. unfold bind at 1, bind at 1, get_sk at 1. destruct (sstate_eqb (s_state (sk s)) Closed) eqn:E2; [destruct (s_state (sk s)); cbn in E2; congruence|].
  unfold bind at 1. rewrite (wait_cancelled rest n s HI HM). unfold rx_state. rewrite HI. reflexivity.
Qed.

(** ** While the acknowledgement is being sent *)
Lemma dgram_one rest n p d src s : w_in (wd s) = RxDgram p src :: rest -> idle (sk s) ->
  packet_try_from (firstn 1520 p) = Some (Ok p) -> get_type p = Some PData -> own_id (sk s) p -> payload p = Some d -> d <> [] -> (length d <= n)%nat ->
  (s_ack_nr (sk s) = (seq_nr p - 1) mod 65536 \/ s_ack_nr (sk s) = seq_nr p) -> s_last_dropped (sk s) <> seq_nr p -> 0 <= s_last_dropped (sk s) < 65536 ->
  exists s' r dl, state_reply r (s_sender_connection_id (sk s)) (s_seq_nr (sk s)) (seq_nr p) /\ w_in (wd s') = rest /\ w_send (wd s') = w_send (wd s) /\ w_stick (wd s') = S (w_stick (wd s)) /\
    match w_send (wd s) (w_stick (wd s)) with
    | SendOk => recv_from n s = (Ret (d, src), s') /\ w_sent (wd s') = w_sent (wd s) ++ [(src, r)] /\
        sk s' = ss_last_dropped (seq_nr p) (ss_ack_nr (seq_nr p) (ss_their_delay dl (ss_remote_wnd_size (wnd_size p) (sk s))))
    | f => recv_from n s = (Fail (match f with SendErr k => Throw k | _ => Pend end), s') /\ w_sent (wd s') = w_sent (wd s) /\
        sk s' = ss_ack_nr (seq_nr p) (ss_their_delay dl (ss_remote_wnd_size (wnd_size p) (sk s)))
    end.
Proof.
  intros EW (ES & EP & EB & EWn & EU & HM) HV HT HO HPl Hd Hn HA HL HR. remember (recv_from n s) as R eqn:HRR. rewrite (recv_from_first n s EP EB ES) in HRR. rewrite (recv_first n p src rest s EW HM) in HRR.
  change 1520%nat with (BUF_SIZE + HEADER_SIZE)%nat in HV. rewrite (process_packet _ _ _ _ p PData _ HV HT) in HRR. unfold bind at 1 in HRR.
  rewrite (handle_own _ p src PData (rx_state s) HT (or_introl HO)) in HRR. pose proof (seq_nr_range p) as HQ.
  assert (EK : sk (noted p (rx_state s)) = ss_their_delay (abs_diff (clock_now s) (timestamp p)) (ss_remote_wnd_size (wnd_size p) (ss_ack_nr (seq_nr p) (sk s)))).
  { unfold noted. cbn [sk rx_state]. do 2 f_equal. unfold acked_sk. rewrite u16_eq. destruct HA as [HA|HA]; rewrite HA.
    - replace (_ =? 1) with true by lia. reflexivity.
    - replace (_ =? 1) with false by lia. rewrite <- HA. destruct (sk s); reflexivity. }
  remember (noted p (rx_state s)) as t eqn:Et. assert (Ewd : wd t = wd (ticked (rx_state s))) by (rewrite Et; reflexivity). clear Et.
  assert (K1 : s_ack_nr (sk t) = seq_nr p) by (rewrite EK; reflexivity). assert (K2 : s_state (sk t) = Connected) by (rewrite EK; exact ES).
  assert (K3 : s_incoming_buffer (sk t) = []) by (rewrite EK; exact EB). assert (K4 : s_pending_data (sk t) = []) by (rewrite EK; exact EP).
  unfold dispatch, bind at 1, get_sk at 1 in HRR. rewrite K2 in HRR. rewrite data_reply_full in HRR by (right; right; exact K3).
  assert (EBm : reply_bitmap p (sk t) = []) by (unfold reply_bitmap; rewrite K1, Z.sub_diag; reflexivity). rewrite EBm, K2, K1 in HRR. cbn [sstate_eqb] in HRR.
  unfold answer, bind at 1, bind at 1 in HRR. rewrite set_wnd_wire in HRR. cbn [h_type h_cid h_ts h_tsd h_wnd h_seq h_ack] in HRR.
  match type of HRR with context [udp_send src ?q ?t] => set (r := q) in HRR; set (t1 := t) in HRR end.
  assert (ER : state_reply r (s_sender_connection_id (sk s)) (s_seq_nr (sk s)) (seq_nr p)).
  { exists (clock_now t), (u32 (abs_diff (clock_now t) (timestamp p))). unfold r. rewrite EK. reflexivity. }
  assert (EU1 : w_send (wd t1) = w_send (wd s) /\ w_stick (wd t1) = w_stick (wd s) /\ w_in (wd t1) = rest /\ w_sent (wd t1) = w_sent (wd s) /\ sk t1 = sk t).
  { unfold t1, ticked. cbn [wd sk]. sproj. rewrite Ewd. unfold ticked, rx_state. sproj. rewrite EW. auto. }
  clearbody r t1. destruct EU1 as (U1 & U2 & U3 & U4 & U5). unfold udp_send in HRR. rewrite U1, U2, U5 in HRR.
  destruct (w_send (wd s) (w_stick (wd s))) eqn:ES1; cbn [try_ ret] in HRR.
  - unfold bind at 1, get_sk at 1 in HRR. cbn [sk] in HRR. assert (K5 : s_last_dropped (sk t) = s_last_dropped (sk s)) by (rewrite EK; reflexivity). rewrite K5 in HRR.
    replace (ptype_eqb PData PData && (0 <? u16 (seq_nr p - s_last_dropped (sk s)))) with true in HRR by (rewrite u16_eq; cbn [ptype_eqb andb]; lia).
    unfold insert_into_buffer, bind at 1, upd_sk at 1 in HRR. cbn [sk] in HRR. rewrite K3 in HRR. change (insert_packet p []) with [p] in HRR. unfold bind at 1 in HRR.
    rewrite (flush_ready n _ p [] d) in HRR by (sproj; auto). rewrite firstn_all2, Nat.eqb_refl in HRR by lia. cbn [ret] in HRR. destruct d as [|b d]; [congruence|]. cbn [is_nil] in HRR.
    cbn beta iota in HRR; match type of HRR with R = (_, ?x) => exists x end. exists r, (abs_diff (clock_now s) (timestamp p)). split; [exact ER|]. rewrite HRR. cbn [wd sk]. sproj. rewrite U3, U1, U4. repeat (split; [reflexivity|]).
    unfold advance_socket. sproj. rewrite EK. destruct (sk s); cbn in *. subst. reflexivity.
  - unfold throw, fail in HRR; cbn beta iota in HRR; match type of HRR with R = (_, ?x) => exists x end. exists r, (abs_diff (clock_now s) (timestamp p)). split; [exact ER|]. rewrite HRR. cbn [wd sk]. sproj. rewrite U3, U1, U4, EK. repeat (split; [reflexivity|]). destruct (sk s); reflexivity.
  - unfold throw, fail in HRR; cbn beta iota in HRR; match type of HRR with R = (_, ?x) => exists x end. exists r, (abs_diff (clock_now s) (timestamp p)). split; [exact ER|]. rewrite HRR. cbn [wd sk]. sproj. rewrite U3, U1, U4, EK. repeat (split; [reflexivity|]). destruct (sk s); reflexivity.
Qed.

(** ** The next read *)
Lemma caught_up_idle a k : caught_up a k -> idle k. Proof. unfold caught_up, idle. tauto. Qed.
Lemma first_fails n a d p src rest s : caught_up a (sk s) -> w_in (wd s) = RxDgram p src :: rest -> piece_no (s_receiver_connection_id (sk s)) ((a + 1) mod 65536) d p ->
  (0 < length d <= 1380)%nat -> (length d <= n)%nat -> w_send (wd s) (w_stick (wd s)) <> SendOk ->
  exists s1 f, recv_from n s = (Fail f, s1) /\ f = match w_send (wd s) (w_stick (wd s)) with SendErr k => Throw k | _ => Pend end /\
    w_sent (wd s1) = w_sent (wd s) /\ w_in (wd s1) = rest /\ w_send (wd s1) = w_send (wd s) /\ w_stick (wd s1) = S (w_stick (wd s)) /\
    exists dl w, sk s1 = ss_ack_nr ((a + 1) mod 65536) (ss_their_delay dl (ss_remote_wnd_size w (sk s))).
Proof.
  intros HC HI HP Hd Hn HF. pose proof (caught_up_idle _ _ HC) as HD. destruct HC as (_ & _ & _ & _ & _ & _ & HA & HL & Ha & HR).
  destruct (chunkp_facts _ _ _ _ HP) as (_ & V & T & Q & C & P); [lia|lia|lia|].
  destruct (dgram_one rest n p d src s HI HD V T) as (s1 & r & dl & _ & I1 & X1 & K1 & H); [right; exact C|exact P|destruct d; [cbn in Hd; lia|congruence]|exact Hn|left; rewrite Q; lia|lia|lia|].
  exists s1. rewrite Q in H. destruct (w_send (wd s) (w_stick (wd s))); [congruence| |]; destruct H as (E & L & K); eexists; (split; [exact E|]); (split; [reflexivity|]); repeat (split; [assumption|]); eauto.
Qed.
Lemma next_read n a b e q src rest s1 : idle (sk s1) -> s_ack_nr (sk s1) = a -> (b = a \/ b = (a + 1) mod 65536) -> s_last_dropped (sk s1) <> b -> 0 <= s_last_dropped (sk s1) < 65536 -> 0 <= a < 65536 ->
  0 <= s_receiver_connection_id (sk s1) < 65536 -> w_in (wd s1) = RxDgram q src :: rest -> piece_no (s_receiver_connection_id (sk s1)) b e q -> (0 < length e <= 1380)%nat -> (length e <= n)%nat ->
  w_send (wd s1) (w_stick (wd s1)) = SendOk ->
  exists s2 r, recv_from n s1 = (Ret (e, src), s2) /\ w_sent (wd s2) = w_sent (wd s1) ++ [(src, r)] /\ acknowledges b r.
Proof.
  intros HD HA HB HL HR Ha HC HI HP He Hn HX. destruct (chunkp_facts _ _ _ _ HP) as (_ & V & T & Q & C & P); [lia|lia|lia|].
  destruct (dgram_one rest n q e src s1 HI HD V T) as (s2 & r & dl & R & _ & _ & _ & H); [right; exact C|exact P|destruct e; [cbn in He; lia|congruence]|exact Hn|rewrite Q; destruct HB; subst b; [right; exact HA|left; lia]|lia|lia|].
  rewrite HX in H. destruct H as (E & L & _). exists s2, r. split; [exact E|]. split; [exact L|]. destruct R as (ts & tsd & ->). rewrite Q. unfold acknowledges. eauto 10.
Qed.

Lemma packet_lost n a d e p q src rest s : caught_up a (sk s) -> w_in (wd s) = RxDgram p src :: RxDgram q src :: rest ->
  piece_no (s_receiver_connection_id (sk s)) ((a + 1) mod 65536) d p -> piece_no (s_receiver_connection_id (sk s)) ((a + 2) mod 65536) e q ->
  (0 < length d <= 1380)%nat -> (0 < length e <= 1380)%nat -> (length d <= n)%nat -> (length e <= n)%nat ->
  w_send (wd s) (w_stick (wd s)) <> SendOk -> w_send (wd s) (S (w_stick (wd s))) = SendOk ->
  exists s1 s2 r, fst (recv_from n s) = Fail (match w_send (wd s) (w_stick (wd s)) with SendErr k => Throw k | _ => Pend end) /\ snd (recv_from n s) = s1 /\
    recv_from n s1 = (Ret (e, src), s2) /\ w_sent (wd s2) = w_sent (wd s) ++ [(src, r)] /\ acknowledges ((a + 2) mod 65536) r.
Proof.
  intros HC HI HP HQ Hd He Hn Hm HF HX. destruct (first_fails n a d p src _ s HC HI HP Hd Hn HF) as (s1 & f & E & -> & L & I1 & X1 & K1 & dl & w & K).
  pose proof (caught_up_idle _ _ HC) as HD. destruct HC as (_ & _ & _ & _ & _ & _ & HA & HL & Ha & HR).
  destruct (next_read n ((a + 1) mod 65536) ((a + 2) mod 65536) e q src rest s1) as (s2 & r & E2 & L2 & R2); rewrite ?K; sproj; auto; try lia.
  { now rewrite X1, K1. }
  exists s1, s2, r. rewrite E. split; [reflexivity|]. split; [reflexivity|]. split; [exact E2|]. split; [congruence|exact R2].
Qed.
Lemma packet_again n a d p q src rest s : caught_up a (sk s) -> w_in (wd s) = RxDgram p src :: RxDgram q src :: rest ->
  piece_no (s_receiver_connection_id (sk s)) ((a + 1) mod 65536) d p -> piece_no (s_receiver_connection_id (sk s)) ((a + 1) mod 65536) d q ->
  (0 < length d <= 1380)%nat -> (length d <= n)%nat -> w_send (wd s) (w_stick (wd s)) <> SendOk -> w_send (wd s) (S (w_stick (wd s))) = SendOk ->
  exists s1 s2 r, fst (recv_from n s) = Fail (match w_send (wd s) (w_stick (wd s)) with SendErr k => Throw k | _ => Pend end) /\ snd (recv_from n s) = s1 /\
    recv_from n s1 = (Ret (d, src), s2) /\ w_sent (wd s2) = w_sent (wd s) ++ [(src, r)] /\ acknowledges ((a + 1) mod 65536) r.
Proof.
  intros HC HI HP HQ Hd Hn HF HX. destruct (first_fails n a d p src _ s HC HI HP Hd Hn HF) as (s1 & f & E & -> & L & I1 & X1 & K1 & dl & w & K).
  pose proof (caught_up_idle _ _ HC) as HD. destruct HC as (_ & _ & _ & _ & _ & _ & HA & HL & Ha & HR).
  destruct (next_read n ((a + 1) mod 65536) ((a + 1) mod 65536) d q src rest s1) as (s2 & r & E2 & L2 & R2); rewrite ?K; sproj; auto; try lia.
  { now rewrite X1, K1. }
  exists s1, s2, r. rewrite E. split; [reflexivity|]. split; [reflexivity|]. split; [exact E2|]. split; [congruence|exact R2].
Qed.
