(** What an arriving acknowledgement does to the delays and the timer (C81), and the calls that give up (C36). *)
From Verif Require Export BulkProofs GrowthProofs.
From Verif Require Import PropWindow.
Require Import ZifyBool ZifyNat ZifyN.
Local Open Scope Z_scope.
Ltac Zify.zify_post_hook ::= Z.div_mod_to_equations.

(** A State packet without selective acknowledgement that acknowledges something new. *)
Lemma advance_acked w1 q w2 s : s_send_window (sk s) = w1 ++ q :: w2 -> seq_nr q = s_last_acked (sk s) -> (forall x, In x w1 -> seq_nr x <> s_last_acked (sk s)) ->
  s_curr_window (sk s) = sum_len (s_send_window (sk s)) -> sum_len (s_send_window (sk s)) < 4294967296 ->
  advance_send_window s = (Ret tt, mkSt (ss_curr_window (sum_len w2) (ss_send_window w2 (sk s))) (wd s)).
Proof.
  intros EW EQ HN EC HS. unfold advance_send_window, bind at 1, get_sk at 1. rewrite EW, position_app by (try (intros y Hy; specialize (HN y Hy)); lia).
  rewrite drop_acked_exact by (rewrite ?EW, ?app_length; cbn [length]; congruence || lia). rewrite EW, skipn_app, skipn_all2 by lia.
  replace (length w1 + 1 - length w1)%nat with 1%nat by lia. reflexivity.
Qed.
Lemma state_acked rec r exts w1 q w2 t : extensions r = Some exts -> no_sack exts -> ok t -> s_send_window (sk t) = w1 ++ q :: w2 -> s_curr_window (sk t) = sum_len (s_send_window (sk t)) ->
  sum_len (s_send_window (sk t)) < 4294960000 -> seq_nr q = ack_nr r -> (forall x, In x w1 -> seq_nr x <> ack_nr r) -> s_last_acked (sk t) <> ack_nr r ->
  exists t1 t2, sk t1 = ss_duplicate_ack_count 1 (ss_last_acked_timestamp (clock_now t) (ss_last_acked (ack_nr r) (sk t))) /\ wd t1 = wd (ticked t) /\
    process_ack (length w1) t1 = (Ret tt, t2) /\ tuned (sk t1) (sk t2) /\ wd t2 = wd (ticked t1) /\
    handle_state_packet rec r t = (Ret tt, mkSt (ss_curr_window (sum_len w2) (ss_send_window w2 (sk t2))) (wd t2)).
Proof.
  intros HE HN HK EW EC HL EQ HF HA. rewrite handle_state_split. unfold bind at 1, acked_start, bind at 1. rewrite note_fresh by congruence.
  remember (mkSt (ss_duplicate_ack_count 1 (ss_last_acked_timestamp (clock_now t) (ss_last_acked (ack_nr r) (sk t)))) (wd (ticked t))) as t1 eqn:E1.
  assert (HK1 : ok t1) by (rewrite E1; exact HK). exists t1.
  assert (S1 : sk t1 = ss_duplicate_ack_count 1 (ss_last_acked_timestamp (clock_now t) (ss_last_acked (ack_nr r) (sk t)))) by (rewrite E1; reflexivity).
  assert (Q1 : s_send_window (sk t1) = w1 ++ q :: w2) by (rewrite S1; exact EW). assert (Q2 : s_curr_window (sk t1) = sum_len (s_send_window (sk t1))) by (rewrite S1; exact EC).
  assert (Q7 : s_duplicate_ack_count (sk t1) = 1) by (rewrite S1; reflexivity). assert (Q8 : s_last_acked (sk t1) = ack_nr r) by (rewrite S1; reflexivity).
  assert (Q9 : sum_len (s_send_window (sk t1)) < 4294960000) by (rewrite S1; exact HL). assert (W1 : wd t1 = wd (ticked t)) by (rewrite E1; reflexivity). clear E1.
  unfold bind at 1, get_sk at 1. rewrite Q1, position_app by (try (intros y Hy; specialize (HF y Hy)); lia).
  pose proof (sum_len_nonneg (s_send_window (sk t1))).
  destruct (process_ack_runs (length w1) q t1 HK1) as (t2 & E2 & W2 & T2); [rewrite Q1, nth_error_app2, Nat.sub_diag by lia; reflexivity|lia|].
  exists t2. rewrite E2. repeat (split; [assumption || reflexivity|]).
  assert (Q3 : s_send_window (sk t2) = s_send_window (sk t1) /\ s_curr_window (sk t2) = s_curr_window (sk t1) /\ s_duplicate_ack_count (sk t2) = 1 /\ s_last_acked (sk t2) = ack_nr r).
  { destruct T2 as (? & ? & ? & ? & ? & ? & ? & ->). sproj. auto. }
  destruct Q3 as (Q3 & Q4 & Q5 & Q6). unfold bind at 1, get_sk at 1. rewrite Q5, HE. cbv zeta. cbn [Z.eqb Pos.eqb unwrap]. rewrite andb_false_r. unfold bind at 1, ret at 1. unfold bind at 1. rewrite no_sack_pass by exact HN.
  unfold finish_state_packet, bind at 1, get_sk at 1. rewrite Q5. cbn [Z.eqb Pos.eqb]. rewrite andb_false_r. cbn [andb]. unfold bind at 1, ret at 1. unfold bind at 1, ret at 1.
  apply (advance_acked w1 q); rewrite ?Q3, ?Q6; try congruence; try assumption; lia.
Qed.

(** The packet as it is read. *)
Lemma ack_read n d src rest r exts w1 q w2 s : reachable s -> s_state (sk s) = Connected -> s_pending_data (sk s) = [] -> s_incoming_buffer (sk s) = [] -> 0 < s_max_retries (sk s) ->
  w_in (wd s) = RxDgram d src :: rest -> packet_try_from (firstn 1520 d) = Some (Ok r) -> get_type r = Some PState -> connection_id r = s_receiver_connection_id (sk s) ->
  extensions r = Some exts -> no_sack exts -> s_send_window (sk s) = w1 ++ q :: w2 -> sum_len (s_send_window (sk s)) < 4294960000 ->
  seq_nr q = ack_nr r -> (forall x, In x w1 -> seq_nr x <> ack_nr r) -> s_last_acked (sk s) <> ack_nr r ->
  exists t1 t2 s', sk t1 = ss_duplicate_ack_count 1 (ss_last_acked_timestamp (clock_now (ticked s)) (ss_last_acked (ack_nr r)
      (ss_their_delay (abs_diff (clock_now s) (timestamp r)) (ss_remote_wnd_size (wnd_size r) (acked_sk r (sk s)))))) /\
    clock_now t1 = clock_now (ticked (ticked s)) /\ process_ack (length w1) t1 = (Ret tt, t2) /\ sk s' = ss_curr_window (sum_len w2) (ss_send_window w2 (sk t2)) /\
    w_in (wd s') = rest /\ w_sent (wd s') = w_sent (wd s) /\ s_state (sk s') = Connected /\ s_last_acked (sk s') = ack_nr r /\ s_duplicate_ack_count (sk s') = 1 /\ s_last_acked_timestamp (sk s') = clock_now (ticked s) /\ recv n s = (Ret ([], src), s').
Proof.
  intros HR ES EP EB HM EI EV ET EC HE HN EW HL EQ HF HA. pose proof (recv_first n d src rest s EI HM) as ER. rewrite (process_packet _ _ _ _ r PState _ EV ET) in ER. unfold bind at 1 in ER.
  rewrite (handle_own _ r src PState (rx_state s) ET (or_introl (or_intror EC))) in ER.
  pose proof (reachable_inflight s HR) as HI. unfold inflight in HI. pose proof (sum_len_nonneg (s_send_window (sk s))). rewrite u32_small in HI by lia.
  remember (noted r (rx_state s)) as t eqn:E. assert (Et : sk t = ss_their_delay (abs_diff (clock_now s) (timestamp r)) (ss_remote_wnd_size (wnd_size r) (acked_sk r (sk s)))) by (rewrite E; reflexivity).
  assert (Ew : wd t = wd (ticked (rx_state s))) by (rewrite E; reflexivity).
  assert (HKt : ok t). { rewrite E. unfold noted. cbn [sk wd]. unfold acked_sk. destruct (_ =? 1); exact (reachable_ok s HR). }
  clear E. assert (K1 : s_state (sk t) = Connected /\ s_send_window (sk t) = s_send_window (sk s) /\ s_curr_window (sk t) = s_curr_window (sk s) /\ s_last_acked (sk t) = s_last_acked (sk s) /\ s_pending_data (sk t) = [] /\ s_incoming_buffer (sk t) = []).
  { rewrite Et. sproj. rewrite (acked_other s_state), (acked_other s_send_window), (acked_other s_curr_window), (acked_other s_last_acked), (acked_other s_pending_data), (acked_other s_incoming_buffer) by reflexivity. auto 10. }
  destruct K1 as (K1 & K2 & K3 & K4 & K5 & K6).
  destruct (state_acked (recv_fuel (length (w_in (wd s)))) r exts w1 q w2 t HE HN HKt ltac:(congruence) ltac:(congruence) ltac:(rewrite K2; lia) EQ HF ltac:(congruence)) as (t1 & t2 & S1 & W1 & E2 & T2 & W2 & E3).
  unfold dispatch, bind at 1, get_sk at 1 in ER. rewrite K1 in ER. unfold bind at 1 in ER. rewrite E3 in ER. clear E3.
  unfold ret at 1 in ER. unfold answer in ER. unfold bind at 1, ret at 1 in ER. unfold bind at 1, get_sk at 1 in ER. cbn [ptype_eqb andb] in ER. unfold bind at 1, ret at 1 in ER. unfold bind at 1 in ER.
  assert (F2 : s_state (sk t2) = Connected /\ s_pending_data (sk t2) = [] /\ s_incoming_buffer (sk t2) = [] /\ s_last_acked (sk t2) = ack_nr r /\ s_duplicate_ack_count (sk t2) = 1 /\ s_last_acked_timestamp (sk t2) = clock_now t).
  { destruct T2 as (? & ? & ? & ? & ? & ? & ? & ->). rewrite S1. sproj. auto 10. }
  destruct F2 as (F1 & F2 & F3 & F4 & F5 & F6). rewrite flush_empty in ER by assumption. unfold ret in ER.
  exists t1, t2, (mkSt (ss_curr_window (sum_len w2) (ss_send_window w2 (sk t2))) (wd t2)). assert (Ec : clock_now t = clock_now (ticked s)) by (unfold clock_now; rewrite Ew; reflexivity).
  split; [rewrite S1, Et, Ec; reflexivity|]. split; [unfold clock_now; rewrite W1; cbn [ticked wd]; rewrite Ew; reflexivity|].
  split; [exact E2|]. split; [reflexivity|]. cbn [sk wd].
  assert (R1 : w_in (wd t2) = rest /\ w_sent (wd t2) = w_sent (wd s)) by (rewrite W2; unfold ticked; sproj; rewrite W1; unfold ticked; sproj; rewrite Ew; unfold rx_state, ticked; sproj; rewrite EI; auto).
  destruct R1. sproj. rewrite Ec in F6. auto 10.
Qed.

(** ** Giving up while closing *)
Lemma cbody_fails k f t s' : s_state (sk t) <> Closed -> recv BUF_SIZE t = (Fail (Throw k), s') -> loop (S f) cbody tt t = (Fail (Throw k), s').
Proof. intros H E. cbn [loop]. unfold bind at 1, cbody, bind at 1, get_sk at 1. destruct (s_state (sk t)); try congruence; cbn [sstate_eqb]; unfold bind at 1; rewrite E; reflexivity. Qed.
Lemma recv_grows n : grows (recv n).
Proof. destruct (leads_call [] n) as (_ & H & _). exact H. Qed.
Lemma recv_times_out n ks rest s : Forall (fun k => k = KTimedOut \/ k = KWouldBlock) ks -> w_in (wd s) = map RxErr ks ++ rest ->
  all_sent s -> timer_ok s (length ks) -> Z.of_nat (length ks) = s_max_retries (sk s) ->
  exists s', recv n s = (Fail (Throw KTimedOut), s') /\ s_state (sk s') = Closed /\ w_in (wd s') = rest.
Proof.
  intros HK HI HA HT HM. destruct (wait_gives_up ks rest s) as (s' & E & H1 & H2); auto.
  - eapply Forall_impl; [|exact HK]. intros k [ -> | -> ]; reflexivity.
  - exists s'. split; [|auto]. unfold recv, bind at 1, event_fuel. change (recv_fuel (S ?x) n) with (recv_body (recv_fuel x) n). unfold recv_body, bind. rewrite E. reflexivity.
Qed.
Lemma close_waits ks rest s : Forall (fun k => k = KTimedOut \/ k = KWouldBlock) ks -> w_in (wd s) = map RxErr ks ++ rest -> all_sent s -> timer_ok s (length ks) -> Z.of_nat (length ks) = s_max_retries (sk s) ->
  s_state (sk s) = Connected -> s_send_window (sk s) = [] ->
  exists s' later, close s = (Fail (Throw KTimedOut), s') /\ s_state (sk s') = Closed /\ w_in (wd s') = rest /\ w_sent (wd s') = w_sent (wd s) ++ (s_connected_to (sk s), fin_of s) :: later.
Proof.
  intros HK HI HA HT HM ES EW. unfold close, bind at 1, get_sk at 1. rewrite ES. unfold bind at 1.
  assert (EF : flush s = (Ret tt, s)) by (rewrite flush_eq; cbn [loop]; unfold bind at 1, flush_body, bind at 1, get_sk at 1; rewrite EW; reflexivity). rewrite EF. unfold bind at 1, send_fin, bind at 1, get_sk at 1.
  unfold bind at 1, now_microseconds. unfold bind at 1. fold (ticked s). rewrite packet_new_wire, set_cid_wire, set_seq_wire, set_ack_wire, set_ts_wire, set_type_wire. cbn [h_type h_cid h_ts h_tsd h_wnd h_seq h_ack].
  fold (clock_now s). fold (fin_of s). rewrite send_ok_eq by (apply all_sent_ok; exact HA). cbn [try_]. unfold ret at 1. unfold bind at 1, upd_sk at 1. unfold bind at 1, event_fuel. fold cbody.
  set (t := mkSt _ _). assert (W : wd t = sw_sent (w_sent (wd s) ++ [(s_connected_to (sk s), fin_of s)]) (sw_stick (S (w_stick (wd s))) (wd (ticked s)))).
  { unfold t, tx_state. rewrite (all_sent_ok (ticked s) HA). reflexivity. }
  assert (K : sk t = ss_state FinSent (sk s)) by (unfold t, tx_state; rewrite (all_sent_ok (ticked s) HA); reflexivity). clearbody t.
  destruct (recv_times_out BUF_SIZE ks rest t HK) as (s' & E & H1 & H2).
  { rewrite W. exact HI. } { unfold all_sent. rewrite W. exact HA. } { unfold timer_ok. rewrite W, K. exact HT. } { rewrite K. exact HM. }
  rewrite (cbody_fails KTimedOut _ t s') by (rewrite ?K; sproj; congruence). destruct (recv_grows BUF_SIZE t) as [l HG]. rewrite E, W in HG. cbn [snd] in HG. sproj_in HG.
  exists s', l. rewrite HG, <- app_assoc. auto.
Qed.
(** Data in flight: the flush that comes first gives up. *)
Lemma close_flush_waits ks rest s : Forall (fun k => k = KTimedOut \/ k = KWouldBlock) ks -> w_in (wd s) = map RxErr ks ++ rest -> all_sent s -> timer_ok s (length ks) -> Z.of_nat (length ks) = s_max_retries (sk s) ->
  s_state (sk s) = Connected -> s_send_window (sk s) <> [] ->
  exists s', close s = (Fail (Throw KTimedOut), s') /\ s_state (sk s') = Closed /\ w_in (wd s') = rest.
Proof.
  intros HK HI HA HT HM ES EW. destruct (recv_times_out BUF_SIZE ks rest s HK HI HA HT HM) as (s' & E & H1 & H2). exists s'. split; [|auto].
  unfold close, bind at 1, get_sk at 1. rewrite ES. unfold bind at 1, flush, bind at 1, event_fuel. cbn [loop]. unfold bind at 1, bind at 1, get_sk. destruct (s_send_window (sk s)) as [|q w]; [congruence|]. cbn [is_nil]. unfold bind at 1. rewrite E. reflexivity.
Qed.
