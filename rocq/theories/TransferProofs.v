(** Two endpoints that exchange messages over a network that delivers (C83): every message arrives and is acknowledged. *)
From Verif Require Export SpecTransfer OpenProofs LossProofs NoPanicProofs StreamOrderProofs.
Require Import ZifyBool ZifyNat ZifyN.
Local Open Scope Z_scope.
Ltac Zify.zify_post_hook ::= Z.div_mod_to_equations.

(** ** Sending one packet *)
Lemma one_chunk (d : list byte) : (0 < length d <= 1380)%nat -> chunks 1380 d = [d].
Proof.
  intros H. unfold chunks. destruct (length d) as [|n] eqn:E; [lia|]. destruct d as [|b d]; [discriminate|]. cbn [chunks_fuel].
  rewrite firstn_all2, skipn_all2 by lia. destruct n; reflexivity.
Qed.
Definition data_packet (k : socket) (ts : Z) (d : list byte) : packet :=
  wire (mkHdr PData (s_sender_connection_id k) ts (u32 (s_their_delay k)) 0 (s_seq_nr k) (s_ack_nr k)) [] d.
Definition after_send (p : packet) (k : socket) : socket :=
  ss_send_window [p] (ss_curr_window (packet_len p) (ss_unsent_queue [] (ss_seq_nr (u16 (s_seq_nr k + 1)) k))).
Lemma ck_u32_small l v s : 0 <= v < 4294967296 -> ck_u32 l v s = (Ret v, s).
Proof.
  intros H. unfold ck_u32, arith. change (2 ^ 32) with 4294967296. replace ((0 <=? v) && (v <=? 4294967296 - 1)) with true by lia.
  cbn [negb]. rewrite andb_false_r. now rewrite u32_small by lia.
Qed.
Lemma transmit_eq p s : ~ ahead p (sk s) -> tx_ok s = true -> transmit p s = (Ret (restamped p s), tx_state (s_connected_to (sk s)) (restamped p s) (ticked s)).
Proof.
  intros HA HX. unfold transmit, bind at 1, get_sk at 1. unfold ahead in HA. replace (_ <? _) with false by lia.
  unfold bind at 1, now_microseconds. cbv zeta. fold (clock_now s). fold (ticked s). fold (restamped p s). unfold bind at 1. rewrite send_ok_eq by exact HX. reflexivity.
Qed.
Lemma send_one d s : (0 < length d <= 1380)%nat -> s_state (sk s) <> Closed -> s_unsent_queue (sk s) = [] -> s_send_window (sk s) = [] -> s_curr_window (sk s) = 0 ->
  0 <= s_seq_nr (sk s) < 65536 -> u16 (s_seq_nr (sk s) - s_last_acked (sk s)) <= u16 (s_last_acked (sk s) - s_seq_nr (sk s)) -> all_sent s ->
  exists s' p, send_to d s = (Ret (zlen d), s') /\ p = data_packet (sk s) (clock_now (ticked s)) d /\ sk s' = after_send p (sk s) /\
    w_sent (wd s') = w_sent (wd s) ++ [(s_connected_to (sk s), p)] /\ w_in (wd s') = w_in (wd s) /\ w_send (wd s') = w_send (wd s) /\ w_chk (wd s') = w_chk (wd s).
Proof.
  intros Hd HC HU HW H0 HQ HA HX. unfold send_to, bind at 1, get_sk at 1. destruct (sstate_eqb (s_state (sk s)) Closed) eqn:E; [now apply state_eqb_true in E|].
  unfold bind at 1, upd_sk at 1. change CHUNK with 1380%nat. rewrite one_chunk by exact Hd. cbn [fold_left]. unfold queue_chunk. rewrite HU, chunk_packet_wire. cbn [app].
  set (q := wire _ _ _). set (t := mkSt _ _). unfold send, bind at 1, bind at 1, get_sk at 1. change (s_unsent_queue (sk t)) with [q]. cbn [length].
  change (loop 2) with (fun (body : unit -> M (unit + unit)) x => r <- body x ;; match r with inl y => loop 1 body y | inr a => ret a end). cbv beta.
  unfold bind at 1, bind at 1, get_sk at 1. change (s_unsent_queue (sk t)) with [q]. unfold bind at 1, upd_sk at 1. set (t0 := mkSt _ _). unfold bind at 1. rewrite send_packet_split.
  unfold bind at 1. rewrite gate_open by (change (s_curr_window (sk (ticked t0))) with (s_curr_window (sk s)); rewrite H0; unfold limit; lia).
  assert (HQs : seq_nr q = s_seq_nr (sk s)) by (unfold q; rewrite seq_wire; cbn [h_seq]; apply u16_small; lia).
  rewrite transmit_eq. 2:{ unfold ahead. rewrite HQs. change (s_last_acked (sk (ticked t0))) with (s_last_acked (sk s)). lia. } 2:{ apply all_sent_ok. exact HX. }
  set (p := restamped q (ticked t0)). assert (Hp : p = data_packet (sk s) (clock_now (ticked s)) d) by (unfold p, restamped, q; rewrite set_ts_wire, set_tsd_wire; unfold data_packet; cbn [h_type h_cid h_ts h_tsd h_wnd h_seq h_ack]; reflexivity).
  assert (HL : packet_len p = 20 + zlen d) by (rewrite Hp; unfold packet_len, zlen, data_packet; rewrite wire_length; change (wire_exts []) with (@nil byte); cbn [length]; lia).
  set (t1 := tx_state _ p _). cbn [ret]. unfold bind at 1, get_sk at 1. change (s_curr_window (sk t1)) with (s_curr_window (sk s)). rewrite H0, Z.add_0_l.
  assert (HV : 0 <= packet_len p < 4294967296) by (rewrite HL; unfold zlen; lia). rewrite (u32_small (packet_len p)) by lia.
  unfold bind at 1. rewrite ck_u32_small by exact HV. unfold bind at 1, upd_sk at 1. cbn [ret]. cbn [loop]. unfold bind at 1, bind at 1, get_sk at 1.
  change (s_unsent_queue (sk (mkSt _ _))) with (@nil packet) at 1. cbn [ret].
  exists (mkSt (ss_send_window (s_send_window (sk t1) ++ [p]) (ss_curr_window (packet_len p) (sk t1))) (wd t1)), p. split; [reflexivity|]. split; [exact Hp|].
  assert (HX1 : tx_ok (ticked (ticked t0)) = true) by (apply all_sent_ok; exact HX).
  split; [|unfold t1, tx_state; rewrite HX1; repeat split].
  change (s_send_window (sk t1)) with (s_send_window (sk s)). rewrite HW. unfold after_send, t1, tx_state, t0, t. cbn [sk app ticked]. reflexivity.
Qed.

(** ** Receiving one packet *)
Definition state_reply (r : packet) (cid sq ak : Z) : Prop := exists ts tsd, r = wire (mkHdr PState cid ts tsd 1048576 sq ak) [] [].
Lemma recv_one n p d src s : w_in (wd s) = [RxDgram p src] -> s_state (sk s) = Connected -> s_pending_data (sk s) = [] -> s_incoming_buffer (sk s) = [] -> 0 < s_max_retries (sk s) -> all_sent s ->
  packet_try_from (firstn 1520 p) = Some (Ok p) -> get_type p = Some PData -> own_id (sk s) p -> payload p = Some d -> d <> [] -> (length d <= n)%nat ->
  (s_ack_nr (sk s) = (seq_nr p - 1) mod 65536 \/ s_ack_nr (sk s) = seq_nr p) -> s_last_dropped (sk s) <> seq_nr p -> ranges (sk s) ->
  exists s' r, recv_from n s = (Ret (d, src), s') /\ state_reply r (s_sender_connection_id (sk s)) (s_seq_nr (sk s)) (seq_nr p) /\
    w_sent (wd s') = w_sent (wd s) ++ [(src, r)] /\ w_in (wd s') = [] /\ w_send (wd s') = w_send (wd s) /\
    sk s' = ss_last_dropped (seq_nr p) (ss_ack_nr (seq_nr p) (ss_their_delay (abs_diff (clock_now s) (timestamp p)) (ss_remote_wnd_size (wnd_size p) (sk s)))).
Proof.
  intros EW ES EP EB HM HX HV HT HO HPl Hd Hn HA HL HR. rewrite (recv_from_first n s EP EB ES). rewrite (recv_first n p src [] s EW HM).
  change 1520%nat with (BUF_SIZE + HEADER_SIZE)%nat in HV. rewrite (process_packet _ _ _ _ p PData _ HV HT). unfold bind at 1.
  rewrite (handle_own _ p src PData (rx_state s) HT (or_introl HO)). pose proof (seq_nr_range p) as HQ.
  assert (EK : sk (noted p (rx_state s)) = ss_their_delay (abs_diff (clock_now s) (timestamp p)) (ss_remote_wnd_size (wnd_size p) (ss_ack_nr (seq_nr p) (sk s)))).
  { unfold noted. cbn [sk rx_state]. do 2 f_equal. unfold acked_sk. rewrite u16_eq. destruct HA as [HA|HA]; rewrite HA.
    - replace (_ =? 1) with true by lia. reflexivity.
    - replace (_ =? 1) with false by lia. rewrite <- HA. destruct (sk s); reflexivity. }
  remember (noted p (rx_state s)) as t eqn:Et. assert (Ewd : wd t = wd (ticked (rx_state s))) by (rewrite Et; reflexivity). clear Et.
  assert (K1 : s_ack_nr (sk t) = seq_nr p) by (rewrite EK; reflexivity). assert (K2 : s_state (sk t) = Connected) by (rewrite EK; exact ES).
  assert (K3 : s_incoming_buffer (sk t) = []) by (rewrite EK; exact EB). assert (K4 : s_pending_data (sk t) = []) by (rewrite EK; exact EP).
  unfold dispatch, bind at 1, get_sk at 1. rewrite K2. rewrite data_reply_full by (right; right; exact K3).
  assert (EBm : reply_bitmap p (sk t) = []) by (unfold reply_bitmap; rewrite K1, Z.sub_diag; reflexivity). rewrite EBm, K2, K1. cbn [sstate_eqb].
  unfold answer, bind at 1, bind at 1. rewrite set_wnd_wire. cbn [h_type h_cid h_ts h_tsd h_wnd h_seq h_ack].
  match goal with |- context [udp_send src ?q ?t] => set (r := q); set (t1 := t) end.
  assert (EX : tx_ok t1 = true) by (apply all_sent_ok; unfold all_sent, t1; cbn [ticked wd]; sproj; rewrite Ewd; exact HX).
  rewrite (send_ok_eq src r t1 EX). cbn [try_ ret]. unfold bind at 1, get_sk at 1. change (sk (tx_state src r t1)) with (sk t).
  assert (K5 : s_last_dropped (sk t) = s_last_dropped (sk s)) by (rewrite EK; reflexivity). rewrite K5.
  replace (ptype_eqb PData PData && (0 <? u16 (seq_nr p - s_last_dropped (sk s)))) with true by (rewrite u16_eq; destruct HR; cbn [ptype_eqb andb]; lia).
  unfold insert_into_buffer, bind at 1, upd_sk at 1. change (sk (tx_state src r t1)) with (sk t). rewrite K3. change (insert_packet p []) with [p]. unfold bind at 1.
  rewrite (flush_ready n _ p [] d) by (sproj; auto). rewrite firstn_all2, Nat.eqb_refl by lia. cbn [ret]. destruct d as [|b d]; [congruence|]. cbn [is_nil].
  eexists. exists r. split; [reflexivity|]. split.
  { exists (clock_now t), (u32 (abs_diff (clock_now t) (timestamp p))). unfold r. rewrite EK. reflexivity. }
  cbn [wd sk]. unfold tx_state. rewrite EX. cbn [wd]. sproj. change (wd t1) with (sw_tick (S (w_tick (wd t))) (wd t)). sproj. rewrite Ewd. unfold rx_state, ticked. sproj. rewrite EW.
  repeat (split; [reflexivity|]). unfold advance_socket. sproj. rewrite EK. destruct (sk s); cbn in *. subst. reflexivity.
Qed.

(** ** Acknowledging one packet *)
(** Two sockets that differ at most in the congestion-control state. *)
Definition tuned (k k' : socket) : Prop := exists b r c w rtt var cto,
  k' = ss_base_delays b (ss_last_rollover r (ss_current_delays c (ss_cwnd w (ss_rtt rtt (ss_rtt_variance var (ss_congestion_timeout cto k)))))).
Lemma tuned_by k k' : s_base_delays k' = s_base_delays k' -> k' = ss_base_delays (s_base_delays k') (ss_last_rollover (s_last_rollover k') (ss_current_delays (s_current_delays k') (ss_cwnd (s_cwnd k')
  (ss_rtt (s_rtt k') (ss_rtt_variance (s_rtt_variance k') (ss_congestion_timeout (s_congestion_timeout k') k)))))) -> tuned k k'.
Proof. intros _ ->. repeat eexists. Qed.
Ltac tuned := apply tuned_by; [reflexivity|]; match goal with |- _ = ss_base_delays _ (ss_last_rollover _ (ss_current_delays _ (ss_cwnd _ (ss_rtt _ (ss_rtt_variance _ (ss_congestion_timeout _ ?k)))))) => destruct k; reflexivity end.
Lemma tuned_refl k : tuned k k. Proof. tuned. Qed.
Lemma tuned_trans a b c : tuned a b -> tuned b c -> tuned a c.
Proof. intros (x1 & x2 & x3 & x4 & x5 & x6 & x7 & ->) (y1 & y2 & y3 & y4 & y5 & y6 & y7 & ->). tuned. Qed.
Lemma tuned_base d t k : tuned k (base_delay_socket d t k).
Proof. unfold base_delay_socket. destruct (_ || _); cbv zeta; [tuned|]. destruct (_ <? _); tuned. Qed.
Lemma tuned_current d t k : tuned k (current_delay_socket d t k). Proof. unfold current_delay_socket. tuned. Qed.
Lemma rto_runs d s : estimates_ok (sk s) -> exists s', update_congestion_timeout (i32 (u32 d / 1000)) s = (Ret tt, s') /\ wd s' = wd s /\ tuned (sk s) (sk s').
Proof.
  intros ((Hr & Hv) & _). pose proof (u32_range d) as HD. assert (HX : 0 <= i32 (u32 d / 1000) <= 4294967) by (rewrite i32_range_small; lia). revert HX. generalize (i32 (u32 d / 1000)). clear d HD. intros d HD.
  assert (HW : wp (update_congestion_timeout d) (fun o s' => o = Ret tt /\ wd s' = wd s /\ tuned (sk s) (sk s')) s).
  { unfold update_congestion_timeout. do 2 wstep. set (k := sk s) in *.
    assert (H1 : 0 <= s_rtt_variance k + Z.quot (Z.abs (s_rtt k - d) - s_rtt_variance k) 4 <= 4294967) by (Z.to_euclidean_division_equations; lia).
    assert (H2 : 0 <= s_rtt k + Z.quot (d - s_rtt k) 8 <= 4294967) by (Z.to_euclidean_division_equations; lia).
    assert (HA : forall l v (Q : outcome Z -> st -> Prop) t, -2147483648 <= v < 2147483648 -> Q (Ret v) t -> wp (ck_i32 l v) Q t).
    { clear. intros l v Q t Hv H. unfold ck_i32. apply wp_arith; [intros _ [|]; lia|]. intros _. cbv beta. now rewrite i32_range_small. }
    apply wp_bind, HA; [lia|]. apply wp_bind, HA; [lia|]. apply wp_bind, HA; [lia|]. apply wp_bind, HA; [lia|]. cbv beta iota. do 2 wstep.
    apply wp_bind, HA; [lia|]. apply wp_bind, HA; [lia|]. cbv beta iota. do 2 wstep. apply wp_bind, HA; [lia|]. apply wp_bind, HA; [lia|]. cbv beta iota. wstep.
    split; [reflexivity|]. split; [reflexivity|]. sproj. unfold k. tuned. }
  unfold wp in HW. destruct (update_congestion_timeout d s) as [o s']. cbn [fst snd] in HW. destruct HW as (-> & H1 & H2). eauto.
Qed.
Lemma process_ack_runs i p s : ok s -> nth_error (s_send_window (sk s)) i = Some p -> 0 <= s_curr_window (sk s) < 4294960000 ->
  exists s', process_ack i s = (Ret tt, s') /\ wd s' = wd (ticked s) /\ tuned (sk s) (sk s').
Proof.
  intros HR HN HC. unfold process_ack, bind at 1, get_sk at 1. cbv zeta. rewrite HN. unfold bind at 1, now_microseconds. fold (clock_now s). fold (ticked s). cbn [unwrap]. unfold bind at 1, ret at 1.
  set (d := ts_sub (clock_now s) (timestamp p)).
  assert (Hd : in_u32 d). { unfold d, ts_sub, in_u32, clock_now. pose proof (micros_range (w_clock (wd s) (w_tick (wd s)))) as HM. change (2 ^ 32) with 4294967296 in HM. pose proof (timestamp_range p). lia. }
  clearbody d. unfold update_base_delay, update_current_delay. unfold bind at 1, upd_sk at 1. unfold bind at 1, upd_sk at 1.
  set (s1 := mkSt _ _). assert (HR1 : ok s1) by (apply readable_current; [exact Hd|]; apply readable_base; [exact Hd|exact HR]).
  assert (T1 : tuned (sk s) (sk s1)) by (unfold s1; cbn [sk]; eapply tuned_trans; [apply tuned_base|apply tuned_current]).
  assert (W1 : wd s1 = wd (ticked s)) by reflexivity. clearbody s1. unfold bind at 1. rewrite (proj1 (queuing_value s1 HR1)).
  unfold bind at 1, update_congestion_window, bind at 1, get_sk at 1. unfold bind at 1, upd_sk at 1. unfold bind at 1.
  assert (EC : s_curr_window (sk s1) = s_curr_window (sk s)) by (destruct T1 as (? & ? & ? & ? & ? & ? & ? & ->); reflexivity).
  rewrite ck_u32_small by (rewrite EC; unfold ALLOWED_INCREASE, MSS; lia). unfold upd_sk at 1. cbn [sk wd]. set (s2 := mkSt _ _).
  assert (HR2 : ok s2) by exact HR1. assert (T2 : tuned (sk s) (sk s2)) by (eapply tuned_trans; [exact T1|unfold s2; cbn [sk]; tuned]). assert (W2 : wd s2 = wd s1) by reflexivity. clearbody s2.
  unfold bind at 1. destruct (queuing_value s2 HR2) as [EQ HQ]. rewrite EQ. unfold bind at 1. rewrite ck_i64_small by (unfold in_u32 in Hd; lia).
  destruct (rto_runs (d - (filtered_current_delay (sk s2) - min_base_delay (sk s2))) s2 (proj1 (proj2 HR2))) as (s3 & E3 & W3 & T3). rewrite E3.
  exists s3. split; [reflexivity|]. split; [congruence|]. eapply tuned_trans; eassumption.
Qed.
(** The socket after the acknowledgement [r] of its only packet in flight. *)
Definition released (r : packet) (k k' : socket) : Prop := exists k1 dl wn ts, tuned (ss_duplicate_ack_count 1 (ss_last_acked_timestamp ts (ss_last_acked (ack_nr r) (ss_their_delay dl (ss_remote_wnd_size wn (acked_sk r k)))))) k1 /\
  k' = ss_curr_window 0 (ss_send_window [] k1).
Lemma note_fresh a s : a <> s_last_acked (sk s) ->
  note_ack a s = (Ret tt, mkSt (ss_duplicate_ack_count 1 (ss_last_acked_timestamp (clock_now s) (ss_last_acked a (sk s)))) (wd (ticked s))).
Proof. intros H. unfold note_ack, bind, get_sk. replace (a =? s_last_acked (sk s)) with false by lia. reflexivity. Qed.
Lemma advance_one p s : s_send_window (sk s) = [p] -> seq_nr p = s_last_acked (sk s) -> s_curr_window (sk s) = packet_len p -> packet_len p < 65536 ->
  advance_send_window s = (Ret tt, mkSt (ss_curr_window 0 (ss_send_window [] (sk s))) (wd s)).
Proof.
  intros EW EQ EC HL. unfold advance_send_window, bind at 1, get_sk at 1. rewrite EW. unfold position. rewrite EQ, Z.eqb_refl. cbn [Nat.add]. cbn [drop_acked]. unfold bind at 1, get_sk at 1. rewrite EW, EC.
  unfold bind at 1, upd_sk at 1. unfold bind at 1. rewrite (u32_small (packet_len p)) by (unfold packet_len, zlen in *; lia). rewrite Z.sub_diag, ck_u32_small by lia. reflexivity.
Qed.
Lemma state_runs rec r p t : extensions r = Some [] -> ok t -> s_send_window (sk t) = [p] -> s_curr_window (sk t) = packet_len p -> packet_len p < 65536 -> seq_nr p = ack_nr r -> s_last_acked (sk t) <> ack_nr r ->
  exists s' k1, handle_state_packet rec r t = (Ret tt, s') /\ wd s' = wd (ticked (ticked t)) /\
    tuned (ss_duplicate_ack_count 1 (ss_last_acked_timestamp (clock_now t) (ss_last_acked (ack_nr r) (sk t)))) k1 /\ sk s' = ss_curr_window 0 (ss_send_window [] k1) /\
    500 <= s_congestion_timeout k1 <= 60000.
Proof.
  intros HE HK EW EC HL EQ HA. unfold handle_state_packet, bind at 1. rewrite note_fresh by congruence.
  remember (mkSt (ss_duplicate_ack_count 1 (ss_last_acked_timestamp (clock_now t) (ss_last_acked (ack_nr r) (sk t)))) (wd (ticked t))) as t1 eqn:E1.
  assert (HK1 : ok t1) by (rewrite E1; exact HK). assert (W1 : wd (ticked t1) = wd (ticked (ticked t))) by (rewrite E1; reflexivity).
  assert (S1 : sk t1 = ss_duplicate_ack_count 1 (ss_last_acked_timestamp (clock_now t) (ss_last_acked (ack_nr r) (sk t)))) by (rewrite E1; reflexivity). clear E1. rewrite <- S1, <- W1.
  assert (Q1 : s_send_window (sk t1) = [p]) by (rewrite S1; exact EW). assert (Q2 : s_curr_window (sk t1) = packet_len p) by (rewrite S1; exact EC).
  assert (Q7 : s_duplicate_ack_count (sk t1) = 1) by (rewrite S1; reflexivity). assert (Q8 : s_last_acked (sk t1) = ack_nr r) by (rewrite S1; reflexivity). clear S1 W1 HK EW EC HA.
  assert (EPos : forall f : packet -> bool, f p = true -> position f [p] = Some O) by (intros f Hf; unfold position; now rewrite Hf).
  unfold bind at 1, get_sk at 1. rewrite Q1. rewrite EPos by (rewrite EQ; apply Z.eqb_refl). unfold bind at 1.
  destruct (process_ack_runs 0 p t1 HK1 ltac:(rewrite Q1; reflexivity) ltac:(rewrite Q2; unfold packet_len, zlen in *; lia)) as (t2 & E2 & W2 & T2).
  destruct (process_ack_cwnd _ _ _ E2) as (_ & _ & _ & HT2). specialize (HT2 (proj1 (proj1 (proj1 (proj2 HK1)))) (proj2 (proj1 (proj1 (proj2 HK1))))). rewrite E2.
  assert (Q3 : s_send_window (sk t2) = [p] /\ s_curr_window (sk t2) = packet_len p /\ s_duplicate_ack_count (sk t2) = 1 /\ s_last_acked (sk t2) = ack_nr r).
  { destruct T2 as (? & ? & ? & ? & ? & ? & ? & ->). sproj. auto. }
  destruct Q3 as (Q3 & Q4 & Q5 & Q6). unfold bind at 1, get_sk at 1. rewrite Q3, Q5, HE. cbv zeta. cbn [is_nil negb andb Z.eqb Pos.eqb unwrap]. unfold bind at 1, ret at 1. cbn [process_extensions]. unfold bind at 1, ret at 1.
  unfold finish_state_packet, bind at 1, get_sk at 1. rewrite Q3, Q5. cbn [is_nil negb andb Z.eqb Pos.eqb]. unfold bind at 1, ret at 1. unfold bind at 1, ret at 1.
  rewrite (advance_one p t2) by congruence. eexists. exists (sk t2). split; [reflexivity|]. cbn [sk wd]. split; [exact W2|]. split; [exact T2|]. split; [reflexivity|apply HT2].
Qed.
Lemma state_one rec r src p s : get_type r = Some PState -> own_id (sk s) r -> extensions r = Some [] -> s_state (sk s) = Connected -> ok s ->
  s_send_window (sk s) = [p] -> s_curr_window (sk s) = packet_len p -> packet_len p < 65536 -> seq_nr p = ack_nr r -> s_last_acked (sk s) <> ack_nr r ->
  exists s', handle_packet rec r src s = (Ret None, s') /\ released r (sk s) (sk s') /\ wd s' = wd (ticked (ticked (ticked s))) /\ 500 <= s_congestion_timeout (sk s') <= 60000.
Proof.
  intros HT HO HE ES HK EW EC HL EQ HA. rewrite (handle_own rec r src PState s HT (or_introl HO)).
  remember (noted r s) as t eqn:E. assert (Et : sk t = ss_their_delay (abs_diff (clock_now s) (timestamp r)) (ss_remote_wnd_size (wnd_size r) (acked_sk r (sk s)))) by (rewrite E; reflexivity).
  assert (Ew : wd (ticked (ticked t)) = wd (ticked (ticked (ticked s)))) by (rewrite E; reflexivity).
  assert (HKt : ok t). { rewrite E. unfold noted. cbn [sk wd]. unfold acked_sk. destruct (_ =? 1); exact HK. }
  clear E. assert (K1 : s_state (sk t) = Connected /\ s_send_window (sk t) = [p] /\ s_curr_window (sk t) = packet_len p /\ s_last_acked (sk t) = s_last_acked (sk s)).
  { rewrite Et. sproj. rewrite (acked_other s_state), (acked_other s_send_window), (acked_other s_curr_window), (acked_other s_last_acked) by reflexivity. auto. }
  destruct K1 as (K1 & K2 & K3 & K4). destruct (state_runs rec r p t HE HKt K2 K3 HL EQ ltac:(congruence)) as (s' & k1 & E1 & W1 & T1 & S1 & C1).
  unfold dispatch, bind at 1, get_sk at 1. rewrite K1. unfold bind at 1. rewrite E1. exists s'. split; [reflexivity|]. split; [|split; [congruence|rewrite S1; exact C1]].
  exists k1, (abs_diff (clock_now s) (timestamp r)), (wnd_size r), (clock_now t). rewrite <- Et. split; assumption.
Qed.
Lemma flush_one r src p s : w_in (wd s) = [RxDgram r src] -> packet_try_from (firstn 1520 r) = Some (Ok r) -> get_type r = Some PState -> own_id (sk s) r -> extensions r = Some [] ->
  s_state (sk s) = Connected -> s_pending_data (sk s) = [] -> s_incoming_buffer (sk s) = [] -> 0 < s_max_retries (sk s) -> ok s ->
  s_send_window (sk s) = [p] -> s_curr_window (sk s) = packet_len p -> packet_len p < 65536 -> seq_nr p = ack_nr r -> s_last_acked (sk s) <> ack_nr r ->
  exists s', flush s = (Ret tt, s') /\ released r (sk s) (sk s') /\ w_in (wd s') = [] /\ w_send (wd s') = w_send (wd s) /\ w_sent (wd s') = w_sent (wd s).
Proof.
  intros EI HV HT HO HE ES EP EB HM HK EW EC HL EQ HA.
  destruct (state_one (recv_fuel (length (w_in (wd s)))) r src p (rx_state s) HT HO HE ES HK EW EC HL EQ HA) as (s1 & E1 & HR & W1 & _).
  assert (HB : flush_incoming_buffer 1500 s1 = (Ret [], s1)).
  { destruct HR as (k1 & dl & wn & ts & T & EK). assert (s_pending_data (sk s1) = [] /\ s_incoming_buffer (sk s1) = []).
    { rewrite EK. sproj. destruct T as (? & ? & ? & ? & ? & ? & ? & ->). sproj. rewrite (acked_other s_pending_data), (acked_other s_incoming_buffer) by reflexivity. auto. }
    unfold flush_incoming_buffer, bind at 1, get_sk at 1. destruct H as [-> ->]. reflexivity. }
  assert (WI : w_in (wd s1) = []) by (rewrite W1; unfold rx_state, ticked; sproj; rewrite EI; reflexivity).
  rewrite (flush_first r src [] ([], src) s s1 EI HM ltac:(rewrite EW; discriminate)); [|change (BUF_SIZE + HEADER_SIZE)%nat with 1520%nat|exact WI].
  - exists s1. split; [|split; [exact HR|split; [exact WI|rewrite W1; split; reflexivity]]].
    rewrite flush_eq, WI. cbn [length loop]. unfold bind at 1, flush_body, bind at 1, get_sk at 1. destruct HR as (k1 & dl & wn & ts & T & ->). reflexivity.
  - rewrite (process_packet _ _ _ _ r PState _ HV HT). unfold bind at 1. rewrite E1. unfold answer. unfold bind at 1, ret at 1. unfold bind at 1, get_sk at 1. cbn [ptype_eqb andb]. unfold bind at 1, ret at 1.
    unfold bind at 1. change BUF_SIZE with 1500%nat. rewrite HB. reflexivity.
Qed.

(** ** One message, and any number of them *)
Lemma run_send_to d s v s' : send_to d s = (Ret v, s') -> run_op (OSendTo d) s = (Ret (VLen v), s').
Proof. intros E. cbn [run_op]. unfold bind. now rewrite E. Qed.
Lemma run_recv n s d src s' : recv_from n s = (Ret (d, src), s') -> run_op (ORecvFrom n) s = (Ret (VData d src), s').
Proof. intros E. cbn [run_op]. unfold bind. now rewrite E. Qed.
Lemma run_flush s s' : flush s = (Ret tt, s') -> run_op OFlush s = (Ret VUnit, s').
Proof. intros E. cbn [run_op]. unfold bind. now rewrite E. Qed.
Lemma op_reachable o s v s' : reachable s -> run_op o s = (Ret v, s') -> reachable s'.
Proof. intros HR E. eapply rc_op; [exact HR|exact E|]. intros l. discriminate. Qed.
Lemma arrive_reachable a ps s : reachable s -> reachable (arrive a ps s). Proof. intros H. now apply rc_input. Qed.
Lemma exchange_runs ax ay d n x y : (0 < length d <= 1380)%nat -> (length d <= n)%nat -> joined ax ay x y -> listens x y ->
  exists x' y', exchange ax ay d n x y x' y' /\ joined ax ay x' y' /\ listens x' y' /\ (listens y x -> listens y' x').
Proof.
  intros Hd Hn (HX & HY & AX & AY & I1 & I2) (HA & HD & HL). destruct HX as (RX & SX & PX & BX & WX & UX & MX & IX & TX). destruct HY as (RY & SY & PY & BY & WY & UY & MY & IY & TY).
  pose proof (reachable_ranges x RX) as NX. pose proof (reachable_ranges y RY) as NY.
  assert (CX : s_curr_window (sk x) = 0) by (pose proof (reachable_inflight x RX) as H; unfold inflight in H; rewrite WX in H; exact H).
  pose proof (r_seq _ NX) as QX. pose proof (r_seq _ NY) as QY. pose proof (r_lacked _ NX) as LX. pose proof (r_scid _ NX) as DX. pose proof (r_scid _ NY) as DY. pose proof (r_ack _ NX) as KX. pose proof (r_ack _ NY) as KY.
  destruct (send_one d x Hd ltac:(rewrite SX; discriminate) UX WX CX QX ltac:(rewrite !u16_eq; lia) TX) as (x1 & p & E1 & Ep & K1 & L1 & J1 & T1 & _).
  rewrite AX in L1. pose proof (run_send_to _ _ _ _ E1) as O1. pose proof (op_reachable _ _ _ _ RX O1) as RX1.
  assert (Plen : length p = (20 + length d)%nat) by (rewrite Ep; unfold data_packet; rewrite wire_length; reflexivity).
  assert (Pval : packet_try_from (firstn 1520 p) = Some (Ok p)) by (rewrite firstn_all2 by lia; rewrite Ep; apply wire_valid; constructor).
  assert (Pty : get_type p = Some PData) by (rewrite Ep; unfold data_packet; rewrite get_type_wire; reflexivity).
  assert (Pseq : seq_nr p = s_seq_nr (sk x)) by (rewrite Ep; unfold data_packet; rewrite seq_wire; cbn [h_seq]; apply u16_small; lia).
  assert (Pcid : connection_id p = s_receiver_connection_id (sk y)) by (rewrite Ep; unfold data_packet; rewrite cid_wire; cbn [h_cid]; rewrite u16_small by lia; exact I1).
  assert (Ppl : payload p = Some d) by (rewrite Ep; unfold data_packet; apply payload_wire; constructor). clear Ep.
  set (ya := arrive ax [p] y). assert (RYa : reachable ya) by now apply arrive_reachable.
  destruct (recv_one n p d ax ya) as (y' & r & E2 & (ts & tsd & Er) & L2 & J2 & T2 & K2); [unfold ya, arrive; cbn [wd]; sproj; rewrite IY; reflexivity|exact SY|exact PY|exact BY|exact MY|exact TY|exact Pval|exact Pty
    |right; exact Pcid|exact Ppl|destruct d; [cbn in Hd; lia|discriminate]|exact Hn|rewrite Pseq; exact HA|rewrite Pseq; exact HD|exact NY|].
  pose proof (run_recv _ _ _ _ _ E2) as O2. pose proof (op_reachable _ _ _ _ RYa O2) as RY'.
  change (sk ya) with (sk y) in *. change (w_sent (wd ya)) with (w_sent (wd y)) in L2. change (w_send (wd ya)) with (w_send (wd y)) in T2.
  assert (Rlen : length r = 20%nat) by (rewrite Er, wire_length; reflexivity).
  assert (Rval : packet_try_from (firstn 1520 r) = Some (Ok r)) by (rewrite firstn_all2 by lia; rewrite Er; apply wire_valid; constructor).
  assert (Rty : get_type r = Some PState) by (rewrite Er, get_type_wire; reflexivity).
  assert (Rcid : connection_id r = s_receiver_connection_id (sk x)) by (rewrite Er, cid_wire; cbn [h_cid]; rewrite u16_small by lia; exact I2).
  assert (Rseq : seq_nr r = s_seq_nr (sk y)) by (rewrite Er, seq_wire; cbn [h_seq]; apply u16_small; lia).
  assert (Rack : ack_nr r = s_seq_nr (sk x)) by (rewrite Er, ack_wire; cbn [h_ack]; rewrite Pseq; apply u16_small; lia).
  assert (Rext : extensions r = Some []) by (rewrite Er, extensions_wire by constructor; reflexivity). clear Er.
  set (xa := arrive ay [r] x1). assert (RXa : reachable xa) by now apply arrive_reachable.
  destruct (flush_one r ay p xa) as (x' & E3 & (k1 & dl & wn & tt1 & T3 & K3) & J3 & W3 & L3);
    [unfold xa, arrive; cbn [wd]; sproj; rewrite J1, IX; reflexivity|exact Rval|exact Rty|right; change (sk xa) with (sk x1); rewrite K1; exact Rcid|exact Rext
    |change (sk xa) with (sk x1); rewrite K1; assumption|change (sk xa) with (sk x1); rewrite K1; assumption|change (sk xa) with (sk x1); rewrite K1; assumption|change (sk xa) with (sk x1); rewrite K1; assumption|apply reachable_ok; exact RXa|change (sk xa) with (sk x1); rewrite K1; reflexivity|change (sk xa) with (sk x1); rewrite K1; reflexivity|unfold packet_len, zlen; lia|congruence|change (sk xa) with (sk x1); rewrite K1; unfold after_send; sproj; rewrite Rack; intros E; rewrite E in HL; lia|].
  pose proof (run_flush _ _ E3) as O3. pose proof (op_reachable _ _ _ _ RXa O3) as RX'.
  change (sk xa) with (sk x1) in *. change (w_sent (wd xa)) with (w_sent (wd x1)) in L3. change (w_send (wd xa)) with (w_send (wd x1)) in W3. rewrite K1 in T3.
  assert (KX' : s_state (sk x') = Connected /\ s_pending_data (sk x') = [] /\ s_incoming_buffer (sk x') = [] /\ s_send_window (sk x') = [] /\ s_unsent_queue (sk x') = [] /\ s_max_retries (sk x') = s_max_retries (sk x) /\
    s_connected_to (sk x') = ay /\ s_sender_connection_id (sk x') = s_sender_connection_id (sk x) /\ s_receiver_connection_id (sk x') = s_receiver_connection_id (sk x) /\
    s_seq_nr (sk x') = u16 (s_seq_nr (sk x) + 1) /\ s_last_acked (sk x') = s_seq_nr (sk x) /\ s_last_dropped (sk x') = s_last_dropped (sk x) /\
    s_ack_nr (sk x') = (if u16 (s_seq_nr (sk y) - s_ack_nr (sk x)) =? 1 then s_seq_nr (sk y) else s_ack_nr (sk x))).
  { rewrite K3. destruct T3 as (? & ? & ? & ? & ? & ? & ? & ->). sproj.
    rewrite (acked_other s_state), (acked_other s_pending_data), (acked_other s_incoming_buffer), (acked_other s_unsent_queue), (acked_other s_max_retries), (acked_other s_connected_to), (acked_other s_sender_connection_id),
      (acked_other s_receiver_connection_id), (acked_other s_seq_nr), (acked_other s_last_dropped) by reflexivity. unfold after_send. sproj. rewrite Rack.
    repeat (split; [assumption || reflexivity|]). unfold acked_sk. sproj. rewrite Rseq. destruct (_ =? 1); reflexivity. }
  clear T3 K3. destruct KX' as (X1 & X2 & X3 & X4 & X5 & X6 & X7 & X8 & X9 & X10 & X11 & X12 & X13).
  assert (KY' : s_state (sk y') = Connected /\ s_pending_data (sk y') = [] /\ s_incoming_buffer (sk y') = [] /\ s_send_window (sk y') = [] /\ s_unsent_queue (sk y') = [] /\ s_max_retries (sk y') = s_max_retries (sk y) /\
    s_connected_to (sk y') = ax /\ s_sender_connection_id (sk y') = s_sender_connection_id (sk y) /\ s_receiver_connection_id (sk y') = s_receiver_connection_id (sk y) /\
    s_seq_nr (sk y') = s_seq_nr (sk y) /\ s_last_acked (sk y') = s_last_acked (sk y) /\ s_last_dropped (sk y') = s_seq_nr (sk x) /\ s_ack_nr (sk y') = s_seq_nr (sk x)).
  { rewrite K2. sproj. rewrite Pseq. repeat (split; [assumption || reflexivity|]). reflexivity. }
  clear K2. destruct KY' as (Y1 & Y2 & Y3 & Y4 & Y5 & Y6 & Y7 & Y8 & Y9 & Y10 & Y11 & Y12 & Y13).
  exists x', y'. split; [|split; [|split]].
  - exists x1, [p], [r]. split; [exact O1|]. split; [exact L1|]. split; [exact O2|]. split; [exact L2|]. split; [exact O3|exact X4].
  - split; [|split].
    + split; [exact RX'|]. repeat (split; [assumption|]). split; [rewrite X6; exact MX|]. split; [exact J3|]. intros i. rewrite W3, T1. apply TX.
    + split; [exact RY'|]. repeat (split; [assumption|]). split; [rewrite Y6; exact MY|]. split; [exact J2|]. intros i. rewrite T2. apply TY.
    + split; [exact X7|]. split; [exact Y7|]. rewrite X8, X9, Y8, Y9. auto.
  - unfold listens. rewrite Y13, Y12, X10, X11, u16_eq. split; [left; lia|]. split; lia.
  - intros (A1 & A2 & A3). unfold listens. rewrite X13, X12, Y10, Y11. split; [|split; assumption]. rewrite u16_eq. destruct A1 as [A1|A1]; rewrite A1.
    + replace (_ =? 1) with true by lia. now right.
    + replace (_ =? 1) with false by lia. now right.
Qed.
Lemma joined_sym ax ay x y : joined ax ay x y -> joined ay ax y x.
Proof. intros (H1 & H2 & H3 & H4 & H5 & H6). repeat (split; [assumption|]). assumption. Qed.
Lemma talk_runs ax ay ms : forall x y, Forall one_packet ms -> joined ax ay x y -> listens x y -> (listens y x \/ Forall (fun m => fst (fst m) = true) ms) ->
  exists x' y', talk ax ay ms x y x' y' /\ joined ax ay x' y' /\ listens x' y'.
Proof.
  induction ms as [|[[b d] n] ms IH]; intros x y HF HJ HL HB; [exists x, y; split; [constructor|auto]|].
  inversion HF as [|? ? (F1 & F2) F3]; subst. cbn [fst snd] in F1, F2. destruct b.
  - destruct (exchange_runs ax ay d n x y F1 F2 HJ HL) as (x1 & y1 & E & HJ1 & HL1 & HB1).
    destruct (IH x1 y1 F3 HJ1 HL1) as (x2 & y2 & T & HJ2 & HL2); [destruct HB as [HB|HB]; [left; auto|right; now inversion HB]|].
    exists x2, y2. split; [eapply talk_there; eassumption|auto].
  - destruct HB as [HB|HB]; [|inversion HB; discriminate].
    destruct (exchange_runs ay ax d n y x F1 F2 (joined_sym _ _ _ _ HJ) HB) as (y1 & x1 & E & HJ1 & HL1 & HB1). apply joined_sym in HJ1.
    destruct (IH x1 y1 F3 HJ1 (HB1 HL)) as (x2 & y2 & T & HJ2 & HL2); [left; exact HL1|].
    exists x2, y2. split; [eapply talk_back; eassumption|auto].
Qed.

(** ** The handshake *)
Definition syn_of (s0 : st) : packet := wire (mkHdr PSyn (Z.min (next_random s0) 65534) (clock_now s0) 0 0 1 0) [] [].
Lemma ids_eq r : 0 <= r < 65536 -> fst (sequential_identifiers r) = Z.min r 65534 /\ snd (sequential_identifiers r) = Z.min r 65534 + 1.
Proof. intros H. unfold sequential_identifiers. change (2 ^ 16) with 65536. destruct (r + 1 <? 65536) eqn:EB; cbn [fst snd]; lia. Qed.
Lemma next_random_range s : 0 <= next_random s < 65536. Proof. unfold next_random. apply Z.mod_pos_bound. lia. Qed.
Lemma synsent_send rec p src s : get_type p = Some PState -> s_state (sk s) = SynSent -> s_seq_nr (sk s) = 1 -> w_send (wd (snd (handle_packet rec p src s))) = w_send (wd s).
Proof.
  intros HT HS HQ. rewrite (handle_own rec p src PState s HT) by auto.
  assert (EN : s_state (sk (noted p s)) = SynSent) by (unfold noted; sproj; rewrite (acked_other s_state) by reflexivity; exact HS).
  assert (EQ : s_seq_nr (sk (noted p s)) = 1) by (unfold noted; sproj; rewrite (acked_other s_seq_nr) by reflexivity; exact HQ).
  unfold dispatch, bind at 1, get_sk at 1. rewrite EN. unfold bind at 1, upd_sk at 1. unfold bind at 1. rewrite EQ. unfold ck_u16. rewrite arith_fits by (try reflexivity; lia). reflexivity.
Qed.
Definition syn_at (cid sq : Z) (a : addr) (s : st) (i : nat) : addr * packet := (a, wire (mkHdr PSyn cid (micros_of_clock (w_clock (wd s) (w_tick (wd s) + i)%nat)) 0 0 sq 0) [] []).
Lemma syn_loop_stamps cid sq ks d src rest : forall ts tries s, (length ks < tries)%nat -> w_in (wd s) = map RxErr ks ++ RxDgram d src :: rest ->
  Forall (fun k => is_timeout k = true) ks -> all_sent s ->
  w_sent (wd (snd (syn_loop tries (wire (mkHdr PSyn cid ts 0 0 sq 0) [] []) s))) = w_sent (wd s) ++ map (syn_at cid sq (s_connected_to (sk s)) s) (seq 0 (S (length ks))).
Proof.
  induction ks as [|k ks IH]; intros ts tries s HN HI HF HA; destruct tries as [|tries]; try (cbn in HN; lia); cbn [syn_loop].
  - unfold bind at 1, now_microseconds. cbv zeta. unfold bind at 1, get_sk at 1. unfold bind at 1. rewrite set_ts_wire. cbn [h_type h_cid h_tsd h_wnd h_seq h_ack].
    fold (ticked s). rewrite send_ok_eq by (apply all_sent_ok; exact HA). cbn [try_]. unfold bind at 1, ret at 1. unfold bind at 1, upd_sk at 1. unfold bind at 1, udp_recv.
    assert (HA' : all_sent (ticked s)) by exact HA. unfold tx_state. rewrite (all_sent_ok _ HA'). unfold ticked. sproj. rewrite HI. cbn [map app length seq].
    unfold bind, upd_sk, ret. cbn [snd]. sproj. unfold syn_at. rewrite Nat.add_0_r. reflexivity.
  - inversion HF as [|? ? HK HF']; subst. unfold bind at 1, now_microseconds. cbv zeta. unfold bind at 1, get_sk at 1. unfold bind at 1. rewrite set_ts_wire. cbn [h_type h_cid h_tsd h_wnd h_seq h_ack].
    fold (ticked s). rewrite send_ok_eq by (apply all_sent_ok; exact HA). cbn [try_]. unfold bind at 1, ret at 1. unfold bind at 1, upd_sk at 1. unfold bind at 1, udp_recv.
    assert (HA' : all_sent (ticked s)) by exact HA. unfold tx_state. rewrite (all_sent_ok _ HA'). unfold ticked. sproj. rewrite HI. cbn [map app]. rewrite HK.
    match goal with |- context [syn_loop tries (wire (mkHdr PSyn cid ?ts' 0 0 sq 0) [] []) ?t] => rewrite (IH ts' tries t) end; auto; [|cbn in HN; lia].
    cbn [length]. rewrite <- (cons_seq (S (length ks)) 0). rewrite <- (seq_shift (S (length ks)) 0), map_cons, map_map. sproj. rewrite <- app_assoc. cbn [app].
    unfold syn_at at 2. rewrite Nat.add_0_r. do 2 f_equal. apply map_ext. intros i. unfold syn_at. sproj. now rewrite Nat.add_succ_r.
Qed.
Lemma syn_loop_waits cid sq ks : forall ts tries s, (length ks < tries)%nat -> w_in (wd s) = map RxErr ks -> Forall (fun k => is_timeout k = true) ks -> all_sent s ->
  exists s', syn_loop tries (wire (mkHdr PSyn cid ts 0 0 sq 0) [] []) s = (Fail Pend, s') /\
    w_sent (wd s') = w_sent (wd s) ++ map (syn_at cid sq (s_connected_to (sk s)) s) (seq 0 (S (length ks))).
Proof.
  induction ks as [|k ks IH]; intros ts tries s HN HI HF HA; destruct tries as [|tries]; try (cbn in HN; lia); cbn [syn_loop].
  - unfold bind at 1, now_microseconds. cbv zeta. unfold bind at 1, get_sk at 1. unfold bind at 1. rewrite set_ts_wire. cbn [h_type h_cid h_tsd h_wnd h_seq h_ack].
    fold (ticked s). rewrite send_ok_eq by (apply all_sent_ok; exact HA). cbn [try_]. unfold bind at 1, ret at 1. unfold bind at 1, upd_sk at 1. unfold bind at 1, udp_recv.
    assert (HA' : all_sent (ticked s)) by exact HA. unfold tx_state. rewrite (all_sent_ok _ HA'). unfold ticked. sproj. rewrite HI. cbn [map app length seq].
    eexists. split; [reflexivity|]. sproj. unfold syn_at. rewrite Nat.add_0_r. reflexivity.
  - inversion HF as [|? ? HK HF']; subst. unfold bind at 1, now_microseconds. cbv zeta. unfold bind at 1, get_sk at 1. unfold bind at 1. rewrite set_ts_wire. cbn [h_type h_cid h_tsd h_wnd h_seq h_ack].
    fold (ticked s). rewrite send_ok_eq by (apply all_sent_ok; exact HA). cbn [try_]. unfold bind at 1, ret at 1. unfold bind at 1, upd_sk at 1. unfold bind at 1, udp_recv.
    assert (HA' : all_sent (ticked s)) by exact HA. unfold tx_state. rewrite (all_sent_ok _ HA'). unfold ticked. sproj. rewrite HI. cbn [map app]. rewrite HK.
    match goal with |- context [syn_loop tries (wire (mkHdr PSyn cid ?ts' 0 0 sq 0) [] []) ?t] => destruct (IH ts' tries t) as (s' & E & L) end; auto; [cbn in HN; lia|].
    exists s'. split; [exact E|]. rewrite L. cbn [length]. rewrite <- (cons_seq (S (length ks)) 0). rewrite <- (seq_shift (S (length ks)) 0), map_cons, map_map. sproj. rewrite <- app_assoc. cbn [app].
    unfold syn_at at 2. rewrite Nat.add_0_r. do 2 f_equal. apply map_ext. intros i. unfold syn_at. sproj. now rewrite Nat.add_succ_r.
Qed.
Lemma connect_waits a l ks s0 : w_in (wd s0) = map RxErr ks -> Forall (fun k => is_timeout k = true) ks -> (length ks < 5)%nat -> all_sent s0 ->
  exists s', connect (Ok (a :: l)) (Ok tt) s0 = (Fail Pend, s') /\ w_sent (wd s') = w_sent (wd s0) ++ map (syn_at (Z.min (next_random s0) 65534) 1 a s0) (seq 0 (S (length ks))).
Proof.
  intros HI HF HN HA. destruct (ids_eq _ (next_random_range s0)) as [HI1 _]. unfold connect, take_address. unfold bind at 1, ret at 1. unfold bind at 1.
  unfold bind_socket, take_address, try_, from_raw_parts. unfold bind at 1, ret at 1. unfold bind at 1, ret at 1. unfold bind at 1. rewrite random_u16_eq.
  unfold upd_sk at 1. unfold bind at 1, upd_sk at 1. unfold bind at 1, get_sk at 1. unfold bind at 1. rewrite syn_packet_wire.
  cbn [sk wd]. set (k0 := fresh_socket (sequential_identifiers (next_random s0)) _). set (t := mkSt (ss_connected_to a k0) _).
  match goal with |- context [wire (mkHdr PSyn ?c 0 0 0 ?q 0) [] []] => destruct (syn_loop_waits c q ks 0 MAX_SYN_RETRIES t HN HI HF HA) as (s' & E & L); replace c with (Z.min (next_random s0) 65534) in L by (symmetry; exact HI1) end.
  rewrite E. exists s'. split; [reflexivity|exact L].
Qed.
Lemma connect_stamps a l ks d src p rest s0 : w_in (wd s0) = map RxErr ks ++ RxDgram d src :: rest -> Forall (fun k => is_timeout k = true) ks -> (length ks < 5)%nat -> all_sent s0 ->
  packet_try_from (firstn 1500 d) = Some (Ok p) -> get_type p = Some PState ->
  exists s', connect (Ok (a :: l)) (Ok tt) s0 = (Ret tt, s') /\ established_by p src (next_random s0) (sk s') /\ w_in (wd s') = rest /\
    w_sent (wd s') = w_sent (wd s0) ++ map (syn_at (Z.min (next_random s0) 65534) 1 a s0) (seq 0 (S (length ks))) /\ w_send (wd s') = w_send (wd s0) /\ s_congestion_timeout (sk s') = 1000.
Proof.
  intros HI HF HN HA HP HT. destruct (ids_eq _ (next_random_range s0)) as [HI1 HI2]. unfold connect, take_address. unfold bind at 1, ret at 1. unfold bind at 1.
  unfold bind_socket, take_address, try_, from_raw_parts. unfold bind at 1, ret at 1. unfold bind at 1, ret at 1. unfold bind at 1. rewrite random_u16_eq.
  unfold upd_sk at 1. unfold bind at 1, upd_sk at 1. unfold bind at 1, get_sk at 1. unfold bind at 1. rewrite syn_packet_wire.
  cbn [sk wd]. set (k0 := fresh_socket (sequential_identifiers (next_random s0)) _). set (t := mkSt (ss_connected_to a k0) _).
  assert (EI : w_in (wd t) = map RxErr ks ++ RxDgram d src :: rest) by exact HI. assert (EA : all_sent t) by exact HA.
  match goal with |- context [wire (mkHdr PSyn ?c 0 0 0 ?q 0) [] []] => destruct (syn_loop_replied c q ks d src rest 0 MAX_SYN_RETRIES t HN EI HF EA) as (s' & E & I1 & K1 & T1 & _);
    pose proof (syn_loop_stamps c q ks d src rest 0 MAX_SYN_RETRIES t HN EI HF EA) as L; replace c with (Z.min (next_random s0) 65534) in L by (symmetry; exact HI1) end.
  rewrite E. match type of L with context [syn_loop _ _ t] => idtac end. unfold bind at 1, get_sk at 1. unfold bind at 1. rewrite HP. cbn [unwrap]. unfold ret at 1. unfold bind at 1.
  destruct (synsent_state recv p (s_connected_to (sk s')) s' HT) as (s2 & E2 & L2 & I2 & dl & ts & _ & K2); [rewrite K1; reflexivity..|].
  pose proof (synsent_send recv p (s_connected_to (sk s')) s' HT ltac:(rewrite K1; reflexivity) ltac:(rewrite K1; reflexivity)) as S2. rewrite E2 in S2. cbn [snd] in S2.
  rewrite E2. cbn [ret]. exists s2. split; [reflexivity|]. rewrite L2, I2, K2, S2, K1.
  split; [unfold established_by, t, k0, fresh_socket; sproj; rewrite HI1, HI2; repeat split; auto|]. split; [exact I1|]. split; [|split; [exact T1|reflexivity]].
  match type of E with syn_loop ?a ?b ?c = _ => match type of L with context [syn_loop ?a' ?b' ?c'] => replace (syn_loop a' b' c') with (syn_loop a b c) in L end end.
  2:{ do 4 f_equal. exact HI1. } 
  rewrite E in L. cbn [snd] in L. exact L.
Qed.

Definition fresh_tx (k : socket) : Prop := s_pending_data k = [] /\ s_incoming_buffer k = [] /\ s_send_window k = [] /\ s_unsent_queue k = [] /\ s_max_retries k = 5 /\ s_last_acked k = 0 /\ s_congestion_timeout k = 1000.
Lemma syn_fresh rec p src s : s_state (sk s) = New -> get_type p = Some PSyn -> connection_id p < 65535 -> fresh_tx (sk s) ->
  exists t, handle_packet rec p src s = (Ret (Some (reply_to p PState t)), ticked t) /\ opened_by p src (next_random s) (sk t) /\ fresh_tx (sk t) /\ exists r, wd t = sw_rtick r (wd (ticked s)).
Proof.
  intros HS HT HC HF. rewrite (handle_own rec p src PSyn s HT) by auto. unfold dispatch, bind at 1, get_sk at 1.
  assert (EN : s_state (sk (noted p s)) = New) by (unfold noted; sproj; rewrite (acked_other s_state) by reflexivity; exact HS). rewrite EN.
  assert (EF : fresh_tx (sk (noted p s))).
  { unfold fresh_tx, noted. sproj. rewrite (acked_other s_pending_data), (acked_other s_incoming_buffer), (acked_other s_send_window), (acked_other s_unsent_queue), (acked_other s_max_retries), (acked_other s_last_acked), (acked_other s_congestion_timeout) by reflexivity. exact HF. }
  assert (EW : wd (noted p s) = wd (ticked s)) by reflexivity.
  assert (ER : next_random (noted p s) = next_random s) by reflexivity.
  generalize dependent (noted p s). intros t0 HN EF EW ER. rewrite <- ER, <- EW. clear - EF HC.
  unfold bind at 1, upd_sk at 1. unfold bind at 1. rewrite random_u16_eq. unfold bind at 1, upd_sk at 1. unfold bind at 1.
  rewrite ck_u16_wraps by (intros HK; pose proof (cid_range p); lia).
  unfold bind at 1, upd_sk at 1. unfold bind at 1. rewrite prepare_reply_eq.
  eexists. split; [reflexivity|]. unfold opened_by. rewrite <- u16_eq. sproj. repeat split; try apply EF. eexists. reflexivity.
Qed.
Lemma accept_one data src p la s : packet_try_from (firstn 1500 data) = Some (Ok p) -> get_type p = Some PSyn -> connection_id p < 65535 -> all_sent s ->
  exists r s', accept (RxDgram data src) (Ok la) (Ok tt) s = (Ret src, s') /\ syn_reply p (s_seq_nr (sk s')) r /\ length r = 20%nat /\
    w_sent (wd s') = w_sent (wd s) ++ [(src, r)] /\ w_in (wd s') = w_in (wd s) /\ w_send (wd s') = w_send (wd s) /\
    opened_by p src (w_rand (wd s) (S (w_rtick (wd s))) mod 65536) (sk s') /\ s_pending_data (sk s') = [] /\ s_incoming_buffer (sk s') = [] /\
    s_send_window (sk s') = [] /\ s_unsent_queue (sk s') = [] /\ s_max_retries (sk s') = 5 /\ s_last_acked (sk s') = 0 /\ s_congestion_timeout (sk s') = 1000.
Proof.
  intros HP HT HC HX. unfold accept, bind at 1. change BUF_SIZE with 1500%nat. rewrite HP. cbn [unwrap]. unfold ret at 1. unfold bind at 1, m_get_type. rewrite HT. cbn [unwrap]. unfold ret at 1. cbn [ptype_eqb negb try_].
  unfold bind at 1, ret at 1. unfold bind at 1, ret at 1. unfold bind at 1, from_raw_parts, bind at 1, random_u16, upd_sk at 1.
  match goal with |- context [handle_packet recv p src ?t] => destruct (syn_fresh recv p src t) as (t1 & E & HO & HF & q & HW); [reflexivity|exact HT|exact HC|repeat split; reflexivity|rewrite E] end.
  assert (HX1 : all_sent (ticked t1)) by (unfold all_sent, ticked; cbn [wd]; rewrite HW; exact HX).
  unfold bind at 1. rewrite send_ok_eq by (apply all_sent_ok; exact HX1). unfold bind, try_, ret. exists (reply_to p PState t1). eexists. split; [reflexivity|].
  unfold tx_state. rewrite (all_sent_ok _ HX1). unfold ticked. sproj. destruct HF as (F1 & F2 & F3 & F4 & F5 & F6 & F7).
  split; [|split; [unfold reply_to; rewrite wire_length; reflexivity|rewrite HW; unfold ticked; sproj; repeat (split; [first [reflexivity|assumption]|]); assumption]].
  match type of HO with opened_by _ _ ?q _ => assert (HN : 0 <= q < 65536) by apply next_random_range end.
  pose proof (proj1 (syn_tail p src _ t1 HO HN)) as H. destruct HO as (_ & _ & _ & _ & _ & _ & ->). exact H.
Qed.
Lemma last_map_seq {A} (f : nat -> A) n d : last (map f (seq 0 (S n))) d = f n.
Proof. rewrite seq_S, map_app. cbn [map Nat.add]. apply last_last. Qed.
Lemma opening_runs ac al asv ks c0 s0 : untouched c0 -> untouched s0 -> Forall (fun k => is_timeout k = true) ks -> (length ks < 5)%nat -> exists c s, opening ac al asv ks c0 s0 c s /\ joined ac asv c s /\ listens c s /\
  s_last_acked (sk s) = 0 /\ s_seq_nr (sk s) = w_rand (wd s0) (S (w_rtick (wd s0))) mod 65536 /\ (0 < s_seq_nr (sk s) <= 32768 -> listens s c) /\ s_ack_nr (sk c) = s_seq_nr (sk s) /\ lead c = 1 /\
  (s_congestion_timeout (sk c) = 1000 /\ s_max_retries (sk c) = 5) /\ s_congestion_timeout (sk s) = 1000 /\ s_max_retries (sk s) = 5 /\ s_seq_nr (sk c) = 2 /\
  s_receiver_connection_id (sk c) = Z.min (w_rand (wd c0) (w_rtick (wd c0)) mod 65536) 65534 /\ s_last_dropped (sk c) = 0.
Proof.
  intros (CS & CI & CX) (SS & SI & SX) HF HN. pose proof (next_random_range c0) as HR.
  set (f := syn_at (Z.min (next_random c0) 65534) 1 al c0). set (syns := map (fun i => snd (f i)) (seq 0 (S (length ks)))).
  set (syn := snd (f (length ks))). assert (HS : last syns [] = syn) by apply last_map_seq. assert (HM : map f (seq 0 (S (length ks))) = map (pair al) syns) by (unfold syns; rewrite map_map; reflexivity).
  assert (Slen : length syn = 20%nat) by (unfold syn, f, syn_at; cbn [snd]; rewrite wire_length; reflexivity).
  assert (Sval : packet_try_from (firstn 1500 syn) = Some (Ok syn)) by (rewrite firstn_all2 by lia; apply wire_valid; constructor).
  assert (Sty : get_type syn = Some PSyn) by (unfold syn, f, syn_at; cbn [snd]; rewrite get_type_wire; reflexivity).
  assert (Scid : connection_id syn = Z.min (next_random c0) 65534) by (unfold syn, f, syn_at; cbn [snd]; rewrite cid_wire; cbn [h_cid]; apply u16_small; lia).
  assert (Sseq : seq_nr syn = 1) by (unfold syn, f, syn_at; cbn [snd]; rewrite seq_wire; reflexivity). clearbody syn.
  destruct (accept_one syn ac syn asv s0 Sval Sty ltac:(lia) SX) as (r & s & E1 & (R1 & R2 & R3 & R4 & R5 & R6 & R7) & Rlen & L1 & I1 & W1 & (O1 & O2 & O3 & O4 & O5 & O6 & O7) & F1 & F2 & F3 & F4 & F5 & F6 & F7).
  destruct (connect_waits al [] ks (script (map RxErr ks) c0)) as (c1 & E0 & L0); [unfold script; cbn [wd]; sproj; rewrite CI; reflexivity|exact HF|exact HN|exact CX|].
  destruct (connect_stamps al [] ks r asv r [] (script (map RxErr ks ++ [RxDgram r asv]) c0)) as (c & E2 & (Z1 & Z2 & Z3 & Z4 & Z5 & Z6 & Z7 & Z8 & Z9 & Z10 & Z11 & Z12 & Z13 & Z14 & Z15 & Z16) & I2 & L2 & W2 & TC);
    [unfold script; cbn [wd]; sproj; rewrite CI; reflexivity|exact HF|exact HN|exact CX|rewrite firstn_all2 by lia; exact R1|exact R2|].
  change (next_random (script (map RxErr ks ++ [RxDgram r asv]) c0)) with (next_random c0) in Z6, Z7, L2. change (syn_at (Z.min (next_random c0) 65534) 1 al (script (map RxErr ks ++ [RxDgram r asv]) c0)) with f in L2.
  change (next_random (script (map RxErr ks) c0)) with (next_random c0) in L0. change (syn_at (Z.min (next_random c0) 65534) 1 al (script (map RxErr ks) c0)) with f in L0. rewrite HM in L0, L2.
  change (w_sent (wd (script (map RxErr ks ++ [RxDgram r asv]) c0))) with (w_sent (wd c0)) in L2. change (w_send (wd (script (map RxErr ks ++ [RxDgram r asv]) c0))) with (w_send (wd c0)) in W2.
  change (w_sent (wd (script (map RxErr ks) c0))) with (w_sent (wd c0)) in L0.
  assert (RS : reachable s) by (eapply rc_accept; [exact SS|exact E1]).
  assert (RC : reachable c) by (eapply rc_connect; [|exact E2]; exact CS).
  exists c, s. split; [exists syns, r, [], asv, c1; rewrite HS; repeat (split; [assumption|]); split; [unfold syns; rewrite map_length, seq_length; reflexivity|repeat (split; [assumption|]); assumption]|]. split; [|split; [|split; [|split; [|split]]]].
  - split; [|split; [|split; [exact Z2|split; [exact O1|split; [rewrite Z7, O4, Scid; symmetry; apply Z.mod_small; lia|rewrite Z6, O3; exact Scid]]]]].
    + split; [exact RC|]. repeat (split; [assumption|]). split; [lia|]. split; [exact I2|]. intros i. rewrite W2. apply CX.
    + split; [exact RS|]. repeat (split; [assumption|]). split; [lia|]. split; [rewrite I1; exact SI|]. intros i. rewrite W1. apply SX.
  - unfold listens. rewrite O5, O6, Z4, Z5, R4, Sseq. split; [left; reflexivity|]. split; [discriminate|]. cbn; lia.
  - exact F6.
  - exact O7.
  - intros HQ. unfold listens. rewrite Z3, Z15, F6, R5. split; [right; reflexivity|]. split; lia.
  - split; [rewrite Z3, R5; reflexivity|]. split; [unfold lead; rewrite Z4, Z5, R4, Sseq; reflexivity|]. auto 12.
Qed.
Lemma handshake_runs ac al asv c0 s0 : untouched c0 -> untouched s0 -> exists c s, handshake ac al asv c0 s0 c s /\ joined ac asv c s /\ listens c s /\
  s_last_acked (sk s) = 0 /\ s_seq_nr (sk s) = w_rand (wd s0) (S (w_rtick (wd s0))) mod 65536 /\ (0 < s_seq_nr (sk s) <= 32768 -> listens s c) /\ s_ack_nr (sk c) = s_seq_nr (sk s) /\ lead c = 1 /\
  (s_congestion_timeout (sk c) = 1000 /\ s_max_retries (sk c) = 5) /\ s_congestion_timeout (sk s) = 1000 /\ s_max_retries (sk s) = 5 /\ s_seq_nr (sk c) = 2.
Proof.
  intros HC HS. destruct (opening_runs ac al asv [] c0 s0 HC HS) as (c & s & H1 & H2 & H3 & H4 & H5 & H6 & H7 & H8 & H9 & H10 & H11 & H12 & _); [constructor|cbn; lia|].
  exists c, s. repeat (split; [assumption|]). assumption.
Qed.

(** ** A server that starts in the upper half of the sequence numbers *)
Lemma transmit_skips p s : ahead p (sk s) -> transmit p s = (Ret p, s).
Proof. intros HA. unfold transmit, bind at 1, get_sk at 1. unfold ahead in HA. replace (_ <? _) with true by lia. reflexivity. Qed.
Lemma send_skipped d s : (0 < length d <= 1380)%nat -> s_state (sk s) <> Closed -> s_unsent_queue (sk s) = [] -> s_curr_window (sk s) = 0 ->
  0 <= s_seq_nr (sk s) < 65536 -> u16 (s_last_acked (sk s) - s_seq_nr (sk s)) < u16 (s_seq_nr (sk s) - s_last_acked (sk s)) ->
  exists s', send_to d s = (Ret (zlen d), s') /\ w_sent (wd s') = w_sent (wd s).
Proof.
  intros Hd HC HU H0 HQ HA. unfold send_to, bind at 1, get_sk at 1. destruct (sstate_eqb (s_state (sk s)) Closed) eqn:E; [now apply state_eqb_true in E|].
  unfold bind at 1, upd_sk at 1. change CHUNK with 1380%nat. rewrite one_chunk by exact Hd. cbn [fold_left]. unfold queue_chunk. rewrite HU, chunk_packet_wire. cbn [app].
  set (q := wire _ _ _). set (t := mkSt _ _). unfold send, bind at 1, bind at 1, get_sk at 1. change (s_unsent_queue (sk t)) with [q]. cbn [length].
  change (loop 2) with (fun (body : unit -> M (unit + unit)) x => r <- body x ;; match r with inl y => loop 1 body y | inr a => ret a end). cbv beta.
  unfold bind at 1, bind at 1, get_sk at 1. change (s_unsent_queue (sk t)) with [q]. unfold bind at 1, upd_sk at 1. set (t0 := mkSt _ _). unfold bind at 1. rewrite send_packet_split.
  unfold bind at 1. rewrite gate_open by (change (s_curr_window (sk (ticked t0))) with (s_curr_window (sk s)); rewrite H0; unfold limit; lia).
  assert (HQs : seq_nr q = s_seq_nr (sk s)) by (unfold q; rewrite seq_wire; cbn [h_seq]; apply u16_small; lia).
  rewrite transmit_skips by (unfold ahead; rewrite HQs; exact HA). set (t1 := ticked t0).
  assert (HL : packet_len q = 20 + zlen d) by (unfold packet_len, zlen, q; rewrite wire_length; change (wire_exts []) with (@nil byte); cbn [length]; lia).
  cbn [ret]. unfold bind at 1, get_sk at 1. change (s_curr_window (sk t1)) with (s_curr_window (sk s)). rewrite H0, Z.add_0_l.
  assert (HV : 0 <= packet_len q < 4294967296) by (rewrite HL; unfold zlen; lia). rewrite (u32_small (packet_len q)) by lia.
  unfold bind at 1. rewrite ck_u32_small by exact HV. unfold bind at 1, upd_sk at 1. cbn [ret]. cbn [loop]. unfold bind at 1, bind at 1, get_sk at 1.
  change (s_unsent_queue (sk (mkSt _ _))) with (@nil packet) at 1. cbn [ret].
  eexists. split; [reflexivity|]. reflexivity.
Qed.
Lemma handshake_mute ac al asv c0 s0 d : untouched c0 -> untouched s0 -> 32768 < w_rand (wd s0) (S (w_rtick (wd s0))) mod 65536 -> (0 < length d <= 1380)%nat ->
  exists c s s', handshake ac al asv c0 s0 c s /\ joined ac asv c s /\ run_op (OSendTo d) s = (Ret (VLen (Z.of_nat (length d))), s') /\ w_sent (wd s') = w_sent (wd s).
Proof.
  intros HC HS HR Hd. destruct (handshake_runs ac al asv c0 s0 HC HS) as (c & s & H & HJ & HL & E0 & HQ & _ & _).
  assert (HQ' : u16 (s_last_acked (sk s) - s_seq_nr (sk s)) < u16 (s_seq_nr (sk s) - s_last_acked (sk s))).
  { rewrite HQ, E0, !u16_eq. lia. }
  destruct HJ as (J1 & J2 & J3). pose proof J2 as (RY & SY & PY & BY & WY & UY & MY & IY & TY).
  assert (CY : s_curr_window (sk s) = 0) by (pose proof (reachable_inflight s RY) as E; unfold inflight in E; rewrite WY in E; exact E).
  destruct (send_skipped d s Hd ltac:(rewrite SY; discriminate) UY CY (r_seq _ (reachable_ranges s RY)) HQ') as (s' & E & L).
  exists c, s, s'. split; [exact H|]. split; [split; [exact J1|split; [exact J2|exact J3]]|]. split; [apply run_send_to; exact E|exact L].
Qed.

(** ** The end *)
Definition fin_of (s : st) : packet := wire (mkHdr PFin (s_sender_connection_id (sk s)) (clock_now s) 0 0 (s_seq_nr (sk s)) (s_ack_nr (sk s))) [] [].
Lemma close_one r src s : w_in (wd s) = [RxDgram r src] -> packet_try_from (firstn 1520 r) = Some (Ok r) -> get_type r = Some PState -> own_id (sk s) r ->
  s_state (sk s) = Connected -> s_pending_data (sk s) = [] -> s_incoming_buffer (sk s) = [] -> s_send_window (sk s) = [] -> 0 < s_max_retries (sk s) -> all_sent s -> ack_nr r = s_seq_nr (sk s) ->
  exists s', close s = (Ret tt, s') /\ w_sent (wd s') = w_sent (wd s) ++ [(s_connected_to (sk s), fin_of s)] /\ w_in (wd s') = [] /\ s_state (sk s') = Closed.
Proof.
  intros EI HV HT HO ES EP EB EW HM HX HA. unfold close, bind at 1, get_sk at 1. rewrite ES. unfold bind at 1.
  assert (EF : flush s = (Ret tt, s)) by (rewrite flush_eq; cbn [loop]; unfold bind at 1, flush_body, bind at 1, get_sk at 1; rewrite EW; reflexivity). rewrite EF. unfold bind at 1, send_fin, bind at 1, get_sk at 1.
  unfold bind at 1, now_microseconds. unfold bind at 1. fold (ticked s). rewrite packet_new_wire, set_cid_wire, set_seq_wire, set_ack_wire, set_ts_wire, set_type_wire. cbn [h_type h_cid h_ts h_tsd h_wnd h_seq h_ack].
  fold (clock_now s). fold (fin_of s). rewrite send_ok_eq by (apply all_sent_ok; exact HX). cbn [try_]. unfold ret at 1. unfold bind at 1, upd_sk at 1.
  set (u := tx_state _ _ _). assert (Ku : sk u = sk s) by reflexivity.
  assert (Lu : w_sent (wd u) = w_sent (wd s) ++ [(s_connected_to (sk s), fin_of s)] /\ w_in (wd u) = w_in (wd s)) by (unfold u, tx_state; rewrite (all_sent_ok (ticked s) HX); split; reflexivity). destruct Lu as [Lu Iu].
  clearbody u. set (t := mkSt (ss_state FinSent (sk u)) (wd u)). unfold bind at 1, event_fuel. change (w_in (wd t)) with (w_in (wd u)). rewrite Iu, EI. cbn [length].
  erewrite loop_step; [|unfold bind at 1, get_sk at 1; change (s_state (sk t)) with FinSent; cbn [sstate_eqb]; unfold bind at 1; rewrite (recv_first BUF_SIZE r src [] t ltac:(change (w_in (wd t)) with (w_in (wd u)); now rewrite Iu) ltac:(unfold t; sproj; rewrite Ku; exact HM))].
  2:{ change (BUF_SIZE + HEADER_SIZE)%nat with 1520%nat. rewrite (process_packet _ _ _ _ r PState _ HV HT). unfold bind at 1. rewrite (handle_own _ r src PState (rx_state t) HT) by (left; unfold own_id, t, rx_state; sproj; rewrite Ku; exact HO).
      unfold dispatch, bind at 1, get_sk at 1. assert (EN : s_state (sk (noted r (rx_state t))) = FinSent) by (unfold noted; sproj; rewrite (acked_other s_state) by reflexivity; reflexivity). rewrite EN.
      assert (EQ : s_seq_nr (sk (noted r (rx_state t))) = ack_nr r) by (unfold noted; sproj; rewrite (acked_other s_seq_nr) by reflexivity; unfold t, rx_state; sproj; rewrite Ku; auto). rewrite EQ, Z.eqb_refl.
      unfold bind at 1, upd_sk at 1. unfold ret at 1. unfold answer, bind at 1, ret at 1. unfold bind at 1, get_sk at 1. cbn [ptype_eqb andb]. unfold bind at 1, ret at 1. unfold bind at 1.
      rewrite flush_empty; [reflexivity| |]; unfold noted; sproj; [rewrite (acked_other s_pending_data) by reflexivity|rewrite (acked_other s_incoming_buffer) by reflexivity]; unfold t, rx_state; sproj; rewrite Ku; assumption. }
  cbn [loop]. unfold bind at 1, bind at 1, get_sk at 1. sproj. cbn [sstate_eqb]. unfold ret at 1. cbv iota. eexists. split; [reflexivity|]. unfold noted, rx_state, ticked. sproj. split; [exact Lu|]. split; [|reflexivity].
  change (w_in (wd t)) with (w_in (wd u)). rewrite Iu, EI. reflexivity.
Qed.
Lemma eof_one n p src s : w_in (wd s) = [RxDgram p src] -> s_state (sk s) = Connected -> s_pending_data (sk s) = [] -> s_incoming_buffer (sk s) = [] -> 0 < s_max_retries (sk s) -> all_sent s ->
  packet_try_from (firstn 1520 p) = Some (Ok p) -> get_type p = Some PFin -> own_id (sk s) p ->
  (s_ack_nr (sk s) = (seq_nr p - 1) mod 65536 \/ s_ack_nr (sk s) = seq_nr p) ->
  exists s' r, recv_from n s = (Ret ([], s_connected_to (sk s)), s') /\ state_reply r (s_sender_connection_id (sk s)) (s_seq_nr (sk s)) (seq_nr p) /\
    w_sent (wd s') = w_sent (wd s) ++ [(src, r)] /\ w_in (wd s') = [] /\ s_state (sk s') = Closed.
Proof.
  intros EW ES EP EB HM HX HV HT HO HA. rewrite (recv_from_first n s EP EB ES). rewrite (recv_first n p src [] s EW HM).
  change 1520%nat with (BUF_SIZE + HEADER_SIZE)%nat in HV. rewrite (process_packet _ _ _ _ p PFin _ HV HT). unfold bind at 1.
  rewrite (handle_own _ p src PFin (rx_state s) HT (or_introl HO)). pose proof (seq_nr_range p) as HQ.
  assert (EK : sk (noted p (rx_state s)) = ss_their_delay (abs_diff (clock_now s) (timestamp p)) (ss_remote_wnd_size (wnd_size p) (ss_ack_nr (seq_nr p) (sk s)))).
  { unfold noted. cbn [sk rx_state]. do 2 f_equal. unfold acked_sk. rewrite u16_eq. destruct HA as [HA|HA]; rewrite HA.
    - replace (_ =? 1) with true by lia. reflexivity.
    - replace (_ =? 1) with false by lia. rewrite <- HA. destruct (sk s); reflexivity. }
  remember (noted p (rx_state s)) as t eqn:Et. assert (Ewd : wd t = wd (ticked (rx_state s))) by (rewrite Et; reflexivity). clear Et.
  assert (K1 : s_ack_nr (sk t) = seq_nr p) by (rewrite EK; reflexivity). assert (K2 : s_state (sk t) = Connected) by (rewrite EK; exact ES).
  assert (K3 : s_incoming_buffer (sk t) = []) by (rewrite EK; exact EB). assert (K4 : s_pending_data (sk t) = []) by (rewrite EK; exact EP).
  assert (K6 : s_connected_to (sk t) = s_connected_to (sk s) /\ s_sender_connection_id (sk t) = s_sender_connection_id (sk s) /\ s_seq_nr (sk t) = s_seq_nr (sk s)) by (rewrite EK; auto). destruct K6 as (K6 & K7 & K8).
  unfold dispatch, bind at 1, get_sk at 1. rewrite K2. unfold bind at 1. rewrite prepare_reply_eq.
  assert (ES2 : attach_sack p (reply_to p PState t) (ticked t) = (Ret (reply_to p PState t), ticked t)).
  { unfold attach_sack, bind at 1, get_sk at 1. change (sk (ticked t)) with (sk t). rewrite K1, Z.sub_diag. reflexivity. }
  unfold bind at 1. rewrite ES2. unfold bind at 1, upd_sk at 1. unfold ret at 1. unfold answer. unfold bind at 1. unfold bind at 1.
  match goal with |- context [udp_send src ?q ?t] => set (r := q); set (t1 := t) end.
  assert (EX : tx_ok t1 = true) by (apply all_sent_ok; unfold all_sent, t1; cbn [ticked wd]; sproj; rewrite Ewd; exact HX).
  rewrite (send_ok_eq src r t1 EX). cbn [try_ ret]. unfold bind at 1, get_sk at 1. cbn [ptype_eqb andb]. unfold bind at 1, ret at 1. unfold bind at 1.
  change (sk (tx_state src r t1)) with (ss_state Closed (sk t)). rewrite flush_empty by assumption. unfold ret at 1. cbn [is_nil]. rewrite EW. cbn [length loop]. unfold bind at 1, bind at 1, get_sk at 1.
  change (sk (tx_state src r t1)) with (ss_state Closed (sk t)). sproj. cbn [sstate_eqb]. unfold ret. rewrite K6.
  eexists. exists r. split; [reflexivity|]. split.
  { exists (clock_now t), (u32 (abs_diff (clock_now t) (timestamp p))). unfold r, reply_to. rewrite set_wnd_wire, K1, K7, K8. reflexivity. }
  unfold tx_state. rewrite EX. unfold t1, ticked. sproj. rewrite Ewd. unfold rx_state, ticked. sproj. rewrite EW. auto.
Qed.
(** A close begins by sending a FIN; then it reads until it is closed. *)
Definition cbody (_ : unit) : M (unit + unit) := s <- get_sk ;; if sstate_eqb (s_state s) Closed then ret (inr tt) else recv BUF_SIZE ;;; ret (inl tt).
Lemma close_begins s : s_state (sk s) = Connected -> s_send_window (sk s) = [] -> all_sent s ->
  exists t, close s = loop (S (length (w_in (wd s)))) cbody tt t /\ sk t = ss_state FinSent (sk s) /\ w_sent (wd t) = w_sent (wd s) ++ [(s_connected_to (sk s), fin_of s)] /\
    w_in (wd t) = w_in (wd s) /\ w_send (wd t) = w_send (wd s).
Proof.
  intros ES EW HX. unfold close, bind at 1, get_sk at 1. rewrite ES. unfold bind at 1.
  assert (EF : flush s = (Ret tt, s)) by (rewrite flush_eq; cbn [loop]; unfold bind at 1, flush_body, bind at 1, get_sk at 1; rewrite EW; reflexivity). rewrite EF. unfold bind at 1, send_fin, bind at 1, get_sk at 1.
  unfold bind at 1, now_microseconds. unfold bind at 1. fold (ticked s). rewrite packet_new_wire, set_cid_wire, set_seq_wire, set_ack_wire, set_ts_wire, set_type_wire. cbn [h_type h_cid h_ts h_tsd h_wnd h_seq h_ack].
  fold (clock_now s). fold (fin_of s). rewrite send_ok_eq by (apply all_sent_ok; exact HX). cbn [try_]. unfold ret at 1. unfold bind at 1, upd_sk at 1.
  eexists. split; [unfold bind at 1, event_fuel; fold cbody; unfold tx_state; rewrite (all_sent_ok (ticked s) HX); reflexivity|]. repeat split; unfold tx_state; rewrite (all_sent_ok (ticked s) HX); reflexivity.
Qed.
Lemma close_pends s : s_state (sk s) = Connected -> s_send_window (sk s) = [] -> all_sent s -> 0 < s_max_retries (sk s) -> w_in (wd s) = [] ->
  exists s', close s = (Fail Pend, s') /\ w_sent (wd s') = w_sent (wd s) ++ [(s_connected_to (sk s), fin_of s)].
Proof.
  intros ES EW HX HM HI. destruct (close_begins s ES EW HX) as (t & E & K & L & I & _). exists t. split; [|exact L]. rewrite E, HI. cbn [length loop]. unfold bind at 1, cbody, bind at 1, get_sk at 1.
  rewrite K. sproj. cbn [sstate_eqb]. unfold bind at 1, recv, bind at 1, event_fuel. change (recv_fuel (S ?x) BUF_SIZE) with (recv_body (recv_fuel x) BUF_SIZE). unfold recv_body, bind at 1.
  rewrite wait_datagram_eq, I, HI. cbn [length loop]. unfold bind at 1, wait_body, bind at 1, get_sk at 1. replace (_ <=? 0) with false by (rewrite K; sproj; lia). unfold bind, udp_recv. rewrite I, HI. reflexivity.
Qed.
Lemma farewell_runs ax ay n x y : joined ax ay x y -> s_ack_nr (sk y) = (s_seq_nr (sk x) - 1) mod 65536 \/ s_ack_nr (sk y) = s_seq_nr (sk x) -> exists x' y', farewell ax ay n x y x' y'.
Proof.
  intros (HX & HY & AX & AY & I1 & I2) HA. destruct HX as (RX & SX & PX & BX & WX & UX & MX & IX & TX). destruct HY as (RY & SY & PY & BY & WY & UY & MY & IY & TY).
  pose proof (reachable_ranges x RX) as NX. pose proof (reachable_ranges y RY) as NY. pose proof (r_seq _ NX) as QX. pose proof (r_seq _ NY) as QY. pose proof (r_scid _ NX) as DX. pose proof (r_scid _ NY) as DY.
  set (p := fin_of x). assert (Plen : length p = 20%nat) by (unfold p, fin_of; rewrite wire_length; reflexivity).
  assert (Pval : packet_try_from (firstn 1520 p) = Some (Ok p)) by (rewrite firstn_all2 by lia; apply wire_valid; constructor).
  assert (Pty : get_type p = Some PFin) by (unfold p, fin_of; rewrite get_type_wire; reflexivity).
  assert (Pseq : seq_nr p = s_seq_nr (sk x)) by (unfold p, fin_of; rewrite seq_wire; cbn [h_seq]; apply u16_small; lia).
  assert (Pcid : connection_id p = s_receiver_connection_id (sk y)) by (unfold p, fin_of; rewrite cid_wire; cbn [h_cid]; rewrite u16_small by lia; exact I1).
  destruct (eof_one n p ax (arrive ax [p] y)) as (y' & r & E2 & (ts & tsd & Er) & L2 & J2 & S2); [unfold arrive; cbn [wd]; sproj; rewrite IY; reflexivity|exact SY|exact PY|exact BY|exact MY|exact TY|exact Pval|exact Pty|right; exact Pcid|rewrite Pseq; exact HA|].
  change (sk (arrive ax [p] y)) with (sk y) in *. change (w_sent (wd (arrive ax [p] y))) with (w_sent (wd y)) in L2.
  assert (Rlen : length r = 20%nat) by (rewrite Er, wire_length; reflexivity).
  assert (Rval : packet_try_from (firstn 1520 r) = Some (Ok r)) by (rewrite firstn_all2 by lia; rewrite Er; apply wire_valid; constructor).
  assert (Rty : get_type r = Some PState) by (rewrite Er, get_type_wire; reflexivity).
  assert (Rcid : connection_id r = s_receiver_connection_id (sk x)) by (rewrite Er, cid_wire; cbn [h_cid]; rewrite u16_small by lia; exact I2).
  assert (Rack : ack_nr r = s_seq_nr (sk x)) by (rewrite Er, ack_wire; cbn [h_ack]; rewrite Pseq; apply u16_small; lia).
  destruct (close_one r ay (arrive ay [r] x)) as (x' & E1 & L1 & J1 & S1); [unfold arrive; cbn [wd]; sproj; rewrite IX; reflexivity|exact Rval|exact Rty|right; exact Rcid|exact SX|exact PX|exact BX|exact WX|exact MX|exact TX|exact Rack|].
  change (sk (arrive ay [r] x)) with (sk x) in L1. change (w_sent (wd (arrive ay [r] x))) with (w_sent (wd x)) in L1. change (fin_of (arrive ay [r] x)) with p in L1. rewrite AX in L1. rewrite AY in E2.
  destruct (close_pends x SX WX TX MX IX) as (x1 & E0 & L0). fold p in L0. rewrite AX in L0.
  exists x', y', p, r, x1. split; [cbn [run_op]; unfold bind; rewrite E0; reflexivity|]. split; [exact L0|]. split; [apply run_recv; exact E2|]. split; [exact L2|].
  split; [cbn [run_op]; unfold bind; rewrite E1; reflexivity|]. split; [exact L1|]. split; [exact S1|]. split; [exact S2|].
  cbn [run_op]. unfold close, bind, get_sk. rewrite S2. reflexivity.
Qed.
Lemma server_farewell ac al asv c0 s0 n : untouched c0 -> untouched s0 -> exists c1 s1 c2 s2, handshake ac al asv c0 s0 c1 s1 /\ farewell asv ac n s1 c1 s2 c2.
Proof.
  intros HC HS. destruct (handshake_runs ac al asv c0 s0 HC HS) as (c & s & H & HJ & _ & _ & _ & _ & HA & _).
  destruct (farewell_runs asv ac n s c) as (s2 & c2 & F); [|right; exact HA|exists c, s, c2, s2; auto]. destruct HJ as (J1 & J2 & J3 & J4 & J5 & J6). repeat split; assumption || (apply J1 || apply J2).
Qed.
